(** Property theorems for the GM key exchange (C58-C60, C74), for an arbitrary curve implementation [cv] (see P_SM2.v). *)
From Verif Require Import GoBase GoLemmas BigBytes Asn1_model SM3_spec SM3_model NT Prime_cert
  SM2_curve_spec SM2_group SM2_jac SM2_order SM2_spec SM2_model SM2_proofs P_SM2 TLS_gmka_model.
Open Scope Z_scope.
Ltac Zify.zify_post_hook ::= Z.div_mod_to_equations.
#[local] Opaque sm3 SumSM3 smul padd zinv Bytes be_bytes sm2_a sm2_b sm2_gx sm2_gy sm2_p sm2_n Encrypt Decrypt Sign Verify.
Local Notation n := sm2_n.

Lemma byte_len_low b0 b1 : is_byte b0 -> byte_len b0 b1 = b1.
Proof.
  intros Hb. unfold byte_len. replace (u8 (Z.shiftl b0 8)) with 0; [apply Z.lor_0_l|].
  unfold u8. rewrite Z.shiftl_mul_pow2 by lia. rewrite Z.mod_mul; [reflexivity|lia].
Qed.
Lemma bytes_two a b r : bytes r -> bytes ([u8 a; u8 b] ++ r).
Proof.
  intros H. apply bytes_app. split; [|exact H]. unfold u8. apply bytes_cons. split; [unfold is_byte; lia|].
  apply bytes_cons. split; [unfold is_byte; lia|constructor].
Qed.

(** C58.  Whatever the randomness, if the client produces a ClientKeyExchange it holds a 48-byte pre-master secret that begins with the two
    bytes of its version, and the server with the matching private key extracts exactly that secret. *)
Theorem C58_same_pre_master_secret : forall T (cv : curve T) priv b rnd vers fuel pms ckx,
  good_curve cv -> tab_ok cv (sPub priv) -> 1 <= sD priv <= n - 1 -> (pX (sPub priv), pY (sPub priv)) = aff (smul (sD priv) pG) ->
  bytes rnd -> length rnd = 46%nat -> 0 <= vers < 2 ^ 16 ->
  generateClientKeyExchange cv fuel (Some rnd) (Some b) vers (sPub priv) = Some (Ok (pms, ckx)) ->
  pms = be_bytes 2 vers ++ rnd /\ length pms = 48%nat /\
  processClientKeyExchange cv (Some priv) ckx = Ok pms.
Proof.
  intros T cv priv b rnd vers fuel pms ckx GC HT HD HP Br Lr Hv E.
  unfold generateClientKeyExchange in E.
  assert (EB : [u8 (Z.shiftr vers 8); u8 vers] = be_bytes 2 vers).
  { Transparent be_bytes. cbn [be_bytes app]. Opaque be_bytes. unfold u8. rewrite Z.shiftr_div_pow2 by lia. reflexivity. }
  set (m := [u8 (Z.shiftr vers 8); u8 vers] ++ rnd) in *.
  assert (Bm : bytes m) by (apply bytes_two; exact Br).
  assert (Lm : length m = 48%nat) by (unfold m; rewrite app_length, Lr; reflexivity).
  assert (Em : m = be_bytes 2 vers ++ rnd) by (unfold m; rewrite EB; reflexivity).
  clearbody m.
  destruct (Encrypt cv fuel (Some b) (sPub priv) m) as [[c|e|]|] eqn:EE; try discriminate.
  cbn [option_map rbind] in E. injection E as <- <-.
  destruct (C19_good T cv priv b m fuel c GC HT HD HP Bm) as (_ & Lc & DC); [unfold zlen; lia|exact EE|].
  split; [exact Em|]. split; [exact Lm|].
  cbn [app processClientKeyExchange].
  assert (Zc : zlen c = 145) by (unfold zlen; lia).
  rewrite Zc. change (u8 (Z.shiftr 145 8)) with 0. change (u8 145) with 145.
  replace (zlen (0 :: 145 :: c)) with 147 by (unfold zlen in *; cbn [length]; lia). change (byte_len 0 145 =? 147 - 2) with true. cbn [negb].
  rewrite DC. cbn [rbind]. rewrite Lm. reflexivity.
Qed.
Print Assumptions C58_same_pre_master_secret.
(** when it does: exactly when the SM2 key derivation of the drawn nonce is not all zero on 48 bytes (see C21) *)
Theorem C58_client_produces : forall T (cv : curve T) pub P b rnd vers, good_curve cv -> on_curve P -> (pX pub, pY pub) = aff P -> tab_ok cv pub ->
  bytes rnd -> length rnd = 46%nat ->
  ((exists fuel r, generateClientKeyExchange cv fuel (Some rnd) (Some b) vers pub = Some (Ok r)) <-> kdf_usable (smul (k_of_bytes b) P) 48).
Proof.
  intros T cv pub P b rnd vers GC HP E HT Br Lr. unfold generateClientKeyExchange.
  set (m := [u8 (Z.shiftr vers 8); u8 vers] ++ rnd).
  assert (Bm : bytes m) by (apply bytes_two; exact Br).
  assert (Lm : length m = 48%nat) by (unfold m; rewrite app_length, Lr; reflexivity). clearbody m.
  destruct (C21_termination_condition_partial T cv pub P b m GC HP E HT Bm ltac:(unfold zlen; lia)) as (H1 & H2 & _).
  rewrite Lm in H1. rewrite <- H1. split.
  - intros (fuel & r & ER). exists fuel. destruct (Encrypt cv fuel (Some b) pub m) as [x|]; [eauto|discriminate].
  - intros (fuel & r & ER). exists fuel. rewrite ER, (H2 fuel r ER). cbn [option_map rbind]. eexists. reflexivity.
Qed.
Print Assumptions C58_client_produces.
Theorem C58_hyps : forall rnd, bytes rnd -> length rnd = 46%nat ->
  let priv := mkPriv (mkPub (T := unit) sm2_gx sm2_gy None) 1 None in
  good_curve cv_std /\ tab_ok cv_std (sPub priv) /\ 1 <= sD priv <= n - 1 /\ (pX (sPub priv), pY (sPub priv)) = aff (smul (sD priv) pG).
Proof.
  intros rnd _ _ priv. split; [exact cv_std_good|]. split; [now left|]. unfold priv. cbn [sD sPub pX pY].
  split; [pose proof n_gt3; lia|]. rewrite smul_1. reflexivity.
Qed.

(** C59 is false of the code: the length is computed in 8-bit arithmetic.  (1) The first byte of the length prefix is ignored. *)
Theorem C59_high_byte_ignored_refuted : forall T (cv : curve T) key b0 b0' rest, is_byte b0 -> is_byte b0' ->
  processClientKeyExchange cv key (b0 :: rest) = processClientKeyExchange cv key (b0' :: rest) /\
  (forall cr sr cert pub, processServerKeyExchange cv cr sr cert pub (b0 :: rest) = processServerKeyExchange cv cr sr cert pub (b0' :: rest)).
Proof.
  intros T cv key b0 b0' rest H0 H0'. split.
  - destruct rest as [|b1 rest]; [reflexivity|]. cbn [processClientKeyExchange]. rewrite !byte_len_low by assumption.
    replace (zlen (b0' :: b1 :: rest)) with (zlen (b0 :: b1 :: rest)) by (unfold zlen; cbn [length]; lia). reflexivity.
  - intros cr sr cert pub. destruct rest as [|b1 [|b2 rest]]; try reflexivity.
    cbn [processServerKeyExchange skipn]. rewrite !byte_len_low by assumption.
    replace (zlen (b0' :: b1 :: b2 :: rest)) with (zlen (b0 :: b1 :: b2 :: rest)) by (unfold zlen; cbn [length]; lia). reflexivity.
Qed.
Print Assumptions C59_high_byte_ignored_refuted.
(** (2) so a message is accepted although its prefix says 256*255 more bytes than there are: the honest client's message, altered *)
Theorem C59_wrong_length_accepted_refuted : forall T (cv : curve T) priv b rnd vers fuel pms ckx,
  good_curve cv -> tab_ok cv (sPub priv) -> 1 <= sD priv <= n - 1 -> (pX (sPub priv), pY (sPub priv)) = aff (smul (sD priv) pG) ->
  bytes rnd -> length rnd = 46%nat -> 0 <= vers < 2 ^ 16 ->
  generateClientKeyExchange cv fuel (Some rnd) (Some b) vers (sPub priv) = Some (Ok (pms, ckx)) ->
  exists ckx', length ckx' = length ckx /\ be_val (firstn 2 ckx') = 65280 + zlen ckx' - 2 /\ processClientKeyExchange cv (Some priv) ckx' = Ok pms.
Proof.
  intros T cv priv b rnd vers fuel pms ckx GC HT HD HP Br Lr Hv E.
  destruct (C58_same_pre_master_secret T cv priv b rnd vers fuel pms ckx GC HT HD HP Br Lr Hv E) as (_ & _ & EP).
  destruct ckx as [|b0 rest]; [discriminate|].
  exists (255 :: rest). split; [reflexivity|].
  unfold generateClientKeyExchange in E.
  set (m := [u8 (Z.shiftr vers 8); u8 vers] ++ rnd) in *.
  assert (Bm : bytes m) by (apply bytes_two; exact Br).
  assert (Lm : length m = 48%nat) by (unfold m; rewrite app_length, Lr; reflexivity). clearbody m.
  destruct (Encrypt cv fuel (Some b) (sPub priv) m) as [[c|e|]|] eqn:EE; try discriminate.
  cbn [option_map rbind] in E.
  destruct (C19_good T cv priv b m fuel c GC HT HD HP Bm) as (_ & Lc & DC); [unfold zlen; lia|exact EE|].
  assert (Zc : zlen c = 145) by (unfold zlen; lia). rewrite Zc in E. change (u8 (Z.shiftr 145 8)) with 0 in E. change (u8 145) with 145 in E.
  cbn [app] in E. injection E as _ <- <-. split.
  - cbn [firstn]. change (be_val [255; 145]) with 65425. unfold zlen in *. cbn [length]. lia.
  - rewrite <- EP. apply C59_high_byte_ignored_refuted; unfold is_byte; lia.
Qed.
Print Assumptions C59_wrong_length_accepted_refuted.
(** (3) and correctly framed messages of 256 bytes or more are refused whatever they contain *)
Theorem C59_long_messages_refused_refuted : forall T (cv : curve T) key body cr sr cert pub, 256 <= zlen body < 2 ^ 16 ->
  processClientKeyExchange cv key (be_bytes 2 (zlen body) ++ body) = Err errClientKeyExchange /\
  processServerKeyExchange cv cr sr cert pub (be_bytes 2 (zlen body) ++ body) = Err errServerKeyExchange.
Proof.
  intros T cv key body cr sr cert pub Hb.
  Transparent be_bytes. cbn [be_bytes app]. Opaque be_bytes.
  destruct body as [|x body]; [unfold zlen in Hb; cbn in Hb; lia|].
  set (N := zlen (x :: body)) in *. 
  assert (HZ : forall a c, zlen (a :: c :: x :: body) = N + 2) by (intros; unfold N, zlen; cbn [length]; lia).
  cbn [processClientKeyExchange processServerKeyExchange]. rewrite !HZ.
  rewrite !byte_len_low by (unfold is_byte; apply Z.mod_pos_bound; lia).
  split; [|].
  - replace (N mod 256 =? N + 2 - 2) with false by lia. reflexivity.
  - replace (N mod 256 + 2 =? N + 2) with false by lia. reflexivity.
Qed.
Print Assumptions C59_long_messages_refused_refuted.
(** what does hold: the low byte must match, so at most 257 bytes are ever accepted, and below that size the property holds for prefixes
    whose first byte is 0 *)
Theorem C59_low_byte_partial : forall T (cv : curve T) key ct pms, bytes ct -> processClientKeyExchange cv key ct = Ok pms ->
  zlen ct <= 257 /\ nth 1 ct 0 = zlen ct - 2 /\ (nth 0 ct 0 = 0 -> be_val (firstn 2 ct) = zlen ct - 2).
Proof.
  intros T cv key ct pms Hb E. destruct ct as [|b0 [|b1 ct]]; try discriminate. cbn [processClientKeyExchange] in E.
  apply bytes_cons in Hb as [H0 Hb]. apply bytes_cons in Hb as [H1 _]. unfold is_byte in H1. rewrite byte_len_low in E by assumption.
  destruct (Z.eqb_spec b1 (zlen (b0 :: b1 :: ct) - 2)) as [EE|]; [|discriminate]. cbn [nth firstn].
  split; [lia|]. split; [exact EE|]. intros ->. unfold be_val. cbn [fold_left]. lia.
Qed.
Theorem C59_server_message_partial : forall T (cv : curve T) cr sr cert pub key, bytes key -> processServerKeyExchange cv cr sr cert pub key = Ok tt ->
  3 <= zlen key <= 257 /\ nth 1 key 0 = zlen key - 2.
Proof.
  intros T cv cr sr cert pub key Hb E. destruct key as [|b0 [|b1 [|b2 key]]]; try discriminate. cbn [processServerKeyExchange] in E.
  apply bytes_cons in Hb as [H0 Hb]. apply bytes_cons in Hb as [H1 _]. unfold is_byte in H1. rewrite byte_len_low in E by assumption.
  destruct (Z.eqb_spec (b1 + 2) (zlen (b0 :: b1 :: b2 :: key))) as [EE|]; [|discriminate]. cbn [nth].
  unfold zlen in *. cbn [length] in *. lia.
Qed.
Print Assumptions C59_low_byte_partial. Print Assumptions C59_server_message_partial.

(** C60: the signed data determines both randoms and the certificate *)
Theorem C60_signed_data : forall cr sr cert, hashForServerKeyExchange [cr; sr; cert] = cr ++ sr ++ [u8 (Z.shiftr (zlen cert) 16); u8 (Z.shiftr (zlen cert) 8); u8 (zlen cert)] ++ cert.
Proof. intros. unfold hashForServerKeyExchange. cbn [hash_slices Nat.eqb plus app]. rewrite !app_nil_r. reflexivity. Qed.
Theorem C60_signed_data_injective : forall cr sr cert cr' sr' cert', length cr = 32%nat -> length sr = 32%nat -> length cr' = 32%nat -> length sr' = 32%nat ->
  hashForServerKeyExchange [cr; sr; cert] = hashForServerKeyExchange [cr'; sr'; cert'] -> cr = cr' /\ sr = sr' /\ cert = cert'.
Proof.
  intros cr sr cert cr' sr' cert' H1 H2 H3 H4 E. rewrite !C60_signed_data in E.
  assert (X : forall a b c d : list Z, length a = length c -> a ++ b = c ++ d -> a = c /\ b = d).
  { induction a as [|x a IH]; intros b [|y c] d L EE; try discriminate; [auto|]. injection EE as -> EE. injection L as L.
    destruct (IH b c d L EE) as [-> ->]. auto. }
  apply X in E as [E1 E]; [|lia]. apply X in E as [E2 E]; [|lia]. apply X in E as [_ E]; [|reflexivity]. auto.
Qed.
Print Assumptions C60_signed_data_injective.

(** The client accepts the message of an honest server (unless r or s happens to be 0, when the server's own signature is invalid: C13). *)
Theorem C60_honest_server_accepted : forall T (cv : curve T) priv b cr sr certs c0, good_curve cv -> key_ok priv -> tab_ok cv (sPub priv) ->
  bytes cr -> bytes sr -> bytes c0 -> length cr = 32%nat -> length sr = 32%nat -> zlen c0 < 2 ^ 24 ->
  exists key r s, generateServerKeyExchange cv (Some b) (Some priv) (c0 :: certs) cr sr = Ok key /\
    Sign cv (Some b) priv (hashForServerKeyExchange [cr; sr; c0]) = Ok (r, s) /\
    (r <> 0 -> s <> 0 -> processServerKeyExchange cv cr sr c0 (Some (sPub priv)) key = Ok tt).
Proof.
  intros T cv priv b cr sr certs c0 GC HK HT B1 B2 B3 L1 L2 L3.
  assert (BD : bytes (hashForServerKeyExchange [cr; sr; c0])).
  { rewrite C60_signed_data. apply bytes_app. split; [exact B1|]. apply bytes_app. split; [exact B2|]. apply bytes_app. split; [|exact B3].
    unfold u8. repeat (apply bytes_cons; split; [unfold is_byte; lia|]). constructor. }
  assert (LD : zlen (hashForServerKeyExchange [cr; sr; c0]) < 2 ^ 60).
  { rewrite C60_signed_data, !zlen_app. unfold zlen in *. cbn [length]. lia. }
  unfold generateServerKeyExchange, processServerKeyExchange.
  set (d := hashForServerKeyExchange [cr; sr; c0]) in *. clearbody d.
  destruct (C13_sign_verify_good T cv priv b d GC HK HT BD LD) as (r & s & ES & Hr & Hs & HV & _).
  unfold PrivSign. rewrite ES. cbn [rbind].
  pose proof n_lt256 as N256.
  assert (R2 : parse_ints2 (der_seq [der_int r; der_int s]) = Ok (r, s)).
  { rewrite <- (app_nil_r (der_seq _)). apply der_ints2_roundtrip; lia. }
  assert (LI : forall z, 0 <= z < 2 ^ 256 -> zlen (der_int z) <= 35).
  { intros z Hz. pose proof (int_content_length z Hz) as Hi. unfold der_int, der_tlv, len_enc.
    replace (zlen (int_content z) <? 128) with true by lia. unfold zlen in *. cbn [length app]. lia. }
  pose proof (LI r ltac:(lia)) as Lr. pose proof (LI s ltac:(lia)) as Ls.
  assert (FX : exists c, der_seq [der_int r; der_int s] = der_tlv 48 c /\ zlen c <= 70).
  { exists (concat [der_int r; der_int s]). split; [reflexivity|]. cbn [concat]. rewrite app_nil_r, zlen_app. lia. }
  set (sig := der_seq [der_int r; der_int s]) in *. clearbody sig. destruct FX as (c & -> & Lc).
  assert (PF : parse_field 48 (der_tlv 48 c) = Ok (c, [])).
  { rewrite <- (app_nil_r (der_tlv 48 c)) . apply parse_field_tlv. lia. }
  assert (LS : zlen (der_tlv 48 c) = zlen c + 2).
  { unfold der_tlv, len_enc. replace (zlen c <? 128) with true by lia. unfold zlen. cbn [length app]. lia. }
  pose proof (zlen_nonneg c) as Zc.
  eexists. exists r, s. split; [reflexivity|]. split; [reflexivity|]. intros Hr0 Hs0.
  replace (u8 (Z.shiftr (zlen (der_tlv 48 c)) 8)) with 0.
  2: { unfold u8. rewrite Z.shiftr_div_pow2 by lia. lia. }
  replace (u8 (zlen (der_tlv 48 c))) with (zlen c + 2) by (unfold u8; lia).
  remember (der_tlv 48 c) as sig eqn:Esig. destruct sig as [|x sig]; [discriminate|].
  cbn [app skipn].
  rewrite byte_len_low by (unfold is_byte; lia).
  assert (HZ : zlen (0 :: zlen c + 2 :: x :: sig) = zlen c + 4) by (unfold zlen in *; cbn [length] in *; lia). rewrite HZ.
  replace (zlen c + 2 + 2 =? zlen c + 4) with true by lia. cbn [negb].
  rewrite PF. cbn [rbind snd]. rewrite R2. cbn [rbind].
  replace ((r <=? 0) || (s <=? 0)) with false by lia.
  destruct HV as [_ HV]. rewrite HV by auto. reflexivity.
Qed.
Print Assumptions C60_honest_server_accepted.
(** and accepts only messages whose signature verifies on exactly these randoms and this certificate *)
Theorem C60_accepts_only_verified : forall T (cv : curve T) cr sr cert pub key, processServerKeyExchange cv cr sr cert pub key = Ok tt ->
  exists pk r s c, pub = Some pk /\ parse_ints2 (skipn 2 key) = Ok (r, s) /\ parse_field 48 (skipn 2 key) = Ok (c, []) /\
    Verify cv pk (cr ++ sr ++ [u8 (Z.shiftr (zlen cert) 16); u8 (Z.shiftr (zlen cert) 8); u8 (zlen cert)] ++ cert) r s = Ok true.
Proof.
  intros T cv cr sr cert pub key E. rewrite <- C60_signed_data.
  destruct key as [|b0 [|b1 [|b2 key]]]; try discriminate. cbn [processServerKeyExchange] in E.
  destruct (negb (byte_len b0 b1 + 2 =? zlen (b0 :: b1 :: b2 :: key))); [discriminate|].
  destruct pub as [pk|]; [|discriminate]. cbn [skipn] in *.
  destruct (parse_field 48 (b2 :: key)) as [[c rest]| |] eqn:E1; try discriminate. cbn [rbind snd] in E.
  destruct (parse_ints2 (b2 :: key)) as [[r s]| |] eqn:E2; try discriminate. cbn [rbind] in E.
  destruct rest; [|discriminate]. destruct ((r <=? 0) || (s <=? 0)); [discriminate|].
  destruct (Verify cv pk (hashForServerKeyExchange [cr; sr; cert]) r s) as [[|]| |] eqn:E3; try discriminate.
  exists pk, r, s, c. auto.
Qed.
Print Assumptions C60_accepts_only_verified.
Example C60_hyps : good_curve cv_std /\ key_ok (mkPriv (mkPub (T := unit) sm2_gx sm2_gy None) 1 None) /\
  bytes (zeros 32) /\ bytes [48; 130] /\ zlen [48; 130] < 2 ^ 24.
Proof. split; [apply C13_hyps|]. split; [apply C13_hyps|]. split; [apply bytes_zeros|]. split; [apply bytesb_spec; reflexivity|reflexivity]. Qed.

(** C74 is false of the code: a peer's ClientKeyExchange can crash the server *)
Theorem C74_client_message_crashes_server_refuted : forall T (cv : curve T) priv,
  mult_range cv ->
  (forall b, processClientKeyExchange cv (Some priv) [b] = Panic) /\
  (forall body, bytes body -> zlen body <= 255 -> ((length body < 97)%nat \/ nth 0 body 0 <> 4) ->
     processClientKeyExchange cv (Some priv) (be_bytes 2 (zlen body) ++ body) = Panic).
Proof.
  intros T cv priv HR. split; [reflexivity|]. intros body Hb Hl HC.
  Transparent be_bytes. cbn [be_bytes app]. Opaque be_bytes. cbn [processClientKeyExchange].
  rewrite byte_len_low by (unfold is_byte; apply Z.mod_pos_bound; lia).
  pose proof (zlen_nonneg body).
  replace (zlen (_ :: _ :: body)) with (zlen body + 2) by (unfold zlen; cbn [length]; lia).
  replace (zlen body mod 256 =? zlen body + 2 - 2) with true by lia. cbn [negb].
  destruct (C22_malformed_refuted T cv priv body Hb ltac:(lia) HR) as [_ X]. rewrite (X HC). reflexivity.
Qed.
Print Assumptions C74_client_message_crashes_server_refuted.
(** what does hold: messages of at least two bytes with a well-formed point never panic *)
Theorem C74_wellformed_messages_partial : forall T (cv : curve T) key ct, bytes ct ->
  mult_range cv ->
  (length ct <> 1)%nat -> ((99 <= length ct)%nat /\ nth 2 ct 0 = 4 \/ nth 1 ct 0 <> zlen ct - 2) -> processClientKeyExchange cv key ct <> Panic.
Proof.
  intros T cv key ct Hb HR H1 HC. destruct ct as [|b0 [|b1 ct]]; [discriminate|cbn in H1; lia|]. cbn [processClientKeyExchange].
  apply bytes_cons in Hb as [H0 Hb]. apply bytes_cons in Hb as [Hb1 Hb]. rewrite byte_len_low by assumption.
  destruct (Z.eqb_spec b1 (zlen (b0 :: b1 :: ct) - 2)) as [EE|]; [|discriminate]. cbn [negb].
  destruct key as [priv|]; [|discriminate]. cbn [nth length] in HC. destruct HC as [[HC1 HC2]|]; [|contradiction].
  destruct (C22_malformed_refuted T cv priv ct Hb) as [X _]; [unfold is_byte, zlen in *; cbn [length] in *; lia|exact HR|].
  destruct (Decrypt cv ct priv) as [p| |] eqn:ED; [|discriminate|exfalso; destruct (X eq_refl); [lia|contradiction]].
  cbn [rbind]. destruct (negb (length p =? 48)%nat); discriminate.
Qed.
Print Assumptions C74_wellformed_messages_partial.

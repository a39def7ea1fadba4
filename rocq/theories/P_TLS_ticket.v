(** Property theorems for session tickets (C61, C62). *)
From Verif Require Import GoBase GoLemmas HMAC TLS_ticket_model.
Open Scope Z_scope.
Ltac Zify.zify_post_hook ::= Z.div_mod_to_equations.

(** ** Fixed-size integers *)
Lemma hi_lo_be x : hi_lo x = be_bytes 2 x.
Proof. unfold hi_lo, u8. cbn [be_bytes app]. rewrite Z.shiftr_div_pow2 by lia. reflexivity. Qed.
Lemma len4_be x : len4 x = be_bytes 4 x.
Proof.
  unfold len4, u8. cbn [be_bytes app]. rewrite !Z.shiftr_div_pow2 by lia. change (2 ^ 8) with 256.
  rewrite !Z.div_div by lia. reflexivity.
Qed.
Lemma lor_add a b k : 0 <= k -> 0 <= b < 2 ^ k -> Z.lor (Z.shiftl a k) b = a * 2 ^ k + b.
Proof.
  intros Hk Hb. rewrite Z.shiftl_mul_pow2 by lia. symmetry. rewrite Z.add_nocarry_lxor.
  - apply Z.bits_inj'. intros i Hi. rewrite Z.lxor_spec, Z.lor_spec.
    destruct (Z.lt_ge_cases i k).
    + rewrite Z.mul_pow2_bits_low by lia. now rewrite xorb_false_l.
    + replace (Z.testbit b i) with false; [now rewrite xorb_false_r, orb_false_r|].
      symmetry. destruct (Z.eq_dec b 0) as [->|]; [apply Z.bits_0|]. apply Z.bits_above_log2; [lia|].
      assert (Z.log2 b < k) by (apply Z.log2_lt_pow2; lia). lia.
  - apply Z.bits_inj'. intros i Hi. rewrite Z.land_spec, Z.bits_0.
    destruct (Z.lt_ge_cases i k).
    + now rewrite Z.mul_pow2_bits_low by lia.
    + replace (Z.testbit b i) with false; [now rewrite andb_false_r|].
      symmetry. destruct (Z.eq_dec b 0) as [->|]; [apply Z.bits_0|]. apply Z.bits_above_log2; [lia|].
      assert (Z.log2 b < k) by (apply Z.log2_lt_pow2; lia). lia.
Qed.
Lemma rd2_val a b r : is_byte a -> is_byte b -> rd2 (a :: b :: r) = be_val [a; b].
Proof. intros Ha Hb. unfold rd2, is_byte in *. cbn [nth]. rewrite lor_add by lia. unfold be_val. cbn [fold_left]. lia. Qed.
Lemma rd4_val a b c d r : is_byte a -> is_byte b -> is_byte c -> is_byte d -> rd4 (a :: b :: c :: d :: r) = be_val [a; b; c; d].
Proof.
  intros Ha Hb Hc Hd. unfold rd4, is_byte in *. cbn [nth].
  rewrite (lor_add a (Z.shiftl b 16)) by (rewrite ?Z.shiftl_mul_pow2; lia).
  replace (a * 2 ^ 24 + Z.shiftl b 16) with (Z.shiftl (a * 2 ^ 8 + b) 16) by (rewrite !Z.shiftl_mul_pow2 by lia; lia).
  rewrite (lor_add _ (Z.shiftl c 8)) by (rewrite ?Z.shiftl_mul_pow2; lia).
  replace ((a * 2 ^ 8 + b) * 2 ^ 16 + Z.shiftl c 8) with (Z.shiftl (a * 2 ^ 16 + b * 2 ^ 8 + c) 8) by (rewrite !Z.shiftl_mul_pow2 by lia; lia).
  rewrite lor_add by lia. unfold be_val. cbn [fold_left]. lia.
Qed.
Lemma rd2_be x r : 0 <= x < 2 ^ 16 -> rd2 (be_bytes 2 x ++ r) = x.
Proof.
  intros Hx. cbn [be_bytes app]. rewrite rd2_val by (unfold is_byte; apply Z.mod_pos_bound; lia). unfold be_val. cbn [fold_left]. lia.
Qed.
Lemma rd4_be x r : 0 <= x < 2 ^ 32 -> rd4 (be_bytes 4 x ++ r) = x.
Proof.
  intros Hx. cbn [be_bytes app]. rewrite rd4_val by (unfold is_byte; apply Z.mod_pos_bound; lia). unfold be_val. cbn [fold_left]. lia.
Qed.
Lemma be2_rd2 d : bytes d -> (2 <= length d)%nat -> be_bytes 2 (rd2 d) = firstn 2 d /\ 0 <= rd2 d < 2 ^ 16.
Proof.
  intros Hb Hl. destruct d as [|a [|b d]]; cbn [length] in Hl; try lia.
  apply bytes_cons in Hb as [Ha Hb]. apply bytes_cons in Hb as [Hb1 _]. rewrite rd2_val by assumption. cbn [firstn].
  assert (X : bytes [a; b]) by (repeat (apply bytes_cons; split; [assumption|]); constructor).
  split; [exact (be_bytes_be_val [a; b] X)|]. pose proof (be_val_bound _ X) as Y. change (256 ^ zlen [a; b]) with (2 ^ 16) in Y. exact Y.
Qed.
Lemma be4_rd4 d : bytes d -> (4 <= length d)%nat -> be_bytes 4 (rd4 d) = firstn 4 d /\ 0 <= rd4 d < 2 ^ 32.
Proof.
  intros Hb Hl. destruct d as [|a [|b [|c [|e d]]]]; cbn [length] in Hl; try lia.
  apply bytes_cons in Hb as [Ha Hb]. apply bytes_cons in Hb as [Hb1 Hb]. apply bytes_cons in Hb as [Hc Hb]. apply bytes_cons in Hb as [He _].
  rewrite rd4_val by assumption. cbn [firstn].
  assert (X : bytes [a; b; c; e]) by (repeat (apply bytes_cons; split; [assumption|]); constructor).
  split; [exact (be_bytes_be_val [a; b; c; e] X)|]. pose proof (be_val_bound _ X) as Y. change (256 ^ zlen [a; b; c; e]) with (2 ^ 32) in Y. exact Y.
Qed.
#[local] Opaque be_bytes rd2 rd4.

(** ** The encoding *)
Definition cert_enc (c : list Z) : list Z := be_bytes 4 (zlen c) ++ c.
Definition state_enc (s : sessionState) : list Z :=
  be_bytes 2 (ss_vers s) ++ be_bytes 2 (ss_cipherSuite s) ++ be_bytes 2 (zlen (ss_masterSecret s)) ++ ss_masterSecret s ++
  be_bytes 2 (zlen (ss_certificates s)) ++ concat (map cert_enc (ss_certificates s)).
Lemma marshal_enc s : marshal_state s = state_enc s.
Proof.
  unfold marshal_state, state_enc. rewrite !hi_lo_be. do 5 f_equal. f_equal. apply map_ext. intros c. unfold cert_enc. now rewrite len4_be.
Qed.
(** within the limits of the wire format *)
Definition state_ok (s : sessionState) : Prop :=
  0 <= ss_vers s < 2 ^ 16 /\ 0 <= ss_cipherSuite s < 2 ^ 16 /\ bytes (ss_masterSecret s) /\ zlen (ss_masterSecret s) < 2 ^ 16 /\
  zlen (ss_certificates s) < 2 ^ 16 /\ Forall (fun c => bytes c /\ zlen c < 2 ^ 32) (ss_certificates s).
Lemma zlen_be k z : zlen (be_bytes k z) = Z.of_nat k. Proof. unfold zlen. now rewrite be_bytes_length. Qed.
Lemma to_nat_zlen {X} (l : list X) : Z.to_nat (zlen l) = length l. Proof. unfold zlen. apply Nat2Z.id. Qed.
Lemma unmarshal_certs_enc cs : Forall (fun c => bytes c /\ zlen c < 2 ^ 32) cs -> forall acc rest,
  unmarshal_certs (length cs) (concat (map cert_enc cs) ++ rest) acc = Some (acc ++ cs, rest).
Proof.
  induction 1 as [|c cs [Bc Lc] _ IH]; intros acc rest; [cbn [length map concat unmarshal_certs app]; now rewrite app_nil_r|].
  set (CC := concat (map cert_enc cs)) in *.
  assert (E : concat (map cert_enc (c :: cs)) ++ rest = be_bytes 4 (zlen c) ++ c ++ CC ++ rest).
  { cbn [map concat]. unfold cert_enc at 1. rewrite <- !app_assoc. reflexivity. }
  rewrite E. clear E. cbn [length unmarshal_certs]. pose proof (zlen_nonneg c).
  pose proof (zlen_nonneg CC). pose proof (zlen_nonneg rest).
  rewrite rd4_be by lia. rewrite (skipn_app_l 4) by apply be_bytes_length. rewrite !zlen_app, zlen_be.
  destruct (Z.ltb_spec (Z.of_nat 4 + (zlen c + (zlen CC + zlen rest))) 4); [lia|].
  destruct (Z.ltb_spec (zlen c) 0); [lia|]. destruct (Z.ltb_spec (zlen c + (zlen CC + zlen rest)) (zlen c)); [lia|].
  rewrite to_nat_zlen, skipn_app_l, firstn_app_l by reflexivity. rewrite IH, <- app_assoc. reflexivity.
Qed.
Lemma unmarshal_enc old s : state_ok s -> unmarshal_state old (state_enc s) = Some (mkSS (ss_vers s) (ss_cipherSuite s) (ss_masterSecret s) (ss_certificates s) old).
Proof.
  intros (H1 & H2 & H3 & H4 & H5 & H6). unfold unmarshal_state, state_enc.
  set (ms := ss_masterSecret s) in *. set (cs := ss_certificates s) in *. set (CC := concat (map cert_enc cs)).
  pose proof (zlen_nonneg ms) as Zm. pose proof (zlen_nonneg cs) as Zc. pose proof (zlen_nonneg CC) as ZC.
  rewrite !zlen_app, !zlen_be.
  destruct (Z.ltb_spec (Z.of_nat 2 + (Z.of_nat 2 + (Z.of_nat 2 + (zlen ms + (Z.of_nat 2 + zlen CC))))) 8); [lia|].
  rewrite rd2_be by lia. rewrite (skipn_app_l 2) by apply be_bytes_length. rewrite rd2_be by lia.
  assert (E4 : skipn 4 (be_bytes 2 (ss_vers s) ++ be_bytes 2 (ss_cipherSuite s) ++ be_bytes 2 (zlen ms) ++ ms ++ be_bytes 2 (zlen cs) ++ CC) = be_bytes 2 (zlen ms) ++ ms ++ be_bytes 2 (zlen cs) ++ CC).
  { rewrite (app_assoc (be_bytes 2 (ss_vers s))). apply skipn_app_l. rewrite app_length, !be_bytes_length. reflexivity. }
  assert (E6 : skipn 6 (be_bytes 2 (ss_vers s) ++ be_bytes 2 (ss_cipherSuite s) ++ be_bytes 2 (zlen ms) ++ ms ++ be_bytes 2 (zlen cs) ++ CC) = ms ++ be_bytes 2 (zlen cs) ++ CC).
  { rewrite (app_assoc (be_bytes 2 (ss_cipherSuite s))), (app_assoc (be_bytes 2 (ss_vers s))). apply skipn_app_l. rewrite !app_length, !be_bytes_length. reflexivity. }
  rewrite E4, E6. rewrite rd2_be by lia. rewrite !zlen_app, zlen_be.
  destruct (Z.ltb_spec (zlen ms + (Z.of_nat 2 + zlen CC)) (zlen ms)); [lia|].
  rewrite to_nat_zlen, skipn_app_l, firstn_app_l by reflexivity. rewrite zlen_app, zlen_be.
  destruct (Z.ltb_spec (Z.of_nat 2 + zlen CC) 2); [lia|]. rewrite rd2_be by lia. rewrite (skipn_app_l 2) by apply be_bytes_length.
  rewrite to_nat_zlen. pose proof (unmarshal_certs_enc cs H6 [] []) as X. fold CC in X. rewrite app_nil_r in X. rewrite X. reflexivity.
Qed.

(** ** Accepted bytes re-encode to themselves *)
Lemma unmarshal_certs_inv num : forall data acc cs rest, bytes data -> unmarshal_certs num data acc = Some (cs, rest) ->
  exists new, cs = acc ++ new /\ length new = num /\ data = concat (map cert_enc new) ++ rest /\ Forall (fun c => bytes c /\ zlen c < 2 ^ 32) new.
Proof.
  induction num as [|num IH]; intros data acc cs rest Hb E; cbn [unmarshal_certs] in E.
  - injection E as <- <-. exists []. rewrite app_nil_r. repeat split. constructor.
  - destruct (Z.ltb_spec (zlen data) 4) as [|H4]; [discriminate|].
    assert (L4 : (4 <= length data)%nat) by (unfold zlen in H4; lia).
    destruct (be4_rd4 data Hb L4) as [E4 R4]. set (n := rd4 data) in *.
    destruct (Z.ltb_spec n 0); [discriminate|]. destruct (Z.ltb_spec (zlen (skipn 4 data)) n) as [|Hn]; [discriminate|].
    assert (Bs : bytes (skipn 4 data)) by now apply bytes_skipn.
    destruct (IH _ _ _ _ (bytes_skipn _ _ Bs) E) as (new & -> & Ln & Ed & HF).
    assert (Lf : zlen (firstn (Z.to_nat n) (skipn 4 data)) = n).
    { unfold zlen in *. rewrite firstn_length. lia. }
    exists (firstn (Z.to_nat n) (skipn 4 data) :: new). split; [rewrite <- app_assoc; reflexivity|]. split; [cbn [length]; lia|]. split.
    + cbn [map concat]. unfold cert_enc at 1. rewrite Lf, E4, <- !app_assoc, <- Ed, firstn_skipn, firstn_skipn. reflexivity.
    + constructor; [|exact HF]. split; [now apply bytes_firstn|]. rewrite Lf. lia.
Qed.
Lemma unmarshal_inv old data s : bytes data -> unmarshal_state old data = Some s -> state_enc s = data /\ state_ok s /\ ss_usedOldKey s = old.
Proof.
  intros Hb E. unfold unmarshal_state in E. destruct (Z.ltb_spec (zlen data) 8) as [|H8]; [discriminate|].
  assert (L8 : (8 <= length data)%nat) by (unfold zlen in H8; lia).
  destruct (be2_rd2 data Hb ltac:(lia)) as [E0 R0].
  destruct (be2_rd2 (skipn 2 data) (bytes_skipn _ _ Hb) ltac:(rewrite skipn_length; lia)) as [E2 R2].
  destruct (be2_rd2 (skipn 4 data) (bytes_skipn _ _ Hb) ltac:(rewrite skipn_length; lia)) as [E4 R4].
  set (v := rd2 data) in *. set (c := rd2 (skipn 2 data)) in *. set (m := rd2 (skipn 4 data)) in *.
  destruct (Z.ltb_spec (zlen (skipn 6 data)) m) as [|Hm]; [discriminate|].
  set (d6 := skipn 6 data) in *. assert (B6 : bytes d6) by now apply bytes_skipn.
  destruct (Z.ltb_spec (zlen (skipn (Z.to_nat m) d6)) 2) as [|H2]; [discriminate|].
  set (d7 := skipn (Z.to_nat m) d6) in *. assert (B7 : bytes d7) by now apply bytes_skipn.
  destruct (be2_rd2 d7 B7 ltac:(unfold zlen in H2; lia)) as [E7 R7]. set (k := rd2 d7) in *.
  destruct (unmarshal_certs (Z.to_nat k) (skipn 2 d7) []) as [[cs rest]|] eqn:EC; [|discriminate].
  destruct (Z.eqb_spec (zlen rest) 0) as [Hz|]; [|discriminate]. injection E as <-.
  assert (rest = []) by (destruct rest; [reflexivity|unfold zlen in Hz; cbn [length] in Hz; lia]). subst rest.
  destruct (unmarshal_certs_inv _ _ _ _ _ (bytes_skipn 2 _ B7) EC) as (new & En & Ln & Ed & HF). cbn [app] in En. subst cs. rewrite app_nil_r in Ed.
  assert (Lm : zlen (firstn (Z.to_nat m) d6) = m) by (unfold zlen in *; rewrite firstn_length; lia).
  assert (Lk : zlen new = k) by (unfold zlen; lia).
  split; [|split; [|reflexivity]].
  - unfold state_enc. cbn [ss_vers ss_cipherSuite ss_masterSecret ss_certificates]. rewrite Lm, Lk, E0, E2, E4, E7, <- Ed.
    rewrite (firstn_skipn 2 d7). unfold d7. rewrite (firstn_skipn (Z.to_nat m) d6). unfold d6.
    replace (skipn 6 data) with (skipn 2 (skipn 4 data)) by (rewrite skipn_skipn; reflexivity). rewrite firstn_skipn.
    replace (skipn 4 data) with (skipn 2 (skipn 2 data)) by (rewrite skipn_skipn; reflexivity). rewrite firstn_skipn. apply firstn_skipn.
  - unfold state_ok. cbn [ss_vers ss_cipherSuite ss_masterSecret ss_certificates]. rewrite Lm, Lk. repeat (split; [lia || (now apply bytes_firstn)|]). exact HF.
Qed.

(** ** CTR *)
Definition block_ok (E : list Z -> list Z) : Prop := forall b, length (E b) = 16%nat /\ bytes (E b).
Lemma ctr_len E iv n : block_ok E -> length (ctr_stream E iv n) = n /\ bytes (ctr_stream E iv n).
Proof.
  intros HE. unfold ctr_stream.
  assert (X : forall l, length (concat (map (fun i => E (be_bytes 16 (be_val iv + Z.of_nat i))) l)) = (16 * length l)%nat /\
                        bytes (concat (map (fun i => E (be_bytes 16 (be_val iv + Z.of_nat i))) l))).
  { induction l as [|i l [IH1 IH2]]; [split; [reflexivity|constructor]|]. cbn [map concat length].
    destruct (HE (be_bytes 16 (be_val iv + Z.of_nat i))) as [L1 B1]. rewrite app_length, IH1, L1. split; [lia|]. apply bytes_app. auto. }
  destruct (X (seq 0 (n / 16 + 1))) as [X1 X2]. rewrite seq_length in X1.
  split; [|now apply bytes_firstn]. rewrite firstn_length, X1. pose proof (Nat.div_mod n 16). pose proof (Nat.mod_upper_bound n 16). lia.
Qed.
Lemma ctr_invol E iv d : block_ok E -> ctr_xor E iv (ctr_xor E iv d) = d.
Proof.
  intros HE. unfold ctr_xor. destruct (ctr_len E iv (length d) HE) as [L _].
  rewrite xorl_length, L, Nat.min_id. apply xorl_involutive. lia.
Qed.
Lemma ctr_xor_length E iv d : block_ok E -> length (ctr_xor E iv d) = length d.
Proof. intros HE. unfold ctr_xor. rewrite xorl_length. destruct (ctr_len E iv (length d) HE) as [-> _]. apply Nat.min_id. Qed.
Lemma ctr_xor_bytes E iv d : block_ok E -> bytes d -> bytes (ctr_xor E iv d).
Proof. intros HE Hd. unfold ctr_xor. apply xorl_bytes; [exact Hd|apply ctr_len, HE]. Qed.

(** Hypotheses on the standard library: AES maps blocks to blocks, SHA-256 has 32-byte outputs. *)
Definition aes_ok (aes : list Z -> list Z -> list Z) : Prop := forall k, block_ok (aes k).
Definition sha_ok (sha256 : list Z -> list Z) : Prop := forall m, length (sha256 m) = 32%nat.
Definition names_ok (ks : list ticketKey) : Prop := Forall (fun k => length (k_name k) = 16%nat) ks.

Lemma find_key_first name ks : forall i, match find_key name i ks with
  | None => Forall (fun k => k_name k <> name) ks
  | Some (j, k) => exists a b, ks = a ++ k :: b /\ Forall (fun k => k_name k <> name) a /\ k_name k = name /\ j = (i + length a)%nat
  end.
Proof.
  induction ks as [|k ks IH]; intros i; cbn [find_key]; [constructor|].
  destruct (beqb name (k_name k)) eqn:E.
  - apply beqb_eq in E. exists [], ks. repeat split; [constructor|auto|cbn; lia].
  - apply beqb_neq in E. specialize (IH (i + 1)%nat). destruct (find_key name (i + 1) ks) as [[j k']|].
    + destruct IH as (a & b & -> & Ha & En & ->). exists (k :: a), b. repeat split; [constructor; [congruence|exact Ha]|exact En|cbn [length]; lia].
    + constructor; [congruence|exact IH].
Qed.
Lemma find_key_at ks1 k ks2 : Forall (fun k' => k_name k' <> k_name k) ks1 -> find_key (k_name k) 0 (ks1 ++ k :: ks2) = Some (length ks1, k).
Proof.
  intros H. assert (G : forall i, find_key (k_name k) i (ks1 ++ k :: ks2) = Some ((i + length ks1)%nat, k)).
  { induction H as [|k' ks1 Hn _ IH]; intros i; cbn [app find_key length].
    - rewrite beqb_refl. do 2 f_equal. lia.
    - assert (E : beqb (k_name k) (k_name k') = false) by (apply beqb_neq; congruence). rewrite E, IH. do 2 f_equal. lia. }
  apply G.
Qed.

(** C61: a ticket encrypted under the first key [k] of the encrypting server's list is decrypted to the same session by any server whose
    list contains k (not shadowed by an earlier key of the same name), and usedOldKey is set iff k is not that server's first key. *)
Theorem C61_tickets_round_trip : forall aes sha256 iv k enc_rest ks1 ks2 s,
  aes_ok aes -> sha_ok sha256 -> length iv = 16%nat -> names_ok [k] -> state_ok s ->
  Forall (fun k' => k_name k' <> k_name k) ks1 ->
  exists t, encryptTicket aes sha256 (Some iv) (k :: enc_rest) s = Ok t /\
    decryptTicket aes sha256 false (ks1 ++ k :: ks2) t =
      Some (mkSS (ss_vers s) (ss_cipherSuite s) (ss_masterSecret s) (ss_certificates s) (match ks1 with [] => false | _ => true end)).
Proof.
  intros aes sha256 iv k er ks1 ks2 s HA HS Hiv HN Hs H1. apply Forall_inv in HN. unfold encryptTicket. eexists. split; [reflexivity|].
  unfold decryptTicket. cbn [orb].
  set (ct := ctr_xor (aes (k_aes k)) iv (marshal_state s)). set (body := k_name k ++ iv ++ ct). set (tag := hmac sha256 64 (k_hmac k) body).
  assert (Lt : length tag = 32%nat) by apply HS.
  assert (Lb : length body = (32 + length ct)%nat) by (unfold body; rewrite !app_length, HN, Hiv; lia).
  rewrite app_length, Lt. destruct (Nat.ltb_spec (length body + 32) (16 + 16 + 32)); [lia|].
  replace (length body + 32 - 32)%nat with (length body) by lia.
  rewrite (skipn_app_l (length body)), (firstn_app_l (length body)) by reflexivity.
  assert (E1 : firstn 16 (body ++ tag) = k_name k). { unfold body. rewrite <- app_assoc. apply firstn_app_l, HN. }
  assert (E2 : firstn 16 (skipn 16 (body ++ tag)) = iv). { unfold body. rewrite <- !app_assoc. rewrite skipn_app_l by exact HN. apply firstn_app_l, Hiv. }
  rewrite E1, E2, (find_key_at ks1 k ks2 H1). fold tag. rewrite beqb_refl. cbn [negb].
  replace (skipn 32 body) with ct. 2: { unfold body. rewrite app_assoc. symmetry. apply skipn_app_l. rewrite app_length, HN, Hiv. reflexivity. }
  unfold ct. rewrite ctr_invol by apply HA. rewrite marshal_enc, (unmarshal_enc _ s Hs).
  destruct ks1; reflexivity.
Qed.
Print Assumptions C61_tickets_round_trip.
Example C61_hyps :
  let k := mkTK (zeros 16) (zeros 16) (zeros 16) in let k' := mkTK (repeat 1 16) (zeros 16) (zeros 16) in
  aes_ok (fun _ b => zeros 16) /\ sha_ok (fun _ => zeros 32) /\ names_ok [k] /\
  state_ok (mkSS 0x0101 0xe013 (zeros 48) [[48; 3]; []] false) /\ Forall (fun x => k_name x <> k_name k) [k'].
Proof.
  cbv zeta. split; [intros ? ?; split; [reflexivity|apply bytes_zeros]|]. split; [intros ?; reflexivity|].
  split; [constructor; [reflexivity|constructor]|]. split.
  - unfold state_ok. cbn [ss_vers ss_cipherSuite ss_masterSecret ss_certificates]. split; [lia|]. split; [lia|]. split; [apply bytes_zeros|].
    split; [reflexivity|]. split; [reflexivity|]. constructor; [split; [apply bytesb_spec; reflexivity|reflexivity]|]. constructor; [split; [constructor|reflexivity]|constructor].
  - constructor; [discriminate|constructor].
Qed.

(** C62: a ticket is accepted iff tickets are enabled, it is (name, iv, ciphertext, tag) where the tag is the HMAC, under the first key of that
    name, of everything before it, and the deciphered bytes are exactly the encoding of the returned session. *)
Theorem C62_accepted_iff_authentic : forall aes sha256 disabled keys enc s, aes_ok aes -> sha_ok sha256 -> bytes enc ->
  (decryptTicket aes sha256 disabled keys enc = Some s <->
   disabled = false /\ exists name iv ct tag ks1 k ks2,
     enc = name ++ iv ++ ct ++ tag /\ length name = 16%nat /\ length iv = 16%nat /\ length tag = 32%nat /\
     keys = ks1 ++ k :: ks2 /\ k_name k = name /\ Forall (fun k' => k_name k' <> name) ks1 /\
     tag = hmac sha256 64 (k_hmac k) (name ++ iv ++ ct) /\
     state_enc s = ctr_xor (aes (k_aes k)) iv ct /\ state_ok s /\ (ss_usedOldKey s = true <-> ks1 <> [])).
Proof.
  intros aes sha256 disabled keys enc s HA HS Hb. unfold decryptTicket. split.
  - destruct disabled; [discriminate|]. cbn [orb]. destruct (Nat.ltb_spec (length enc) (16 + 16 + 32)) as [|HL]; [discriminate|].
    set (body := firstn (length enc - 32) enc). set (name := firstn 16 enc). set (iv := firstn 16 (skipn 16 enc)).
    pose proof (find_key_first name keys 0) as FK. destruct (find_key name 0 keys) as [[j k]|]; [|discriminate].
    destruct FK as (ks1 & ks2 & Ek & HF & En & Ej).
    destruct (beqb (skipn (length enc - 32) enc) (hmac sha256 64 (k_hmac k) body)) eqn:EM; [|discriminate]. cbn [negb].
    intros E. apply beqb_eq in EM. split; [reflexivity|].
    assert (Bc : bytes (ctr_xor (aes (k_aes k)) iv (skipn 32 body))). { apply ctr_xor_bytes; [apply HA|]. apply bytes_skipn, bytes_firstn, Hb. }
    destruct (unmarshal_inv _ _ _ Bc E) as (E1 & E2 & E3).
    assert (EB : name ++ iv ++ skipn 32 body = body).
    { unfold name, iv, body. replace (skipn 32 (firstn (length enc - 32) enc)) with (skipn 16 (skipn 16 (firstn (length enc - 32) enc))) by (rewrite skipn_skipn; reflexivity).
      replace (firstn 16 enc) with (firstn 16 (firstn (length enc - 32) enc)) by (rewrite firstn_firstn; f_equal; lia).
      replace (firstn 16 (skipn 16 enc)) with (firstn 16 (skipn 16 (firstn (length enc - 32) enc))).
      - rewrite firstn_skipn, firstn_skipn. reflexivity.
      - rewrite skipn_firstn_comm, firstn_firstn. f_equal. lia. }
    exists name, iv, (skipn 32 body), (skipn (length enc - 32) enc), ks1, k, ks2.
    split; [|split; [|split; [|split; [|split; [|split; [|split; [|split; [|split; [|split]]]]]]]]].
    + rewrite (app_assoc iv), app_assoc, EB. unfold body. now rewrite firstn_skipn.
    + unfold name. rewrite firstn_length. lia.
    + unfold iv. rewrite firstn_length, skipn_length. lia.
    + rewrite skipn_length. lia.
    + exact Ek.
    + exact En.
    + exact HF.
    + rewrite EB. exact EM.
    + exact E1.
    + exact E2.
    + rewrite E3, Ej. destruct ks1; cbn [length]; [split; [lia|congruence]|split; [discriminate|intros _; lia]].
  - intros (-> & name & iv & ct & tag & ks1 & k & ks2 & -> & Ln & Li & Lt & -> & <- & HF & -> & E1 & E2 & E3). cbn [orb].
    set (tag := hmac sha256 64 (k_hmac k) (k_name k ++ iv ++ ct)) in *.
    assert (EQ : k_name k ++ iv ++ ct ++ tag = (k_name k ++ iv ++ ct) ++ tag) by (rewrite <- !app_assoc; reflexivity). rewrite EQ.
    set (body := k_name k ++ iv ++ ct) in *.
    assert (Lb : length body = (32 + length ct)%nat) by (unfold body; rewrite !app_length, Ln, Li; lia).
    rewrite app_length, Lt. destruct (Nat.ltb_spec (length body + 32) (16 + 16 + 32)); [lia|].
    replace (length body + 32 - 32)%nat with (length body) by lia.
    rewrite (skipn_app_l (length body)), (firstn_app_l (length body)) by reflexivity.
    assert (F1 : firstn 16 (body ++ tag) = k_name k). { unfold body. rewrite <- app_assoc. apply firstn_app_l, Ln. }
    assert (F2 : firstn 16 (skipn 16 (body ++ tag)) = iv). { unfold body. rewrite <- !app_assoc. rewrite skipn_app_l by exact Ln. apply firstn_app_l, Li. }
    rewrite F1, F2, (find_key_at ks1 k ks2 HF). fold tag. rewrite beqb_refl. cbn [negb].
    replace (skipn 32 body) with ct. 2: { unfold body. rewrite app_assoc. symmetry. apply skipn_app_l. rewrite app_length, Ln, Li. reflexivity. }
    rewrite <- E1, (unmarshal_enc _ s E2). destruct s as [v c m cs o]. cbn [ss_vers ss_cipherSuite ss_masterSecret ss_certificates ss_usedOldKey] in *.
    do 2 f_equal. destruct ks1; cbn [length]; destruct o; try reflexivity; exfalso; [apply E3; reflexivity|]. assert (false = true) by (apply E3; discriminate). discriminate.
Qed.
Print Assumptions C62_accepted_iff_authentic.
(** unmarshal accepts only complete encodings: marshal of the result gives the accepted bytes back *)
Theorem C62_unmarshal_then_marshal : forall old data s, bytes data -> unmarshal_state old data = Some s -> marshal_state s = data.
Proof. intros old data s Hb E. rewrite marshal_enc. now apply unmarshal_inv with (old := old). Qed.
Theorem C62_marshal_then_unmarshal : forall old s, state_ok s ->
  unmarshal_state old (marshal_state s) = Some (mkSS (ss_vers s) (ss_cipherSuite s) (ss_masterSecret s) (ss_certificates s) old).
Proof. intros old s Hs. rewrite marshal_enc. now apply unmarshal_enc. Qed.
Print Assumptions C62_unmarshal_then_marshal. Print Assumptions C62_marshal_then_unmarshal.
(** so changing the tag alone is always detected, and changing anything else is accepted only with a tag valid for the changed bytes *)
Theorem C62_tag_tampering_detected : forall aes sha256 keys body tag tag' s, aes_ok aes -> sha_ok sha256 -> bytes (body ++ tag) -> length tag = 32%nat -> length tag' = 32%nat ->
  decryptTicket aes sha256 false keys (body ++ tag) = Some s -> tag' <> tag -> decryptTicket aes sha256 false keys (body ++ tag') = None.
Proof.
  intros aes sha256 keys body tag tag' s HA HS Hb L1 L2 E Hne. unfold decryptTicket in *. cbn [orb] in *. rewrite !app_length, L1, L2 in *.
  destruct (Nat.ltb_spec (length body + 32) (16 + 16 + 32)) as [|HL]; [discriminate|].
  replace (length body + 32 - 32)%nat with (length body) in * by lia.
  rewrite (skipn_app_l (length body)), (firstn_app_l (length body)) in E by reflexivity. rewrite (skipn_app_l (length body)), (firstn_app_l (length body)) by reflexivity.
  assert (F : firstn 16 (body ++ tag') = firstn 16 (body ++ tag)).
  { rewrite !firstn_app. replace (16 - length body)%nat with 0%nat by lia. reflexivity. }
  rewrite F. destruct (find_key (firstn 16 (body ++ tag)) 0 keys) as [[j k]|]; [|reflexivity].
  destruct (beqb tag (hmac sha256 64 (k_hmac k) body)) eqn:EM; [|discriminate]. apply beqb_eq in EM.
  replace (beqb tag' (hmac sha256 64 (k_hmac k) body)) with false; [reflexivity|]. symmetry. apply beqb_neq. congruence.
Qed.
Print Assumptions C62_tag_tampering_detected.

(** C61: the three keys a configured 32-byte ticket key stands for are disjoint parts of its SHA-512: name, then AES key, then MAC key,
    16 bytes each; so servers configured with the same 32 bytes share all three, and none of the keys is part of another. *)
Theorem C61_key_split : forall sha512 b tail, (48 <= length (sha512 b))%nat ->
  let k := ticketKeyFromBytes sha512 b in
  (skipn 48 (sha512 b) = tail -> sha512 b = k_name k ++ k_aes k ++ k_hmac k ++ tail) /\
  length (k_name k) = 16%nat /\ length (k_aes k) = 16%nat /\ length (k_hmac k) = 16%nat.
Proof.
  intros sha512 b tail HL k. unfold k, ticketKeyFromBytes. cbn [k_name k_aes k_hmac]. set (h := sha512 b) in *.
  split; [|rewrite !firstn_length, ?skipn_length; lia]. intros <-.
  rewrite <- (firstn_skipn 16 h) at 1. f_equal. rewrite <- (firstn_skipn 16 (skipn 16 h)) at 1. f_equal. rewrite skipn_skipn. cbn [Nat.add].
  rewrite <- (firstn_skipn 16 (skipn 32 h)) at 1. f_equal. rewrite skipn_skipn. reflexivity.
Qed.
Print Assumptions C61_key_split.

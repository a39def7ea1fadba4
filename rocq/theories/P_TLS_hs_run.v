(** C91: an honest client and an honest server complete the handshake. *)
From Verif Require Import GoBase GoLemmas BigBytes Asn1_model X509_spec Prime_cert SM2_curve_spec SM2_group SM2_jac SM2_spec SM2_model SM2_proofs SM3_spec TLS_record_model TLS_prf_model TLS_prf_spec TLS_prf_proofs
  TLS_gmka_model TLS_ticket_model TLS_msg_model TLS_msg_proofs TLS_neg_model TLS_hs_model TLS_hs_proofs TLS_hs_bytes TLS_hs_server TLS_hs_client TLS_hs_spec TLS_hs_run P_TLS_hs_server P_TLS_hs_client P_TLS_hs_agree.
From Verif Require X509_model P_SM2 P_TLS_msg P_TLS_gmka P_TLS_prf P_TLS_neg.
Open Scope Z_scope.
Ltac Zify.zify_post_hook ::= Z.div_mod_to_equations.
#[local] Opaque sm3 PRF smul padd sm2_n sm2_p Encrypt Decrypt be_bytes Sign Verify.

(** ** Encoded messages: bytes and sizes *)
Lemma fill_out size p m : fill size p = Ok m -> bytes p -> bytes m /\ zlen m = size.
Proof.
  unfold fill. destruct (Z.leb_spec (zlen p) size); [|discriminate]. intros [= <-] B. split; [apply bytes_app; split; [exact B|apply bytes_zeros]|].
  rewrite zlen_app, zlen_zeros. lia.
Qed.
Lemma u8_byte x : is_byte (u8 x). Proof. unfold u8, is_byte. lia. Qed.
Lemma bytes_b2 x : bytes (b2 x). Proof. apply bytes_cons. split; [apply u8_byte|]. apply bytes_cons. split; [apply u8_byte|constructor]. Qed.
Lemma bytes_b3 x : bytes (b3 x). Proof. apply bytes_cons. split; [apply u8_byte|]. apply bytes_b2. Qed.
Lemma bytes_one x : is_byte x -> bytes [x]. Proof. intros H. apply bytes_cons. split; [exact H|constructor]. Qed.
Lemma bytes_copy32 r : bytes r -> bytes (copy32 r).
Proof. intros H. apply bytes_app. split; [now apply bytes_firstn|apply bytes_zeros]. Qed.
Lemma bytes_concat_map {A} (f : A -> list Z) l : (forall x, In x l -> bytes (f x)) -> bytes (concat (map f l)).
Proof. induction l as [|a l IH]; intros H; [constructor|]. cbn [map concat]. apply bytes_app. split; [apply H; now left|apply IH; intros; apply H; now right]. Qed.
#[local] Opaque b2 b3 copy32 u8.
Ltac byt := repeat match goal with
  | |- bytes (_ ++ _) => apply bytes_app; split
  | |- bytes (b2 _) => apply bytes_b2 | |- bytes (b3 _) => apply bytes_b3
  | |- bytes (copy32 _) => apply bytes_copy32
  | |- bytes [] => constructor
  | |- bytes (u8 _ :: _) => apply bytes_cons; split; [apply u8_byte|]
  | |- bytes (_ :: _) => apply bytes_cons; split; [solve [unfold is_byte; lia | assumption]|]
  | |- bytes (concat (map b2 _)) => apply bytes_concat_map; intros; apply bytes_b2
  end; try assumption.
Lemma fill_len size p m : fill size p = Ok m -> zlen m = size.
Proof. unfold fill. destruct (Z.leb_spec (zlen p) size); [|discriminate]. intros [= <-]. rewrite zlen_app, zlen_zeros. lia. Qed.
(** readHandshake takes messages of at most 65536 bytes after the 4 header bytes (C118) *)
Definition fits (m : list Z) : Prop := zlen m <= 65540.
Lemma fits_ch cr suites m : zlen suites <= 32000 -> m_clientHello (honest_ch cr suites) = Ok m -> fits m.
Proof.
  intros L H. unfold honest_ch, m_clientHello in H. cbn [ch_alpn existsb] in H. cbv zeta in H. apply fill_len in H. unfold fits. rewrite H. change (ch_numExt _) with 0. cbv iota. cbn [Z.ltb Z.compare ch_sessionId ch_suites ch_comp].
  change (zlen (@nil Z)) with 0. change (zlen [0]) with 1. lia.
Qed.
Lemma fits_sh sr m : m_serverHello (honest_sh sr) = Ok m -> fits m.
Proof.
  intros H. unfold honest_sh, m_serverHello in H. cbn [sh_alpn] in H. change (0 <? zlen (@nil Z)) with false in H. cbn [andb] in H. cbv zeta in H. apply fill_len in H.
  unfold fits. rewrite H. change (sh_numExt _) with 0. cbn [Z.ltb Z.compare sh_sessionId]. change (zlen (@nil Z)) with 0. lia.
Qed.
Lemma fits_cert ders m : 3 * zlen ders + sum_len ders <= 65000 -> m_certificate ders = Ok m -> fits m.
Proof. intros L H. unfold m_certificate in H. apply fill_len in H. unfold fits. rewrite H. lia. Qed.
Lemma fits_skx k m : zlen k < 2 ^ 10 -> m_serverKeyExchange k = Ok m -> fits m. Proof. intros L H. unfold m_serverKeyExchange in H. apply fill_len in H. unfold fits. lia. Qed.
Lemma fits_ckx k m : zlen k < 2 ^ 10 -> m_clientKeyExchange k = Ok m -> fits m. Proof. intros L H. unfold m_clientKeyExchange in H. apply fill_len in H. unfold fits. lia. Qed.
Lemma fits_fin k m : zlen k < 2 ^ 10 -> m_finished k = Ok m -> fits m. Proof. intros L H. unfold m_finished in H. apply fill_len in H. unfold fits. lia. Qed.
Lemma fits_cv k m : zlen k < 2 ^ 10 -> m_certificateVerify false (0, k) = Ok m -> fits m. Proof. intros L H. unfold m_certificateVerify in H. cbn [fst snd] in H. apply fill_len in H. unfold fits. lia. Qed.
Lemma fits_req cas m : cas_len cas <= 65000 -> m_certificateRequestGM [1; 64] cas = Ok m -> fits m.
Proof. intros L H. unfold m_certificateRequestGM, m_certificateRequest in H. cbn [cr_types cr_cas cr_sigs] in H. cbv zeta in H. apply fill_len in H. unfold fits. rewrite H. unfold zlen. cbn [length]. lia. Qed.
Lemma out_ch cr suites m : bytes cr -> zlen suites < 2 ^ 20 -> m_clientHello (honest_ch cr suites) = Ok m -> bytes m /\ zlen m < 2 ^ 24 + 4.
Proof.
  intros B L H. unfold honest_ch, m_clientHello in H. cbn [ch_alpn existsb] in H. cbv zeta in H. apply fill_out in H as [H1 H2].
  - split; [exact H1|]. rewrite H2. change (ch_numExt _) with 0. cbv iota. cbn [Z.ltb Z.compare ch_sessionId ch_suites ch_comp]. change (zlen (@nil Z)) with 0. change (zlen [0]) with 1. lia.
  - cbn [ch_vers ch_random ch_sessionId ch_suites ch_comp]. byt; cbn; constructor.
Qed.
Lemma out_sh sr m : bytes sr -> m_serverHello (honest_sh sr) = Ok m -> bytes m /\ zlen m < 2 ^ 24 + 4.
Proof.
  intros B H. unfold honest_sh, m_serverHello in H. cbn [sh_alpn] in H. change (0 <? zlen (@nil Z)) with false in H. cbn [andb] in H. cbv zeta in H. apply fill_out in H as [H1 H2].
  - split; [exact H1|]. rewrite H2. change (sh_numExt _) with 0. cbn [Z.ltb Z.compare sh_sessionId]. change (zlen (@nil Z)) with 0. lia.
  - cbn [sh_vers sh_random sh_sessionId sh_suite sh_comp]. byt; cbn; constructor.
Qed.
Lemma out_cert ders m : Forall P_TLS_msg.cert_ok ders -> 3 * zlen ders + sum_len ders < 2 ^ 24 - 3 -> m_certificate ders = Ok m -> bytes m /\ zlen m < 2 ^ 24 + 4.
Proof.
  intros HF L H. unfold m_certificate in H. apply fill_out in H as [H1 H2]; [split; [exact H1|rewrite H2; lia]|].
  byt. apply bytes_concat_map. intros x Hx. rewrite Forall_forall in HF. destruct (HF x Hx). byt.
Qed.
Lemma out_skx k m : bytes k -> zlen k < 2 ^ 20 -> m_serverKeyExchange k = Ok m -> bytes m /\ zlen m < 2 ^ 24 + 4.
Proof. intros B L H. unfold m_serverKeyExchange in H. apply fill_out in H as [H1 H2]; [split; [exact H1|lia]|byt]. Qed.
Lemma out_ckx k m : bytes k -> zlen k < 2 ^ 20 -> m_clientKeyExchange k = Ok m -> bytes m /\ zlen m < 2 ^ 24 + 4.
Proof. intros B L H. unfold m_clientKeyExchange in H. apply fill_out in H as [H1 H2]; [split; [exact H1|lia]|byt]. Qed.
Lemma out_fin k m : bytes k -> zlen k < 2 ^ 20 -> m_finished k = Ok m -> bytes m /\ zlen m < 2 ^ 24 + 4.
Proof. intros B L H. unfold m_finished in H. apply fill_out in H as [H1 H2]; [split; [exact H1|lia]|byt]. Qed.
Lemma out_cv k m : bytes k -> zlen k < 2 ^ 20 -> m_certificateVerify false (0, k) = Ok m -> bytes m /\ zlen m < 2 ^ 24 + 4.
Proof. intros B L H. unfold m_certificateVerify in H. cbn [fst snd] in H. apply fill_out in H as [H1 H2]; [split; [exact H1|lia]|byt]. Qed.
Lemma out_req cas m : Forall bytes cas -> cas_len cas < 2 ^ 16 -> m_certificateRequestGM [1; 64] cas = Ok m -> bytes m /\ zlen m < 2 ^ 24 + 4.
Proof.
  intros B L H. unfold m_certificateRequestGM, m_certificateRequest in H. cbn [cr_types cr_cas cr_sigs] in H. cbv zeta in H. apply fill_out in H as [H1 H2].
  - split; [exact H1|]. rewrite H2. unfold zlen. cbn [length]. lia.
  - byt. apply bytes_concat_map. intros x Hx. rewrite Forall_forall in B. byt. now apply B.
Qed.

(** ** The two ends *)
(** the preferring side lists the ECC suite (0xe013) before any other suite both sides can use *)
Definition picks_ecc (prefer : bool) (server client : list Z) : Prop :=
  let preference := if prefer then server else client in let other := if prefer then client else server in
  In 0xe013 other /\ exists before after, preference = before ++ 0xe013 :: after /\ ~ In 0xe013 before /\ (In 0xe011 before -> ~ In 0xe011 other).
(** all certificates a server sends, in order *)
Definition sent_certs {T} (cfg : config T) : list (list Z) := concat (map ce_chain (cf_certs cfg)).
(** a server with two SM2 keys and certificates; [sr], [b]: its hello random and the randomness of its signature *)
Record server_ready {T} (E : env T) (cfg : config T) (rn : rnds) (sr b : list Z) (c0 c1 : certificate T) (k0 k1 : privkey T) (d1 : list Z) : Prop := {
  sv_certs : exists more, cf_certs cfg = c0 :: c1 :: more;
  sv_chain0 : exists d0, ce_chain c0 = [d0];                         (* one certificate only: the client takes the second one sent for encryption *)
  sv_chain1 : exists rest, ce_chain c1 = d1 :: rest;
  sv_key0 : ce_key c0 = Some k0 /\ key_ok k0 /\ tab_ok (e_cv E) (sPub k0);
  sv_key1 : ce_key c1 = Some k1 /\ 1 <= sD k1 <= sm2_n - 1 /\ (pX (sPub k1), pY (sPub k1)) = aff (smul (sD k1) pG) /\ tab_ok (e_cv E) (sPub k1);
  sv_version : mutualVersion (cf_min cfg) (cf_max cfg) 0x0101 = Some 0x0101;
  sv_random : r_hello rn = Some sr /\ bytes sr /\ length sr = 32%nat;
  sv_sign : r_sign rn = Some b;
  sv_size : Forall P_TLS_msg.cert_ok (sent_certs cfg) /\ 3 * zlen (sent_certs cfg) + sum_len (sent_certs cfg) < 2 ^ 24 - 3;
  sv_log : forall cr m, cf_keylog cfg cr m = None }.
(** a client that sees these certificates as [x0 :: x1 :: xs] and accepts them *)
Record client_ready {T} (E : env T) (cfg : config T) (rn : rnds) (cr rnd b : list Z) (sent : list (list Z)) (k0 k1 : privkey T) (d1 : list Z) (x0 x1 : gcert T) (xs : list (gcert T)) : Prop := {
  cl_name : cf_skip cfg = true \/ cf_serverName cfg <> [];
  cl_random : r_hello rn = Some cr /\ bytes cr /\ length cr = 32%nat;
  cl_secret : r_pms rn = Some rnd /\ bytes rnd /\ length rnd = 46%nat;
  cl_enc : r_enc rn = Some b /\ (0 < e_fuel E)%nat /\ kdf_usable (smul (k_of_bytes b) (smul (sD k1) pG)) 48;  (* encryption returns for this nonce: C21 *)
  cl_parse : Forall2 (fun d c => e_parse E d = Some c) sent (x0 :: x1 :: xs);
  cl_sm2 : Forall (fun c => exists p, g_pub c = PkSM2 p) (x0 :: x1 :: xs);
  cl_keys : g_pub x0 = PkSM2 (sPub k0) /\ g_pub x1 = PkSM2 (sPub k1) /\ raw (g_cert x1) = d1;
  cl_usage : may_sign (keyUsage (g_cert x0)) /\ may_encrypt (keyUsage (g_cert x1));
  cl_verify : cf_skip cfg = false -> all_verify E cfg 0 X509_model.NewCertPool (x0 :: x1 :: xs);
  cl_callback : cf_verifyPeer cfg = None;
  cl_suites : zlen (getCipherSuites (cf_suites cfg)) < 2 ^ 15;
  cl_log : forall c m, cf_keylog cfg c m = None }.

Lemma ku_sign_conv ku : may_sign ku -> ku_sign ku = true.
Proof.
  unfold ku_sign, may_sign, KeyUsageDigitalSignature, KeyUsageContentCommitment. intros H. apply negb_true_iff, orb_false_iff.
  assert (X : Z.land ku (Z.lor 1 (Z.land ku 2)) <> 0).
  { intros X. assert (Y0 : Z.testbit (Z.land ku (Z.lor 1 (Z.land ku 2))) 0 = false) by (rewrite X; reflexivity). assert (Y1 : Z.testbit (Z.land ku (Z.lor 1 (Z.land ku 2))) 1 = false) by (rewrite X; reflexivity).
    rewrite !Z.land_spec, !Z.lor_spec, !Z.land_spec in Y0, Y1. change (Z.testbit 1 0) with true in Y0. change (Z.testbit 1 1) with false in Y1. change (Z.testbit 2 1) with true in Y1.
    destruct H as [H|H]; [rewrite H in Y0|rewrite H in Y1]; discriminate. }
  split; [|now apply Z.eqb_neq]. apply Z.eqb_neq. intros ->. now apply X.
Qed.
Lemma ku_enc_conv ku : may_encrypt ku -> ku_enc ku = true.
Proof.
  unfold ku_enc, may_encrypt, KeyUsageDataEncipherment, KeyUsageKeyEncipherment, KeyUsageKeyAgreement. intros H. apply negb_true_iff, orb_false_iff.
  change (Z.lor (Z.lor 8 4) 16) with 28.
  assert (X : Z.land ku 28 <> 0).
  { intros X. assert (Y : forall j, Z.testbit (Z.land ku 28) j = false) by (rewrite X; apply Z.bits_0).
    pose proof (Y 2) as Y2. pose proof (Y 3) as Y3. pose proof (Y 4) as Y4. rewrite Z.land_spec in Y2, Y3, Y4.
    change (Z.testbit 28 2) with true in Y2. change (Z.testbit 28 3) with true in Y3. change (Z.testbit 28 4) with true in Y4.
    destruct H as [H|[H|H]]; rewrite H in *; discriminate. }
  split; [|now apply Z.eqb_neq]. apply Z.eqb_neq. intros ->. now apply X.
Qed.

(** the suites *)
Definition offered (suites : list Z) : list Z := filter (fun id => existsb (fun s => su_id s =? id) gmCipherSuites) suites.
Lemma offered_in suites id : In id (offered suites) <-> In id suites /\ (id = 0xe013 \/ id = 0xe011).
Proof.
  unfold offered. rewrite filter_In. cbn [gmCipherSuites existsb su_id]. rewrite orb_false_r, orb_true_iff, !Z.eqb_eq. split; intros [H1 H2]; split; auto; destruct H2; auto.
Qed.
Lemma picks_ecc_negotiates prefer server client : picks_ecc prefer server client ->
  exists su, negotiate_suite gmCipherSuites (gm_suite_ok VersionGMSSL) prefer server (offered client) = Some su /\ su_id su = ECC.
Proof.
  intros (H1 & before & after & H2 & N13 & H3). exists (mkSuite 0xe013 2). split; [|reflexivity].
  apply (proj1 (P_TLS_neg.C66_server_selection true _ _ _ _)).
  assert (X : exists bef aft, (if prefer then server else offered client) = bef ++ 0xe013 :: aft /\ (forall id, In id bef -> In id before)).
  { destruct prefer; [exists before, after; auto|]. cbn in H2. subst client. exists (offered before), (offered after). split.
    - unfold offered. rewrite filter_app. reflexivity.
    - intros id H. now apply offered_in in H. }
  destruct X as (bef & aft & EX & HX). exists bef, 0xe013, aft. split; [exact EX|]. split.
  - split; [destruct prefer; [apply offered_in; auto|exact H1]|]. split; [now left|]. split; reflexivity.
  - intros id' c' Hin (Hoth & Hc & Hid & Hok). apply HX in Hin. destruct Hc as [<-|[<-|[]]]; cbn [su_id] in Hid; subst id'; [exact (N13 Hin)|].
    apply (H3 Hin). destruct prefer; [now apply offered_in in Hoth|exact Hoth].
Qed.
Lemma picks_ecc_client prefer server client : picks_ecc prefer server client -> In 0xe013 client.
Proof. intros (H1 & before & after & H2 & _). destruct prefer; [exact H1|]. cbn in H2. rewrite H2. apply in_elt. Qed.
Lemma offered_fallback suites v m : bad_fallback (offered suites) v m = false.
Proof.
  assert (H : forall id, In id (offered suites) -> id <> TLS_FALLBACK_SCSV) by (intros id H; apply offered_in in H as [_ [-> | ->]]; discriminate).
  induction (offered suites) as [|id l IH]; [reflexivity|]. cbn [bad_fallback]. destruct (Z.eqb_spec id TLS_FALLBACK_SCSV) as [->|]; [exfalso; apply (H TLS_FALLBACK_SCSV); [now left|reflexivity]|].
  apply IH. intros x Hx. apply H. now right.
Qed.
Lemma client_picks suites : In 0xe013 suites -> exists su, mutualCipherSuiteGM (offered suites) ECC = Some su /\ su_id su = ECC.
Proof.
  intros H. assert (HI : In 0xe013 (offered suites)) by (apply offered_in; auto). unfold mutualCipherSuiteGM. induction (offered suites) as [|id l IH]; [destruct HI|]. cbn [mutual_suite].
  destruct (Z.eqb_spec id ECC) as [->|N]; [eexists; split; reflexivity|]. destruct HI as [HI|HI]; [exfalso; apply N; now symmetry|auto].
Qed.
Lemma offered_length suites : (length (offered suites) <= length suites)%nat.
Proof. unfold offered. induction suites as [|a l IH]; [reflexivity|]. cbn [filter]. destruct (existsb _ _); cbn [length]; lia. Qed.
Lemma honest_ch_ok cr suites : length cr = 32%nat -> zlen suites < 2 ^ 15 -> P_TLS_msg.ch_ok (honest_ch cr (offered suites)).
Proof.
  intros L1 L2. assert (HL : zlen (offered suites) < 2 ^ 15).
  { pose proof (offered_length suites). unfold zlen in *. lia. }
  unfold P_TLS_msg.ch_ok, honest_ch. cbn [ch_vers ch_random ch_sessionId ch_suites ch_comp ch_sni ch_curves ch_points ch_sigalgs ch_reneg ch_alpn ch_ticketOn ch_ticket ch_renegOn].
  split; [unfold VersionGMSSL; lia|]. split; [exact L1|]. split; [cbn; lia|].
  split. { apply Forall_forall. intros x Hx. apply offered_in in Hx as [_ [-> | ->]]; lia. }
  split; [lia|]. split; [cbn; lia|]. split; [congruence|]. split; [constructor|]. split; [cbn; lia|]. split; [constructor|]. split; [cbn; lia|]. split; [constructor|].
  split; [auto|]. split; [intros _; split; [auto|]; intros H; apply offered_in in H as [_ [H|H]]; discriminate|]. cbn. lia.
Qed.
Lemma honest_sh_ok sr : length sr = 32%nat -> P_TLS_msg.sh_ok (honest_sh sr).
Proof.
  intros L. unfold P_TLS_msg.sh_ok, honest_sh. cbn [sh_vers sh_random sh_sessionId sh_suite sh_comp sh_npn sh_protos sh_scts sh_reneg sh_renegOn sh_alpn].
  unfold VersionGMSSL, ECC, is_byte. split; [lia|]. split; [exact L|]. split; [cbn; lia|]. split; [lia|]. split; [lia|]. split; [auto|]. split; [constructor|]. split; [constructor|].
  split; [cbn; lia|]. split; [auto|]. split; [cbn; lia|]. cbn. lia.
Qed.
Lemma fin_ok Hs v master lbl t : good_hashes Hs -> bytes master -> bytes lbl -> bytes t -> let f := PRF Hs v 12 master lbl t in bytes f /\ length f = 12%nat.
Proof. intros HG B1 B2 B3 f. split; [apply PRF_bytes; auto; lia|apply PRF_length]. Qed.

Definition good_msg (m : list Z) : Prop := bytes m /\ framed m.
Lemma good_msg_intro t m : bytes m /\ zlen m < 2 ^ 24 + 4 -> P_TLS_msg.framed t m -> good_msg m.
Proof.
  intros [B L] (body & ->). split; [exact B|]. exists t, body. split; [|reflexivity]. pose proof (zlen_nonneg body). rewrite zlen_cons, zlen_app, zlen_be_bytes in L. lia.
Qed.
Lemma good_msg_len m : good_msg m -> zlen m < 2 ^ 24 + 4.
Proof. intros [_ (t & body & L & ->)]. rewrite zlen_cons, zlen_app, zlen_be_bytes. lia. Qed.
Lemma good_msgs_len l : Forall good_msg l -> bytes (concat l) /\ zlen (concat l) <= (2 ^ 24 + 4) * zlen l.
Proof.
  induction 1 as [|m l H HF [B IH]]; [split; [constructor|reflexivity]|]. cbn [concat]. rewrite zlen_app, zlen_cons. apply good_msg_len in H as HL. destruct H as [H _].
  split; [apply bytes_app; auto|lia].
Qed.
Lemma der_tlv_bytes t c : 0 <= t < 256 -> zlen c < 2 ^ 31 -> bytes c -> bytes (der_tlv t c).
Proof.
  intros Ht Hl Hc. unfold der_tlv. apply bytes_cons. split; [exact Ht|]. apply bytes_app. split; [|exact Hc].
  pose proof (zlen_nonneg c) as H0. unfold len_enc. destruct (Z.ltb_spec (zlen c) 128); [apply bytes_cons; split; [unfold is_byte; lia|constructor]|].
  apply bytes_cons. split; [|apply Bytes_bytes]. assert (nbytes (zlen c) <= 4)%nat by (apply nbytes_le; rewrite Z.abs_eq by lia; change (256 ^ Z.of_nat 4) with (2 ^ 32); lia). unfold is_byte. lia.
Qed.
Lemma der_sig_out r s : 0 <= r < 2 ^ 256 -> 0 <= s < 2 ^ 256 -> bytes (der_seq [der_int r; der_int s]) /\ zlen (der_seq [der_int r; der_int s]) <= 84.
Proof.
  intros Hr Hs. pose proof (int_content_length r Hr). pose proof (int_content_length s Hs). pose proof (der_int_length r Hr). pose proof (der_int_length s Hs).
  assert (B : forall z, 0 <= z < 2 ^ 256 -> bytes (der_int z)). { clear. intros z Hz. pose proof (int_content_length z Hz) as Hq. apply (der_tlv_bytes 2 (int_content z)); [easy| |apply int_content_bytes]. clear -Hq. change (2 ^ 31) with 2147483648. lia. }
  assert (L : zlen (concat [der_int r; der_int s]) = zlen (der_int r) + zlen (der_int s)). { cbn [concat]. rewrite app_nil_r, zlen_app. reflexivity. }
  unfold der_seq. split.
  - apply (der_tlv_bytes 48); [easy| |]. { change (2 ^ 31) with 2147483648. lia. } cbn [concat]. rewrite app_nil_r. apply bytes_app. auto.
  - pose proof (der_tlv_length 48 (concat [der_int r; der_int s]) ltac:(lia)). lia.
Qed.
Lemma Sign_range {T} (cv : curve T) b priv m r s : Sign cv b priv m = Ok (r, s) -> 0 <= r < 2 ^ 256 /\ 0 <= s < 2 ^ 256.
Proof.
  Transparent Sign. unfold Sign. Opaque Sign. destruct (hash_msg (sPub priv) m) as [e| |]; try discriminate. cbn [rbind].
  destruct (generateRandK b) as [k|]; [|discriminate]. destruct (cv_base cv (Bytes k)) as [x y]. cbv zeta.
  generalize ((k - (e + x) mod sm2_n * sD priv) * s2_of priv). intros w. generalize (e + x). intros v. intros HH.
  pose proof n_lt256 as H1. pose proof (mod_n_range v) as H2. pose proof (mod_n_range w) as H3. clear -HH H1 H2 H3. remember (v mod sm2_n) as v'. remember (w mod sm2_n) as w'.
  clear Heqv' Heqw'. revert HH H1 H2 H3. generalize sm2_n (2 ^ 256). intros n0 q HH. injection HH as <- <-. lia.
Qed.
Lemma skx_out {T} (cv : curve T) b priv certs cr sr key : generateServerKeyExchange cv b (Some priv) certs cr sr = Ok key -> bytes key /\ zlen key < 2 ^ 10.
Proof.
  unfold generateServerKeyExchange. destruct certs as [|c0 certs]; [discriminate|]. cbv zeta. unfold PrivSign. destruct (Sign cv b priv _) as [[r s]| |] eqn:HS; try discriminate. cbn [rbind].
  apply Sign_range in HS as [Hr Hs]. destruct (der_sig_out r s Hr Hs) as [B L]. generalize dependent (der_seq [der_int r; der_int s]). clear. intros sig B L HH. injection HH as <-.
  split; [byt|]. unfold zlen in *. rewrite ?app_length. cbn [length app]. lia.
Qed.
Lemma ckx_out {T} (cv : curve T) priv b rnd vers fuel pms ct : good_curve cv -> tab_ok cv (sPub priv) -> 1 <= sD priv <= sm2_n - 1 -> (pX (sPub priv), pY (sPub priv)) = aff (smul (sD priv) pG) ->
  bytes rnd -> length rnd = 46%nat -> generateClientKeyExchange cv fuel (Some rnd) (Some b) vers (sPub priv) = Some (Ok (pms, ct)) -> bytes ct /\ zlen ct < 2 ^ 10.
Proof.
  intros GC TB HD HP B L H. unfold generateClientKeyExchange in H. cbv zeta in H. set (m := [_; _] ++ rnd) in H.
  assert (Bm : bytes m) by (unfold m; byt). assert (Lm : length m = 48%nat) by (unfold m; rewrite app_length; cbn [length]; lia). clearbody m.
  destruct (Encrypt cv fuel (Some b) (sPub priv) m) as [[c| |]|] eqn:HE; try discriminate. cbn [option_map rbind] in H. injection H as _ <-.
  destruct (P_SM2.C19_good T cv priv b m fuel c GC TB HD HP Bm ltac:(unfold zlen; lia) HE) as (Ec & Lc & _).
  assert (LL : zlen c < 2 ^ 9) by (unfold zlen; lia).
  assert (Bc : bytes c).
  { rewrite Ec. unfold sm2_cipher, c3_of, c2_of. apply bytes_app; split; [byt|]. apply bytes_app; split; [apply be_bytes_bytes|]. apply bytes_app; split; [apply be_bytes_bytes|].
    apply bytes_app; split.
    - apply sm3_length_bytes; [apply bytes_app; split; [apply be_bytes_bytes|apply bytes_app; split; [exact Bm|apply be_bytes_bytes]]|].
      rewrite !zlen_app, !zlen_be_bytes. unfold zlen. lia.
    - destruct (shared_bytes_ok (smul (k_of_bytes b) (smul (sD priv) pG))) as [S1 S2]. apply xorl_bytes; [|exact Bm]. apply kdf_bytes; [exact S1|lia]. }
  split; [byt|]. unfold zlen in *. rewrite ?app_length. cbn [length app]. lia.
Qed.
Lemma finished_out Hs master t : good_hashes Hs -> bytes master -> bytes t -> zlen t < 2 ^ 60 ->
  (bytes (client_finished Hs GMSSL master t) /\ zlen (client_finished Hs GMSSL master t) = 12) /\ (bytes (server_finished Hs GMSSL master t) /\ zlen (server_finished Hs GMSSL master t) = 12).
Proof.
  intros HG B1 B2 L. assert (X : bytes (sm3 t)) by (apply sm3_length_bytes; [exact B2|lia]). unfold client_finished, server_finished, transcript_hash, zlen. rewrite !PRF_length.
  split; (split; [|reflexivity]); apply PRF_bytes; auto; try (apply bytesb_spec; reflexivity); lia.
Qed.
Ltac gms := repeat match goal with |- Forall _ (_ ++ _) => apply Forall_app; split | |- Forall _ (_ :: _) => apply Forall_cons; [assumption|] | |- Forall _ [] => apply Forall_nil end; try assumption.
(** both ends hold the same secrets, keys, randoms, version and suite *)
Definition same_session {T} (rc rs : hresult T) (clog slog : list event) : Prop :=
  hr_vers rc = 0x0101 /\ hr_vers rs = 0x0101 /\ hr_suite rc = 0xe013 /\ hr_suite rs = 0xe013 /\ hr_master rc = hr_master rs /\
  hr_clientRandom rc = hr_clientRandom rs /\ hr_serverRandom rc = hr_serverRandom rs /\ exists kb, keys_of clog = [kb] /\ keys_of slog = [kb].
(** the configured suites and certificates fit into messages a peer takes *)
Definition small_config {T} (ccfg scfg : config T) : Prop := zlen (getCipherSuites (cf_suites ccfg)) <= 32000 /\ 3 * zlen (sent_certs scfg) + sum_len (sent_certs scfg) <= 65000.
(** what the five messages are, and the completion of the handshake around any client authentication that fits *)
Lemma honest_run {T} (Ec Es : env T) Hs ccfg scfg crn srn cr sr b rnd b' c0 c1 k0 k1 d1 x0 x1 xs :
  world_ok Ec Hs -> world_ok Es Hs -> e_cv Es = e_cv Ec -> good_curve (e_cv Ec) ->
  server_ready Es scfg srn sr b c0 c1 k0 k1 d1 -> client_ready Ec ccfg crn cr rnd b' (sent_certs scfg) k0 k1 d1 x0 x1 xs ->
  picks_ecc (cf_prefer scfg) (getCipherSuites (cf_suites scfg)) (getCipherSuites (cf_suites ccfg)) ->
  exists r s, Sign (e_cv Ec) (Some b) k0 (cr ++ sr ++ [u8 (Z.shiftr (zlen d1) 16); u8 (Z.shiftr (zlen d1) 8); u8 (zlen d1)] ++ d1) = Ok (r, s) /\ (r <> 0 -> s <> 0 ->
  exists chraw m_sh m_cert m_skx m_ckx, Forall good_msg [chraw; m_sh; m_cert; m_skx; m_ckx] /\
    forall a rp, let pre := [chraw; m_sh; m_cert; m_skx] ++ a_req a ++ [m_serverHelloDone] ++ a_cert a ++ [m_ckx] in
    server_takes Es scfg VersionGMSSL (concat pre) a -> client_gives Ec ccfg crn (concat pre) a rp ->
    Forall good_msg (a_req a ++ a_cert a ++ a_cv a) ->
    exists clog slog rc rs, clientHandshakeGM Ec script ccfg None crn (outbox slog, []) = (HOk (rc, None), ([], clog)) /\
      serverHandshakeGM Es script scfg None srn (outbox clog, []) = (HOk rs, ([], slog)) /\
      hr_resumed rc = false /\ hr_resumed rs = false /\ wire clog = wire slog /\ wire_ok clog /\ hr_peer rc = x0 :: x1 :: xs /\ Forall framed (wire clog) /\
      same_session rc rs clog slog /\ (exists rest, transcript clog = concat pre ++ rest) /\ (small_config ccfg scfg -> Forall fits (a_req a ++ a_cert a ++ a_cv a) -> Forall fits (wire clog))).
Proof.
  intros (HLc & HGc & _) (HLs & HGs & _) EV GC SR CR PE.
  destruct SR as [[more CE] [d0 Ch0] [r1 Ch1] (Ky0 & KO0 & TB0) (Ky1 & KD1 & KP1 & TB1) MV (RHs & Bsr & Lsr) RS [CO CS] KLs].
  destruct CR as [NM (RHc & Bcr & Lcr) (RP & Brnd & Lrnd) (RE & FU & KU) HF HP (Gx0 & Gx1 & Rx1) (U0 & U1) HV VP LS KLc].
  rewrite EV in TB0, TB1.
  (* the signature *)
  assert (D1 : P_TLS_msg.cert_ok d1).
  { rewrite Forall_forall in CO. apply CO. unfold sent_certs. rewrite CE. cbn [map concat]. rewrite Ch0, Ch1. cbn. auto. }
  destruct D1 as [Bd1 Ld1].
  destruct (P_TLS_gmka.C60_honest_server_accepted T (e_cv Ec) k0 b cr sr r1 d1 GC KO0 TB0 Bcr Bsr Bd1 Lcr Lsr ltac:(lia)) as (key & r & s & GS & SG & AC).
  rewrite P_TLS_gmka.C60_signed_data in SG. exists r, s. split; [exact SG|]. intros Nr Ns. specialize (AC Nr Ns).
  (* the key exchange *)
  assert (GK : exists pms ct, generateClientKeyExchange (e_cv Ec) (e_fuel Ec) (Some rnd) (Some b') VersionGMSSL (sPub k1) = Some (Ok (pms, ct))).
  { unfold generateClientKeyExchange. cbv zeta. set (m := [_; _] ++ rnd). assert (Bm : bytes m) by (unfold m; byt). assert (Lm : length m = 48%nat) by (unfold m; rewrite app_length; cbn [length]; lia). clearbody m.
    destruct (e_fuel Ec) as [|fu]; [lia|]. pose proof (k_range b') as KR.
    assert (HB : base_ok (e_cv Ec) (k_of_bytes b')) by (apply good_base; auto; lia).
    assert (HR : pre_ok (e_cv Ec) (sPub k1) (smul (sD k1) pG) (k_of_bytes b')) by (apply good_pre; auto; [apply on_smul, G_on|lia]).
    destruct (P_SM2.C19_encrypt_result T (e_cv Ec) (sPub k1) (smul (sD k1) pG) b' m fu (on_smul _ _ G_on) HB HR Bm ltac:(unfold zlen; lia)) as [K _]. rewrite Lm in K. destruct (K KU) as [K1 _]. rewrite K1.
    cbn [option_map rbind]. do 2 eexists. exact eq_refl. }
  destruct GK as (pms & ct & GK).
  destruct (P_TLS_gmka.C58_same_pre_master_secret T (e_cv Ec) k1 b' rnd VersionGMSSL (e_fuel Ec) pms ct GC TB1 KD1 KP1 Brnd Lrnd ltac:(unfold VersionGMSSL; lia) GK) as (Epms & Lpms & PC).
  assert (Bpms : bytes pms) by (rewrite Epms; apply bytes_app; split; [apply be_bytes_bytes|exact Brnd]).

  destruct (skx_out _ _ _ _ _ _ _ GS) as [Bkey Lkey]. destruct (ckx_out _ _ _ _ _ _ _ _ GC TB1 KD1 KP1 Brnd Lrnd GK) as [Bct Lct].
  (* the messages *)
  set (suites := offered (getCipherSuites (cf_suites ccfg))).
  destruct (P_TLS_msg.C63_clientHello _ (honest_ch_ok cr _ Lcr LS)) as (chraw & M1 & F1 & U1').
  destruct (P_TLS_msg.C63_serverHello _ (honest_sh_ok sr Lsr)) as (m_sh & M2 & F2 & U2').
  destruct (P_TLS_msg.C63_certificate _ CO CS) as (m_cert & M3 & F3 & U3').
  destruct (P_TLS_msg.C63_serverKeyExchange key) as (m_skx & M4 & F4 & U4').
  destruct (P_TLS_msg.C63_clientKeyExchange ct ltac:(lia)) as (m_ckx & M5 & F5 & U5').
  assert (LO : zlen suites < 2 ^ 20) by (pose proof (offered_length (getCipherSuites (cf_suites ccfg))); unfold suites, zlen in *; lia).
  pose proof (good_msg_intro _ _ (out_ch _ _ _ Bcr LO M1) F1) as G1.
  pose proof (good_msg_intro _ _ (out_sh _ _ Bsr M2) F2) as G2.
  pose proof (good_msg_intro _ _ (out_cert _ _ CO CS M3) F3) as G3.
  pose proof (good_msg_intro _ _ (out_skx _ _ Bkey ltac:(lia) M4) F4) as G4.
  pose proof (good_msg_intro _ _ (out_ckx _ _ Bct ltac:(lia) M5) F5) as G5.
  assert (GD : good_msg m_serverHelloDone) by (apply (good_msg_intro 14); [split; [apply bytesb_spec; reflexivity|reflexivity]|apply P_TLS_msg.C63_serverHelloDone]).
  exists chraw, m_sh, m_cert, m_skx, m_ckx. split; [gms|].
  intros a rp pre TK GV GA.
  (* the secrets *)
  assert (Spms : small pms) by (split; [exact Bpms|unfold zlen; lia]).
  pose proof (P_TLS_prf.C55_master_secret _ Hs HLc HGc GMSSL false pms cr sr Spms Bcr Bsr Lcr Lsr) as [Mc Lm].
  pose proof (P_TLS_prf.C55_master_secret _ Hs HLs HGs GMSSL false pms cr sr Spms Bcr Bsr Lcr Lsr) as [Ms _].
  set (master := PRF Hs GMSSL 48 pms ascii_master_secret (cr ++ sr)) in *.
  assert (Bm : bytes master). { apply PRF_bytes; auto; [apply bytesb_spec; reflexivity|apply bytes_app; auto|lia]. }
  assert (Sm : small master) by (split; [exact Bm|unfold zlen; rewrite Lm; reflexivity]). clearbody master.
  destruct (P_TLS_prf.C55_key_block _ Hs HLc HGc GMSSL false master cr sr 32 16 16 Sm Bcr Bsr Lcr Lsr ltac:(discriminate)) as (kc & Kc & Cc & _).
  destruct (P_TLS_prf.C55_key_block _ Hs HLs HGs GMSSL false master cr sr 32 16 16 Sm Bcr Bsr Lcr Lsr ltac:(discriminate)) as (ks & Ks & _ & Uq).
  apply Uq in Cc. subst ks. change (vers_of GMSSL) with VersionGMSSL in *. change (sha384_of GMSSL false) with false in *.
  set (kb := mkKB (client_mac kc) (server_mac kc) (client_key kc) (server_key kc) (client_iv kc) (server_iv kc)).
  assert (KBc : gm_keys (e_std Ec) VersionGMSSL master cr sr = HOk kb) by (unfold gm_keys; rewrite Kc; reflexivity).
  assert (KBs : gm_keys (e_std Es) VersionGMSSL master cr sr = HOk kb) by (unfold gm_keys; rewrite Ks; reflexivity).
  (* sizes *)
  apply Forall_app in GA as [GA1 GA2]. apply Forall_app in GA2 as [GA2 GA3].
  assert (GP : Forall good_msg (pre ++ a_cv a)).
  { unfold pre. gms. }
  assert (LP : zlen (pre ++ a_cv a) <= 10).
  { unfold pre. destruct a; unfold zlen; cbn [a_req a_cert a_cv app length]; lia. }
  destruct (good_msgs_len _ GP) as [BT LT]. assert (LT' : zlen (concat (pre ++ a_cv a)) < 2 ^ 40) by lia.
  destruct (finished_out Hs master _ HGc Bm BT ltac:(lia)) as [[Bcf Lcf] _].
  destruct (P_TLS_msg.C63_finished (client_finished Hs GMSSL master (concat (pre ++ a_cv a))) ltac:(lia)) as (m_cfin & M6 & F6 & U6').
  pose proof (good_msg_intro _ _ (out_fin _ _ Bcf ltac:(lia) M6) F6) as G6. pose proof (good_msg_len _ G6) as L6.
  assert (BT2 : bytes (concat (pre ++ a_cv a) ++ m_cfin)) by (apply bytes_app; split; [exact BT|apply G6]).
  assert (LT2 : zlen (concat (pre ++ a_cv a) ++ m_cfin) < 2 ^ 41) by (rewrite zlen_app; lia).
  destruct (finished_out Hs master _ HGc Bm BT2 ltac:(lia)) as [_ [Bsf Lsf]].
  destruct (P_TLS_msg.C63_finished (server_finished Hs GMSSL master (concat (pre ++ a_cv a) ++ m_cfin)) ltac:(lia)) as (m_sfin & M7 & F7 & U7').
  pose proof (good_msg_intro _ _ (out_fin _ _ Bsf ltac:(lia) M7) F7) as G7. pose proof (good_msg_len _ G7) as L7.
  assert (MT : forall t m, P_TLS_msg.framed t m -> mtype m = t) by (intros t m (bd & ->); reflexivity).
  (* the two runs *)
  destruct (picks_ecc_negotiates _ _ _ PE) as (su & NS & SU). destruct (client_picks _ (picks_ecc_client _ _ _ PE)) as (su' & NS' & SU').
  fold suites in NS, NS'.
  assert (MH : makeClientHelloGM ccfg crn = Ok (honest_ch cr suites)).
  { unfold makeClientHelloGM. replace ((zlen (cf_serverName ccfg) =? 0) && negb (cf_skip ccfg)) with false.
    - rewrite RHc. reflexivity.
    - destruct NM as [-> |NM]; [rewrite andb_false_r; reflexivity|]. destruct (cf_serverName ccfg); [congruence|]. reflexivity. }
  destruct (TLS_hs_run.server_run Es Hs HLs HGs scfg srn cr suites sr chraw c0 c1 more su a m_sh m_cert key m_skx m_ckx ct pms master kb m_cfin m_sfin [])
    as (rs & RUNs & Rs1 & Rs2 & Rs3 & Rs4 & Rs5 & Rs6); auto; try (apply G1 || apply G2 || apply G3 || apply G4 || apply G5 || apply G6 || apply G7).
  { apply p_ch; [apply MT; exact F1|exact U1']. }
  { apply offered_fallback. }
  { rewrite EV, Ky0, Ch1, RS. exact GS. }
  { apply p_ckx; [apply MT; exact F5|exact U5']. }
  { rewrite EV, Ky1. exact PC. }
  { fold pre. lia. }
  { apply p_fin; [apply MT; exact F6|exact U6']. }
  destruct (client_run_full Ec Hs HLc HGc ccfg crn cr suites sr chraw su' a rp m_sh m_cert (sent_certs scfg) x0 x1 xs key (sPub k1) m_skx ct pms m_ckx master kb m_cfin m_sfin [])
    as (rc & RUNc & Rc1 & Rc2 & Rc3 & Rc4 & Rc5 & Rc6 & Rc7); auto; try (apply G1 || apply G2 || apply G3 || apply G4 || apply G5 || apply G6 || apply G7).
  { apply p_sh; [apply MT; exact F2|exact U2']. }
  { apply p_cert; [apply MT; exact F3|exact U3']. }
  { now apply ku_sign_conv. }
  { now apply ku_enc_conv. }
  { apply p_skx; [apply MT; exact F4|exact U4']. }
  { rewrite Gx0, Rx1. exact AC. }
  { rewrite RP, RE. exact GK. }
  { fold pre. lia. }
  { apply p_fin; [apply MT; exact F7|exact U7']. }
  (* the logs fit together *)
  assert (OB : forall l, outbox (map EvSend l) = map IMsg l) by (induction l as [|y l IH]; [reflexivity|]; cbn [map outbox flat_map]; unfold outbox in IH; rewrite IH; reflexivity).
  assert (OB' : forall l, outbox (map EvRecv l) = []) by (induction l as [|y l IH]; [reflexivity|]; cbn [map outbox flat_map]; exact IH).
  assert (OA : forall l l', outbox (l ++ l') = outbox l ++ outbox l') by (intros; apply flat_map_app).
  assert (WS : forall l, wire (map EvSend l) = l) by (induction l as [|y l IH]; [reflexivity|]; cbn [map wire flat_map]; unfold wire in IH; rewrite IH; reflexivity).
  assert (WR : forall l, wire (map EvRecv l) = l) by (induction l as [|y l IH]; [reflexivity|]; cbn [map wire flat_map]; unfold wire in IH; rewrite IH; reflexivity).
  eexists. eexists. exists rc, rs. split. { rewrite <- RUNc at 1. f_equal. f_equal. instantiate (1 := EvRecv chraw :: map EvSend ([m_sh; m_cert; m_skx] ++ a_req a ++ [m_serverHelloDone]) ++ map EvRecv (a_cert a ++ [m_ckx] ++ a_cv a) ++
                  [EvKeys kb; EvRecvCCS; EvRecv m_cfin; EvSendCCS; EvSend m_sfin]).
    change (EvRecv chraw :: ?l) with ([EvRecv chraw] ++ l). rewrite !OA, OB, OB'. reflexivity. }
  split. { rewrite <- RUNs at 1. f_equal. f_equal. change (EvSend chraw :: ?l) with (map EvSend [chraw] ++ l). rewrite !OA, OB', !OB. cbn [map app]. rewrite !map_app, <- !app_assoc. reflexivity. }
  assert (WC : forall l1 l2 k, wire (EvSend chraw :: map EvRecv l1 ++ map EvSend l2 ++ [EvKeys k; EvSendCCS; EvSend m_cfin; EvRecvCCS; EvRecv m_sfin]) = [chraw] ++ l1 ++ l2 ++ [m_cfin; m_sfin]).
  { intros. change (EvSend chraw :: ?l) with (map EvSend [chraw] ++ l). rewrite !wire_app, WR, !WS. reflexivity. }
  assert (WS' : forall l1 l2 k, wire (EvRecv chraw :: map EvSend l1 ++ map EvRecv l2 ++ [EvKeys k; EvRecvCCS; EvRecv m_cfin; EvSendCCS; EvSend m_sfin]) = [chraw] ++ l1 ++ l2 ++ [m_cfin; m_sfin]).
  { intros. change (EvRecv chraw :: ?l) with (map EvRecv [chraw] ++ l). rewrite !wire_app, !WR, !WS. reflexivity. }
  split; [exact Rc1|]. split; [exact Rs1|]. split; [rewrite WC, WS'; reflexivity|].
  assert (GW : Forall good_msg ([chraw] ++ ([m_sh; m_cert; m_skx] ++ a_req a ++ [m_serverHelloDone]) ++ (a_cert a ++ [m_ckx] ++ a_cv a) ++ [m_cfin; m_sfin])).
  { gms. }
  assert (KO : forall l, keys_of (map EvSend l) = [] /\ keys_of (map EvRecv l) = []) by (induction l as [|y l [IH1 IH2]]; [split; reflexivity|]; split; [exact IH1|exact IH2]).
  assert (KA : forall l l', keys_of (l ++ l') = keys_of l ++ keys_of l') by (intros; apply flat_map_app).
  unfold wire_ok, transcript. rewrite WC. split; [|split; [exact Rc7|split; [|split; [|split]]]].
  - destruct (good_msgs_len _ GW) as [X1 X2]. split; [exact X1|].
    assert (LW : zlen ([chraw] ++ ([m_sh; m_cert; m_skx] ++ a_req a ++ [m_serverHelloDone]) ++ (a_cert a ++ [m_ckx] ++ a_cv a) ++ [m_cfin; m_sfin]) <= 11).
    { destruct a; unfold zlen; cbn [a_req a_cert a_cv app length]; lia. }
    lia.
  - eapply Forall_impl; [|exact GW]. intros m H. apply H.
  - unfold same_session. rewrite Rc2, Rs2, Rc3, Rs3, Rc4, Rs4, Rc5, Rs5, Rc6, Rs6. repeat (split; [reflexivity|]). exists kb.
    change (EvSend chraw :: ?l) with (map EvSend [chraw] ++ l). change (EvRecv chraw :: ?l) with (map EvRecv [chraw] ++ l). rewrite !KA.
    rewrite (proj1 (KO _)), !(proj2 (KO _)), !(proj1 (KO _)). split; reflexivity.
  - exists (concat (a_cv a ++ [m_cfin; m_sfin])). rewrite <- concat_app. f_equal. unfold pre. rewrite <- !app_assoc. reflexivity.
  - intros [SC1 SC2] FA. apply Forall_app in FA as [FA1 FA2]. apply Forall_app in FA2 as [FA2 FA3].
    assert (X1 : fits chraw) by (apply (fits_ch cr suites); [pose proof (offered_length (getCipherSuites (cf_suites ccfg))); unfold suites, zlen in *; lia|exact M1]).
    assert (X2 : fits m_sh) by exact (fits_sh _ _ M2). assert (X3 : fits m_cert) by exact (fits_cert _ _ SC2 M3). assert (X4 : fits m_skx) by exact (fits_skx _ _ Lkey M4). assert (X5 : fits m_ckx) by exact (fits_ckx _ _ Lct M5).
    assert (X6 : fits m_cfin) by (apply (fits_fin _ _) with (2 := M6); rewrite Lcf; reflexivity). assert (X7 : fits m_sfin) by (apply (fits_fin _ _) with (2 := M7); rewrite Lsf; reflexivity). assert (X8 : fits m_serverHelloDone) by (unfold fits; cbn; lia).
    gms.
Qed.

Definition completed_together {T} (Ec Es : env T) (ccfg scfg : config T) (crn srn : rnds) (x0 x1 : gcert T) (xs : list (gcert T)) (clog slog : list event) (rc rs : hresult T) : Prop :=
  (* each end reads what the other writes, all of it, and completes *)
  clientHandshakeGM Ec script ccfg None crn (outbox slog, []) = (HOk (rc, None), ([], clog)) /\
  serverHandshakeGM Es script scfg None srn (outbox clog, []) = (HOk rs, ([], slog)) /\
  hr_resumed rc = false /\ hr_resumed rs = false /\ wire clog = wire slog /\ wire_ok clog /\ Forall framed (wire clog) /\ hr_peer rc = x0 :: x1 :: xs /\ same_session rc rs clog slog.

(** C91: two honest ends complete the handshake, with the same keys.  The only condition on chance is that neither number of the server's signature
    and not all of the encryption's key stream is zero (C13, C21). *)
Theorem C91_completes {T} (Ec Es : env T) Hs ccfg scfg crn srn cr sr b rnd b' c0 c1 k0 k1 d1 x0 x1 xs :
  world_ok Ec Hs -> world_ok Es Hs -> e_cv Es = e_cv Ec -> good_curve (e_cv Ec) ->
  server_ready Es scfg srn sr b c0 c1 k0 k1 d1 -> client_ready Ec ccfg crn cr rnd b' (sent_certs scfg) k0 k1 d1 x0 x1 xs ->
  picks_ecc (cf_prefer scfg) (getCipherSuites (cf_suites scfg)) (getCipherSuites (cf_suites ccfg)) ->
  cf_auth scfg = NoClientCert ->
  exists r s, Sign (e_cv Ec) (Some b) k0 (cr ++ sr ++ [u8 (Z.shiftr (zlen d1) 16); u8 (Z.shiftr (zlen d1) 8); u8 (zlen d1)] ++ d1) = Ok (r, s) /\
    (r <> 0 -> s <> 0 -> exists clog slog rc rs, completed_together Ec Es ccfg scfg crn srn x0 x1 xs clog slog rc rs /\ (small_config ccfg scfg -> Forall fits (wire clog))).
Proof.
  intros W1 W2 EV GC SR CR PE NA. destruct (honest_run Ec Es Hs ccfg scfg crn srn cr sr b rnd b' c0 c1 k0 k1 d1 x0 x1 xs W1 W2 EV GC SR CR PE) as (r & s & SG & H).
  exists r, s. split; [exact SG|]. intros Nr Ns. destruct (H Nr Ns) as (chraw & m_sh & m_cert & m_skx & m_ckx & GM & HH).
  destruct (HH None None) as (clog & slog & rc & rs & H1 & H2 & H3 & H4 & H5 & H6 & H7 & H8 & H9 & _ & HSZ); [exact NA|exact I|apply Forall_nil|].
  exists clog, slog, rc, rs. split; [repeat (split; [assumption|]); exact H9|]. intros SC. apply HSZ; [exact SC|apply Forall_nil].
Qed.
Print Assumptions C91_completes.

(** ** With a client certificate *)
(** the list of names in the server's CertificateRequest *)
Definition asked_cas {T} (cfg : config T) : list (list Z) := match cf_clientCAs cfg with Some p => X509_model.Subjects p | None => [] end.
Record client_cert_ready {T} (Ec Es : env T) (ccfg scfg : config T) (crn : rnds) (cc : certificate T) (kc : privkey T) (bc : list Z) (y0 : gcert T) (ys : list (gcert T)) (chains : list (list cert)) : Prop := {
  cc_asked : RequestClientCert <= cf_auth scfg;
  cc_cas : P_TLS_msg.cr_ok false (TLS_msg_model.mkCR [1; 64] [] (asked_cas scfg)) /\ Forall bytes (asked_cas scfg);
  cc_chosen : match cf_getClientCert ccfg with Some f => f (asked_cas scfg) = Ok (Some cc) | None => find_chain Ec (asked_cas scfg) (cf_certs ccfg) = Ok cc end;
  cc_chain : ce_chain cc <> [] /\ Forall P_TLS_msg.cert_ok (ce_chain cc) /\ 3 * zlen (ce_chain cc) + sum_len (ce_chain cc) < 2 ^ 24 - 3;
  cc_key : ce_key cc = Some kc /\ key_ok kc /\ tab_ok (e_cv Ec) (sPub kc) /\ r_sign crn = Some bc;
  cc_parse : Forall2 (fun d c => e_parse Es d = Some c) (ce_chain cc) (y0 :: ys) /\ g_pub y0 = PkSM2 (sPub kc);
  cc_verify : if VerifyClientCertIfGiven <=? cf_auth scfg
              then exists roots, match cf_clientCAs scfg with Some p => Some p | None => e_sysroots Es end = Some roots /\ x509_verify Es (client_verify_opts scfg roots ys) y0 = Some chains
              else chains = [];
  cc_callback : cf_verifyPeer scfg = None }.
Lemma parse_all_run {T} (E : env T) ders certs : Forall2 (fun d c => e_parse E d = Some c) ders certs -> parse_all E ders = Some certs.
Proof. induction 1 as [|d c ds cs H HF IH]; [reflexivity|]. cbn [parse_all]. now rewrite H, IH. Qed.

(** C91, with client authentication: the client's signature over the hash of the messages so far is accepted as well *)
Theorem C91_completes_mutual {T} (Ec Es : env T) Hs ccfg scfg crn srn cr sr b rnd b' c0 c1 k0 k1 d1 x0 x1 xs cc kc bc y0 ys chains :
  world_ok Ec Hs -> world_ok Es Hs -> e_cv Es = e_cv Ec -> good_curve (e_cv Ec) ->
  server_ready Es scfg srn sr b c0 c1 k0 k1 d1 -> client_ready Ec ccfg crn cr rnd b' (sent_certs scfg) k0 k1 d1 x0 x1 xs ->
  picks_ecc (cf_prefer scfg) (getCipherSuites (cf_suites scfg)) (getCipherSuites (cf_suites ccfg)) ->
  client_cert_ready Ec Es ccfg scfg crn cc kc bc y0 ys chains ->
  exists r s, Sign (e_cv Ec) (Some b) k0 (cr ++ sr ++ [u8 (Z.shiftr (zlen d1) 16); u8 (Z.shiftr (zlen d1) 8); u8 (zlen d1)] ++ d1) = Ok (r, s) /\
    (r <> 0 -> s <> 0 -> exists t r' s', Sign (e_cv Ec) (Some bc) kc (sm3 t) = Ok (r', s') /\
      (r' <> 0 -> s' <> 0 -> exists clog slog rc rs, completed_together Ec Es ccfg scfg crn srn x0 x1 xs clog slog rc rs /\ (exists rest, transcript clog = t ++ rest) /\
        (small_config ccfg scfg -> cas_len (asked_cas scfg) <= 65000 -> 3 * zlen (ce_chain cc) + sum_len (ce_chain cc) <= 65000 -> Forall fits (wire clog)))).
Proof.
  intros W1 W2 EV GC SR CR PE CC. destruct (honest_run Ec Es Hs ccfg scfg crn srn cr sr b rnd b' c0 c1 k0 k1 d1 x0 x1 xs W1 W2 EV GC SR CR PE) as (r & s & SG & H).
  exists r, s. split; [exact SG|]. intros Nr Ns. destruct (H Nr Ns) as (chraw & m_sh & m_cert & m_skx & m_ckx & GM & HH).
  destruct CC as [RQ (CO & CB) CH (NE & CF & CL) (CK & KO & TB & RSi) (PA & PK) CV VP].
  destruct (P_TLS_msg.C63_certificateRequestGM [1; 64] (asked_cas scfg) CO) as (m_req & M1 & F1 & U1).
  destruct (P_TLS_msg.C63_certificate _ CF CL) as (m_cc & M2 & F2 & U2).
  assert (LC : cas_len (asked_cas scfg) < 2 ^ 16) by (destruct CO as (_ & _ & _ & _ & _ & X & _); exact X).
  pose proof (good_msg_intro _ _ (out_req _ _ CB LC M1) F1) as G1. pose proof (good_msg_intro _ _ (out_cert _ _ CF CL M2) F2) as G2.
  assert (GD : good_msg m_serverHelloDone) by (apply (good_msg_intro 14); [split; [apply bytesb_spec; reflexivity|reflexivity]|apply P_TLS_msg.C63_serverHelloDone]).
  set (pre := [chraw; m_sh; m_cert; m_skx] ++ [m_req] ++ [m_serverHelloDone] ++ [m_cc] ++ [m_ckx]).
  assert (GP : Forall good_msg pre). { inversion GM as [|? ? X1 GM1]; subst. inversion GM1 as [|? ? X2 GM2]; subst. inversion GM2 as [|? ? X3 GM3]; subst. inversion GM3 as [|? ? X4 GM4]; subst. inversion GM4 as [|? ? X5 GM5]; subst. unfold pre. gms. }
  destruct (good_msgs_len _ GP) as [BT LT]. assert (LP : zlen pre = 8) by reflexivity. rewrite LP in LT. clear LP.
  destruct (sm3_length_bytes (concat pre) BT ltac:(lia)) as [L3 B3].
  destruct (P_SM2.C13_sign_verify_good T (e_cv Ec) kc bc (sm3 (concat pre)) GC KO TB B3 ltac:(unfold zlen; lia)) as (r' & s' & SG' & _ & _ & VE & _).
  exists (concat pre), r', s'. split; [exact SG'|]. intros Nr' Ns'. destruct (P_SM2.C26_der_signature T (e_cv Ec) kc (Some bc) _ r' s' SG') as (sig & PS & PV).
  specialize (PV (sPub kc) []). rewrite app_nil_r in PV. rewrite (proj2 VE (conj Nr' Ns')) in PV.
  assert (SO : bytes sig /\ zlen sig <= 84).
  { unfold PrivSign in PS. rewrite SG' in PS. cbn [rbind] in PS. apply Sign_range in SG' as [R1 R2]. pose proof (der_sig_out r' s' R1 R2) as X. revert PS X. generalize (der_seq [der_int r'; der_int s']). intros z Hz Hx. injection Hz as <-. exact Hx. }
  destruct SO as [BS LS].
  destruct (P_TLS_msg.C63_certificateVerify false 0 sig 0 ltac:(lia) ltac:(lia)) as (m_cv & M3 & F3 & U3).
  pose proof (good_msg_intro _ _ (out_cv _ _ BS ltac:(lia) M3) F3) as G3.
  assert (MT : forall t m, P_TLS_msg.framed t m -> mtype m = t) by (intros t m (bd & ->); reflexivity).
  set (a := mkCA (ce_chain cc) (y0 :: ys) chains 0 sig signatureSM2 (PkSM2 (sPub kc)) m_req m_cc m_cv).
  set (rp := mkRP (TLS_msg_model.mkCR [1; 64] [] (asked_cas scfg)) cc kc sig).
  destruct (HH (Some a) (Some rp)) as (clog & slog & rc & rs & H1 & H2 & H3 & H4 & H5 & H6 & H7 & H8 & H9 & H10 & HSZ).
  { cbn [a_req a_cert a ca_mreq ca_mcert]. fold pre. unfold server_takes. cbn [a ca_mreq ca_mcert ca_mcv ca_ders ca_certs ca_pub ca_chains ca_alg ca_sig ca_type].
    split; [exact RQ|]. split; [exact M1|]. split; [apply p_cert; [apply MT; exact F2|exact U2]|]. split; [exact NE|]. split; [apply parse_all_run; exact PA|].
    split. { exists y0, ys. split; [reflexivity|]. split; [exact PK|]. split; [discriminate|exact CV]. }
    split; [exact VP|]. split; [apply p_cv; [apply MT; exact F3|exact U3]|]. split; [reflexivity|]. split; [unfold verifyHandshakeSignature; cbn [Z.eqb Pos.eqb orb signatureSM2 signatureECDSA signaturePKCS1v15 signatureRSAPSS]; rewrite EV; exact PV|].
    split; [apply G1|]. split; [apply G2|apply G3]. }
  { cbn [a_req a_cert a ca_mreq ca_mcert]. fold pre. unfold client_gives. cbn [a rp rp_cr rp_ce rp_key rp_sig cr_cas ca_mreq ca_mcert ca_mcv ca_ders].
    split; [apply p_req; [apply MT; exact F1|exact U1]|]. split.
    { intros i l. unfold client_getCertificate. destruct (cf_getClientCert ccfg) as [f|]; rewrite CH; reflexivity. }
    split; [reflexivity|]. split; [exact NE|]. split; [exact M2|]. split; [exact CK|]. split; [rewrite RSi; exact PS|]. split; [exact M3|].
    split; [apply G1|]. split; [apply G2|apply G3]. }
  { cbn [a_req a_cert a_cv a ca_mreq ca_mcert ca_mcv]. gms. }
  exists clog, slog, rc, rs. split; [repeat (split; [assumption|]); exact H9|]. split; [exact H10|]. intros SC SCa SCc. apply HSZ; [exact SC|]. cbn [a_req a_cert a_cv a ca_mreq ca_mcert ca_mcv].
  pose proof (fits_req _ _ SCa M1) as X1. pose proof (fits_cert _ _ SCc M2) as X2. pose proof (fits_cv sig m_cv ltac:(lia) M3) as X3. gms.
Qed.
Print Assumptions C91_completes_mutual.

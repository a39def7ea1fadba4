(** Inversion lemmas for the ordinary TLS handshake: the hash of the handshake covers the log, and what each phase sent, received and computed. *)
From Verif Require Import GoBase GoLemmas BigBytes Asn1_model X509_spec SM2_model TLS_record_model TLS_prf_model TLS_prf_spec TLS_prf_proofs
  TLS_gmka_model TLS_ticket_model TLS_msg_model TLS_neg_model TLS_hs_model TLS_hs_proofs TLS_hs_bytes TLS_hs_server TLS_hs_spec TLS_std_model TLS_std_spec.
From Verif Require X509_model P_TLS_neg P_TLS_prf.
Open Scope Z_scope.
#[local] Opaque fh_Write discardHandshakeBuffer clientSum serverSum PRF newFinishedHash hashForClientCertificate.

(** ** Messages *)
Lemma parse_std_type v m x : parse_std v m = Ok x -> mtype m = type_of x.
Proof.
  destruct m as [|t m]; [discriminate|]. unfold parse_std. destruct (Z.eqb_spec t 13) as [->|].
  - intros H. apply rmap_ok in H as (a & _ & ->). reflexivity.
  - apply parse_type.
Qed.
Lemma parse_std_msg v m x : parse_std v m = Ok x -> (forall cr, x <> MCertificateRequest cr) -> parse_msg v m = Ok x.
Proof.
  destruct m as [|t m]; [discriminate|]. unfold parse_std. destruct (Z.eqb_spec t 13) as [->|]; [|auto].
  intros H HN. apply rmap_ok in H as (a & _ & ->). destruct (HN _ eq_refl).
Qed.
Lemma readS_ok {C} v m raw (s s' : hst C) : readS v s = (HOk (m, raw), s') -> parse_std v raw = Ok m /\ snd s' = snd s ++ [EvRecv raw].
Proof.
  unfold readS. intros H. apply bind_ok in H as (x & s1 & H1 & H). apply recv_raw_ok in H1.
  destruct (parse_std v x) as [y| |] eqn:EP; [|now apply unexpected_ok in H|discriminate].
  apply ret_ok in H as [[= -> ->] ->]. auto.
Qed.

(** ** The transcript hash *)
Lemma tr_recv l m : transcript (l ++ [EvRecv m]) = transcript l ++ m. Proof. rewrite transcript_app. unfold transcript at 2. cbn. now rewrite app_nil_r. Qed.
Lemma tr_send l m : transcript (l ++ [EvSend m]) = transcript l ++ m. Proof. rewrite transcript_app. unfold transcript at 2. cbn. now rewrite app_nil_r. Qed.
Lemma tr_skip l l' : wire l' = [] -> transcript (l ++ l') = transcript l. Proof. intros H. rewrite transcript_app. unfold transcript at 2. rewrite H. apply app_nil_r. Qed.
Definition ssl3 (v : version) : bool := match v with SSL30 => true | _ => false end.
Section Hash.
Context (L : stdlib) (Hs : hashes) (HL : std_impl L Hs) (HG : good_hashes Hs).
(** [h] has hashed all the handshake messages of [l]; [d]: the buffer is gone; [c], [s]: the client's / the server's Finished value was computed *)
Definition hlog (vers : Z) (sha d c s : bool) (l : list event) (h : finishedHash) : Prop :=
  forall ver, version_of vers sha = Some ver -> wire_ok l -> fh_ok Hs ver (transcript l) d (c && ssl3 ver) (s && ssl3 ver) h.
Lemma version_of_inv vers sha ver : version_of vers sha = Some ver -> vers = vers_of ver /\ ver <> GMSSL /\ sha384_of ver sha = sha.
Proof.
  unfold version_of. repeat match goal with |- (if ?a =? ?b then _ else _) = _ -> _ => destruct (Z.eqb_spec a b) as [->|] end; intros [= <-]; repeat split; auto; discriminate.
Qed.
Lemma newFinishedHash_vers vers sha h : newFinishedHash L vers sha = Ok h -> vers = 0x0101 \/ exists ver, version_of vers sha = Some ver.
Proof.
  intros H. with_strategy transparent [newFinishedHash] unfold newFinishedHash in H. cbv zeta in H. apply rbind_ok in H as (ph & H & _). unfold prfAndHashForVersion in H.
  unfold version_of. unfold VersionSSL30, VersionTLS10, VersionTLS11, VersionTLS12, VersionGMSSL in H.
  destruct (Z.eqb_spec vers 768); [right; eauto|]. destruct (Z.eqb_spec vers 769); [right; eauto|]. destruct (Z.eqb_spec vers 770); [right; eauto|].
  cbn [orb] in H. destruct (Z.eqb_spec vers 771); [right; eauto|]. destruct (Z.eqb_spec vers 257) as [->|]; [left; reflexivity|discriminate].
Qed.
Lemma hlog_new vers sha h : newFinishedHash L vers sha = Ok h -> hlog vers sha false false false [] h.
Proof.
  intros H ver Ev _. apply version_of_inv in Ev as (-> & NG & F). destruct (newFinishedHash_ok L Hs HL HG ver sha NG) as (h' & E' & H').
  rewrite F, H in E'. injection E' as ->. exact H'.
Qed.
Lemma hlog_recv vers sha d c s l h m h' : hlog vers sha d c s l h -> fh_Write h m = Ok h' -> hlog vers sha d c s (l ++ [EvRecv m]) h'.
Proof.
  intros H E ver Ev WO. rewrite tr_recv. pose proof (wire_ok_app _ _ WO) as [W1 W2]. specialize (H ver Ev W1).
  destruct (fh_Write_ok Hs ver _ _ _ _ h m H (wire_ok_recv _ W2)) as (x & E' & H'). rewrite E in E'. injection E' as ->. exact H'.
Qed.
Lemma hlog_send vers sha d c s l h m h' : hlog vers sha d c s l h -> fh_Write h m = Ok h' -> hlog vers sha d c s (l ++ [EvSend m]) h'.
Proof.
  intros H E ver Ev WO. rewrite tr_send. pose proof (wire_ok_app _ _ WO) as [W1 W2]. specialize (H ver Ev W1).
  destruct (fh_Write_ok Hs ver _ _ _ _ h m H (wire_ok_send _ W2)) as (x & E' & H'). rewrite E in E'. injection E' as ->. exact H'.
Qed.
Lemma hlog_skip vers sha d c s l l' h : hlog vers sha d c s l h -> wire l' = [] -> hlog vers sha d c s (l ++ l') h.
Proof. intros H E ver Ev WO. rewrite tr_skip by exact E. apply H; [exact Ev|]. now apply wire_ok_app in WO as [WO _]. Qed.
Lemma hlog_discard vers sha d c s l h : hlog vers sha d c s l h -> hlog vers sha true c s l (discardHandshakeBuffer h).
Proof. intros H ver Ev WO. eapply discard_ok. apply H; auto. Qed.
Lemma hlog_emit {C} vers sha d c s h r h' (st st' : hst C) : hlog vers sha d c s (snd st) h -> emit h r st = (HOk h', st') ->
  exists m, r = Ok m /\ snd st' = snd st ++ [EvSend m] /\ hlog vers sha d c s (snd st') h'.
Proof. intros H E. apply emit_ok in E as (m & -> & W & Lg). exists m. split; [reflexivity|]. split; [exact Lg|]. rewrite Lg. eapply hlog_send; eauto. Qed.
Lemma hlog_client vers sha d s l h secret v h' : hlog vers sha d false s l h -> clientSum h secret = Ok (v, h') -> small secret ->
  (forall ver, version_of vers sha = Some ver -> wire_ok l -> v = client_finished Hs ver secret (transcript l)) /\ hlog vers sha d true s l h'.
Proof.
  intros H E Sm.
  assert (X : forall ver, version_of vers sha = Some ver -> wire_ok l -> v = client_finished Hs ver secret (transcript l) /\ fh_ok Hs ver (transcript l) d (true && ssl3 ver) (s && ssl3 ver) h').
  { intros ver Ev WO. specialize (H ver Ev WO). cbn [andb] in H.
    destruct (clientSum_ok Hs HG ver _ _ _ _ h secret H eq_refl (proj2 WO) Sm) as (x & E' & H'). rewrite E in E'. injection E' as -> ->. split; [reflexivity|].
    destruct ver; exact H'. }
  split; intros ver Ev WO; apply X; auto.
Qed.
Lemma hlog_server vers sha d c l h secret v h' : hlog vers sha d c false l h -> serverSum h secret = Ok (v, h') -> small secret ->
  (forall ver, version_of vers sha = Some ver -> wire_ok l -> v = server_finished Hs ver secret (transcript l)) /\ hlog vers sha d c true l h'.
Proof.
  intros H E Sm.
  assert (X : forall ver, version_of vers sha = Some ver -> wire_ok l -> v = server_finished Hs ver secret (transcript l) /\ fh_ok Hs ver (transcript l) d (c && ssl3 ver) (true && ssl3 ver) h').
  { intros ver Ev WO. specialize (H ver Ev WO). cbn [andb] in H.
    destruct (serverSum_ok Hs HG ver _ _ _ _ h secret H eq_refl) as (x & E' & H'); [|exact (proj2 WO)|exact Sm|].
    - intros N. destruct ver; [congruence|..]; apply andb_false_r.
    - rewrite E in E'. injection E' as -> ->. split; [reflexivity|]. destruct ver; exact H'. }
  split; intros ver Ev WO; apply X; auto.
Qed.
Lemma hlog_cv vers sha l h sigType I Hc secret v h' : hlog vers sha false false false l h -> hashForClientCertificate L h sigType I secret = Ok (v, h') ->
  implements I Hc (2 ^ 61) -> small secret -> (vers < VersionTLS12 -> sigType = signatureECDSA \/ sigType = signaturePKCS1v15) ->
  (forall ver, version_of vers sha = Some ver -> wire_ok l -> v = signed_transcript Hs ver (sigType =? signaturePKCS1v15) Hc secret (transcript l)) /\ hlog vers sha false false false l h'.
Proof.
  intros H E HI Sm HT.
  assert (X : forall ver, version_of vers sha = Some ver -> wire_ok l -> v = signed_transcript Hs ver (sigType =? signaturePKCS1v15) Hc secret (transcript l) /\ fh_ok Hs ver (transcript l) false (false && ssl3 ver) (false && ssl3 ver) h').
  { intros ver Ev WO. specialize (H ver Ev WO). pose proof (version_of_inv _ _ _ Ev) as (EV & NG & _).
    pose proof (hashForClientCertificate_ok L Hs HL HG ver _ _ _ h sigType I Hc secret H eq_refl eq_refl HI (proj2 WO) Sm) as X. rewrite E in X.
    assert (F : forall w hh, (exists h'' : finishedHash, Ok (v, h') = Ok (w, h'') /\ hh h'') -> v = w /\ hh h').
    { intros w hh (h2 & E2 & H2). injection E2 as <- <-. auto. }
    destruct ver as [| | |b|]; cbn [signed_transcript].
    - destruct (sigType =? signaturePKCS1v15); [|discriminate]. apply F in X. exact X.
    - rewrite EV in HT. destruct (HT ltac:(reflexivity)) as [-> | ->]; cbn in X |- *; apply F in X; exact X.
    - rewrite EV in HT. destruct (HT ltac:(reflexivity)) as [-> | ->]; cbn in X |- *; apply F in X; exact X.
    - apply F in X. exact X.
    - congruence. }
  split; intros ver Ev WO; apply X; auto.
Qed.
(** the master secret *)
Lemma master_std vers sha pms cr sr master : small pms -> bytes cr -> bytes sr -> length cr = 32%nat -> length sr = 32%nat ->
  masterFromPreMasterSecret L vers sha pms cr sr = Ok master -> forall ver, version_of vers sha = Some ver ->
  master = PRF Hs ver 48 pms ascii_master_secret (cr ++ sr) /\ bytes master /\ length master = 48%nat /\ small master.
Proof.
  intros SP B2 B3 L2 L3 H ver Ev. apply version_of_inv in Ev as (-> & NG & F).
  assert (LBL : zlen masterSecretLabel + zlen (cr ++ sr) < 2 ^ 59) by (unfold zlen; rewrite app_length, L2, L3; reflexivity).
  pose proof (prfForVersion_ok L Hs HL HG ver sha 48 pms masterSecretLabel (cr ++ sr) SP) as X. rewrite F in X.
  unfold masterFromPreMasterSecret in H. rewrite X in H; [|apply bytesb_spec; reflexivity|apply bytes_app; auto|exact LBL|intros; lia].
  injection H as <-. split; [reflexivity|].
  assert (B : bytes (PRF Hs ver 48 pms masterSecretLabel (cr ++ sr))) by (apply PRF_bytes; auto; [exact (proj1 SP)|apply bytesb_spec; reflexivity|apply bytes_app; auto|lia]).
  assert (LN : length (PRF Hs ver 48 pms masterSecretLabel (cr ++ sr)) = 48%nat) by apply PRF_length.
  split; [exact B|]. split; [exact LN|]. split; [exact B|]. unfold zlen. rewrite LN. reflexivity.
Qed.
End Hash.

(** ** Cipher suites *)
Lemma suite_facts su : In su cipherSuites -> su_sha384 su = sha384_suite (su_id su) /\ In (su_id su, suite_lens (su_id su)) suite_table /\
  has_flag su suiteECDHE = ecdhe_suite (su_id su) /\ has_flag su suiteECDSA = ecdsa_suite (su_id su) /\ has_flag su suiteTLS12 = tls12_suite (su_id su).
Proof.
  assert (F : Forall (fun su => su_sha384 su = sha384_suite (su_id su) /\ In (su_id su, suite_lens (su_id su)) suite_table /\
    has_flag su suiteECDHE = ecdhe_suite (su_id su) /\ has_flag su suiteECDSA = ecdsa_suite (su_id su) /\ has_flag su suiteTLS12 = tls12_suite (su_id su)) cipherSuites).
  { unfold cipherSuites. repeat (apply Forall_cons; [split; [reflexivity|split; [cbn; tauto|repeat split; reflexivity]]|]). apply Forall_nil. }
  rewrite Forall_forall in F. apply F.
Qed.

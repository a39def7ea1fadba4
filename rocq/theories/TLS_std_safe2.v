(** Steps of the ordinary handshake that do not panic: transcript hash, Finished values, secrets, hello messages. *)
From Verif Require Import GoBase GoLemmas BigBytes HMAC Asn1_model X509_spec SM2_model SM2_proofs TLS_record_model TLS_prf_model TLS_prf_spec TLS_prf_proofs
  TLS_gmka_model TLS_ticket_model TLS_msg_model TLS_msg_proofs TLS_neg_model TLS_hs_model TLS_hs_proofs TLS_hs_bytes TLS_hs_server TLS_hs_client TLS_hs_spec TLS_hs_run P_TLS_hs_server P_TLS_hs_client P_TLS_hs_agree P_TLS_hs_run TLS_hs_safe
  TLS_std_model TLS_std_spec TLS_std_proofs TLS_std_server TLS_std_client P_TLS_std_server TLS_std_safe.
From Verif Require X509_model P_TLS_msg P_TLS_prf P_TLS_neg P_TLS_ticket.
Open Scope Z_scope.
#[local] Opaque PRF be_bytes fh_Write discardHandshakeBuffer clientSum serverSum newFinishedHash hashForClientCertificate parse_msg.

Section Safe.
Context (C : chan) (HC : chan_ok C (fun _ => True)) (Hs : hashes) (HG : good_hashes Hs) (L : stdlib) (HL : std_impl L Hs).
Notation safe := (safe C).
Definition gotS (v : Z) (mr : hmsg * list Z) : Prop := parse_std v (snd mr) = Ok (fst mr) /\ bytes (snd mr) /\ zlen (snd mr) < 2 ^ 25.
Lemma safe_readS v : safe (readS v) (gotS v).
Proof.
  unfold readS. eapply safe_bind with (P := fun m => bytes m /\ m <> [] /\ zlen m < 2 ^ 25 /\ True).
  - intros s. unfold recv_raw. pose proof (co_read _ _ HC (fst s)) as H. destruct (cn_read C (fst s)) as [[m|e| |] c]; cbn [fst] in *; auto.
  - intros m (B & N & Lm & _). pose proof (parse_std_np v m B N) as NP. destruct (parse_std v m) as [x|e|] eqn:EP; [|apply safe_fail|congruence]. apply safe_ret. split; [exact EP|split; assumption].
Qed.
Definition hgS (ver : version) (d c s : bool) (n : Z) (h : finishedHash) : Prop := exists t, fh_ok Hs ver t d c s h /\ zlen t <= n * 2 ^ 50.
Lemma hgS_mono ver d c s n n' h : hgS ver d c s n h -> n <= n' -> hgS ver d c s n' h.
Proof. intros (t & G & Ln) H. exists t. split; [exact G|]. change (2 ^ 50) with 1125899906842624 in *. lia. Qed.
Lemma hgS_discard ver d c s n h : hgS ver d c s n h -> hgS ver true c s n (discardHandshakeBuffer h).
Proof. intros (t & G & Ln). exists t. split; [eapply discard_ok; exact G|exact Ln]. Qed.
Lemma hgS_new ver vers sha : version_of vers sha = Some ver -> match newFinishedHash L vers sha with Ok h => hgS ver false false false 0 h | _ => False end.
Proof.
  intros Ev. apply version_of_inv in Ev as (-> & NG & F). destruct (newFinishedHash_ok L Hs HL HG ver sha NG) as (h & E & G). rewrite F in E. rewrite E. exists []. split; [exact G|cbn; lia].
Qed.
Lemma safe_wrS ver d c s n h m : hgS ver d c s n h -> bytes m -> zlen m < 2 ^ 50 -> safe (wr h m) (hgS ver d c s (n + 1)).
Proof.
  intros (t & G & Ln) B Lm. unfold wr. apply safe_res. destruct (fh_Write_ok Hs _ _ _ _ _ _ _ G B) as (h' & -> & G'). exists (t ++ m). split; [exact G'|]. rewrite zlen_app. change (2 ^ 50) with 1125899906842624 in *. lia.
Qed.
Lemma safe_wr_read ver d c s n h v mr : hgS ver d c s n h -> gotS v mr -> safe (wr h (snd mr)) (hgS ver d c s (n + 1)).
Proof. intros G (_ & B & Lm). eapply safe_wrS; [exact G|exact B|]. change (2 ^ 25) with 33554432 in Lm. change (2 ^ 50) with 1125899906842624. lia. Qed.
Lemma safe_emitS ver d c s n h r : hgS ver d c s n h -> fineB r -> safe (emit h r) (hgS ver d c s (n + 1)).
Proof.
  intros G F. unfold emit. eapply safe_bind; [unfold enc; apply safe_res with (P := fun m => bytes m /\ zlen m < 2 ^ 50); destruct r; exact F|]. intros m [B Lm].
  eapply safe_bind; [eapply safe_wrS; eauto|]. intros h' G'. eapply safe_bind; [apply (safe_send C (fun _ => True)), HC|]. intros _ _. now apply safe_ret.
Qed.
(** Finished values *)
Definition is_fin (v : list Z) : Prop := bytes v /\ zlen v <= 255.
Lemma th_bytes ver t : ver <> GMSSL -> bytes t -> bytes (transcript_hash Hs ver t).
Proof. intros N B. destruct HG as (G1 & G2 & G3 & G4). destruct ver as [| | |[|]|]; cbn; try congruence; try (apply G3, B); try (apply G4, B); apply bytes_app; split; [apply G1, B|apply G2, B|apply G1, B|apply G2, B|apply G1, B|apply G2, B]. Qed.
Lemma ssl3_out t magic secret : bytes t -> bytes magic -> bytes secret -> is_fin (ssl3_verify Hs t magic secret).
Proof.
  intros B1 B2 B3. destruct HG as (G1 & G2 & _). unfold ssl3_verify. assert (R : forall x n, is_byte x -> bytes (repeat x n)) by (intros x n Hx; apply Forall_forall; intros y Hy; apply repeat_spec in Hy; now subst).
  assert (A : is_byte 0x5c) by (unfold is_byte; lia). assert (A' : is_byte 0x36) by (unfold is_byte; lia).
  assert (X1 : bytes (MD5 Hs (t ++ magic ++ secret ++ repeat 0x36 48))) by (apply G1; repeat (apply bytes_app; split; auto)).
  assert (X2 : bytes (SHA1 Hs (t ++ magic ++ secret ++ repeat 0x36 40))) by (apply G2; repeat (apply bytes_app; split; auto)).
  revert X1 X2. generalize (MD5 Hs (t ++ magic ++ secret ++ repeat 0x36 48)), (SHA1 Hs (t ++ magic ++ secret ++ repeat 0x36 40)). intros a b Ba Bb.
  destruct (G1 (secret ++ repeat 0x5c 48 ++ a)) as [Y1 Y2]; [repeat (apply bytes_app; split; auto)|]. destruct (G2 (secret ++ repeat 0x5c 40 ++ b)) as [Z1 Z2]; [repeat (apply bytes_app; split; auto)|].
  split; [apply bytes_app; auto|]. rewrite zlen_app. unfold zlen. rewrite Y2, Z2. cbn. lia.
Qed.
Lemma prf_fin ver label t secret : ver <> GMSSL -> bytes t -> bytes secret -> bytes label -> is_fin (PRF Hs ver 12 secret label (transcript_hash Hs ver t)).
Proof. intros N B1 B2 B3. split; [apply PRF_bytes; auto; [now apply th_bytes|lia]|]. unfold zlen. rewrite PRF_length. cbn. lia. Qed.
Lemma client_fin_out ver t secret : ver <> GMSSL -> bytes t -> bytes secret -> is_fin (client_finished Hs ver secret t).
Proof. intros N B1 B2. unfold client_finished. destruct ver; try congruence; try (apply ssl3_out; auto; apply bytesb_spec; reflexivity); apply prf_fin; auto; apply bytesb_spec; reflexivity. Qed.
Lemma server_fin_out ver t secret : ver <> GMSSL -> bytes t -> bytes secret -> is_fin (server_finished Hs ver secret t).
Proof. intros N B1 B2. unfold server_finished. destruct ver; try congruence; try (apply ssl3_out; auto; apply bytesb_spec; reflexivity); apply prf_fin; auto; apply bytesb_spec; reflexivity. Qed.
Lemma hg_small n (t : list Z) : zlen t <= n * 2 ^ 50 -> n < 64 -> zlen t < 2 ^ 59.
Proof. intros. change (2 ^ 50) with 1125899906842624 in *. change (2 ^ 59) with 576460752303423488. lia. Qed.
Lemma safe_clientSumS ver d s n h master : ver <> GMSSL -> hgS ver d false s n h -> n < 64 -> small master ->
  safe (lift (of_res (clientSum h master))) (fun vh => is_fin (fst vh) /\ hgS ver d (spend ver false) s n (snd vh)).
Proof.
  intros NG (t & G & Ln) Hn SM. apply safe_res. destruct (clientSum_ok Hs HG ver t d false s h master G eq_refl (hg_small _ _ Ln Hn) SM) as (h' & -> & G'). cbn [fst snd].
  assert (Bt : bytes t) by (destruct G as [_ _ _ Bt _ _]; exact Bt). split; [apply client_fin_out; [exact NG|exact Bt|apply SM]|]. exists t. split; [exact G'|exact Ln].
Qed.
Lemma safe_serverSumS ver d c n h master : ver <> GMSSL -> hgS ver d c false n h -> (ver <> SSL30 -> c = false) -> n < 64 -> small master ->
  safe (lift (of_res (serverSum h master))) (fun vh => is_fin (fst vh) /\ hgS ver d c (spend ver false) n (snd vh)).
Proof.
  intros NG (t & G & Ln) Hc Hn SM. apply safe_res. destruct (serverSum_ok Hs HG ver t d c false h master G eq_refl Hc (hg_small _ _ Ln Hn) SM) as (h' & -> & G'). cbn [fst snd].
  assert (Bt : bytes t) by (destruct G as [_ _ _ Bt _ _]; exact Bt). split; [apply server_fin_out; [exact NG|exact Bt|apply SM]|]. exists t. split; [exact G'|exact Ln].
Qed.
Lemma hash_cc_np ver n h sigType I Hc secret : ver <> GMSSL -> hgS ver false false false n h -> n < 64 -> implements I Hc (2 ^ 61) -> small secret ->
  match hashForClientCertificate L h sigType I secret with Ok r => hgS ver false false false n (snd r) | Err _ => True | Panic => False end.
Proof.
  intros NG (t & G & Ln) Hn HI SM. pose proof (hashForClientCertificate_ok L Hs HL HG ver t false false h sigType I Hc secret G eq_refl eq_refl HI (hg_small _ _ Ln Hn) SM) as X.
  destruct ver; try congruence; [destruct (sigType =? signaturePKCS1v15)| | |]; try (destruct X as (h' & -> & G'); exists t; split; [exact G'|exact Ln]); rewrite X; exact Logic.I.
Qed.
(** secrets *)
Lemma masterS vers sha ver pms cr sr : version_of vers sha = Some ver -> small pms -> bytes cr -> bytes sr -> length cr = 32%nat -> length sr = 32%nat ->
  match masterFromPreMasterSecret L vers sha pms cr sr with Ok m => small m /\ zlen m = 48 | _ => False end.
Proof.
  intros Ev Sp B1 B2 L1 L2. apply version_of_inv in Ev as (-> & NG & F). destruct (P_TLS_prf.C55_master_secret _ Hs HL HG ver sha pms cr sr Sp B1 B2 L1 L2) as [Mc Lm]. rewrite F in Mc. rewrite Mc. split; [split|].
  - apply PRF_bytes; auto; [apply Sp|apply bytesb_spec; reflexivity|apply bytes_app; auto|lia].
  - unfold zlen. rewrite Lm. reflexivity.
  - unfold zlen. rewrite Lm. reflexivity.
Qed.
Lemma keysS vers ver su master cr sr : In su cipherSuites -> version_of vers (su_sha384 su) = Some ver -> small master -> bytes cr -> bytes sr -> length cr = 32%nat -> length sr = 32%nat -> exists kb, std_keys L vers su master cr sr = HOk kb.
Proof.
  intros SI Ev Sm B1 B2 L1 L2. apply version_of_inv in Ev as (-> & NG & F). destruct (suite_facts _ SI) as (_ & ST & _). unfold std_keys.
  assert (TB : forall id m k i, In (id, (m, k, i)) suite_table -> (2 * m + 2 * k + 2 * i <= 176)%nat).
  { intros id m k i HI. repeat (destruct HI as [HI|HI]; [injection HI as _ <- <- <-; lia|]). destruct HI. }
  destruct (suite_lens (su_id su)) as [[m k] i]. specialize (TB _ _ _ _ ST).
  destruct (P_TLS_prf.C55_key_block L Hs HL HG ver (su_sha384 su) master cr sr m k i Sm B1 B2 L1 L2 (fun _ => TB)) as (ks & EK & _). rewrite F in EK. rewrite EK. eexists. reflexivity.
Qed.
End Safe.

(** the versions of the ordinary handshake *)
Lemma version_total vers sha : 0x0300 <= vers <= 0x0303 -> exists ver, version_of vers sha = Some ver.
Proof. intros H. unfold version_of. destruct (Z.eqb_spec vers 0x0300); [eauto|]. destruct (Z.eqb_spec vers 0x0301); [eauto|]. destruct (Z.eqb_spec vers 0x0302); [eauto|]. destruct (Z.eqb_spec vers 0x0303); [eauto|lia]. Qed.
Lemma pick_np {T} (pub : pubk T) peer our vers : (forall a, In a our -> In a supportedSignatureAlgorithms) -> pickSignatureAlgorithm pub peer our vers <> Panic.
Proof.
  intros HO. unfold pickSignatureAlgorithm. destruct (_ || _); [destruct pub; try discriminate; destruct (_ <? _); discriminate|].
  induction peer as [|a peer IH]; [discriminate|]. cbn [pick_loop]. destruct (existsb (Z.eqb a) our) eqn:EX; cbn [negb]; [|exact IH].
  apply existsb_exists in EX as (b & Hb & ->%Z.eqb_eq). apply HO in Hb. destruct (lookupTLSHash b) eqn:LH; [|exfalso; revert LH; repeat (destruct Hb as [<-|Hb]; [discriminate|]); destruct Hb].
  destruct pub; try discriminate; destruct (_ =? _); try discriminate; try exact IH. cbn [orb]. destruct (_ =? _); [discriminate|exact IH].
Qed.
(** what a signature algorithm below TLS 1.2 can be *)
Lemma pick_type {T} (pub : pubk T) peer our vers p : pickSignatureAlgorithm pub peer our vers = Ok p -> (forall q, pub <> PkSM2 q) -> (vers < VersionTLS12 -> snd (fst p) = signatureECDSA \/ snd (fst p) = signaturePKCS1v15) /\ snd (fst p) <> signatureSM2.
Proof.
  intros H NS. unfold pickSignatureAlgorithm in H. destruct (Z.ltb_spec vers VersionTLS12) as [V|V]; cbn [orb] in H.
  - destruct pub; try discriminate; try (exfalso; eapply NS; reflexivity); injection H as <-; cbn [fst snd]; split; auto; discriminate.
  - split; [intros; exfalso; revert V H0; clear; lia|]. destruct (_ =? 0).
    + destruct pub; try discriminate; try (exfalso; eapply NS; reflexivity); injection H as <-; cbn [fst snd]; discriminate.
    + induction peer as [|a peer IH]; [discriminate|]. cbn [pick_loop] in H. destruct (negb _); [auto|]. destruct (lookupTLSHash a); [|discriminate]. cbv zeta in H.
      destruct pub; try discriminate.
      * exfalso; eapply NS; reflexivity.
      * destruct (Z.eqb_spec (signatureFromScheme a) signatureECDSA) as [e|]; [injection H as <-; cbn [fst snd]; rewrite e; discriminate|auto].
      * destruct (Z.eqb_spec (signatureFromScheme a) signaturePKCS1v15) as [e|]; cbn [orb] in H; [injection H as <-; cbn [fst snd]; rewrite e; discriminate|].
        destruct (Z.eqb_spec (signatureFromScheme a) signatureRSAPSS) as [e|]; [injection H as <-; cbn [fst snd]; rewrite e; discriminate|auto].
Qed.

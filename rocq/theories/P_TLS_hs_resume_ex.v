(** A concrete resumption: a ticket the server issued, a server that resumes it (hypotheses of C94 and C96) and the library's own client, which does not accept (C97). *)
From Verif Require Import GoBase GoLemmas BigBytes X509_spec Prime_cert SM2_curve_spec SM2_group SM2_jac SM2_spec SM2_model SM2_proofs SM3_spec TLS_record_model TLS_prf_model TLS_prf_spec TLS_prf_proofs
  TLS_gmka_model TLS_ticket_model TLS_msg_model TLS_neg_model TLS_hs_model TLS_hs_proofs TLS_hs_server TLS_hs_client TLS_hs_spec TLS_hs_run P_TLS_hs_server P_TLS_hs_client P_TLS_hs_agree P_TLS_hs_run TLS_hs_safe P_TLS_hs_example P_TLS_hs_resume.
From Verif Require X509_model P_SM2 P_TLS_msg P_TLS_gmka P_TLS_prf.
Open Scope Z_scope.
#[local] Opaque gm_keys newFinishedHash newFinishedHashGM fh_Write serverSum clientSum PRF sm3.

Lemma bind_err {A B} (m : M script A) (k : A -> M script B) s e s1 : m s = (HErr e, s1) -> bind m k s = (HErr e, s1).
Proof. intros H. unfold bind. now rewrite H. Qed.
Section Run.
Context {T : Type} (E : env T) (Hs : hashes) (HL : std_impl (e_std E) Hs) (HG : good_hashes Hs).
Lemma hyb_fwd t h p : hyb Hs t h -> bytes p -> exists h', fh_Write h p = Ok h' /\ hyb Hs (t ++ p) h'.
Proof.
  intros H B. assert (X : exists h', fh_Write h p = Ok h'). { destruct H as [V Bf P Rc (a & Ea) (b & Eb)]. with_strategy transparent [fh_Write] unfold fh_Write. rewrite V, Ea, Eb, Bf. eexists. reflexivity. }
  destruct X as [h' W]. exists h'. split; [exact W|]. eapply hyb_write; eauto.
Qed.
Lemma hyb_sfwd t h secret : hyb Hs t h -> zlen t < 2 ^ 59 -> small secret -> exists h', serverSum h secret = Ok (sha1_finished Hs ascii_server_finished secret t, h') /\ hyb Hs t h'.
Proof.
  intros H Lt Sm. assert (X : exists v h', serverSum h secret = Ok (v, h')).
  { with_strategy transparent [serverSum] unfold serverSum. rewrite (hy_vers _ _ _ H). change (VersionGMSSL =? VersionSSL30) with false. cbv iota.
    destruct (hyb_sum _ _ _ H Lt) as (h1 & E1 & H1). rewrite E1. cbn [rbind]. rewrite (hyb_prf _ HG _ _ _ _ _ H1 Sm) by (apply bytesb_spec || idtac; reflexivity). cbn [rbind]. eauto. }
  destruct X as (v & h' & X). exists h'. destruct (hyb_server _ HG _ _ _ _ _ H Lt Sm X) as [-> H']. auto.
Qed.
Lemma hyb_cfwd t h secret : hyb Hs t h -> zlen t < 2 ^ 59 -> small secret -> exists h', clientSum h secret = Ok (sha1_finished Hs ascii_client_finished secret t, h') /\ hyb Hs t h'.
Proof.
  intros H Lt Sm. assert (X : exists v h', clientSum h secret = Ok (v, h')).
  { with_strategy transparent [clientSum] unfold clientSum. rewrite (hy_vers _ _ _ H). change (VersionGMSSL =? VersionSSL30) with false. cbv iota.
    destruct (hyb_sum _ _ _ H Lt) as (h1 & E1 & H1). rewrite E1. cbn [rbind]. rewrite (hyb_prf _ HG _ _ _ _ _ H1 Sm) by (apply bytesb_spec || idtac; reflexivity). cbn [rbind]. eauto. }
  destruct X as (v & h' & X). exists h'. destruct (hyb_client _ HG _ _ _ _ _ H Lt Sm X) as [-> H']. auto.
Qed.

(** a server that resumes a session without client certificates, when the client's Finished message is computed as the server expects it *)
Lemma resumed_server_run cfg rn hs st su chraw m_sh m_sfin m_fin kb i :
  (forall i l, server_hello (C := script) cfg None rn (IMsg chraw :: i, l) = (HOk hs, (i, l ++ [EvRecv chraw]))) -> ss_chraw hs = chraw -> ss_v hs = VersionGMSSL -> sh_npn (ss_sh hs) = false ->
  checkForResumption E hs = Some (st, su) -> ss_certificates st = [] -> ss_usedOldKey st = false -> small (ss_masterSecret st) ->
  m_serverHello (resume_sh hs st su) = Ok m_sh -> gm_keys (e_std E) VersionGMSSL (ss_masterSecret st) (ch_random (ss_ch hs)) (sh_random (ss_sh hs)) = HOk kb ->
  bytes chraw -> bytes m_sh -> zlen (chraw ++ m_sh ++ m_sfin) < 2 ^ 59 ->
  m_finished (sha1_finished Hs ascii_server_finished (ss_masterSecret st) (chraw ++ m_sh)) = Ok m_sfin -> bytes m_sfin ->
  parse_msg VersionGMSSL m_fin = Ok (MFinished (sha1_finished Hs ascii_client_finished (ss_masterSecret st) (chraw ++ m_sh ++ m_sfin))) -> bytes m_fin ->
  exists r, serverHandshakeGM E script cfg None rn (IMsg chraw :: ICCS :: IMsg m_fin :: i, []) = (HOk r, (i, [EvRecv chraw; EvSend m_sh; EvKeys kb; EvSendCCS; EvSend m_sfin; EvRecvCCS; EvRecv m_fin])) /\
    hr_resumed r = true /\ hr_vers r = VersionGMSSL /\ hr_master r = ss_masterSecret st.
Proof.
  intros HH EC EV EN ER CE UO SM MS GK B0 B1 LN MF BF PF Bc. unfold serverHandshakeGM. run ltac:(apply HH). rewrite ER. unfold server_resume. cbv zeta.
  destruct (hyb_new _ _ HL HG) as (h0 & N0 & G0). rewrite EC, EV.
  destruct (hyb_fwd _ _ _ G0 B0) as (h1 & W1 & G1). destruct (hyb_fwd _ _ _ G1 B1) as (h2 & W2 & G2). cbn [app] in G2.
  fold (resume_sh hs st su). erewrite bind_run. 2: { run ltac:(apply res_run; exact N0). run ltac:(apply wr_run; exact W1). run ltac:(apply emit_run; [exact MS|exact W2]). rewrite CE. reflexivity. }
  cbv beta iota zeta. change (sh_random (resume_sh hs st su)) with (sh_random (ss_sh hs)). change (sh_npn (resume_sh hs st su)) with (sh_npn (ss_sh hs)).
  run ltac:(unfold server_keys; rewrite (bind_run _ _ _ kb _ (lift_run _ _ _ GK)); reflexivity).
  unfold sendSessionTicket at 1. change (sh_ticketOn (resume_sh hs st su)) with (ss_usedOldKey st). rewrite UO. cbn [negb]. run ltac:(reflexivity).
  assert (L1 : zlen (chraw ++ m_sh) < 2 ^ 59) by (rewrite app_assoc, zlen_app in LN; pose proof (zlen_nonneg m_sfin); lia).
  destruct (hyb_sfwd _ _ _ G2 L1 SM) as (h3 & S3 & G3). destruct (hyb_fwd _ _ _ G3 BF) as (h4 & W4 & G4). rewrite <- app_assoc in G4.
  erewrite bind_run. 2: { unfold server_sendFinished. run ltac:(apply sendccs_run). run ltac:(apply res_run; exact S3). run ltac:(apply emit_run; [exact MF|exact W4]). reflexivity. }
  cbv beta iota. rewrite EN.
  destruct (hyb_cfwd _ _ _ G4 LN SM) as (h5 & S5 & G5). destruct (hyb_fwd _ _ _ G5 Bc) as (h6 & W6 & G6).
  erewrite bind_run. 2: { unfold server_readFinished. run ltac:(apply ccs_run). run ltac:(reflexivity). run ltac:(apply read_run; exact PF). cbn [fst snd]. run ltac:(apply res_run; exact S5). rewrite beqb_refl. run ltac:(apply wr_run; exact W6). reflexivity. }
  cbv beta iota. eexists. split; [unfold ret; apply f_equal; apply f_equal; cbn [fst snd]; repeat (rewrite <- ?app_assoc; cbn [app]); reflexivity|]. cbn. auto.
Qed.
(** the library's client, offered the resumption by such a server: the verify data it expects is another *)
Lemma resumed_client_run cfg cache rn hello0 hello s chraw m_sh sh su m_sfin vd kb i :
  makeClientHelloGM cfg rn = Ok hello0 -> complete_hello cfg cache rn hello0 = Ok (hello, Some s) -> m_clientHello hello = Ok chraw ->
  parse_msg VersionGMSSL m_sh = Ok (MServerHello sh) -> sh_vers sh = VersionGMSSL -> mutualCipherSuiteGM (ch_suites hello) (sh_suite sh) = Some su ->
  (forall st, processServerHello (C := script) hello sh su (Some s) st = (HOk (Some s), st)) -> sh_ticketOn sh = false ->
  small (cs_master s) -> gm_keys (e_std E) VersionGMSSL (cs_master s) (ch_random hello) (sh_random sh) = HOk kb ->
  bytes chraw -> bytes m_sh -> zlen (chraw ++ m_sh) < 2 ^ 59 -> parse_msg VersionGMSSL m_sfin = Ok (MFinished vd) -> vd <> server_finished Hs GMSSL (cs_master s) (chraw ++ m_sh) ->
  fst (clientHandshakeGM E script cfg cache rn (IMsg m_sh :: ICCS :: IMsg m_sfin :: i, [])) = HErr eFinished.
Proof.
  intros MK CH M0 Ps EV MC PS NT SM GK B0 B1 LN PF NE. unfold clientHandshakeGM. run ltac:(reflexivity). run ltac:(apply res_run; exact MK). run ltac:(apply res_run; exact CH). run ltac:(apply res_run; exact M0). run ltac:(apply send_run).
  run ltac:(apply read_run; exact Ps). cbn [fst snd]. rewrite EV, Z.eqb_refl. cbn [negb]. rewrite MC. run ltac:(apply PS).
  destruct (newFinishedHashGM_ok (e_std E) Hs HL HG) as (h0 & N0 & G0). run ltac:(apply res_run; exact N0). cbn [orb]. apply (gmh_discard Hs) in G0.
  destruct (gmh_fwd Hs _ _ _ _ G0 B0) as (h2 & W2 & G2). run ltac:(apply wr_run; exact W2).
  destruct (gmh_fwd Hs _ _ _ _ G2 B1) as (h3 & W3 & G3). run ltac:(apply wr_run; exact W3). cbn [app] in G3.
  run ltac:(unfold client_keys; rewrite (bind_run _ _ _ kb _ (lift_run _ _ _ GK)); reflexivity).
  unfold readSessionTicket. rewrite NT. cbn [negb]. run ltac:(reflexivity). unfold client_readFinished.
  destruct (serverSum_ok Hs HG GMSSL _ _ false false h3 (cs_master s) G3 eq_refl (fun _ => eq_refl) LN SM) as (h4 & E4 & G4).
  assert (NB : beqb (server_finished Hs GMSSL (cs_master s) (chraw ++ m_sh)) vd = false) by (destruct (beqb _ vd) eqn:Q; [apply beqb_eq in Q; congruence|reflexivity]).
  erewrite bind_err. 2: { run ltac:(apply ccs_run). run ltac:(apply read_run; exact PF). cbn [fst snd]. run ltac:(apply res_run; exact E4). rewrite NB. reflexivity. }
  reflexivity.
Qed.
End Run.

Definition rE : env unit := mkEnv cv_std xL (fun _ b => b) (fun _ => zeros 32) xparse (fun _ _ => true) [] (fun _ _ => true) None (fun _ _ _ _ => false) (fun _ => []) (fun _ => false) (fun _ => HErr 0) 1.
Definition rkey : ticketKey := mkTK (repeat 1 16) (repeat 2 16) (repeat 3 16).
Definition rmaster : list Z := repeat 5 48.
Definition rstate : sessionState := mkSS VersionGMSSL 0xe013 rmaster [] false.
Definition rticket : list Z := match encryptTicket (e_aes rE) (e_sha256 rE) (Some (repeat 4 16)) [rkey] rstate with Ok t => t | _ => [] end.
Definition rscfg (suites : option (list Z)) : config unit := mkCfg 0 0 suites false [] [xce [48; 1]; xce [48; 2]] NoClientCert (Some xpool) None [] false 50 false [rkey] None None (fun _ _ => None).
Definition rccfg : config unit := mkCfg VersionGMSSL 0 None false [] [] 0 None (Some xpool) [97; 46; 98] false 50 false [] None None (fun _ _ => None).
Definition rsession : csession unit := mkCSess rticket VersionGMSSL 0xe013 rmaster [xx0; xx1] [].
Definition rrn (b : Z) : rnds := mkRnd (Some (repeat b 32)) (Some []) None (Some (repeat b 46)) (Some []) (Some (repeat b 32)).
Definition rch : clientHello := set_ch_sessionId (set_ch_ticket (set_ch_ticketOn (honest_ch (repeat 8 32) [0xe013; 0xe011]) true) rticket) (repeat 8 32).
Definition rchraw : list Z := match m_clientHello rch with Ok m => m | _ => [] end.
Definition rsh : serverHello := mkSH VersionGMSSL (repeat 7 32) (repeat 8 32) 0xe013 0 false [] false [] false [] false [].
Definition rshraw : list Z := match m_serverHello rsh with Ok m => m | _ => [] end.
Definition rhs l : shs (T := unit) := mkShs (rscfg l) VersionGMSSL rch rchraw (mkSH VersionGMSSL (repeat 7 32) [] 0 0 false [] false [] false [] false []) [] (xce [48; 1]) (xce [48; 2]).
Definition rvd : list Z := sha1_finished xHs ascii_server_finished rmaster (rchraw ++ rshraw).
Definition rsfin : list Z := [20; 0; 0; 12] ++ rvd.
Definition rcvd : list Z := sha1_finished xHs ascii_client_finished rmaster (rchraw ++ rshraw ++ rsfin).
Definition rcfin : list Z := [20; 0; 0; 12] ++ rcvd.

Lemma rworld : world_ok rE xHs. Proof. exact xworld. Qed.
Lemma fin_out lbl t : bytes lbl -> bytes t -> zlen t < 2 ^ 60 -> let vd := sha1_finished xHs lbl rmaster t in bytes vd /\ length vd = 12%nat /\ m_finished vd = Ok ([20; 0; 0; 12] ++ vd) /\ parse_msg VersionGMSSL ([20; 0; 0; 12] ++ vd) = Ok (MFinished vd) /\ bytes ([20; 0; 0; 12] ++ vd).
Proof.
  intros Bl Bt Lt vd. destruct xworld as (_ & HG & _). assert (X : bytes vd /\ length vd = 12%nat).
  { unfold vd, sha1_finished. apply (fin_ok xHs GMSSL rmaster lbl (SHA1 xHs t) HG); [apply bytesb_spec; reflexivity|exact Bl|]. destruct HG as (_ & G2 & _). apply G2. exact Bt. }
  destruct X as [Bv Lv]. split; [exact Bv|]. split; [exact Lv|]. clearbody vd. clear Bl Bt Lt HG t lbl.
  do 13 (destruct vd as [|? vd]; try discriminate Lv). split; [reflexivity|]. split; [apply p_fin; reflexivity|]. apply bytes_app. split; [apply bytesb_spec; reflexivity|exact Bv].
Qed.
Lemma rlens : bytes rchraw /\ bytes rshraw /\ zlen rchraw = 205 /\ zlen rshraw = 74.
Proof. split; [apply bytesb_spec; vm_compute; reflexivity|]. split; [apply bytesb_spec; vm_compute; reflexivity|]. split; vm_compute; reflexivity. Qed.
Lemma rparse : parse_msg 0 rchraw = Ok (MClientHello rch).
Proof. apply p_ch; vm_compute; reflexivity. Qed.
Lemma rcheck : checkForResumption rE (rhs (Some [0xe013])) = Some (rstate, mkSuite 0xe013 2).
Proof. vm_compute. exact eq_refl. Qed.
Lemma rshm : m_serverHello (resume_sh (rhs (Some [0xe013])) rstate (mkSuite 0xe013 2)) = Ok rshraw.
Proof. vm_compute. exact eq_refl. Qed.
(** the server resumes the session; this run meets the hypotheses of C96 *)
Theorem C96_hyps : world_ok rE xHs /\ exists r log c, server_completes rE script (rscfg (Some [0xe013])) None (rrn 7) c r log /\ hr_resumed r = true /\ hr_vers r = 0x0101 /\ wire_ok log /\ small (hr_master r) /\
  c = [IMsg rchraw; ICCS; IMsg rcfin] /\ hr_master r = rmaster.
Proof.
  split; [exact rworld|]. destruct xworld as (HL & HG & _). destruct rlens as (B0 & B1 & L0 & L1).
  assert (SM : small rmaster) by (split; [apply bytesb_spec; reflexivity|reflexivity]).
  destruct (fin_out ascii_server_finished (rchraw ++ rshraw)) as (F1 & F2 & F3 & F4 & F5); [apply bytesb_spec; reflexivity|apply bytes_app; auto|rewrite zlen_app, L0, L1; lia|].
  fold rvd in F1, F2, F3, F4, F5. fold rsfin in F3, F4, F5. assert (L2 : zlen rsfin = 16) by (unfold zlen, rsfin; rewrite app_length, F2; reflexivity).
  destruct (fin_out ascii_client_finished (rchraw ++ rshraw ++ rsfin)) as (D1 & D2 & D3 & D4 & D5); [apply bytesb_spec; reflexivity|rewrite !bytes_app; auto|rewrite !zlen_app, L0, L1, L2; lia|].
  fold rcvd in D1, D2, D3, D4, D5. fold rcfin in D3, D4, D5. assert (L3 : zlen rcfin = 16) by (unfold zlen, rcfin; rewrite app_length, D2; reflexivity).
  destruct (keys_safe xHs HG xL HL VersionGMSSL rmaster (repeat 8 32) (repeat 7 32) eq_refl SM) as [kb KB]; [apply bytesb_spec; reflexivity|apply bytesb_spec; reflexivity|reflexivity|reflexivity|].
  destruct (resumed_server_run rE xHs HL HG (rscfg (Some [0xe013])) (rrn 7) (rhs (Some [0xe013])) rstate (mkSuite 0xe013 2) rchraw rshraw rsfin rcfin kb []) as (r & R & R1 & R2 & R3).
  - intros i l. unfold server_hello. run ltac:(apply read_run; exact rparse). reflexivity.
  - exact eq_refl.
  - exact eq_refl.
  - exact eq_refl.
  - exact rcheck.
  - exact eq_refl.
  - exact eq_refl.
  - exact SM.
  - exact rshm.
  - exact KB.
  - exact B0.
  - exact B1.
  - rewrite !zlen_app, L0, L1, L2. reflexivity.
  - exact F3.
  - exact F5.
  - exact D4.
  - exact D5.
  - exists r. eexists. eexists. split; [eexists; exact R|]. split; [exact R1|]. split; [exact R2|]. split.
    { assert (TT : transcript [EvRecv rchraw; EvSend rshraw; EvKeys kb; EvSendCCS; EvSend rsfin; EvRecvCCS; EvRecv rcfin] = rchraw ++ rshraw ++ rsfin ++ rcfin ++ []) by exact eq_refl.
      split; rewrite TT, app_nil_r; [rewrite !bytes_app; auto|rewrite !zlen_app, L0, L1, L2, L3; reflexivity]. }
    split; [rewrite R3; exact SM|]. split; [exact eq_refl|exact R3].
Qed.
(** the same hello, with the default cipher suites: no resumption is considered.  And a completed handshake with the default suites: the hypotheses of C94 *)
Theorem C94_hyps : checkForResumption rE (rhs (Some [0xe013])) <> None /\ checkForResumption rE (rhs None) = None /\
  world_ok xE xHs /\ exists r log c, server_completes xE script (xscfg NoClientCert) None (xrn 7) c r log /\ cf_suites (xscfg NoClientCert) = None.
Proof.
  split; [rewrite rcheck; discriminate|]. split; [vm_compute; exact eq_refl|]. split; [exact xworld|].
  destruct C83_C90_hyps as (clog & slog & rc & rs & cc & sc & _ & _ & _ & _ & _ & H & _). exists rs, slog, sc. split; [exact H|reflexivity].
Qed.
Lemma rne : beqb (firstn 1 rvd) (firstn 1 (server_finished xHs GMSSL rmaster (rchraw ++ rshraw))) = false.
Proof. vm_compute. exact eq_refl. Qed.
Lemma rshparse : parse_msg VersionGMSSL rshraw = Ok (MServerHello rsh).
Proof. apply p_sh; vm_compute; reflexivity. Qed.
(** the library's client, with the session in its cache, refuses the Finished message of the library's server that resumes the session (the server's messages of C96_hyps) *)
Theorem C97_example : fst (clientHandshakeGM rE script rccfg (Some (Some rsession)) (rrn 8) ([IMsg rshraw; ICCS; IMsg rsfin], [])) = HErr eFinished.
Proof.
  destruct xworld as (HL & HG & _). destruct rlens as (B0 & B1 & L0 & L1).
  assert (SM : small rmaster) by (split; [apply bytesb_spec; reflexivity|reflexivity]).
  destruct (fin_out ascii_server_finished (rchraw ++ rshraw)) as (F1 & F2 & F3 & F4 & F5); [apply bytesb_spec; reflexivity|apply bytes_app; auto|rewrite zlen_app, L0, L1; lia|].
  destruct (keys_safe xHs HG xL HL VersionGMSSL rmaster (repeat 8 32) (repeat 7 32) eq_refl SM) as [kb KB]; [apply bytesb_spec; reflexivity|apply bytesb_spec; reflexivity|reflexivity|reflexivity|].
  apply (resumed_client_run rE xHs HL HG rccfg (Some (Some rsession)) (rrn 8) (honest_ch (repeat 8 32) [0xe013; 0xe011]) rch rsession rchraw rshraw rsh (mkSuite 0xe013 2) rsfin rvd kb []).
  - vm_compute. exact eq_refl.
  - vm_compute. exact eq_refl.
  - vm_compute. exact eq_refl.
  - exact rshparse.
  - exact eq_refl.
  - vm_compute. exact eq_refl.
  - intros st. exact eq_refl.
  - exact eq_refl.
  - exact SM.
  - exact KB.
  - exact B0.
  - exact B1.
  - rewrite zlen_app, L0, L1. reflexivity.
  - exact F4.
  - intros HX. pose proof rne as X. cbn [cs_master rsession] in HX. rewrite <- HX, beqb_refl in X. discriminate X.
Qed.

(** C93, continued: the ECDHE suite is what C93_no_server_crashes_the_client excludes, and it must: a client that offers it (the default) can be crashed by
    the server it trusts.  And the concrete client for which C93 holds. *)
From Verif Require Import GoBase GoLemmas BigBytes Asn1_model X509_spec Prime_cert SM2_curve_spec SM2_group SM2_jac SM2_spec SM2_model SM2_proofs SM3_spec TLS_record_model TLS_prf_model TLS_prf_spec TLS_prf_proofs
  TLS_gmka_model TLS_ticket_model TLS_msg_model TLS_msg_proofs TLS_neg_model TLS_hs_model TLS_hs_proofs TLS_hs_bytes TLS_hs_server TLS_hs_client TLS_hs_spec TLS_hs_run P_TLS_hs_server P_TLS_hs_client P_TLS_hs_agree P_TLS_hs_run P_TLS_hs_example P_TLS_hs_refuted TLS_hs_safe P_TLS_hs_safe.
From Verif Require X509_model P_SM2 P_TLS_msg P_TLS_gmka P_TLS_prf P_TLS_neg.
Open Scope Z_scope.
Ltac Zify.zify_post_hook ::= Z.div_mod_to_equations.
#[local] Opaque sm3 PRF smul padd sm2_n sm2_p Encrypt Decrypt be_bytes Sign Verify PubVerify fh_Write discardHandshakeBuffer clientSum serverSum newFinishedHashGM m_clientHello m_serverHello m_certificate
  m_serverKeyExchange m_clientKeyExchange m_finished m_certificateRequestGM m_certificateVerify generateServerKeyExchange processClientKeyExchange processServerKeyExchange
  generateClientKeyExchange masterFromPreMasterSecret gm_keys parse_msg getCipherSuites.

Lemma ecdhe_picks suites : In 0xe011 suites -> exists su, mutualCipherSuiteGM (offered suites) ECDHE = Some su /\ su_id su = ECDHE.
Proof.
  intros H. assert (HI : In 0xe011 (offered suites)) by (apply offered_in; auto). unfold mutualCipherSuiteGM. induction (offered suites) as [|id l IH]; [destruct HI|]. cbn [mutual_suite].
  destruct (Z.eqb_spec id ECDHE) as [->|N]; [eexists; split; reflexivity|]. destruct HI as [HI|HI]; [exfalso; apply N; now symmetry|auto].
Qed.
(** ServerECDHParams for a curve number nobody knows (1), with the point [pt], and the signature *)
Definition bad_params (pt : list Z) : list Z := [3; 0; 1; zlen pt] ++ pt.
Definition bad_skx (pt sig : list Z) : list Z := bad_params pt ++ b2 (zlen sig) ++ sig.
Lemma bad_skx_processed {T} (E : env T) cr sr p pt sig : bytes pt -> 0 < zlen pt < 256 -> e_onSM2 E pt = true -> bytes sig -> zlen sig < 2 ^ 16 ->
  PubVerify (e_cv E) p (e_md5sha1 E (cr ++ sr ++ bad_params pt)) sig = Ok true -> ecdhe_processSKX E cr sr (PkSM2 p) (bad_skx pt sig) = Ok 1.
Proof.
  intros Bp Lp On Bs Ls PV. pose proof (zlen_nonneg sig).
  assert (F : firstn (Z.to_nat (4 + zlen pt)) (bad_skx pt sig) = bad_params pt).
  { unfold bad_skx. rewrite firstn_app. rewrite firstn_all2 by (unfold bad_params; rewrite app_length; cbn [length]; unfold zlen; lia).
    replace (Z.to_nat (4 + zlen pt) - length (bad_params pt))%nat with 0%nat by (unfold bad_params; rewrite app_length; cbn [length]; unfold zlen; lia). apply app_nil_r. }
  assert (SK : skipn (Z.to_nat (4 + zlen pt)) (bad_skx pt sig) = b2 (zlen sig) ++ sig).
  { unfold bad_skx. rewrite skipn_app. rewrite skipn_all2 by (unfold bad_params; rewrite app_length; cbn [length]; unfold zlen; lia).
    replace (Z.to_nat (4 + zlen pt) - length (bad_params pt))%nat with 0%nat by (unfold bad_params; rewrite app_length; cbn [length]; unfold zlen; lia). reflexivity. }
  unfold ecdhe_processSKX. assert (HK : bad_skx pt sig = 3 :: 0 :: 1 :: zlen pt :: pt ++ b2 (zlen sig) ++ sig) by (unfold bad_skx, bad_params; rewrite <- app_assoc; reflexivity).
  assert (LK : zlen (bad_skx pt sig) = 6 + zlen pt + zlen sig). { unfold bad_skx, bad_params. rewrite !zlen_app. change (zlen (b2 (zlen sig))) with 2. change (zlen [3; 0; 1; zlen pt]) with 4. lia. }
  rewrite HK at 1. cbn [Z.eqb Pos.eqb negb]. destruct (Z.ltb_spec (zlen (bad_skx pt sig)) (zlen pt + 4)) as [X|_]; [lia|]. cbv zeta. rewrite F, SK. unfold b2. cbn [app].
  change (skipn 4 (bad_params pt)) with pt. rewrite On. cbn [negb].
  replace (256 * u8 (Z.shiftr (zlen sig) 8) + u8 (zlen sig) + 2 =? zlen (u8 (Z.shiftr (zlen sig) 8) :: u8 (zlen sig) :: sig)) with true.
  2: { symmetry. apply Z.eqb_eq. replace (zlen (u8 (Z.shiftr (zlen sig) 8) :: u8 (zlen sig) :: sig)) with (2 + zlen sig) by (unfold zlen; cbn [length]; lia).
       revert Ls H. generalize (zlen sig). intros z Hz H0. unfold u8. rewrite Z.shiftr_div_pow2 by lia. change (2 ^ 8) with 256. change (2 ^ 16) with 65536 in Hz. lia. }
  cbn [negb]. change (pickSignatureType (PkSM2 p) 0 VersionGMSSL) with (Some signatureSM2). cbv iota. unfold verifyHandshakeSignature. cbn [signatureSM2 signatureECDSA signaturePKCS1v15 signatureRSAPSS Z.eqb Pos.eqb orb]. rewrite PV. reflexivity.
Qed.

(** C93 refuted for a client that offers the ECDHE suite: the server the client accepts (it owns the first key) signs parameters that name an unknown curve, and the client panics
    (gm_key_agreement.go:262-265) when it answers. *)
Theorem C93_default_client_refuted {T} (E : env T) Hs cfg rn cr sr rnd b' ders k0 k1 d1 x0 x1 xs pt sig :
  world_ok E Hs -> client_ready E cfg rn cr rnd b' ders k0 k1 d1 x0 x1 xs ->
  In 0xe011 (getCipherSuites (cf_suites cfg)) -> bytes sr -> length sr = 32%nat ->
  Forall P_TLS_msg.cert_ok ders -> 3 * zlen ders + sum_len ders < 2 ^ 24 - 3 ->
  bytes pt -> 0 < zlen pt < 256 -> e_onSM2 E pt = true ->
  bytes sig -> zlen sig < 2 ^ 16 -> PubVerify (e_cv E) (sPub k0) (e_md5sha1 E (cr ++ sr ++ bad_params pt)) sig = Ok true ->
  exists inbox log, clientHandshakeGM E script cfg None rn (inbox, []) = (HPanic, ([], log)).
Proof.
  intros (HL & HG & _) CR HI Bsr Lsr CO CS Bpt Lpt On Bsig Lsig PV.
  destruct CR as [NM (RHc & Bcr & Lcr) _ _ HF HP (Gx0 & Gx1 & Rx1) (U0 & U1) HV VP LS KLc].
  set (suites := offered (getCipherSuites (cf_suites cfg))).
  destruct (P_TLS_msg.C63_clientHello _ (honest_ch_ok cr _ Lcr LS)) as (chraw & M1 & F1 & U1').
  destruct (P_TLS_msg.C63_serverHello _ (ecdhe_sh_ok sr Lsr)) as (m_sh & M2 & F2 & U2').
  destruct (P_TLS_msg.C63_certificate _ CO CS) as (m_cert & M3 & F3 & U3').
  destruct (P_TLS_msg.C63_serverKeyExchange (bad_skx pt sig)) as (m_skx & M4 & F4 & U4').
  assert (LO : zlen suites < 2 ^ 20) by (pose proof (offered_length (getCipherSuites (cf_suites cfg))); unfold suites, zlen in *; lia).
  pose proof (proj1 (out_ch _ _ _ Bcr LO M1)) as B0. pose proof (out_sh' _ _ Bsr M2) as B1. pose proof (proj1 (out_cert _ _ CO CS M3)) as B2.
  assert (BK : bytes (bad_skx pt sig)). { unfold bad_skx, bad_params. byt. all: try (unfold is_byte; lia). }
  assert (LK : zlen (bad_skx pt sig) < 2 ^ 20). { unfold bad_skx, bad_params. rewrite !zlen_app. change (zlen (b2 (zlen sig))) with 2. change (zlen [3; 0; 1; zlen pt]) with 4. lia. }
  pose proof (proj1 (out_skx _ _ BK LK M4)) as B3. assert (Bd : bytes m_serverHelloDone) by (apply bytesb_spec; reflexivity).
  assert (MT : forall t m, P_TLS_msg.framed t m -> mtype m = t) by (intros t m (bd & ->); reflexivity).
  destruct (ecdhe_picks _ HI) as (su & NS & SU). fold suites in NS.
  assert (MH : makeClientHelloGM cfg rn = Ok (honest_ch cr suites)).
  { unfold makeClientHelloGM. replace ((zlen (cf_serverName cfg) =? 0) && negb (cf_skip cfg)) with false.
    - rewrite RHc. reflexivity.
    - destruct NM as [-> |NM]; [rewrite andb_false_r; reflexivity|]. destruct (cf_serverName cfg); [congruence|]. reflexivity. }
  assert (Psh : parse_msg VersionGMSSL m_sh = Ok (MServerHello (ecdhe_sh sr))) by (apply p_sh; [apply MT; exact F2|exact U2']).
  assert (P1 : parse_msg VersionGMSSL m_cert = Ok (MCertificate ders)) by (apply p_cert; [apply MT; exact F3|exact U3']).
  assert (P2 : parse_msg VersionGMSSL m_skx = Ok (MServerKeyExchange (bad_skx pt sig))) by (apply p_skx; [apply MT; exact F4|exact U4']).
  exists (map IMsg [m_sh; m_cert; m_skx; m_serverHelloDone]). eexists.
  unfold clientHandshakeGM. run ltac:(reflexivity). run ltac:(apply res_run; exact MH). run ltac:(apply res_run; reflexivity).
  run ltac:(apply res_run; exact M1). run ltac:(apply send_run). cbn [map app].
  run ltac:(apply read_run; exact Psh). cbn [fst snd]. cbn [ecdhe_sh sh_vers sh_suite honest_ch ch_suites]. rewrite Z.eqb_refl. cbn [negb]. unfold ECDHE in NS. rewrite NS.
  run ltac:(unfold processServerHello; cbn; reflexivity).
  destruct (newFinishedHashGM_ok (e_std E) Hs HL HG) as (h0 & N0 & G0). run ltac:(apply res_run; exact N0). cbn [orb].
  match goal with |- context [if ?b then discardHandshakeBuffer h0 else h0] => set (h1 := if b then discardHandshakeBuffer h0 else h0); assert (G1 : exists d, gmh Hs d [] h1) end.
  { unfold h1. match goal with |- context [if ?b then _ else _] => destruct b end; [|eauto]. exists true. eapply gmh_discard; exact G0. }
  clearbody h1. destruct G1 as [d G1].
  destruct (gmh_fwd _ _ _ _ _ G1 B0) as (h2 & W2 & G2). run ltac:(apply wr_run; exact W2).
  destruct (gmh_fwd _ _ _ _ _ G2 B1) as (h3 & W3 & G3). run ltac:(apply wr_run; exact W3).
  apply bind_panic. unfold client_full. run ltac:(apply read_run; exact P1). cbn [fst snd].
  assert (Ln : zlen ders = 2 + zlen xs). { assert (X : length ders = length (x0 :: x1 :: xs)) by (clear -HF; induction HF; cbn; auto). unfold zlen. rewrite X. cbn [length]. lia. }
  pose proof (zlen_nonneg xs). destruct (Z.eqb_spec (zlen ders) 0); [lia|]. destruct (Z.ltb_spec (zlen ders) 2); [lia|].
  destruct (gmh_fwd _ _ _ _ _ G3 B2) as (h4 & W4 & G4). run ltac:(apply wr_run; exact W4).
  run ltac:(apply check_certs_run; [exact HF|exact HP|intros [|k] c Hk Ek; [cbn in Hk; injection Hk as <-; now apply ku_sign_conv|lia]|intros [|[|k]] c Hk Ek; [lia|cbn in Hk; injection Hk as <-; now apply ku_enc_conv|lia]]).
  assert (X : forall i l, exists chains, (if cf_skip cfg then ret [] else verify_certs E cfg (client_roots cfg) 0 X509_model.NewCertPool (x0 :: x1 :: xs) []) (i, l) = (HOk chains, (i, l)) :> hres (list (list cert)) * hst script).
  { intros i0 l0. destruct (cf_skip cfg); [exists []; reflexivity|]. apply verify_certs_run. auto. }
  edestruct X as (chains & VX). run ltac:(exact VX). clear X VX. rewrite VP.
  run ltac:(apply read_run; exact P2). cbn [fst snd].
  destruct (gmh_fwd _ _ _ _ _ G4 B3) as (h5 & W5 & G5).
  erewrite bind_run. 2: { run ltac:(apply wr_run; exact W5).
    run ltac:(apply orfail_run; unfold ka_processSKX; rewrite SU; cbn [ECDHE ECC Z.eqb Pos.eqb]; rewrite Gx0; cbn [honest_ch ecdhe_sh ch_random sh_random]; rewrite (bad_skx_processed E cr sr (sPub k0) pt sig Bpt Lpt On Bsig Lsig PV); exact eq_refl).
    run ltac:(apply read_run; apply p_done). reflexivity. }
  cbv iota beta. cbn [fst snd]. run ltac:(reflexivity). cbv iota beta. cbn [fst snd].
  destruct (gmh_fwd _ _ _ _ _ G5 Bd) as (h6 & W6 & G6). run ltac:(apply wr_run; exact W6). run ltac:(reflexivity).
  apply bind_panic. unfold ka_generateCKX. rewrite SU. cbn [ECDHE ECC Z.eqb Pos.eqb orb orfail lift]. exact eq_refl.
Qed.

(** ** The hypotheses are met *)
Definition ypt : list Z := 4 :: be_bytes 32 sm2_gx ++ be_bytes 32 sm2_gy.
Definition yE : env unit := mkEnv cv_std xL (fun _ _ => []) sm3 xparse (fun _ _ => true) [] (fun _ _ => true) None (fun _ _ _ _ => false) (fun _ => zeros 36) (beqb ypt) (fun _ => HErr 0) 1.
Lemma yworld : world_ok yE xHs. Proof. exact xworld. Qed.
Lemma yclient : client_ready yE xccfg (xrn 8) (repeat 8 32) (repeat 8 46) [] [[48; 1]; [48; 2]] xkey xkey [48; 2] xx0 xx1 [].
Proof. destruct (xclient NoClientCert) as [H1 H2 H3 H4 H5 H6 H7 H8 H9 H10 H11 H12]. constructor; assumption. Qed.
Lemma ysign : match Sign cv_std (Some []) xkey (zeros 36) with Ok (r, s) => negb (r =? 0) && negb (s =? 0) | _ => false end = true.
Proof. vm_compute. exact eq_refl. Qed.
(** the default configuration of the example meets the hypotheses of the refutation, and crashes *)
Theorem C93_refuted_hyps : cf_suites xccfg = None /\ exists inbox log, clientHandshakeGM yE script xccfg None (xrn 8) (inbox, []) = (HPanic, ([], log)).
Proof.
  split; [reflexivity|].
  assert (BD : bytes (zeros 36)) by (apply bytesb_spec; reflexivity).
  destruct (P_SM2.C13_sign_verify_good unit cv_std xkey [] (zeros 36) cv_std_good (proj2 P_SM2.C13_hyps) ltac:(left; reflexivity) BD ltac:(reflexivity)) as (r & s & SG & R1 & R2 & VE & _).
  destruct (P_SM2.C26_der_signature unit cv_std xkey (Some []) _ r s SG) as (sig & PS & PV). specialize (PV (sPub xkey) []). rewrite app_nil_r in PV.
  pose proof ysign as X. rewrite SG in X. apply andb_prop in X as [X1 X2]. apply negb_true_iff, Z.eqb_neq in X1, X2. rewrite (proj2 VE (conj X1 X2)) in PV.
  assert (SO : bytes sig /\ zlen sig <= 84).
  { unfold PrivSign in PS. rewrite SG in PS. cbn [rbind] in PS. apply Sign_range in SG as [Q1 Q2]. pose proof (der_sig_out r s Q1 Q2) as Y. revert PS Y. generalize (der_seq [der_int r; der_int s]). intros z Hz Hx. injection Hz as <-. exact Hx. }
  destruct (xserver NoClientCert) as [_ _ _ _ _ _ (RH & Bsr & Lsr) _ (CO & CS) _].
  refine (C93_default_client_refuted yE xHs xccfg (xrn 8) _ (repeat 7 32) _ _ _ xkey xkey [48; 2] xx0 xx1 [] ypt sig yworld yclient _ Bsr Lsr CO CS _ _ _ (proj1 SO) _ PV).
  - right. left. reflexivity.
  - apply bytes_cons. split; [unfold is_byte; lia|]. apply bytes_app. split; apply be_bytes_bytes.
  - unfold ypt, zlen. cbn [length]. rewrite app_length, !be_bytes_length. cbn. lia.
  - apply beqb_refl.
  - destruct SO. lia.
Qed.

(** C93's positive theorem: a client that offers only the ECC suite, with a record layer that delivers well-formed but otherwise arbitrary messages *)
Definition sane_item (i : item) : bool := match i with IMsg m => bytesb m && negb (zlen m =? 0) && (zlen m <? 2 ^ 25) | ICCS => true end.
Definition any_server : chan := mkChan (list item)
  (fun l => match filter sane_item l with IMsg m :: l => (HOk m, l) | ICCS :: l => (HErr 0, l) | [] => (HLoop, []) end)
  (fun l => match filter sane_item l with ICCS :: l => (HOk tt, l) | IMsg _ :: l => (HErr 0, l) | [] => (HLoop, []) end)
  (fun _ _ l => (HOk tt, l)) (fun _ l => l) (fun _ _ l => l) (fun _ _ _ l => l).
Lemma any_server_ok : chan_ok any_server (fun _ => True).
Proof.
  constructor.
  - intros l. cbn [cn_read any_server]. destruct (filter sane_item l) as [|[m|] l'] eqn:EF; cbn [fst]; auto.
    assert (X : sane_item (IMsg m) = true) by (apply (filter_In sane_item (IMsg m) l); rewrite EF; left; reflexivity). unfold sane_item in X. apply andb_prop in X as [X X3]. apply andb_prop in X as [X1 X2].
    apply bytesb_spec in X1. apply negb_true_iff, Z.eqb_neq in X2. apply Z.ltb_lt in X3. split; [exact X1|]. split; [intros ->; apply X2; reflexivity|]. split; [exact X3|exact I].
  - intros l. cbn [cn_ccs any_server]. destruct (filter sane_item l) as [|[m|] l']; discriminate.
  - intros t m l. discriminate.
Qed.
Definition eccfg : config unit := mkCfg 0 0 (Some [0xe013]) false [] [xce [48; 3]] 0 None (Some xpool) [97; 46; 98] false 50 false [] None None (fun _ _ => None).
(** for every list of messages and change-cipher-spec records the server may send *)
Theorem C93_hyps : client_sane yE eccfg None (xrn 8) /\ forall sent, fst (clientHandshakeGM yE any_server eccfg None (xrn 8) (sent, [])) <> HPanic.
Proof.
  assert (S : client_sane yE eccfg None (xrn 8)).
  { constructor.
    - change (getCipherSuites (cf_suites eccfg)) with [0xe013]. split; [|reflexivity]. intros [H|[]]. discriminate.
    - intros b [= <-]. split; [apply bytesb_spec; reflexivity|reflexivity].
    - intros b [= <-]. split; [apply bytesb_spec; reflexivity|reflexivity].
    - discriminate.
    - exists []. reflexivity.
    - exists []. reflexivity.
    - intros d x H. unfold yE in H. cbn [e_parse] in H. revert H. unfold xparse. repeat match goal with |- context [match ?b with _ => _ end] => is_var b; destruct b end; try discriminate; intros H; injection H as <-; apply bytesb_spec; reflexivity.
    - intros ce [<-|[]]. cbn [xce ce_chain]. split; [apply Forall_cons; [split; [apply bytesb_spec; reflexivity|split; [discriminate || reflexivity|reflexivity]]|apply Forall_nil]|reflexivity].
    - discriminate.
    - discriminate. }
  split; [exact S|]. intros sent. apply (C93_no_server_crashes_the_client yE any_server xHs); [exact yworld|exact cv_std_good|exact any_server_ok|exact S].
Qed.
Print Assumptions C93_hyps.

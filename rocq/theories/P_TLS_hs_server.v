(** Property theorems for the server's side of the GM handshake (C83-C86).  [C] is the connection below the handshake: its operations are
    arbitrary functions of an arbitrary state, so every theorem covers every network, every peer and every fragmentation. *)
From Verif Require Import GoBase GoLemmas BigBytes Asn1_model X509_spec SM2_model SM3_spec TLS_record_model TLS_prf_model TLS_prf_spec TLS_prf_proofs
  TLS_gmka_model TLS_ticket_model TLS_msg_model TLS_msg_proofs TLS_neg_model TLS_hs_model TLS_hs_proofs TLS_hs_bytes TLS_hs_server TLS_hs_spec.
From Verif Require X509_model X509_proofs P_X509 P_TLS_prf P_TLS_msg P_TLS_neg.
From Verif Require SM2_proofs.
Open Scope Z_scope.
#[local] Opaque sm3 fh_Write discardHandshakeBuffer clientSum serverSum PRF.

(** the parts of the world the handshake code computes with behave as specified *)
Definition world_ok {T} (E : env T) (Hs : hashes) : Prop := std_impl (e_std E) Hs /\ good_hashes Hs /\ SM2_proofs.mult_range (e_cv E).
(** config.rand() delivers bytes, 32 for a hello random *)
Definition hello_random_ok (rn : rnds) : Prop := forall b, r_hello rn = Some b -> bytes b /\ length b = 32%nat.

(** [chains] are non-empty and each is a valid path from [c] to one of [roots] through certificates of [inters], fit for [usage] *)
Definition trusted {T} (E : env T) (roots inters : list cert) (now : Z) (dns : list Z) (usage : Z) (c : cert) (chains : list (list cert)) : Prop :=
  chains <> [] /\
  Forall (fun ch => valid_path (fun child parent => X509_model.CheckSignatureFrom (e_checksig E) (e_entrust E) child parent = true) roots inters now dns c ch /\
                    forall x, In x ch -> permits x usage) chains.
Lemma x509_verify_trusted {T} (E : env T) o c chains usage : x509_verify E o c = Some chains -> 0 < usage ->
  match X509_model.o_usages o with [] => usage = 1 | us => us = [usage] end ->
  trusted E (X509_model.certs (X509_model.o_roots o)) (match X509_model.o_inter o with Some s => X509_model.certs s | None => [] end)
    (X509_model.o_now o) (X509_model.o_dns o) usage (g_cert c) chains /\ (X509_model.o_dns o <> [] -> e_host E (g_cert c) (X509_model.o_dns o) = true).
Proof.
  unfold x509_verify. intros H Hu HU.
  destruct (X509_model.Verify _ _ _ _ _ _) as [[ch|]|] eqn:EV; [|discriminate..]. injection H as <-.
  pose proof (P_X509.C36_chains_are_valid_paths _ _ _ _ _ _ _ EV) as (H1 & H2 & H3).
  assert (HF : Forall (fun u => 0 <= u) (X509_model.o_usages o)).
  { destruct (X509_model.o_usages o); [constructor|]. rewrite HU. repeat constructor. lia. }
  pose proof (P_X509.C39_verify_usage _ _ _ _ _ _ _ HF EV) as H4. cbv zeta in H4.
  split; [|exact H2]. split; [exact H1|]. apply Forall_forall. intros x Hx. rewrite Forall_forall in H3. split; [exact (H3 x Hx)|].
  destruct H4 as [H4|H4].
  - exfalso. destruct (X509_model.o_usages o); [|rewrite HU in H4]; destruct H4 as [H4|[]]; unfold EKU_Any, EKU_ServerAuth in H4; lia.
  - destruct (H4 x Hx) as (u & Hin & HP). destruct (X509_model.o_usages o) as [|u0 us].
    + destruct Hin as [<-|[]]. subst usage. exact HP.
    + rewrite HU in Hin. destruct Hin as [<-|[]]. exact HP.
Qed.
Lemma pool_certs l x : In x (X509_model.certs (fold_left X509_model.AddCert l X509_model.NewCertPool)) -> In x l.
Proof.
  assert (G : forall p, In x (X509_model.certs (fold_left X509_model.AddCert l p)) -> In x l \/ In x (X509_model.certs p)).
  { induction l as [|a l IH]; intros p H; [auto|]. cbn [fold_left] in H. apply IH in H as [H|H]; [left; now right|].
    unfold X509_model.AddCert in H. destruct (X509_model.contains p a); [auto|]. cbn [X509_model.certs] in H. apply in_app_iff in H as [H|[<-|[]]]; [auto|left; now left]. }
  intros H. apply G in H as [H|[]]. exact H.
Qed.

Section Server.
Context {T : Type} (E : env T) (C : chan) (Hs : hashes) (HW : world_ok E Hs).
(** a completed call and what it did on the connection *)
Definition server_completes (cfg : config T) (getcfg : option (clientHello -> res (option (config T)))) (rn : rnds) (c : CS C) (r : hresult T) (log : list event) : Prop :=
  exists c', serverHandshakeGM E C cfg getcfg rn (c, []) = (HOk r, (c', log)).
(** the ClientHello the server read first, and the configuration in force *)
Definition hello_read (log : list event) (ch : clientHello) : Prop := exists m rest, log = EvRecv m :: rest /\ mtype m = tClientHello /\ u_clientHello ch_empty m = Ok ch.

Lemma server_parts cfg getcfg rn c r log : server_completes cfg getcfg rn c r log -> hr_resumed r = false ->
  exists hs su f lf k l_np l_t m_fin m_sfin, server_run E Hs hs su rn r log f lf k l_np l_t m_fin m_sfin /\
    parse_msg 0 (ss_chraw hs) = Ok (MClientHello (ss_ch hs)) /\ cfg_for cfg getcfg (ss_ch hs) (ss_cfg hs) /\
    mutualVersion (cf_min (ss_cfg hs)) (cf_max (ss_cfg hs)) (ch_vers (ss_ch hs)) = Some (ss_v hs) /\ In 0 (ch_comp (ss_ch hs)) /\ ch_reneg (ss_ch hs) = [] /\
    (exists rest, cf_certs (ss_cfg hs) = ss_c0 hs :: ss_c1 hs :: rest) /\ r_hello rn = Some (sh_random (sf_sh f)) /\
    sh_npn (sf_sh f) = negb (0 <? zlen (ch_alpn (ss_ch hs))) && ch_npn (ss_ch hs) && (0 <? zlen (cf_protos (ss_cfg hs))) /\
    negotiate_suite gmCipherSuites (gm_suite_ok (ss_v hs)) (cf_prefer (ss_cfg hs)) (getCipherSuites (cf_suites (ss_cfg hs))) (ch_suites (ss_ch hs)) = Some su /\
    bad_fallback (ch_suites (ss_ch hs)) (ch_vers (ss_ch hs)) (maxVersion (cf_max (ss_cfg hs))) = false.
Proof.
  intros [c' H] HR. destruct HW as (HL & HG & _).
  apply (serverHandshake_inv E Hs HL HG) in H as (hs & (s0 & HH) & [(st & su & _ & X & _)|(_ & _ & su & f & lf & k & l_np & l_t & m_fin & m_sfin & X1 & X2 & X3)]); [congruence|].
  apply server_hello_inv in HH as (random & _ & P & Cf & V & Cm & Rg & Rn & Ce & _ & Sr & _ & _ & Np & _).
  exists hs, su, f, lf, k, l_np, l_t, m_fin, m_sfin. split; [exact X3|].
  pose proof (fr_sh _ _ _ _ _ _ _ (sr_full _ _ _ _ _ _ _ _ _ _ _ _ _ _ X3)) as SH. rewrite SH. cbn [full_sh set_sh_suite set_sh_ticketOn set_sh_ocsp sh_random sh_npn].
  rewrite Sr. repeat (split; [assumption|]). assumption.
Qed.

Definition opt_of (b : bool) (l : list event) (s : step) : Prop := steps l = opt b s.
Lemma sfull_steps hs su rn f lf : sfull_run E Hs hs su rn f lf -> mtype (ss_chraw hs) = 1 ->
  steps (EvRecv (ss_chraw hs) :: lf) = [In_ tClientHello; Out tServerHello; Out tCertificate] ++ opt (ocsp_stapled hs) (Out tCertificateStatus) ++ [Out tServerKeyExchange] ++
    opt (asks (ss_cfg hs)) (Out tCertificateRequest) ++ [Out tServerHelloDone] ++ opt (asks (ss_cfg hs)) (In_ tCertificate) ++ [In_ tClientKeyExchange] ++
    opt (match sf_certs f with [] => false | _ => true end) (In_ tCertificateVerify).
Proof.
  intros HF H1. destruct (fr_flow _ _ _ _ _ _ _ HF) as (m_sh & m_cert & l_st & skx & m_skx & l_req & l_cc & m_ckx & l_cv & ct & pms & -> & Q1 & Q2 & Q3 & Q4 & Q5 & Q6 & Q7 & Q8 & Q9 & Q10 & Q11 & Q12).
  change (EvRecv (ss_chraw hs) :: ?x) with ([EvRecv (ss_chraw hs)] ++ x).
  rewrite !steps_app. cbn [steps step_of flat_map app].
  rewrite H1, (t_serverHello _ _ Q1), (t_certificate _ _ Q2), (t_skx _ _ Q5), (parse_type _ _ _ Q8).
  assert (S3 : steps l_st = opt (ocsp_stapled hs) (Out tCertificateStatus)).
  { destruct (ocsp_stapled hs); [destruct Q3 as (m & -> & Q3); cbn; now rewrite (t_status _ _ Q3)|now rewrite Q3]. }
  assert (S6 : steps l_req = opt (asks (ss_cfg hs)) (Out tCertificateRequest)).
  { destruct (asks (ss_cfg hs)); [destruct Q6 as (m & -> & Q6); cbn; now rewrite (t_req _ _ _ Q6)|now rewrite Q6]. }
  assert (S7 : steps l_cc = opt (asks (ss_cfg hs)) (In_ tCertificate)).
  { destruct (asks (ss_cfg hs)); [destruct Q7 as (m & -> & Q7 & _); cbn; now rewrite (parse_type _ _ _ Q7)|now destruct Q7 as (-> & _)]. }
  assert (S12 : steps l_cv = opt (match sf_certs f with [] => false | _ => true end) (In_ tCertificateVerify)).
  { destruct (sf_certs f); [now rewrite Q12|]. destruct Q12 as (m & alg & sig & st & dg & -> & Q12 & _). cbn. now rewrite (parse_type _ _ _ Q12). }
  unfold steps in *. rewrite S3, S6, S7, S12. reflexivity.
Qed.
Lemma srun_np hs su rn r log f lf k l_np l_t m_fin m_sfin : server_run E Hs hs su rn r log f lf k l_np l_t m_fin m_sfin ->
  steps l_np = opt (sh_npn (sf_sh f)) (In_ tNextProtocol) /\ steps l_t = opt (sh_ticketOn (sf_sh f)) (Out tNewSessionTicket) /\ mtype m_fin = tFinished.
Proof.
  intros HR. split; [|split].
  - pose proof (sr_np _ _ _ _ _ _ _ _ _ _ _ _ _ _ HR) as X. destruct (sh_npn (sf_sh f)); [destruct X as (m & p & -> & X & _); cbn; now rewrite (parse_type _ _ _ X)|now destruct X as [-> _]].
  - pose proof (sr_t _ _ _ _ _ _ _ _ _ _ _ _ _ _ HR) as X. destruct (sh_ticketOn (sf_sh f)); [destruct X as (m & t & -> & X & _); cbn; now rewrite (t_ticket _ _ X)|now rewrite X].
  - exact (parse_type _ _ _ (sr_fin _ _ _ _ _ _ _ _ _ _ _ _ _ _ HR)).
Qed.
Lemma wire_ok_sub l l' : wire_ok l -> (exists a b, l = a ++ l' ++ b) -> wire_ok l'.
Proof. intros H (a & b & ->). apply wire_ok_app in H as [_ H]. now apply wire_ok_app in H as [H _]. Qed.
(** the pre-master secret and the master secret *)
Lemma server_secret hs su rn r log f lf k l_np l_t m_fin m_sfin : server_run E Hs hs su rn r log f lf k l_np l_t m_fin m_sfin -> wire_ok log ->
  hello_random_ok rn -> r_hello rn = Some (sh_random (sf_sh f)) -> parse_msg 0 (ss_chraw hs) = Ok (MClientHello (ss_ch hs)) ->
  su_id su = ECC /\ exists m ct pms ver, In (EvRecv m) lf /\ mtype m = tClientKeyExchange /\ u_clientKeyExchange m = Ok ct /\ processClientKeyExchange (e_cv E) (ce_key (ss_c1 hs)) ct = Ok pms /\
    ss_v hs = vers_of ver /\ ver <> TLS12 true /\ length pms = 48%nat /\ bytes pms /\
    sf_master f = PRF Hs ver 48 pms ascii_master_secret (ch_random (ss_ch hs) ++ sh_random (sf_sh f)) /\ bytes (sf_master f) /\ length (sf_master f) = 48%nat /\
    bytes (ch_random (ss_ch hs)) /\ length (ch_random (ss_ch hs)) = 32%nat.
Proof.
  intros HR WO RO Er Ech. destruct HW as (HL & HG & HM).
  pose proof (sr_log _ _ _ _ _ _ _ _ _ _ _ _ _ _ HR) as EL. pose proof (sr_full _ _ _ _ _ _ _ _ _ _ _ _ _ _ HR) as HF.
  destruct (fr_flow _ _ _ _ _ _ _ HF) as (m_sh & m_cert & l_st & skx & m_skx & l_req & l_cc & m_ckx & l_cv & ct & pms & El & Q1 & Q2 & Q3 & Q4 & Q5 & Q6 & Q7 & Q8 & Q9 & Q10 & Q11 & Q12).
  assert (EC : su_id su = ECC) by (unfold ka_generateSKX in Q4; destruct (Z.eqb_spec (su_id su) ECC); [auto|discriminate]).
  split; [exact EC|].
  assert (Hin : In (EvRecv m_ckx) lf) by (rewrite El, !in_app_iff; cbn; tauto).
  assert (WL : wire_ok (EvRecv (ss_chraw hs) :: lf)) by (eapply wire_ok_sub; [exact WO|]; exists []; eexists; rewrite EL; reflexivity).
  assert (Bk : wire_ok [EvRecv m_ckx]) by (eapply wire_ok_in; [exact WL|]; right; exact Hin).
  assert (Bh : bytes (ss_chraw hs)) by (apply wire_ok_recv; eapply wire_ok_in; [exact WL|now left]).
  assert (P8 : u_clientKeyExchange m_ckx = Ok ct).
  { pose proof (parse_type _ _ _ Q8) as Ht. destruct m_ckx as [|t m_ckx]; [discriminate|]. cbn [mtype type_of] in Ht. subst t. cbn in Q8. apply rmap_ok in Q8 as (a & Q8 & [= <-]). exact Q8. }
  assert (RC : bytes (ch_random (ss_ch hs)) /\ length (ch_random (ss_ch hs)) = 32%nat).
  { pose proof (parse_type _ _ _ Ech) as Ht. destruct (ss_chraw hs) as [|t m]; [discriminate|]. cbn [mtype type_of] in Ht. subst t. cbn in Ech. apply rmap_ok in Ech as (a & Ech & [= <-]).
    eapply ch_random_ok; eauto. }
  destruct RC as [RC1 RC2]. destruct (RO _ Er) as [RS1 RS2].
  destruct (P_TLS_msg.C75_clientKeyExchange m_ckx ct (wire_ok_recv _ Bk) P8) as (t & Ew).
  assert (Bct : bytes ct /\ zlen ct < 2 ^ 57).
  { pose proof (wire_ok_recv _ Bk) as B. rewrite Ew in B. apply bytes_cons in B as [_ B]. apply bytes_app in B as [_ B]. split; [exact B|].
    unfold u_clientKeyExchange in P8. apply fails_ok in P8 as [H4 P8]. apply Z.ltb_ge in H4. apply P_TLS_msg.bind_inv in P8 as (l & E24 & P8).
    apply fails_ok in P8 as [EL4 _]. apply negb_false_iff, Z.eqb_eq in EL4.
    pose proof (post_be24 m_ckx 1 (wire_ok_recv _ Bk) ltac:(lia) ltac:(lia)) as PB. rewrite E24 in PB. cbn in PB.
    rewrite Ew in EL4. unfold zlen in *. cbn [length] in EL4. rewrite app_length, be_bytes_length in EL4. lia. }
  unfold ka_processCKX in Q9. rewrite EC in Q9. cbn in Q9. apply of_res_ok in Q9.
  destruct (processCKX_small _ _ _ _ HM (proj1 Bct) (proj2 Bct) Q9) as [BP LP].
  destruct (master_small _ _ _ _ _ _ _ HL HG BP LP RC1 RS1 RC2 RS2 Q10) as (ver & V1 & V2 & V3 & V4 & V5).
  exists m_ckx, ct, pms, ver. split; [exact Hin|]. split; [exact (parse_type _ _ _ Q8)|]. repeat (split; [assumption|]). assumption.
Qed.

(** ** C83.  Order of the messages and the Finished values *)
(** A completed full handshake consists of exactly the prescribed messages in the prescribed order, with the optional ones exactly when the
    ClientHello, the configuration and the client's certificates ask for them, and no alert. *)
Theorem C83_server_flow cfg getcfg rn c r log : server_completes cfg getcfg rn c r log -> hr_resumed r = false ->
  exists ch cfg', hello_read log ch /\ cfg_for cfg getcfg ch cfg' /\
    steps log = server_flow (ch_ocsp ch && match cf_certs cfg' with c0 :: _ => 0 <? zlen (ce_ocsp c0) | [] => false end)   (* status *)
                            (1 <=? cf_auth cfg')                                                                            (* certificate request *)
                            (match hr_peer r with [] => false | _ => true end)                                              (* certificate verify *)
                            (ch_npn ch && match ch_alpn ch with [] => true | _ => false end && match cf_protos cfg' with [] => false | _ => true end)
                            (ch_ticketOn ch && negb (cf_noTickets cfg')).
Proof.
  intros H HR. destruct (server_parts _ _ _ _ _ _ H HR) as (hs & su & f & lf & k & l_np & l_t & m_fin & m_sfin & SR & Ech & Cf & V & Cm & Rg & Ce & Er & Np & Ns & Bf).
  pose proof (sr_log _ _ _ _ _ _ _ _ _ _ _ _ _ _ SR) as EL. pose proof (sr_full _ _ _ _ _ _ _ _ _ _ _ _ _ _ SR) as HF.
  pose proof (parse_type _ _ _ Ech) as Ht. cbn [type_of] in Ht.
  exists (ss_ch hs), (ss_cfg hs). split.
  { exists (ss_chraw hs). eexists. split; [rewrite EL; reflexivity|]. split; [exact Ht|].
    destruct (ss_chraw hs) as [|t m]; [discriminate|]. cbn [mtype] in Ht. subst t. cbn in Ech. apply rmap_ok in Ech as (a & Ech & [= <-]). exact Ech. }
  split; [exact Cf|].
  destruct (srun_np _ _ _ _ _ _ _ _ _ _ _ _ SR) as (S1 & S2 & S3).
  pose proof (sfull_steps _ _ _ _ _ HF Ht) as SF.
  assert (T3 : mtype m_sfin = tFinished).
  { (* the server's own Finished *) destruct (sr_sfin _ _ _ _ _ _ _ _ _ _ _ _ _ _ SR) as [vd Em]. exact (t_finished _ _ Em). }
  rewrite EL. change ([EvRecv (ss_chraw hs)] ++ ?x ++ ?y) with ((EvRecv (ss_chraw hs) :: x) ++ y).
  rewrite !steps_app, SF, S1, S2. cbn [steps step_of flat_map app]. rewrite S3, T3.
  destruct Ce as [rest Ce]. rewrite Ce. destruct (sr_res _ _ _ _ _ _ _ _ _ _ _ _ _ _ SR) as (_ & _ & _ & _ & _ & -> & _).
  replace (sh_ticketOn (sf_sh f)) with (ch_ticketOn (ss_ch hs) && negb (cf_noTickets (ss_cfg hs))) by (rewrite (fr_sh _ _ _ _ _ _ _ HF); reflexivity).
  replace (sh_npn (sf_sh f)) with (ch_npn (ss_ch hs) && match ch_alpn (ss_ch hs) with [] => true | _ => false end && match cf_protos (ss_cfg hs) with [] => false | _ => true end).
  2: { rewrite Np. destruct (ch_alpn (ss_ch hs)), (cf_protos (ss_cfg hs)); cbn [zlen length]; destruct (ch_npn (ss_ch hs)); reflexivity. }
  unfold server_flow, ocsp_stapled, asks. repeat (cbn [app]; rewrite <- app_assoc). reflexivity.
Qed.

(** Every Finished message the server took, or sent, in a completed full handshake carries the PRF of the master secret over the SM3 hash of
    all handshake messages before it. *)
Theorem C83_server_finished cfg getcfg rn c r log : hello_random_ok rn -> server_completes cfg getcfg rn c r log -> hr_resumed r = false -> wire_ok log ->
  (forall pre m post, log = pre ++ EvRecv m :: post -> mtype m = tFinished -> skipn 4 m = client_finished Hs GMSSL (hr_master r) (transcript pre)) /\
  (forall pre m post, log = pre ++ EvSend m :: post -> mtype m = tFinished -> m = [20; 0; 0; 12] ++ server_finished Hs GMSSL (hr_master r) (transcript pre)) /\
  length (hr_master r) = 48%nat.
Proof.
  intros RO H HR WO. destruct (server_parts _ _ _ _ _ _ H HR) as (hs & su & f & lf & k & l_np & l_t & m_fin & m_sfin & SR & Ech & Cf & V & Cm & Rg & Ce & Er & Np & Ns & Bf).
  pose proof (sr_log _ _ _ _ _ _ _ _ _ _ _ _ _ _ SR) as EL. pose proof (sr_full _ _ _ _ _ _ _ _ _ _ _ _ _ _ SR) as HF.
  pose proof (parse_type _ _ _ Ech) as Ht. cbn [type_of] in Ht.
  destruct (srun_np _ _ _ _ _ _ _ _ _ _ _ _ SR) as (S1 & S2 & S3).
  pose proof (sfull_steps _ _ _ _ _ HF Ht) as SF.
  destruct (server_secret _ _ _ _ _ _ _ _ _ _ _ _ SR WO RO Er Ech) as (_ & _ & _ & _ & _ & _ & _ & _ & _ & _ & _ & _ & _ & _ & Bm & Lm & _).
  destruct (sr_res _ _ _ _ _ _ _ _ _ _ _ _ _ _ SR) as (_ & _ & -> & _).
  assert (SM : small (sf_master f)) by (split; [exact Bm|unfold zlen; rewrite Lm; reflexivity]).
  destruct (sr_val _ _ _ _ _ _ _ _ _ _ _ _ _ _ SR WO SM) as [V1 V2].
  set (A1 := [EvRecv (ss_chraw hs)] ++ lf ++ [EvKeys k; EvRecvCCS] ++ l_np) in *.
  set (A2 := [EvRecv (ss_chraw hs)] ++ lf ++ [EvKeys k; EvRecvCCS] ++ l_np ++ [EvRecv m_fin] ++ l_t) in *.
  assert (E1 : log = A1 ++ EvRecv m_fin :: (l_t ++ [EvSendCCS; EvSend m_sfin])) by (rewrite EL; unfold A1; rewrite <- !app_assoc; reflexivity).
  assert (E2 : log = (A2 ++ [EvSendCCS]) ++ EvSend m_sfin :: []) by (rewrite EL; unfold A2; rewrite <- !app_assoc; reflexivity).
  assert (SA1 : steps A1 = steps (EvRecv (ss_chraw hs) :: lf) ++ [InCCS] ++ steps l_np) by (unfold A1; rewrite !steps_app; cbn; rewrite <- ?app_assoc; reflexivity).
  assert (SA2 : steps A2 = steps A1 ++ [In_ (mtype m_fin)] ++ steps l_t) by (unfold A1, A2; rewrite !steps_app, <- !app_assoc; reflexivity).
  split; [|split; [|exact Lm]].
  - intros pre m post Hl Hm.
    destruct (unique_event (recv_type tFinished) log A1 _ pre post _ (EvRecv m) E1) as (-> & Em & _); auto.
    + apply no_recv. rewrite SA1, SF, S1. unfold opt. intros HX. rewrite !in_app_iff in HX. cbn in HX.
      repeat match type of HX with context [if ?b then _ else _] => destruct b end; cbn in HX; intuition discriminate.
    + apply no_recv. rewrite steps_app, S2. unfold opt. destruct (sh_ticketOn (sf_sh f)); cbn; intuition discriminate.
    + exists m. auto.
    + injection Em as ->. destruct (parse_finished _ _ _ (sr_fin _ _ _ _ _ _ _ _ _ _ _ _ _ _ SR)) as [_ <-]. exact V1.
  - intros pre m post Hl Hm.
    destruct (unique_event (send_type tFinished) log (A2 ++ [EvSendCCS]) _ pre post _ (EvSend m) E2) as (-> & Em & _); auto.
    + apply no_send. rewrite steps_app, SA2, SA1, SF, S1, S2. unfold opt. intros HX. rewrite !in_app_iff in HX. cbn in HX.
      repeat match type of HX with context [if ?b then _ else _] => destruct b end; cbn in HX; intuition discriminate.
    + intros HX. inversion HX.
    + exists m. auto.
    + injection Em as ->. apply finished_wire.
      * rewrite transcript_app. change (transcript [EvSendCCS]) with (@nil Z). rewrite app_nil_r. exact V2.
      * apply PRF_length.
Qed.

(** ** C84.  The secrets of a completed full handshake *)
(** The suite is ECC_SM4_SM3, offered by the client and enabled by the server; the version is the negotiated one; the pre-master secret is what
    the encryption key makes of the received ClientKeyExchange; master secret and the six installed keys derive from it as specified. *)
Theorem C84_server_secrets cfg getcfg rn c r log : hello_random_ok rn -> server_completes cfg getcfg rn c r log -> hr_resumed r = false -> wire_ok log ->
  exists ch cfg' ver c0 c1 more m ct pms kb, hello_read log ch /\ cfg_for cfg getcfg ch cfg' /\
    cf_certs cfg' = c0 :: c1 :: more /\
    hr_suite r = 0xe013 /\ In (hr_suite r) (ch_suites ch) /\ In (hr_suite r) (getCipherSuites (cf_suites cfg')) /\
    mutualVersion (cf_min cfg') (cf_max cfg') (ch_vers ch) = Some (hr_vers r) /\ hr_vers r = vers_of ver /\ ver <> TLS12 true /\
    hr_clientRandom r = ch_random ch /\ r_hello rn = Some (hr_serverRandom r) /\ hr_serverName r = ch_sni ch /\
    In (EvRecv m) log /\ mtype m = tClientKeyExchange /\ u_clientKeyExchange m = Ok ct /\ processClientKeyExchange (e_cv E) (ce_key c1) ct = Ok pms /\
    hr_master r = PRF Hs ver 48 pms ascii_master_secret (hr_clientRandom r ++ hr_serverRandom r) /\
    keys_of log = [kb] /\ cuts_block kb (PRF Hs ver 128 (hr_master r) ascii_key_expansion (hr_serverRandom r ++ hr_clientRandom r)).
Proof.
  intros RO H HR WO. destruct (server_parts _ _ _ _ _ _ H HR) as (hs & su & f & lf & k & l_np & l_t & m_fin & m_sfin & SR & Ech & Cf & V & Cm & Rg & Ce & Er & Np & Ns & Bf).
  pose proof (sr_log _ _ _ _ _ _ _ _ _ _ _ _ _ _ SR) as EL. pose proof (sr_full _ _ _ _ _ _ _ _ _ _ _ _ _ _ SR) as HF.
  pose proof (parse_type _ _ _ Ech) as Ht. cbn [type_of] in Ht.
  destruct (server_secret _ _ _ _ _ _ _ _ _ _ _ _ SR WO RO Er Ech) as (EC & m & ct & pms & ver & Hin & Hmt & Hct & Hpms & Hv & Hv2 & _ & _ & Hma & Bm & Lm & RC1 & RC2).
  destruct (sr_res _ _ _ _ _ _ _ _ _ _ _ _ _ _ SR) as (-> & -> & -> & -> & -> & _ & _ & ->).
  pose proof (sr_keys _ _ _ _ _ _ _ _ _ _ _ _ _ _ SR) as HK. destruct Ce as [more Ce]. destruct (RO _ Er) as [RS1 RS2]. destruct HW as (HL & HG & _).
  exists (ss_ch hs), (ss_cfg hs), ver, (ss_c0 hs), (ss_c1 hs), more, m, ct, pms, k.
  split. { exists (ss_chraw hs). eexists. split; [rewrite EL; reflexivity|]. split; [exact Ht|].
    destruct (ss_chraw hs) as [|t mm]; [discriminate|]. cbn [mtype] in Ht. subst t. cbn in Ech. apply rmap_ok in Ech as (a & Ech & [= <-]). exact Ech. }
  split; [exact Cf|]. split; [exact Ce|]. split; [exact EC|].
  assert (SEL : In (su_id su) (ch_suites (ss_ch hs)) /\ In (su_id su) (getCipherSuites (cf_suites (ss_cfg hs)))).
  { destruct (P_TLS_neg.C66_server_selection true (gm_suite_ok (ss_v hs)) (cf_prefer (ss_cfg hs)) (getCipherSuites (cf_suites (ss_cfg hs))) (ch_suites (ss_ch hs))) as [X _].
    apply X in Ns as (b & id & a & Ep & (I1 & _ & I3 & _) & _). rewrite I3.
    assert (I4 : In id (if cf_prefer (ss_cfg hs) then getCipherSuites (cf_suites (ss_cfg hs)) else ch_suites (ss_ch hs))) by (rewrite Ep; apply in_elt).
    destruct (cf_prefer (ss_cfg hs)); auto. }
  split; [exact (proj1 SEL)|]. split; [exact (proj2 SEL)|]. split; [exact V|]. split; [exact Hv|]. split; [exact Hv2|]. split; [reflexivity|]. split; [exact Er|]. split; [reflexivity|].
  split; [rewrite EL, !in_app_iff; auto|]. split; [exact Hmt|]. split; [exact Hct|]. split; [exact Hpms|]. split; [exact Hma|].
  split.
  { assert (KF : keys_of lf = []).
    { destruct (fr_flow _ _ _ _ _ _ _ HF) as (m_sh & m_cert & l_st & skx & m_skx & l_req & l_cc & m_ckx & l_cv & ct' & pms' & -> & _ & _ & Q3 & _ & _ & Q6 & Q7 & _ & _ & _ & _ & Q12).
      assert (K_l_st : keys_of l_st = []) by (destruct (ocsp_stapled hs); [destruct Q3 as (? & -> & _)|rewrite Q3]; reflexivity).
      assert (K_l_req : keys_of l_req = []) by (destruct (asks (ss_cfg hs)); [destruct Q6 as (? & -> & _)|rewrite Q6]; reflexivity).
      assert (K_l_cc : keys_of l_cc = []) by (destruct (asks (ss_cfg hs)); [destruct Q7 as (? & -> & _)|destruct Q7 as (-> & _)]; reflexivity).
      assert (K_l_cv : keys_of l_cv = []) by (destruct (sf_certs f); [rewrite Q12|destruct Q12 as (? & ? & ? & ? & ? & -> & _)]; reflexivity).
      rewrite !keys_of_app, K_l_st, K_l_req, K_l_cc, K_l_cv. reflexivity. }
    pose proof (sr_np _ _ _ _ _ _ _ _ _ _ _ _ _ _ SR) as Q1. pose proof (sr_t _ _ _ _ _ _ _ _ _ _ _ _ _ _ SR) as Q2.
    assert (K1 : keys_of l_np = []) by (destruct (sh_npn (sf_sh f)); [destruct Q1 as (? & ? & -> & _)|destruct Q1 as (-> & _)]; reflexivity).
    assert (K2 : keys_of l_t = []) by (destruct (sh_ticketOn (sf_sh f)); [destruct Q2 as (? & ? & -> & _)|rewrite Q2]; reflexivity).
    rewrite EL, !keys_of_app, KF, K1, K2. reflexivity. }
  assert (SM : small (sf_master f)) by (split; [exact Bm|unfold zlen; rewrite Lm; reflexivity]).
  pose proof (P_TLS_prf.C55_key_block (e_std E) Hs HL HG ver false (sf_master f) (ch_random (ss_ch hs)) (sh_random (sf_sh f)) 32 16 16 SM RC1 RS1 RC2 RS2 ltac:(intros _; lia)) as (kk & X1 & X2 & _).
  replace (sha384_of ver false) with false in X1 by (destruct ver as [| | |[|]|]; try reflexivity; congruence).
  unfold gm_keys in HK. rewrite Hv, X1 in HK. injection HK as <-. exact X2.
Qed.

(** The ServerHello and Certificate messages the server sent: the values of the connection's state, a fresh session, no compression; and every certificate configured. *)
Theorem C84_server_hello cfg getcfg rn c r log ch cfg' : server_completes cfg getcfg rn c r log -> hr_resumed r = false -> hello_read log ch -> cfg_for cfg getcfg ch cfg' ->
  exists e m_sh m_cert rest sh, log = e :: EvSend m_sh :: EvSend m_cert :: rest /\ m_serverHello sh = Ok m_sh /\ m_certificate (concat (map ce_chain (cf_certs cfg'))) = Ok m_cert /\
    sh_vers sh = hr_vers r /\ sh_random sh = hr_serverRandom r /\ sh_suite sh = hr_suite r /\ sh_sessionId sh = [] /\ sh_comp sh = 0 /\ sh_reneg sh = [] /\
    sh_ticketOn sh = ch_ticketOn ch && negb (cf_noTickets cfg').
Proof.
  intros H HR HH HC. destruct HW as (HL & HG & _). destruct H as [c' H].
  apply (serverHandshake_inv E Hs HL HG) in H as (hs & (s0 & HS) & [(st & su & _ & X & _)|(_ & _ & su & f & lf & k & l_np & l_t & m_fin & m_sfin & X1 & X2 & SR)]); [congruence|].
  apply server_hello_inv in HS as (random & _ & Ech & Cf & V & Cm & Rg & Rn & Ce & SV & Sr & SC & SI & Np & SN & _).
  pose proof (sr_log _ _ _ _ _ _ _ _ _ _ _ _ _ _ SR) as EL. pose proof (sr_full _ _ _ _ _ _ _ _ _ _ _ _ _ _ SR) as HF.
  assert (ECH : ch = ss_ch hs).
  { destruct HH as (m & rest & Hl & Hm & Hu). rewrite EL in Hl. injection Hl as <- _. destruct (ss_chraw hs) as [|t mm]; [discriminate|]. cbn [mtype] in Hm. subst t. cbn in Ech.
    apply rmap_ok in Ech as (a & Ech & [= <-]). congruence. }
  subst ch.
  assert (ECF : cfg' = ss_cfg hs). { unfold cfg_for in *. destruct getcfg; [|congruence]. destruct Cf as (x & Y1 & ->), HC as (y & Y2 & ->). rewrite Y1 in Y2. injection Y2 as ->. reflexivity. }
  subst cfg'.
  destruct (sr_res _ _ _ _ _ _ _ _ _ _ _ _ _ _ SR) as (-> & -> & _ & _ & -> & _).
  pose proof (fr_sh _ _ _ _ _ _ _ HF) as SH.
  destruct (fr_flow _ _ _ _ _ _ _ HF) as (m_sh & m_cert & l_st & skx & m_skx & l_req & l_cc & m_ckx & l_cv & ct & pms & El & Q1 & Q2 & _).
  exists (EvRecv (ss_chraw hs)), m_sh, m_cert. eexists. exists (sf_sh f). split; [rewrite EL, El; cbn [app]; reflexivity|]. split; [exact Q1|]. split; [exact Q2|].
  rewrite SH. cbn [full_sh set_sh_suite set_sh_ticketOn set_sh_ocsp sh_vers sh_random sh_suite sh_sessionId sh_comp sh_reneg sh_ticketOn]. repeat split; assumption.
Qed.

(** ** C85.  Client authentication *)
(** [verified]: what an accepted signature over [digest] means for a leaf certificate's key *)
Definition signature_ok (vers : Z) (pub : pubk T) (alg : Z) (digest sig : list Z) : Prop :=
  match pub with
  | PkSM2 p => vers < VersionTLS12 /\ PubVerify (e_cv E) p digest sig = Ok true
  | PkECDSA _ => e_othersig E signatureECDSA pub digest sig = true
  | PkRSA _ => exists st, e_othersig E st pub digest sig = true
  | PkOther => False
  end.
Lemma signature_ok_intro vers pub alg st digest sig : pickSignatureType pub alg vers = Some st -> verifyHandshakeSignature E st pub digest sig = Ok true -> signature_ok vers pub alg digest sig.
Proof.
  unfold pickSignatureType, verifyHandshakeSignature, signature_ok. intros HP HV.
  destruct (Z.ltb_spec vers VersionTLS12) as [HL|HL].
  - destruct pub; try discriminate; injection HP as <-; cbn in HV; [auto| |]; injection HV as HV; eauto.
  - destruct (negb _); [discriminate|]. destruct pub as [p|k|k|].
    + destruct (Z.eqb_spec (signatureFromScheme alg) signatureECDSA) as [ES|]; [|discriminate]. injection HP as <-. rewrite ES in HV. cbn in HV. discriminate.
    + destruct (Z.eqb_spec (signatureFromScheme alg) signatureECDSA) as [ES|]; [|discriminate]. injection HP as <-. rewrite ES in HV. cbn in HV. injection HV as HV. exact HV.
    + destruct (_ || _) eqn:EO in HP; [|discriminate]. injection HP as <-. exists (signatureFromScheme alg).
      destruct (Z.eqb_spec (signatureFromScheme alg) signatureECDSA) as [ES|]; [discriminate|]. rewrite EO in HV. injection HV as HV. exact HV.
    + discriminate.
Qed.
(** With RequireAndVerifyClientCert a completed full handshake means: the client sent a Certificate message, its certificates parse to
    ConnectionState.PeerCertificates, the first one chains to ClientCAs for client authentication (VerifiedChains), and the client signed the
    SM3 hash of the whole handshake so far with the matching private key. *)
Theorem C85_client_authenticated cfg getcfg rn c r log ch cfg' : server_completes cfg getcfg rn c r log -> hr_resumed r = false -> wire_ok log ->
  hello_read log ch -> cfg_for cfg getcfg ch cfg' ->
  (cf_auth cfg' = RequireAndVerifyClientCert -> hr_peer r <> []) /\ (cf_auth cfg' = RequireAnyClientCert -> hr_peer r <> []) /\ (cf_auth cfg' = NoClientCert -> hr_peer r = []) /\
  forall leaf rest, hr_peer r = leaf :: rest ->
    (exists m ders, In (EvRecv m) log /\ mtype m = tCertificate /\ u_certificate m = Ok ders /\ Forall2 (fun d x => e_parse E d = Some x) ders (leaf :: rest)) /\
    (cf_auth cfg' = RequireAndVerifyClientCert \/ cf_auth cfg' = VerifyClientCertIfGiven ->
       exists roots inters, (match cf_clientCAs cfg' with Some p => Some p | None => e_sysroots E end) = Some roots /\ (forall x, In x inters -> In x (map g_cert rest)) /\
         trusted E (X509_model.certs roots) inters (cf_time cfg') [] 2 (g_cert leaf) (hr_chains r)) /\
    (exists pre m post alg sig, log = pre ++ EvRecv m :: post /\ mtype m = tCertificateVerify /\ u_certificateVerify (VersionTLS12 <=? hr_vers r) 0 m = Ok (alg, sig) /\
       signature_ok (hr_vers r) (g_pub leaf) alg (sm3 (transcript pre)) sig).
Proof.
  intros H HR WO HH HC. destruct (server_parts _ _ _ _ _ _ H HR) as (hs & su & f & lf & k & l_np & l_t & m_fin & m_sfin & SR & Ech & Cf & V & Cm & Rg & Ce & Er & Np & Ns & Bf).
  pose proof (sr_log _ _ _ _ _ _ _ _ _ _ _ _ _ _ SR) as EL. pose proof (sr_full _ _ _ _ _ _ _ _ _ _ _ _ _ _ SR) as HF.
  assert (ECH : ch = ss_ch hs).
  { destruct HH as (m & rest & Hl & Hm & Hu). rewrite EL in Hl. injection Hl as <- _. destruct (ss_chraw hs) as [|t mm]; [discriminate|]. cbn [mtype] in Hm. subst t. cbn in Ech.
    apply rmap_ok in Ech as (a & Ech & [= <-]). congruence. }
  subst ch.
  assert (ECF : cfg' = ss_cfg hs). { unfold cfg_for in *. destruct getcfg; [|congruence]. destruct Cf as (x & X1 & ->), HC as (y & X2 & ->). rewrite X1 in X2. injection X2 as ->. reflexivity. }
  subst cfg'. clear HC Cf HH.
  destruct (sr_res _ _ _ _ _ _ _ _ _ _ _ _ _ _ SR) as (-> & _ & _ & _ & _ & -> & -> & _).
  destruct (fr_flow _ _ _ _ _ _ _ HF) as (m_sh & m_cert & l_st & skx & m_skx & l_req & l_cc & m_ckx & l_cv & ct & pms & El & Q1 & Q2 & Q3 & Q4 & Q5 & Q6 & Q7 & Q8 & Q9 & Q10 & Q11 & Q12).
  assert (WL : wire_ok (EvRecv (ss_chraw hs) :: lf)) by (eapply wire_ok_sub; [exact WO|]; exists []; eexists; rewrite EL; reflexivity).
  assert (AS : asks (ss_cfg hs) = true -> sf_ders f <> [] -> sf_certs f <> []).
  { intros HA HN HE. rewrite HA in Q7. destruct Q7 as (m & _ & _ & (F2 & _) & _). rewrite HE in F2. apply HN. inversion F2; reflexivity. }
  assert (REQ : cf_auth (ss_cfg hs) = RequireAnyClientCert \/ cf_auth (ss_cfg hs) = RequireAndVerifyClientCert -> sf_certs f <> []).
  { intros HA. assert (AT : asks (ss_cfg hs) = true) by (unfold asks; destruct HA as [-> | ->]; reflexivity).
    apply AS; [exact AT|]. rewrite AT in Q7. destruct Q7 as (m & _ & _ & _ & Q7). apply Q7. exact HA. }
  split; [tauto|]. split; [tauto|]. split.
  { intros HA. unfold asks in Q7. rewrite HA in Q7. cbn in Q7. tauto. }
  intros leaf rest EP. rewrite EP in Q12.
  assert (AT : asks (ss_cfg hs) = true). { destruct (asks (ss_cfg hs)); [reflexivity|]. destruct Q7 as (_ & _ & X & _). congruence. }
  rewrite AT in Q7, Q6. destruct Q7 as (mc & Elc & P7 & (F1 & F2 & _) & _).
  split.
  { exists mc, (sf_ders f). split; [rewrite EL, El, Elc, !in_app_iff; cbn; tauto|]. pose proof (parse_type _ _ _ P7) as Ht. split; [exact Ht|]. split; [|rewrite <- EP; exact F1].
    destruct mc as [|t mm]; [discriminate|]. cbn [mtype type_of] in Ht. subst t. cbn in P7. apply rmap_ok in P7 as (a & P7 & [= <-]). exact P7. }
  split.
  { intros HA. destruct (F2 leaf rest EP) as (roots & ER & HV).
    { destruct HA as [-> | ->]; unfold VerifyClientCertIfGiven, RequireAndVerifyClientCert; lia. }
    apply (x509_verify_trusted E _ _ _ 2) in HV as [HV _]; [|lia|reflexivity].
    exists roots. eexists. split; [exact ER|]. split; [|exact HV]. cbn [client_verify_opts X509_model.o_inter]. intros x Hx. now apply pool_certs in Hx. }
  destruct Q12 as (m & alg & sig & st & dg & Elv & P12 & Pk & Np2 & Vf & Dg). specialize (Dg WL).
  match type of Dg with dg = sm3 (transcript ?x) => exists x end.
  exists m, ([EvKeys k; EvRecvCCS] ++ l_np ++ [EvRecv m_fin] ++ l_t ++ [EvSendCCS; EvSend m_sfin]), alg, sig. split.
  { rewrite EL, El, Elv. rewrite <- !app_assoc. reflexivity. }
  pose proof (parse_type _ _ _ P12) as Ht. split; [exact Ht|]. split.
  { destruct m as [|t mm]; [discriminate|]. cbn [mtype type_of] in Ht. subst t. cbn in P12. apply rmap_ok in P12 as ([a b] & P12 & [= <- <-]). exact P12. }
  eapply signature_ok_intro; [exact Pk|]. rewrite Dg in Vf. exact Vf.
Qed.
End Server.
Print Assumptions C83_server_flow.
Print Assumptions C83_server_finished.
Print Assumptions C84_server_secrets.
Print Assumptions C84_server_hello.
Print Assumptions C85_client_authenticated.

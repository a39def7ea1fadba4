(** Session resumption by the GM server, and what becomes of it. *)
From Verif Require Import GoBase GoLemmas BigBytes Asn1_model X509_spec Prime_cert SM2_curve_spec SM2_spec SM2_model SM2_proofs SM3_spec TLS_record_model TLS_prf_model TLS_prf_spec TLS_prf_proofs
  TLS_gmka_model TLS_ticket_model TLS_msg_model TLS_msg_proofs TLS_neg_model TLS_hs_model TLS_hs_proofs TLS_hs_bytes TLS_hs_server TLS_hs_client TLS_hs_spec TLS_hs_run P_TLS_hs_server P_TLS_hs_client P_TLS_hs_agree.
From Verif Require X509_model P_TLS_msg P_TLS_prf P_TLS_neg.
Open Scope Z_scope.
Ltac Zify.zify_post_hook ::= Z.div_mod_to_equations.
#[local] Opaque sm3 PRF be_bytes parse_msg.

(** ** The transcript of a resumed server: the version is GMSSL, the hash is SHA-1 *)
Section Hyb.
Context (L : stdlib) (Hs : hashes) (HL : std_impl L Hs) (HG : good_hashes Hs).
Record hyb (t : list Z) (h : finishedHash) : Prop := mkHyb {
  hy_vers : fh_version h = VersionGMSSL; hy_buf : fh_buffer h = None; hy_prf : prf_ok Hs GMSSL (fh_prf h);
  hy_c : o_rel (fh_client h) (SHA1 Hs) t; hy_cm : exists a, fh_clientMD5 h = Some a; hy_sm : exists b, fh_serverMD5 h = Some b }.
Lemma hyb_new : exists h, newFinishedHash L VersionGMSSL false = Ok h /\ hyb [] (discardHandshakeBuffer h).
Proof.
  pose proof HL as (I1 & I2 & I3 & I4 & B1 & B2 & B3 & B4). destruct (o_new_rel _ _ I1) as (m & Em & Rm). destruct (o_new_rel _ _ I2) as (s & Es & Rs).
  unfold newFinishedHash. change (prfAndHashForVersion L VersionGMSSL false) with (Ok (prf12 sm3I, H_none)). cbn [rbind]. rewrite Es, Em. cbn [rbind]. eexists. split; [reflexivity|].
  constructor; cbn; eauto. apply (prf_ok_version L Hs HL HG GMSSL false). reflexivity.
Qed.
Lemma hyb_write t h p h' : hyb t h -> bytes p -> fh_Write h p = Ok h' -> hyb (t ++ p) h'.
Proof.
  intros [V B P Rc (a & Ea) (b & Eb)] Bp H. unfold fh_Write in H. rewrite V, Ea, Eb, B in H. cbn in H. injection H as <-. constructor; cbn; eauto. now apply o_write_rel.
Qed.
Definition sha1_finished (label secret t : list Z) : list Z := PRF Hs GMSSL 12 secret label (SHA1 Hs t).
Lemma hyb_sum t h : hyb t h -> zlen t < 2 ^ 59 -> exists h', fh_Sum h = Ok (SHA1 Hs t, h') /\ hyb t h'.
Proof.
  intros [V B P Rc Ca Cb] Lt. unfold fh_Sum. rewrite V. change ((VersionTLS12 <=? VersionGMSSL) || (VersionGMSSL =? VersionGMSSL)) with true. cbv iota.
  destruct (o_sum_rel _ _ _ [] Rc ltac:(lia)) as (o' & E' & R'). rewrite E'. cbn [rbind fst snd]. eexists. split; [reflexivity|]. constructor; cbn; auto.
Qed.
Lemma hyb_prf t h n secret label : hyb t h -> small secret -> bytes label -> zlen label < 100 -> fh_prf h n secret label (SHA1 Hs t) = Ok (PRF Hs GMSSL n secret label (SHA1 Hs t)).
Proof.
  intros [V B P Rc Ca Cb] Sm Bl Ll. pose proof HG as (_ & G2 & _). destruct (G2 t (o_rel_bytes _ _ _ Rc)) as [B1 L1]. apply P; auto; [|discriminate]. unfold zlen in *. lia.
Qed.
Lemma hyb_client t h secret v h' : hyb t h -> zlen t < 2 ^ 59 -> small secret -> clientSum h secret = Ok (v, h') -> v = sha1_finished ascii_client_finished secret t /\ hyb t h'.
Proof.
  intros H Lt Sm E. unfold clientSum in E. rewrite (hy_vers _ _ H) in E. change (VersionGMSSL =? VersionSSL30) with false in E. cbv iota in E.
  destruct (hyb_sum _ _ H Lt) as (h1 & E1 & H1). rewrite E1 in E. cbn [rbind] in E. rewrite (hyb_prf _ _ _ _ _ H1 Sm) in E by (apply bytesb_spec || idtac; reflexivity). cbn [rbind] in E. injection E as <- <-. auto.
Qed.
Lemma hyb_server t h secret v h' : hyb t h -> zlen t < 2 ^ 59 -> small secret -> serverSum h secret = Ok (v, h') -> v = sha1_finished ascii_server_finished secret t /\ hyb t h'.
Proof.
  intros H Lt Sm E. unfold serverSum in E. rewrite (hy_vers _ _ H) in E. change (VersionGMSSL =? VersionSSL30) with false in E. cbv iota in E.
  destruct (hyb_sum _ _ H Lt) as (h1 & E1 & H1). rewrite E1 in E. cbn [rbind] in E. rewrite (hyb_prf _ _ _ _ _ H1 Sm) in E by (apply bytesb_spec || idtac; reflexivity). cbn [rbind] in E. injection E as <- <-. auto.
Qed.
End Hyb.

(** ** The run of a resumed server *)
Section Resume.
Context {T : Type} (E : env T) (C : chan) (Hs : hashes) (HW : world_ok E Hs).
Implicit Types s : hst C.
(** the ServerHello of a resumed handshake *)
Definition resume_sh (hs : shs (T := T)) (st : sessionState) (su : suite) : serverHello :=
  set_sh_suite (set_sh_ticketOn (set_sh_sessionId (ss_sh hs) (ch_sessionId (ss_ch hs))) (ss_usedOldKey st)) (su_id su).
Record resumed_run (hs : shs (T := T)) (st : sessionState) (su : suite) (r : hresult T) (log : list event) (m_sh : list Z) (k : keyblock) (l_t l_np : list event) (m_sfin m_fin : list Z) : Prop := mkRR {
  rr_log : log = [EvRecv (ss_chraw hs); EvSend m_sh; EvKeys k] ++ l_t ++ [EvSendCCS; EvSend m_sfin; EvRecvCCS] ++ l_np ++ [EvRecv m_fin];
  rr_sh : m_serverHello (resume_sh hs st su) = Ok m_sh;
  rr_keys : gm_keys (e_std E) (ss_v hs) (ss_masterSecret st) (ch_random (ss_ch hs)) (sh_random (ss_sh hs)) = HOk k;
  rr_t : if ss_usedOldKey st then exists m t, l_t = [EvSend m] /\ m_newSessionTicket t = Ok m else l_t = [];
  rr_np : if sh_npn (ss_sh hs) then exists m p, l_np = [EvRecv m] /\ parse_msg (ss_v hs) m = Ok (MNextProto p) else l_np = [];
  rr_certs : client_certs_ok E (ss_cfg hs) (ss_certificates st) (hr_peer r) (hr_chains r) \/ ss_certificates st = [] /\ hr_peer r = [] /\ hr_chains r = [];
  rr_sfin : m_finished (hr_serverFinished r) = Ok m_sfin;
  rr_fin : exists v, parse_msg (ss_v hs) m_fin = Ok (MFinished v) /\
    (ss_v hs = VersionGMSSL -> wire_ok log -> small (ss_masterSecret st) ->
       hr_serverFinished r = sha1_finished Hs ascii_server_finished (ss_masterSecret st) (transcript ([EvRecv (ss_chraw hs); EvSend m_sh; EvKeys k] ++ l_t)) /\
       v = sha1_finished Hs ascii_client_finished (ss_masterSecret st) (transcript ([EvRecv (ss_chraw hs); EvSend m_sh; EvKeys k] ++ l_t ++ [EvSendCCS; EvSend m_sfin; EvRecvCCS] ++ l_np)));
  rr_res : hr_vers r = ss_v hs /\ hr_suite r = su_id su /\ hr_master r = ss_masterSecret st /\ hr_clientRandom r = ch_random (ss_ch hs) /\ hr_serverRandom r = sh_random (ss_sh hs) /\ hr_resumed r = true }.

Lemma resumed_inv cfg getcfg rn c r log : server_completes E C cfg getcfg rn c r log -> hr_resumed r = true ->
  exists hs, (exists s0, server_hello (C := C) cfg getcfg rn (c, []) = (HOk hs, s0)) /\
  exists st su, checkForResumption E hs = Some (st, su) /\ exists m_sh k l_t l_np m_sfin m_fin, resumed_run hs st su r log m_sh k l_t l_np m_sfin m_fin.
Proof.
  destruct HW as (HL & HG & _). intros [c' H] HR. unfold serverHandshakeGM in H. apply bind_ok in H as (hs & s0 & H0 & H). cbv beta zeta in H.
  exists hs. split; [eauto|]. apply server_hello_inv in H0 as (random & L0 & _). cbn [snd app] in L0.
  destruct (checkForResumption E hs) as [[st su]|] eqn:ER.
  2: { exfalso. do 4 (bnd H). destruct a2 as [[h2 v2] p2]. bnd H. bnd H. apply ret_ok in H as [-> _]. discriminate HR. }
  exists st, su. split; [reflexivity|].
  apply bind_ok in H as ([[[sh h] certs] chains] & s1 & H1 & H). cbv beta iota zeta in H.
  unfold server_resume in H1. cbv zeta in H1. fold (resume_sh hs st su) in H1.
  apply bind_ok in H1 as (h0 & sx & N0 & H1). prim N0. apply of_res_ok in N0. subst sx. cbv beta in H1.
  apply bind_ok in H1 as (h1 & sx & W1 & H1). prim W1. subst sx. cbv beta in H1.
  apply bind_ok in H1 as (h2 & sy & W2 & H1). apply emit_ok in W2 as (m_sh & Esh & W2 & Ly). cbv beta in H1.
  assert (X : s1 = sy /\ sh = resume_sh hs st su /\ h = h2 /\ (client_certs_ok E (ss_cfg hs) (ss_certificates st) certs chains \/ ss_certificates st = [] /\ certs = [] /\ chains = [])).
  { destruct (Z.ltb_spec 0 (zlen (ss_certificates st))).
    - apply bind_ok in H1 as ([[pk cs] chs] & sz & Hp & H1). cbv beta iota in H1. apply processCerts_inv in Hp as (-> & Hc & _). cbn [fst snd] in Hc. apply ret_ok in H1 as [H1 ->]. injection H1 as -> -> -> ->. auto.
    - apply ret_ok in H1 as [H1 ->]. injection H1 as -> -> -> ->. split; [reflexivity|]. split; [reflexivity|]. split; [reflexivity|]. right. split; [|auto].
      destruct (ss_certificates st) as [|x l]; [reflexivity|]. exfalso. unfold zlen in *. cbn [length] in *. lia. }
  destruct X as (-> & -> & -> & Hce). clear H1.
  apply bind_ok in H as (u & s2 & H2 & H). apply server_keys_inv in H2 as (k & L2 & EK). cbv beta in H.
  apply bind_ok in H as (h3 & s3 & H3 & H). cbv beta in H.
  assert (X : exists l_t, snd s3 = snd s2 ++ l_t /\ (if ss_usedOldKey st then exists m t, l_t = [EvSend m] /\ m_newSessionTicket t = Ok m else l_t = []) /\
     (forall t, hyb Hs t h2 -> wire_ok l_t -> hyb Hs (t ++ transcript l_t) h3)).
  { unfold sendSessionTicket in H3. cbn [resume_sh set_sh_suite set_sh_ticketOn sh_ticketOn] in H3. destruct (ss_usedOldKey st); cbn [negb] in H3.
    - bnd H3. prim E0. subst. apply emit_ok in H3 as (m & Em & W & Lg). exists [EvSend m]. split; [exact Lg|]. split; [eauto|].
      intros t G WO. unfold transcript. cbn [wire flat_map msg_of app concat]. rewrite app_nil_r. eapply hyb_write; [exact G|now apply wire_ok_send|exact W].
    - apply ret_ok in H3 as [-> ->]. exists []. split; [now rewrite app_nil_r|]. split; [reflexivity|]. intros t G _. unfold transcript. cbn. now rewrite app_nil_r. }
  destruct X as (l_t & L3 & HT & G3).
  apply bind_ok in H as ([h4 sfin] & s4 & H4 & H). cbv beta iota in H. unfold server_sendFinished in H4. apply bind_ok in H4 as (u4 & s4a & L4 & H4). prim L4. cbv beta in H4.
  apply bind_ok in H4 as ([v4 h5] & sz & S4 & H4). prim S4. apply of_res_ok in S4. subst sz. cbv beta iota in H4. apply bind_ok in H4 as (h5' & s5 & E5 & H4). cbv beta in H4. apply emit_ok in E5 as (m_sfin & Em & W4 & L5). apply ret_ok in H4 as [H4 ->]. injection H4 as -> ->.
  apply bind_ok in H as ([[h6 v6] proto] & s6 & H6 & H). cbv beta iota in H. apply ret_ok in H as [-> Es6]. subst s6.
  unfold server_readFinished in H6. apply bind_ok in H6 as (u6 & s6 & L6 & H6). prim L6. cbv beta in H6.
  apply bind_ok in H6 as ([h7 proto7] & s7 & H7 & H6). cbv beta iota in H6.
  assert (X : exists l_np, snd s7 = snd s6 ++ l_np /\ (if sh_npn (ss_sh hs) then exists m p, l_np = [EvRecv m] /\ parse_msg (ss_v hs) m = Ok (MNextProto p) else l_np = []) /\
     (forall t, hyb Hs t h5' -> wire_ok l_np -> hyb Hs (t ++ transcript l_np) h7)).
  { cbn [resume_sh set_sh_suite set_sh_ticketOn set_sh_sessionId sh_npn] in H7. destruct (sh_npn (ss_sh hs)).
    - apply bind_ok in H7 as ([mm raw] & sz & Hz & H7). apply readHandshake_ok in Hz as [Pz Hz]. cbv beta in H7. cbn [fst snd] in H7.
      destruct mm as [| | | | | | | | | | |p| ]; try now apply unexpected_ok in H7.
      apply bind_ok in H7 as (h8 & sw & W8 & H7). apply wr_ok in W8 as [W8 ->]. apply ret_ok in H7 as [H7 ->]. injection H7 as -> ->. exists [EvRecv raw]. split; [exact Hz|]. split; [eauto|].
      intros t G WO. unfold transcript. cbn [wire flat_map msg_of app concat]. rewrite app_nil_r. eapply hyb_write; [exact G|now apply wire_ok_recv|exact W8].
    - apply ret_ok in H7 as [H7 ->]. injection H7 as -> ->. exists []. split; [now rewrite app_nil_r|]. split; [reflexivity|]. intros t G _. unfold transcript. cbn. now rewrite app_nil_r. }
  destruct X as (l_np & L7 & HN & G7).
  apply bind_ok in H6 as ([mm m_fin] & s9 & H9 & H6). apply readHandshake_ok in H9 as [P9 L9]. cbv beta in H6. cbn [fst snd] in H6.
  destruct mm as [| | | | | | | | | | | |vd]; try now apply unexpected_ok in H6.
  apply bind_ok in H6 as ([v9 h9] & sz & S9 & H6). prim S9. apply of_res_ok in S9. subst sz. cbv beta iota in H6. destruct (beqb v9 vd) eqn:EQ; [|now apply fail_with_ok in H6]. apply beqb_eq in EQ. subst vd.
  apply bind_ok in H6 as (h10 & sz & W10 & H6). apply wr_ok in W10 as [_ ->]. apply ret_ok in H6 as [H6 Es9]. injection H6 as -> -> ->. subst s9. cbn [snd] in L9.
  assert (EL : log = [EvRecv (ss_chraw hs); EvSend m_sh; EvKeys k] ++ l_t ++ [EvSendCCS; EvSend m_sfin; EvRecvCCS] ++ l_np ++ [EvRecv m_fin]).
  { rewrite L9, L7, L6, L5, L4, L3, L2, Ly, L0. repeat (rewrite <- ?app_assoc; cbn [app]). reflexivity. }
  exists m_sh, k, l_t, l_np, m_sfin, m_fin. constructor; cbn [hr_peer hr_chains hr_serverFinished hr_vers hr_suite hr_master hr_clientRandom hr_serverRandom hr_resumed]; auto.
  - exists v9. split; [exact P9|]. intros EV WO SM. rewrite EV in N0.
    destruct (hyb_new _ _ HL HG) as (h00 & E00 & G0). rewrite E00 in N0. injection N0 as <-.
    pose proof WO as WO0. rewrite EL in WO. apply wire_ok_app in WO as [Wa WO]. apply wire_ok_app in WO as [Wt WO]. apply wire_ok_app in WO as [Wm WO]. apply wire_ok_app in WO as [Wn _].
    assert (Bch : bytes (ss_chraw hs) /\ bytes m_sh /\ bytes m_sfin).
    { destruct Wa as [Ba _]. unfold transcript in Ba. cbn in Ba. apply bytes_app in Ba as [Ba Ba']. apply bytes_app in Ba' as [Ba' _]. destruct Wm as [Bm _]. unfold transcript in Bm. cbn in Bm. apply bytes_app in Bm as [Bm _]. auto. }
    destruct Bch as (B1 & B2 & B3).
    pose proof (hyb_write _ _ _ _ _ G0 B1 W1) as Ga. pose proof (hyb_write _ _ _ _ _ Ga B2 W2) as Gb. specialize (G3 _ Gb Wt).
    assert (T1 : ([] ++ ss_chraw hs) ++ m_sh ++ transcript l_t = transcript ([EvRecv (ss_chraw hs); EvSend m_sh; EvKeys k] ++ l_t)).
    { unfold transcript. rewrite wire_app, concat_app. cbn. rewrite app_nil_r, <- ?app_assoc. reflexivity. }
    rewrite <- app_assoc, T1 in G3.
    assert (LL : forall a b, log = a ++ b -> zlen (transcript a) < 2 ^ 59) by (intros a b Eab; rewrite Eab in WO0; apply wire_ok_app in WO0 as [[_ X] _]; exact X).
    destruct (hyb_server _ HG _ _ _ _ _ G3 (LL _ _ ltac:(rewrite EL, <- app_assoc; reflexivity)) SM S4) as [-> G4]. split; [reflexivity|].
    pose proof (hyb_write _ _ _ _ _ G4 B3 W4) as G5. specialize (G7 _ G5 Wn).
    assert (T2 : (transcript ([EvRecv (ss_chraw hs); EvSend m_sh; EvKeys k] ++ l_t) ++ m_sfin) ++ transcript l_np =
        transcript ([EvRecv (ss_chraw hs); EvSend m_sh; EvKeys k] ++ l_t ++ [EvSendCCS; EvSend m_sfin; EvRecvCCS] ++ l_np)).
    { rewrite !transcript_app. change (transcript [EvSendCCS; EvSend m_sfin; EvRecvCCS]) with (m_sfin ++ []). rewrite app_nil_r, <- !app_assoc. reflexivity. }
    rewrite T2 in G7. eapply (hyb_client _ HG) in S9 as [S9 _]; [exact S9|exact G7| |exact SM]. eapply LL. rewrite EL. repeat (rewrite <- ?app_assoc; cbn [app]). reflexivity.
  - repeat split.
Qed.
End Resume.

Lemma set_suite_spec table ok id supported c : set_suite table ok id supported = Some c -> In id supported /\ su_id c = id /\ In c table /\ ok c = true.
Proof. intros H. apply P_TLS_neg.set_suite_iff in H as (H1 & H2 & H3). apply P_TLS_neg.find_suite_spec in H2 as [H2 H4]. auto. Qed.

Lemma gm_not_default id : id = 0xe013 \/ id = 0xe011 -> existsb (Z.eqb id) defaultCipherSuites = false.
Proof. intros [-> | ->]; vm_compute; reflexivity. Qed.

Section Claims.
Context {T : Type} (E : env T) (C : chan) (Hs : hashes) (HW : world_ok E Hs).
(** the flow of a resumed handshake at the server; [tk]: a new ticket (the old one was encrypted with a retired key), [np]: next protocol *)
Definition resumed_flow (tk np : bool) : list step :=
  [In_ tClientHello; Out tServerHello] ++ opt tk (Out tNewSessionTicket) ++ [OutCCS; Out tFinished; InCCS] ++ opt np (In_ tNextProtocol) ++ [In_ tFinished].
(** C96: the server resumes only what it issued: the ClientHello carries a ticket that decrypts under one of the configured keys, to a session of the negotiated version
    whose suite the client offers again and an explicit CipherSuites list of the configuration still allows; master secret and client certificates are those of
    the session, and the certificates are checked again against the present ClientAuth, ClientCAs and VerifyPeerCertificate. *)
Theorem C96_server_resumes cfg getcfg rn c r log : server_completes E C cfg getcfg rn c r log -> hr_resumed r = true ->
  exists ch cfg' st tk np, hello_read log ch /\ cfg_for cfg getcfg ch cfg' /\ steps log = resumed_flow tk np /\
    cf_noTickets cfg' = false /\ decryptTicket (e_aes E) (e_sha256 E) false (cf_keys cfg') (ch_ticket ch) = Some st /\ (tk = true <-> ss_usedOldKey st = true) /\
    mutualVersion (cf_min cfg') (cf_max cfg') (ch_vers ch) = Some (hr_vers r) /\ ss_vers st = hr_vers r /\
    hr_suite r = ss_cipherSuite st /\ In (hr_suite r) (ch_suites ch) /\ (hr_suite r = 0xe013 \/ hr_suite r = 0xe011) /\ (exists l, cf_suites cfg' = Some l /\ In (hr_suite r) l) /\
    hr_master r = ss_masterSecret st /\ hr_clientRandom r = ch_random ch /\ r_hello rn = Some (hr_serverRandom r) /\
    Forall2 (fun d x => e_parse E d = Some x) (ss_certificates st) (hr_peer r) /\
    (cf_auth cfg' = RequireAnyClientCert \/ cf_auth cfg' = RequireAndVerifyClientCert -> hr_peer r <> []) /\ (cf_auth cfg' = NoClientCert -> hr_peer r = []) /\
    (forall g, hr_peer r <> [] -> cf_verifyPeer cfg' = Some g -> g (ss_certificates st) (hr_chains r) = None) /\
    (forall leaf rest, hr_peer r = leaf :: rest -> cf_auth cfg' = RequireAndVerifyClientCert \/ cf_auth cfg' = VerifyClientCertIfGiven ->
       exists roots inters, (match cf_clientCAs cfg' with Some p => Some p | None => e_sysroots E end) = Some roots /\ (forall x, In x inters -> In x (map g_cert rest)) /\
         trusted E (X509_model.certs roots) inters (cf_time cfg') [] 2 (g_cert leaf) (hr_chains r)).
Proof.
  intros H HR. destruct (resumed_inv E C Hs HW _ _ _ _ _ _ H HR) as (hs & (s0 & HH) & st & su & ER & m_sh & k & l_t & l_np & m_sfin & m_fin & RR).
  apply server_hello_inv in HH as (random & _ & P & Cf & V & _ & _ & Rn & _ & _ & Sr & _ & _ & _).
  destruct (rr_res _ _ _ _ _ _ _ _ _ _ _ _ _ RR) as (R1 & R2 & R3 & R4 & R5 & _).
  unfold checkForResumption in ER. cbv zeta in ER. destruct (cf_noTickets (ss_cfg hs)) eqn:NT; [discriminate|].
  destruct (decryptTicket _ _ _ _ _) as [st'|] eqn:DT; [|discriminate]. destruct (Z.eqb_spec (ss_v hs) (ss_vers st')) as [EV|]; cbn [negb] in ER; [|discriminate].
  destruct (existsb (Z.eqb (ss_cipherSuite st')) (ch_suites (ss_ch hs))) eqn:EX; cbn [negb] in ER; [|discriminate].
  destruct (set_suite _ _ _ _) as [su'|] eqn:SS; [|discriminate]. apply set_suite_spec in SS as (S1 & S2 & S3 & _).
  match type of ER with (if ?b then _ else _) = _ => destruct b eqn:A1; [discriminate|] end. match type of ER with (if ?b then _ else _) = _ => destruct b eqn:A2; [discriminate|] end.
  injection ER as -> ->.
  assert (SG : su_id su = 0xe013 \/ su_id su = 0xe011) by (destruct S3 as [<-|[<-|[]]]; auto).
  exists (ss_ch hs), (ss_cfg hs), st, (ss_usedOldKey st), (sh_npn (ss_sh hs)).
  assert (HP : Forall2 (fun d x => e_parse E d = Some x) (ss_certificates st) (hr_peer r)).
  { destruct (rr_certs _ _ _ _ _ _ _ _ _ _ _ _ _ RR) as [(X & _)|(-> & -> & _)]; [exact X|constructor]. }
  pose proof (Forall2_len _ _ _ HP) as LP.
  split. { exists (ss_chraw hs). eexists. split; [rewrite (rr_log _ _ _ _ _ _ _ _ _ _ _ _ _ RR); reflexivity|]. split; [exact (parse_type _ _ _ P)|exact (up_clientHello _ _ _ P)]. }
  split; [exact Cf|]. split.
  { rewrite (rr_log _ _ _ _ _ _ _ _ _ _ _ _ _ RR), !steps_app. unfold resumed_flow.
    replace (steps l_t) with (opt (ss_usedOldKey st) (Out tNewSessionTicket)).
    2: { pose proof (rr_t _ _ _ _ _ _ _ _ _ _ _ _ _ RR) as X. destruct (ss_usedOldKey st); [destruct X as (m & t & -> & X); cbn; now rewrite (t_ticket _ _ X)|now rewrite X]. }
    replace (steps l_np) with (opt (sh_npn (ss_sh hs)) (In_ tNextProtocol)).
    2: { pose proof (rr_np _ _ _ _ _ _ _ _ _ _ _ _ _ RR) as X. destruct (sh_npn (ss_sh hs)); [destruct X as (m & t & -> & X); cbn; now rewrite (parse_type _ _ _ X)|now rewrite X]. }
    destruct (rr_fin _ _ _ _ _ _ _ _ _ _ _ _ _ RR) as (v & PF & _).
    cbn [steps step_of flat_map app]. rewrite (parse_type _ _ _ P), (t_serverHello _ _ (rr_sh _ _ _ _ _ _ _ _ _ _ _ _ _ RR)), (t_finished _ _ (rr_sfin _ _ _ _ _ _ _ _ _ _ _ _ _ RR)), (parse_type _ _ _ PF). reflexivity. }
  split; [exact NT|]. split; [exact DT|]. split; [tauto|]. split; [rewrite R1; exact V|]. split; [congruence|]. split; [congruence|].
  split. { rewrite R2, S2. apply existsb_exists in EX as (x & Hx & Ex). apply Z.eqb_eq in Ex. now subst x. }
  split; [rewrite R2; exact SG|].
  split. { rewrite R2, S2. unfold cfg_cipherSuites in S1. destruct (cf_suites (ss_cfg hs)) as [l|]; [eauto|]. exfalso. rewrite <- S2 in S1. assert (X : existsb (Z.eqb (su_id su)) defaultCipherSuites = true) by (apply existsb_exists; exists (su_id su); split; [exact S1|apply Z.eqb_refl]). rewrite (gm_not_default _ SG) in X. discriminate X. }
  split; [exact R3|]. split; [exact R4|]. split; [rewrite R5, Sr; exact Rn|]. split; [exact HP|].
  assert (NE : (zlen (ss_certificates st) =? 0) = true <-> hr_peer r = []).
  { rewrite Z.eqb_eq. unfold zlen. rewrite LP. destruct (hr_peer r); cbn [length]; split; intros; try lia; congruence. }
  split. { intros HA HN. apply NE in HN. rewrite HN in A1. destruct HA as [HA|HA]; rewrite HA in A1; discriminate A1. }
  split. { intros HA. apply NE. rewrite HA in A2. destruct (zlen _ =? 0); [reflexivity|discriminate A2]. }
  destruct (rr_certs _ _ _ _ _ _ _ _ _ _ _ _ _ RR) as [(_ & X1 & X2)|(_ & -> & _)]; [|split; [congruence|discriminate]].
  split; [intros g _; apply X2|]. intros leaf rest EP HA. destruct (X1 leaf rest EP) as (roots & ER & HV).
  { destruct HA as [-> | ->]; unfold VerifyClientCertIfGiven, RequireAndVerifyClientCert; lia. }
  apply (x509_verify_trusted E _ _ _ 2) in HV as [HV _]; [|lia|reflexivity].
  exists roots. eexists. split; [exact ER|]. split; [|exact HV]. cbn [client_verify_opts X509_model.o_inter]. intros x Hx. now apply pool_certs in Hx.
Qed.

(** C94 refuted: "a server resumes the sessions whose tickets it issued".  With the default cipher suites (Config.CipherSuites nil) no handshake is ever resumed:
    checkForResumption looks the suite up among the TLS default suites. *)
Theorem C94_default_server_resumes_refuted cfg rn c r log : server_completes E C cfg None rn c r log -> cf_suites cfg = None -> hr_resumed r = false.
Proof.
  intros H HN. destruct (hr_resumed r) eqn:HR; [|reflexivity]. exfalso.
  destruct (C96_server_resumes _ _ _ _ _ _ H HR) as (ch & cfg' & st & tk & np & _ & -> & _ & _ & _ & _ & _ & _ & _ & _ & _ & (l & HL & _) & _). congruence.
Qed.

(** The Finished messages of a resumed GM session: SHA-1 of the transcript, not SM3. *)
Theorem C96_resumed_finished cfg getcfg rn c r log : server_completes E C cfg getcfg rn c r log -> hr_resumed r = true -> hr_vers r = 0x0101 -> wire_ok log -> small (hr_master r) ->
  (forall pre m post, log = pre ++ EvSend m :: post -> mtype m = tFinished -> m = [20; 0; 0; 12] ++ PRF Hs GMSSL 12 (hr_master r) ascii_server_finished (SHA1 Hs (transcript pre))) /\
  (forall pre m post, log = pre ++ EvRecv m :: post -> mtype m = tFinished -> skipn 4 m = PRF Hs GMSSL 12 (hr_master r) ascii_client_finished (SHA1 Hs (transcript pre))).
Proof.
  intros H HR HV WO SM. destruct (resumed_inv E C Hs HW _ _ _ _ _ _ H HR) as (hs & (s0 & HH) & st & su & ER & m_sh & k & l_t & l_np & m_sfin & m_fin & RR).
  apply server_hello_inv in HH as (random & _ & P & _). destruct (rr_res _ _ _ _ _ _ _ _ _ _ _ _ _ RR) as (R1 & R2 & R3 & _).
  destruct (rr_fin _ _ _ _ _ _ _ _ _ _ _ _ _ RR) as (v & PF & VF). rewrite R3 in *. destruct (VF ltac:(rewrite <- R1; exact HV) WO SM) as [F1 F2]. clear VF.
  pose proof (rr_log _ _ _ _ _ _ _ _ _ _ _ _ _ RR) as EL. set (A := [EvRecv (ss_chraw hs); EvSend m_sh; EvKeys k] ++ l_t) in *.
  assert (ST : steps l_t = opt (ss_usedOldKey st) (Out tNewSessionTicket)).
  { pose proof (rr_t _ _ _ _ _ _ _ _ _ _ _ _ _ RR) as X. destruct (ss_usedOldKey st); [destruct X as (m & t & -> & X); cbn; now rewrite (t_ticket _ _ X)|now rewrite X]. }
  assert (SN : steps l_np = opt (sh_npn (ss_sh hs)) (In_ tNextProtocol)).
  { pose proof (rr_np _ _ _ _ _ _ _ _ _ _ _ _ _ RR) as X. destruct (sh_npn (ss_sh hs)); [destruct X as (m & t & -> & X); cbn; now rewrite (parse_type _ _ _ X)|now rewrite X]. }
  assert (E1 : log = (A ++ [EvSendCCS]) ++ EvSend m_sfin :: (EvRecvCCS :: l_np ++ [EvRecv m_fin])) by (rewrite EL; unfold A; rewrite <- !app_assoc; reflexivity).
  assert (E2 : log = (A ++ [EvSendCCS; EvSend m_sfin; EvRecvCCS] ++ l_np) ++ EvRecv m_fin :: []) by (rewrite EL; unfold A; rewrite <- !app_assoc; reflexivity).
  pose proof (t_finished _ _ (rr_sfin _ _ _ _ _ _ _ _ _ _ _ _ _ RR)) as TS. pose proof (parse_type _ _ _ PF) as TF. pose proof (parse_type _ _ _ P) as TC. pose proof (t_serverHello _ _ (rr_sh _ _ _ _ _ _ _ _ _ _ _ _ _ RR)) as TH.
  cbn [type_of] in TF, TC.
  split; intros pre m post Hl Hm.
  - destruct (unique_event (send_type tFinished) log (A ++ [EvSendCCS]) _ pre post _ (EvSend m) E1) as (-> & Eq & _); auto.
    + apply no_send. unfold A. rewrite !steps_app, ST. cbn [steps step_of flat_map app]. rewrite TC, TH. unfold opt. destruct (ss_usedOldKey st); cbn; intuition discriminate.
    + apply no_send. change (EvRecvCCS :: l_np ++ [EvRecv m_fin]) with ([EvRecvCCS] ++ l_np ++ [EvRecv m_fin]). rewrite !steps_app, SN. unfold opt. destruct (sh_npn (ss_sh hs)); cbn; intuition discriminate.
    + exists m. auto.
    + injection Eq as ->. rewrite transcript_app. change (transcript [EvSendCCS]) with (@nil Z). rewrite app_nil_r. pose proof (rr_sfin _ _ _ _ _ _ _ _ _ _ _ _ _ RR) as MF. rewrite F1 in MF.
      apply finished_wire; [exact MF|]. unfold sha1_finished. apply PRF_length.
  - destruct (unique_event (recv_type tFinished) log (A ++ [EvSendCCS; EvSend m_sfin; EvRecvCCS] ++ l_np) _ pre post _ (EvRecv m) E2) as (-> & Eq & _); auto.
    + apply no_recv. unfold A. rewrite !steps_app, ST, SN. cbn [steps step_of flat_map app]. rewrite TC. unfold opt. destruct (ss_usedOldKey st), (sh_npn (ss_sh hs)); cbn; intuition discriminate.
    + intros HX. inversion HX.
    + exists m. auto.
    + injection Eq as ->. destruct (parse_finished _ _ _ PF) as [_ <-]. rewrite F2. unfold A. rewrite <- !app_assoc. reflexivity.
Qed.
End Claims.

Lemma first_eq {X} (P : X -> Prop) A a B A' a' B' : A ++ a :: B = A' ++ a' :: B' -> P a -> P a' -> ~ Exists P A -> ~ Exists P A' -> A = A' /\ a = a' /\ B = B'.
Proof.
  revert A'. induction A as [|x A IH]; intros [|x' A'] H Pa Pa' NA NA'; cbn [app] in H; injection H as H1 H2.
  - auto.
  - exfalso. apply NA'. left. now rewrite <- H1.
  - exfalso. apply NA. left. now rewrite H1.
  - destruct (IH _ H2 Pa Pa') as (-> & -> & ->); [intros HX; apply NA; now right|intros HX; apply NA'; now right|]. now rewrite H1.
Qed.
(** C97 refuted: "a client and a server of this library can resume a session".  If both complete a resumed handshake with the same messages and master secret, then both
    verify values - of the server's and of the client's Finished message - coincide for two different hash functions, SM3 (the client's) and SHA-1 (the server's). *)
Theorem C97_resumption_works_refuted {T} (Ec Es : env T) Cc Cs Hs ccfg cache crn cc rc ns clog scfg getcfg srn cs rs slog :
  world_ok Ec Hs -> world_ok Es Hs -> client_completes Ec Cc ccfg cache crn cc rc ns clog -> hr_resumed rc = true -> server_completes Es Cs scfg getcfg srn cs rs slog -> hr_resumed rs = true ->
  hr_master rc = hr_master rs -> small (hr_master rc) -> hr_vers rs = 0x0101 -> wire clog = wire slog -> wire_ok clog ->
  exists msgs fin_s fin_c, wire clog = msgs ++ [fin_s; fin_c] /\ mtype fin_s = tFinished /\ mtype fin_c = tFinished /\
    (let PRF12 label seed := PRF Hs GMSSL 12 (hr_master rc) label seed in
     PRF12 ascii_server_finished (sm3 (concat msgs)) = PRF12 ascii_server_finished (SHA1 Hs (concat msgs)) /\
     PRF12 ascii_client_finished (sm3 (concat (msgs ++ [fin_s]))) = PRF12 ascii_client_finished (SHA1 Hs (concat (msgs ++ [fin_s])))).
Proof.
  intros HWc HWs [c' Hc] HRc Hsv HRs EM SM EV EW WO.
  assert (WOs : wire_ok slog) by (unfold wire_ok, transcript in *; rewrite <- EW; exact WO).
  destruct (resumed_inv Es Cs Hs HWs _ _ _ _ _ _ Hsv HRs) as (hs & (s0 & HH) & st & su & ER & m_sh & k & l_t & l_np & m_sfin & m_fin & RR).
  apply server_hello_inv in HH as (random & _ & P & _). destruct (rr_res _ _ _ _ _ _ _ _ _ _ _ _ _ RR) as (R1 & R2 & R3 & _).
  destruct (rr_fin _ _ _ _ _ _ _ _ _ _ _ _ _ RR) as (v & PF & VF). rewrite <- R3, <- EM in VF. destruct (VF ltac:(rewrite <- R1; exact EV) WOs SM) as [F1 F2]. clear VF.
  pose proof (rr_log _ _ _ _ _ _ _ _ _ _ _ _ _ RR) as EL. pose proof (rr_sfin _ _ _ _ _ _ _ _ _ _ _ _ _ RR) as MS. rewrite F1 in MS. apply finished_wire in MS; [|apply PRF_length].
  pose proof (t_serverHello _ _ (rr_sh _ _ _ _ _ _ _ _ _ _ _ _ _ RR)) as TH. pose proof (rr_t _ _ _ _ _ _ _ _ _ _ _ _ _ RR) as HT. pose proof (parse_type _ _ _ P) as TC. cbn [type_of] in TC.
  clear RR R1 R2 R3 ER P.
  destruct HWc as (HL & HG & _).
  apply (clientHandshake_inv Ec Hs HL HG) in Hc as (hello0 & hello & session & chraw & m_sh' & sh & su' & H1 & H2 & H3 & H4 & H5 & H6 & H7 & H8 & H9 & H10 & [(X & _)|(_ & x & k' & l_np' & l_t' & m_fin' & m_sfin' & -> & X)]); [congruence|].
  destruct (hello_fields _ _ _ _ _ _ H1 H2) as (_ & _ & _ & _ & F5 & _).
  destruct X as [ELc _ _ Sf Va Fn Npx Tk (_ & _ & Rm & _)]. rewrite <- Rm in Va. destruct (Va WO SM) as [V1 V2]. clear Va.
  assert (Np : sh_npn sh = false).
  { destruct (sh_npn sh); [|reflexivity]. exfalso. specialize (H9 eq_refl). unfold makeClientHelloGM in H1. destruct (_ && _) in H1; [discriminate|]. destruct (r_hello crn); [|discriminate]. injection H1 as <-.
    unfold complete_hello in H2. destruct (offered_session _ _ _); [destruct (r_sid crn); [|discriminate]|]; injection H2 as <- _; destruct cache; discriminate H9. }
  rewrite (Npx Np) in *. rewrite app_nil_l in *.
  destruct (parse_finished _ _ _ Sf) as [_ Es']. pose proof (parse_type _ _ _ Sf) as TS. cbn [type_of] in TS.
  rewrite V2 in Fn. pose proof (t_finished _ _ Fn) as TF. apply finished_wire in Fn; [|apply PRF_length].
  set (A := [chraw; m_sh'] ++ wire l_t') in *. set (A' := [ss_chraw hs; m_sh] ++ wire l_t) in *.
  assert (W1 : wire clog = A ++ m_sfin' :: [m_fin']) by (rewrite ELc; unfold A; rewrite !wire_app; reflexivity).
  assert (W2 : wire slog = A' ++ m_sfin :: (wire l_np ++ [m_fin])) by (rewrite EL; unfold A'; rewrite !wire_app; reflexivity).
  assert (NA : ~ Exists (fun m => mtype m = tFinished) A).
  { unfold A. intros HX. apply Exists_app in HX as [HX|HX].
    - inversion HX as [? ? Q|? ? Q]; [rewrite (t_clientHello _ _ H3) in Q; discriminate|]. inversion Q as [? ? Q'|? ? Q']; [rewrite (parse_type _ _ _ H4) in Q'; discriminate|inversion Q'].
    - destruct (sh_ticketOn sh); [destruct Tk as (mt & t & -> & Pt)|rewrite Tk in HX; inversion HX]. cbn in HX. inversion HX as [? ? Q|? ? Q]; [rewrite (parse_type _ _ _ Pt) in Q; discriminate|inversion Q]. }
  assert (NA' : ~ Exists (fun m => mtype m = tFinished) A').
  { unfold A'. intros HX. apply Exists_app in HX as [HX|HX].
    - inversion HX as [? ? Q|? ? Q]; [rewrite TC in Q; discriminate|]. inversion Q as [? ? Q'|? ? Q']; [rewrite TH in Q'; discriminate|inversion Q'].
    - destruct (ss_usedOldKey st); [destruct HT as (mt & t & -> & Pt)|rewrite HT in HX; inversion HX]. cbn in HX. inversion HX as [? ? Q|? ? Q]; [rewrite (t_ticket _ _ Pt) in Q; discriminate|inversion Q]. }
  rewrite W1, W2 in EW. destruct (first_eq (fun m => mtype m = tFinished) _ _ _ _ _ _ EW) as (EA & Ef & Et); [exact TS|rewrite MS; reflexivity|exact NA|exact NA'|].
  destruct (wire l_np) as [|y [|z l]] eqn:EN; cbn [app] in Et; try discriminate Et. injection Et as Et.
  exists A, m_sfin', m_fin'. split; [exact W1|]. split; [exact TS|]. split; [exact TF|]. cbv zeta.
  assert (C1 : transcript ([EvSend chraw; EvRecv m_sh'; EvKeys k'] ++ l_t') = concat A) by (unfold A, transcript; rewrite wire_app; reflexivity).
  assert (C2 : transcript ([EvRecv (ss_chraw hs); EvSend m_sh; EvKeys k] ++ l_t) = concat A') by (unfold A', transcript; rewrite wire_app; reflexivity).
  assert (C3 : transcript ([EvSend chraw; EvRecv m_sh'; EvKeys k'] ++ l_t' ++ [EvRecvCCS; EvRecv m_sfin'; EvSendCCS] ++ []) = concat (A ++ [m_sfin'])).
  { unfold A, transcript. rewrite !wire_app, <- app_assoc. reflexivity. }
  assert (C4 : transcript ([EvRecv (ss_chraw hs); EvSend m_sh; EvKeys k] ++ l_t ++ [EvSendCCS; EvSend m_sfin; EvRecvCCS] ++ l_np) = concat (A' ++ [m_sfin])).
  { unfold A', transcript. rewrite !wire_app, EN, <- app_assoc. reflexivity. }
  rewrite C1 in V1. rewrite C2 in MS. rewrite C3 in Fn. rewrite C4 in F2. clear C1 C2 C3 C4.
  destruct (parse_finished _ _ _ PF) as [_ Ev]. rewrite <- EA, <- Ef in *. rewrite <- Et in Ev. split.
  - rewrite V1, MS in Es'. exact Es'.
  - rewrite Fn, F2 in Ev. symmetry. exact Ev.
Qed.

(** What the GM handshake does not guarantee: properties a user would rely on that are false of the code, each with the run that shows it. *)
From Verif Require Import GoBase GoLemmas BigBytes Asn1_model X509_spec Prime_cert SM2_curve_spec SM2_group SM2_jac SM2_spec SM2_model SM2_proofs SM3_spec TLS_record_model TLS_prf_model TLS_prf_spec TLS_prf_proofs
  TLS_gmka_model TLS_ticket_model TLS_msg_model TLS_msg_proofs TLS_neg_model TLS_hs_model TLS_hs_proofs TLS_hs_bytes TLS_hs_server TLS_hs_client TLS_hs_spec TLS_hs_run P_TLS_hs_server P_TLS_hs_client P_TLS_hs_agree P_TLS_hs_run P_TLS_hs_example.
From Verif Require X509_model P_SM2 P_TLS_msg P_TLS_gmka P_TLS_prf P_TLS_neg.
Open Scope Z_scope.
Ltac Zify.zify_post_hook ::= Z.div_mod_to_equations.
#[local] Opaque sm3 PRF smul padd sm2_n sm2_p Encrypt Decrypt be_bytes Sign Verify fh_Write discardHandshakeBuffer clientSum serverSum newFinishedHashGM m_clientHello m_serverHello m_certificate
  m_serverKeyExchange m_clientKeyExchange m_finished m_certificateRequestGM m_certificateVerify generateServerKeyExchange processClientKeyExchange processServerKeyExchange
  generateClientKeyExchange masterFromPreMasterSecret gm_keys parse_msg getCipherSuites.

(** ** C77: a client's first message crashes the server *)
Lemma first_split (x : Z) l : In x l -> exists a b, l = a ++ x :: b /\ ~ In x a.
Proof.
  induction l as [|y l IH]; [intros []|]. intros H. destruct (Z.eq_dec y x) as [->|N]; [exists [], l; split; [reflexivity|intros []]|].
  destruct H as [H|H]; [congruence|]. destruct (IH H) as (a & b & -> & Na). exists (y :: a), b. split; [reflexivity|]. intros [Hy|Hy]; auto.
Qed.
Lemma ecdhe_ok v : gm_suite_ok v (mkSuite 0xe011 (1 + 2)) = true.
Proof. unfold gm_suite_ok. change (has_flag (mkSuite 0xe011 (1 + 2)) suiteTLS12) with false. rewrite andb_false_r. reflexivity. Qed.
Lemma only_ecdhe prefer server v : In 0xe011 server -> exists su, negotiate_suite gmCipherSuites (gm_suite_ok v) prefer server [0xe011] = Some su /\ su_id su = 0xe011.
Proof.
  intros H. exists (mkSuite 0xe011 (1 + 2)). split; [|reflexivity]. apply (proj1 (P_TLS_neg.C66_server_selection true _ _ _ _)). destruct prefer.
  - destruct (first_split _ _ H) as (a & b & -> & Na). exists a, 0xe011, b. split; [reflexivity|]. split; [split; [left; reflexivity|split; [right; left; reflexivity|split; [reflexivity|apply ecdhe_ok]]]|].
    intros id c Hin ([<-|[]] & _). exact (Na Hin).
  - exists [], 0xe011, []. split; [reflexivity|]. split; [split; [exact H|split; [right; left; reflexivity|split; [reflexivity|apply ecdhe_ok]]]|]. intros id c [].
Qed.
Lemma bind_panic {A B} (m : MS A) (k : A -> MS B) s s1 : m s = (HPanic, s1) -> bind m k s = (HPanic, s1).
Proof. unfold bind. now intros ->. Qed.
Lemma ch_ecdhe_ok : P_TLS_msg.ch_ok (honest_ch (repeat 0 32) [0xe011]).
Proof. exact (honest_ch_ok (repeat 0 32) [0xe011] eq_refl eq_refl). Qed.
(** a ServerHello as the server builds it for that ClientHello *)
Definition ecdhe_sh (sr : list Z) : serverHello := mkSH VersionGMSSL sr [] 0xe011 0 false [] false [] false [] false [].
Lemma ecdhe_sh_ok sr : length sr = 32%nat -> P_TLS_msg.sh_ok (ecdhe_sh sr).
Proof.
  intros L. unfold P_TLS_msg.sh_ok, ecdhe_sh. cbn [sh_vers sh_random sh_sessionId sh_suite sh_comp sh_npn sh_protos sh_scts sh_reneg sh_renegOn sh_alpn].
  unfold VersionGMSSL, is_byte. split; [lia|]. split; [exact L|]. split; [cbn; lia|]. split; [lia|]. split; [lia|]. split; [auto|]. split; [constructor|]. split; [constructor|].
  split; [cbn; lia|]. split; [auto|]. split; [cbn; lia|]. cbn. lia.
Qed.
Lemma out_sh' sr m : bytes sr -> m_serverHello (ecdhe_sh sr) = Ok m -> bytes m.
Proof.
  intros B H. with_strategy transparent [m_serverHello] unfold ecdhe_sh, m_serverHello in H. cbn [sh_alpn] in H. change (0 <? zlen (@nil Z)) with false in H. cbn [andb] in H. cbv zeta in H. apply fill_out in H as [H1 _]; [exact H1|].
  cbn [sh_vers sh_random sh_sessionId sh_suite sh_comp]. byt; cbn; constructor.
Qed.

(** C77 refuted: "whatever a client sends, the server answers or returns an error".  One ClientHello that offers only the ECDHE suite, which a server enables by default,
    makes any server with two certificates panic (gm_key_agreement.go:69-70), before any certificate or key of the client is needed. *)
Theorem C77_no_client_crashes_the_server_refuted {T} (E : env T) Hs cfg rn sr c0 c1 more :
  world_ok E Hs -> cf_certs cfg = c0 :: c1 :: more -> mutualVersion (cf_min cfg) (cf_max cfg) 0x0101 = Some 0x0101 ->
  r_hello rn = Some sr -> bytes sr -> length sr = 32%nat ->
  Forall P_TLS_msg.cert_ok (sent_certs cfg) -> 3 * zlen (sent_certs cfg) + sum_len (sent_certs cfg) < 2 ^ 24 - 3 ->
  In 0xe011 (getCipherSuites (cf_suites cfg)) ->
  exists hello log, bytes hello /\ serverHandshakeGM E script cfg None rn ([IMsg hello], []) = (HPanic, ([], log)) /\ forall a, ~ In (EvAlert a) log.
Proof.
  intros (HL & HG & _) CE MV RH Bsr Lsr CO CS HI. destruct (P_TLS_msg.C63_clientHello _ ch_ecdhe_ok) as (chraw & M0 & F0 & U0).
  assert (B0 : bytes chraw). { refine (proj1 (out_ch (repeat 0 32) [0xe011] _ _ _ M0)); [apply bytesb_spec; reflexivity|reflexivity]. }
  destruct (P_TLS_msg.C63_serverHello _ (ecdhe_sh_ok sr Lsr)) as (m_sh & M1 & _). pose proof (out_sh' _ _ Bsr M1) as B1.
  destruct (P_TLS_msg.C63_certificate _ CO CS) as (m_cert & M2 & _). pose proof (proj1 (out_cert _ _ CO CS M2)) as B2.
  destruct (only_ecdhe (cf_prefer cfg) _ VersionGMSSL HI) as (su & NS & SU).
  assert (Pch : parse_msg 0 chraw = Ok (MClientHello (honest_ch (repeat 0 32) [0xe011]))). { apply p_ch; [destruct F0 as (bd & ->); reflexivity|exact U0]. }
  exists chraw. eexists. split; [exact B0|]. split.
  - unfold serverHandshakeGM. run ltac:(eapply server_hello_run; eassumption).
    rewrite no_ticket_no_resumption by reflexivity.
    run ltac:(unfold server_suite; cbn [ss_v ss_cfg ss_ch honest_ch ch_suites ch_vers]; rewrite NS; reflexivity).
    apply bind_panic. unfold server_full. cbn [ss_cfg ss_ch ss_v ss_c0 ss_c1 ss_sh ss_chraw honest_ch ch_ocsp ch_ticketOn andb]. cbv zeta.
    match goal with |- context [m_serverHello ?x] => replace x with (ecdhe_sh sr) by (rewrite SU; reflexivity) end.
    destruct (newFinishedHashGM_ok (e_std E) Hs HL HG) as (h0 & N0 & G0). run ltac:(apply res_run; exact N0).
    match goal with |- context [wr ?h chraw] => set (h1 := h); assert (G1 : exists d, gmh Hs d [] h1) end.
    { unfold h1. destruct (cf_auth cfg =? NoClientCert); [exists true; eapply gmh_discard; exact G0|exists false; exact G0]. }
    destruct G1 as (d & G1). clearbody h1.
    destruct (gmh_fwd _ _ _ _ _ G1 B0) as (h2 & W2 & G2). run ltac:(apply wr_run; exact W2).
    destruct (gmh_fwd _ _ _ _ _ G2 B1) as (h3 & W3 & G3). run ltac:(apply emit_run; [exact M1|exact W3]).
    destruct (gmh_fwd _ _ _ _ _ G3 B2) as (h4 & W4 & G4). run ltac:(apply emit_run; [exact M2|exact W4]).
    run ltac:(reflexivity). apply bind_panic. unfold ka_generateSKX. rewrite SU. cbn [ECC Z.eqb Pos.eqb orfail lift]. exact eq_refl.
  - cbn. intros a [H|[H|[H|[]]]]; discriminate.
Qed.

(** ** C92: no signature at all *)
Section NoSkx.
Context {T : Type} (E : env T) (Hs : hashes) (HL : std_impl (e_std E) Hs) (HG : good_hashes Hs).
Lemma client_noskx_run (cfg : config T) rn cr suites sr chraw su m_sh m_cert ders x0 x1 xs p ct pms m_ckx master kb m_cfin m_sfin i :
  makeClientHelloGM cfg rn = Ok (honest_ch cr suites) -> m_clientHello (honest_ch cr suites) = Ok chraw ->
  parse_msg VersionGMSSL m_sh = Ok (MServerHello (honest_sh sr)) -> mutualCipherSuiteGM suites ECC = Some su -> su_id su = ECC ->
  parse_msg VersionGMSSL m_cert = Ok (MCertificate ders) -> Forall2 (fun d c => e_parse E d = Some c) ders (x0 :: x1 :: xs) -> Forall (fun c => exists p, g_pub c = PkSM2 p) (x0 :: x1 :: xs) ->
  ku_sign (keyUsage (g_cert x0)) = true -> ku_enc (keyUsage (g_cert x1)) = true ->
  (cf_skip cfg = false -> all_verify E cfg 0 X509_model.NewCertPool (x0 :: x1 :: xs)) -> cf_verifyPeer cfg = None -> g_pub x1 = PkSM2 p ->
  generateClientKeyExchange (e_cv E) (e_fuel E) (r_pms rn) (r_enc rn) VersionGMSSL p = Some (Ok (pms, ct)) -> m_clientKeyExchange ct = Ok m_ckx ->
  masterFromPreMasterSecret (e_std E) VersionGMSSL false pms cr sr = Ok master -> cf_keylog cfg cr master = None -> small master ->
  gm_keys (e_std E) VersionGMSSL master cr sr = HOk kb ->
  bytes chraw -> bytes m_sh -> bytes m_cert -> bytes m_ckx ->
  let pre := [chraw; m_sh; m_cert; m_serverHelloDone; m_ckx] in
  zlen (concat pre ++ m_cfin) < 2 ^ 59 ->
  m_finished (client_finished Hs GMSSL master (concat pre)) = Ok m_cfin -> bytes m_cfin ->
  parse_msg VersionGMSSL m_sfin = Ok (MFinished (server_finished Hs GMSSL master (concat pre ++ m_cfin))) -> bytes m_sfin ->
  exists r, clientHandshakeGM E script cfg None rn (map IMsg [m_sh; m_cert; m_serverHelloDone] ++ ICCS :: IMsg m_sfin :: i, []) =
      (HOk (r, None), (i, EvSend chraw :: map EvRecv [m_sh; m_cert; m_serverHelloDone] ++ [EvSend m_ckx; EvKeys kb; EvSendCCS; EvSend m_cfin; EvRecvCCS; EvRecv m_sfin])) /\
    hr_resumed r = false /\ hr_peer r = x0 :: x1 :: xs.
Proof.
  intros MK M0 Psh MS HS P1 HF HP K0 K1 HV VP Px1 GKx M1 PM KL SM GK B0 B1 B2 B4 pre HLn Mf Bf Pf Bs. unfold clientHandshakeGM.
  run ltac:(reflexivity). run ltac:(apply res_run; exact MK). run ltac:(apply res_run; reflexivity).
  run ltac:(apply res_run; exact M0). run ltac:(apply send_run). cbn [map app].
  run ltac:(apply read_run; exact Psh). cbn [fst snd]. cbn [honest_sh sh_vers sh_suite honest_ch ch_suites]. rewrite Z.eqb_refl. cbn [negb]. rewrite MS.
  run ltac:(unfold processServerHello; cbn; reflexivity).
  destruct (newFinishedHashGM_ok (e_std E) Hs HL HG) as (h0 & N0 & G0). run ltac:(apply res_run; exact N0). cbn [orb].
  match goal with |- context [if ?b then discardHandshakeBuffer h0 else h0] => set (h1 := if b then discardHandshakeBuffer h0 else h0); assert (G1 : exists d, gmh Hs d [] h1) end.
  { unfold h1. match goal with |- context [if ?b then _ else _] => destruct b end; [|eauto]. exists true. eapply gmh_discard; exact G0. }
  clearbody h1. destruct G1 as [d G1].
  destruct (gmh_fwd _ _ _ _ _ G1 B0) as (h2 & W2 & G2). run ltac:(apply wr_run; exact W2).
  destruct (gmh_fwd _ _ _ _ _ G2 B1) as (h3 & W3 & G3). run ltac:(apply wr_run; exact W3).
  assert (Bd : bytes m_serverHelloDone) by (apply bytesb_spec; reflexivity).
  (* the full handshake *)
  assert (RF : exists f, client_full E (C := script) cfg rn (honest_ch cr suites) (honest_sh sr) su h3 (IMsg m_cert :: IMsg m_serverHelloDone :: ICCS :: IMsg m_sfin :: i, [EvSend chraw; EvRecv m_sh]) =
      (HOk f, (ICCS :: IMsg m_sfin :: i, [EvSend chraw; EvRecv m_sh; EvRecv m_cert; EvRecv m_serverHelloDone; EvSend m_ckx])) /\
      cf_master f = master /\ cf_peer f = x0 :: x1 :: xs /\ gmh Hs true (concat pre) (cf_h f)).
  { unfold client_full. run ltac:(apply read_run; exact P1). cbn [fst snd].
    assert (Ln : zlen ders = 2 + zlen xs). { assert (X : length ders = length (x0 :: x1 :: xs)) by (clear -HF; induction HF; cbn; auto). unfold zlen. rewrite X. cbn [length]. lia. }
    pose proof (zlen_nonneg xs). destruct (Z.eqb_spec (zlen ders) 0); [lia|]. destruct (Z.ltb_spec (zlen ders) 2); [lia|].
    destruct (gmh_fwd _ _ _ _ _ G3 B2) as (h4 & W4 & G4). run ltac:(apply wr_run; exact W4).
    run ltac:(apply check_certs_run; [exact HF|exact HP|intros [|k] c Hk Ek; [cbn in Hk; injection Hk as <-; exact K0|lia]|intros [|[|k]] c Hk Ek; [lia|cbn in Hk; injection Hk as <-; exact K1|lia]]).
    assert (X : forall i l, exists chains, (if cf_skip cfg then ret [] else verify_certs E cfg (client_roots cfg) 0 X509_model.NewCertPool (x0 :: x1 :: xs) []) (i, l) = (HOk chains, (i, l)) :> hres (list (list cert)) * hst script).
    { intros i0 l0. destruct (cf_skip cfg); [exists []; reflexivity|]. apply verify_certs_run. auto. }
    edestruct X as (chains & VX). run ltac:(exact VX). clear X VX. rewrite VP.
    run ltac:(apply read_run; apply p_done). cbn [fst snd]. run ltac:(reflexivity). cbv iota beta. cbn [fst snd]. run ltac:(reflexivity). cbv iota beta. cbn [fst snd].
    destruct (gmh_fwd _ _ _ _ _ G4 Bd) as (h5 & W5 & G5). run ltac:(apply wr_run; exact W5). run ltac:(reflexivity).
    run ltac:(apply orfail_run; unfold ka_generateCKX; rewrite HS, Z.eqb_refl, Px1; cbn [honest_ch ch_vers]; rewrite GKx; exact eq_refl). cbv iota.
    destruct (gmh_fwd _ _ _ _ _ G5 B4) as (h6 & W6 & G6). run ltac:(apply emit_run; [exact M1|exact W6]). run ltac:(reflexivity).
    run ltac:(apply res_run; exact PM). cbn [honest_ch ch_random]. rewrite KL. eexists. split; [|split; [|split]]; [reflexivity|reflexivity|reflexivity|].
    cbn [cf_h]. eapply gmh_discard. eapply gmh_eq; [exact G6|]. unfold pre. ccn. }
  destruct RF as (f & RF & F1 & F2 & G). run ltac:(exact RF). rewrite F1.
  cbn [honest_sh sh_random sh_npn sh_ticketOn honest_ch ch_random].
  run ltac:(unfold client_keys; rewrite (bind_run _ _ _ kb _ (lift_run _ _ _ GK)); reflexivity).
  assert (LN : zlen (concat pre) < 2 ^ 59) by (rewrite zlen_app in HLn; pose proof (zlen_nonneg m_cfin); lia).
  edestruct (client_sendFinished_run Hs HG cfg (honest_sh sr)) as (h4 & R4 & G4); [reflexivity|exact G|exact LN|exact SM|exact Mf|exact Bf|].
  run ltac:(apply R4). unfold readSessionTicket. cbn [sh_ticketOn negb]. run ltac:(reflexivity).
  edestruct (client_readFinished_run Hs HG) as (h5 & R5); [exact G4|exact HLn|exact SM|reflexivity|exact Pf|exact Bs|].
  run ltac:(apply R5). eexists. split.
  { unfold ret. apply f_equal. apply f_equal. cbn [fst snd]. repeat (rewrite <- ?app_assoc; cbn [app map]). reflexivity. }
  cbn. split; [reflexivity|exact F2].
Qed.
End NoSkx.

(** C92 refuted: "a client that completes the ECC handshake has checked a signature of the server's signing key over its own random".  Whoever owns
    the second, encrypting, key [k1] alone completes the handshake as the owner of both certificates: the client does not insist on a
    ServerKeyExchange.  [client_ready] says of the first key only that its certificate is one the client accepts. *)
Theorem C92_server_signature_was_checked_refuted {T} (E : env T) Hs cfg rn cr sr rnd b' ders k0 k1 d1 x0 x1 xs :
  world_ok E Hs -> good_curve (e_cv E) -> client_ready E cfg rn cr rnd b' ders k0 k1 d1 x0 x1 xs ->
  1 <= sD k1 <= sm2_n - 1 -> (pX (sPub k1), pY (sPub k1)) = aff (smul (sD k1) pG) -> tab_ok (e_cv E) (sPub k1) ->
  In 0xe013 (getCipherSuites (cf_suites cfg)) -> bytes sr -> length sr = 32%nat ->
  Forall P_TLS_msg.cert_ok ders -> 3 * zlen ders + sum_len ders < 2 ^ 24 - 3 ->
  exists inbox r log, clientHandshakeGM E script cfg None rn (inbox, []) = (HOk (r, None), ([], log)) /\ hr_peer r = x0 :: x1 :: xs /\
    (* no message received is a ServerKeyExchange (type 12) *)
    forall m, In (EvRecv m) log -> mtype m <> 12.
Proof.
  intros (HLc & HGc & _) GC CR KD1 KP1 TB1 HI Bsr Lsr CO CS.
  destruct CR as [NM (RHc & Bcr & Lcr) (RP & Brnd & Lrnd) (RE & FU & KU) HF HP (Gx0 & Gx1 & Rx1) (U0 & U1) HV VP LS KLc].
  assert (GK : exists pms ct, generateClientKeyExchange (e_cv E) (e_fuel E) (Some rnd) (Some b') VersionGMSSL (sPub k1) = Some (Ok (pms, ct))).
  { with_strategy transparent [generateClientKeyExchange] unfold generateClientKeyExchange. cbv zeta. set (m := [_; _] ++ rnd). assert (Bm : bytes m) by (unfold m; byt). assert (Lm : length m = 48%nat) by (unfold m; rewrite app_length; cbn [length]; lia). clearbody m.
    destruct (e_fuel E) as [|fu]; [lia|]. pose proof (k_range b') as KR.
    assert (HB : base_ok (e_cv E) (k_of_bytes b')) by (apply good_base; auto; lia).
    assert (HR : pre_ok (e_cv E) (sPub k1) (smul (sD k1) pG) (k_of_bytes b')) by (apply good_pre; auto; [apply on_smul, G_on|lia]).
    destruct (P_SM2.C19_encrypt_result T (e_cv E) (sPub k1) (smul (sD k1) pG) b' m fu (on_smul _ _ G_on) HB HR Bm ltac:(unfold zlen; lia)) as [K _]. rewrite Lm in K. destruct (K KU) as [K1 _]. rewrite K1.
    cbn [option_map rbind]. do 2 eexists. exact eq_refl. }
  destruct GK as (pms & ct & GK).
  destruct (P_TLS_gmka.C58_same_pre_master_secret T (e_cv E) k1 b' rnd VersionGMSSL (e_fuel E) pms ct GC TB1 KD1 KP1 Brnd Lrnd ltac:(unfold VersionGMSSL; lia) GK) as (Epms & Lpms & PC).
  assert (Bpms : bytes pms) by (rewrite Epms; apply bytes_app; split; [apply be_bytes_bytes|exact Brnd]).
  destruct (ckx_out _ _ _ _ _ _ _ _ GC TB1 KD1 KP1 Brnd Lrnd GK) as [Bct Lct].
  set (suites := offered (getCipherSuites (cf_suites cfg))).
  destruct (P_TLS_msg.C63_clientHello _ (honest_ch_ok cr _ Lcr LS)) as (chraw & M1 & F1 & U1').
  destruct (P_TLS_msg.C63_serverHello _ (honest_sh_ok sr Lsr)) as (m_sh & M2 & F2 & U2').
  destruct (P_TLS_msg.C63_certificate _ CO CS) as (m_cert & M3 & F3 & U3').
  destruct (P_TLS_msg.C63_clientKeyExchange ct ltac:(lia)) as (m_ckx & M5 & F5 & U5').
  assert (LO : zlen suites < 2 ^ 20) by (pose proof (offered_length (getCipherSuites (cf_suites cfg))); unfold suites, zlen in *; lia).
  pose proof (good_msg_intro _ _ (out_ch _ _ _ Bcr LO M1) F1) as G1.
  pose proof (good_msg_intro _ _ (out_sh _ _ Bsr M2) F2) as G2.
  pose proof (good_msg_intro _ _ (out_cert _ _ CO CS M3) F3) as G3.
  pose proof (good_msg_intro _ _ (out_ckx _ _ Bct ltac:(lia) M5) F5) as G5.
  assert (GD : good_msg m_serverHelloDone) by (apply (good_msg_intro 14); [split; [apply bytesb_spec; reflexivity|reflexivity]|apply P_TLS_msg.C63_serverHelloDone]).
  assert (Spms : small pms) by (split; [exact Bpms|unfold zlen; lia]).
  pose proof (P_TLS_prf.C55_master_secret _ Hs HLc HGc GMSSL false pms cr sr Spms Bcr Bsr Lcr Lsr) as [Mc Lm].
  set (master := PRF Hs GMSSL 48 pms ascii_master_secret (cr ++ sr)) in *.
  assert (Bm : bytes master). { apply PRF_bytes; auto; [apply bytesb_spec; reflexivity|apply bytes_app; auto|lia]. }
  assert (Sm : small master) by (split; [exact Bm|unfold zlen; rewrite Lm; reflexivity]). clearbody master.
  destruct (P_TLS_prf.C55_key_block _ Hs HLc HGc GMSSL false master cr sr 32 16 16 Sm Bcr Bsr Lcr Lsr ltac:(discriminate)) as (kc & Kc & Cc & _).
  change (vers_of GMSSL) with VersionGMSSL in *. change (sha384_of GMSSL false) with false in *.
  set (kb := mkKB (client_mac kc) (server_mac kc) (client_key kc) (server_key kc) (client_iv kc) (server_iv kc)).
  assert (KBc : gm_keys (e_std E) VersionGMSSL master cr sr = HOk kb) by (with_strategy transparent [gm_keys] unfold gm_keys; rewrite Kc; reflexivity).
  set (pre := [chraw; m_sh; m_cert; m_serverHelloDone; m_ckx]).
  assert (GP : Forall good_msg pre) by (unfold pre; gms). destruct (good_msgs_len _ GP) as [BT LT]. change (zlen pre) with 5 in LT.
  assert (LT' : zlen (concat pre) < 2 ^ 40) by lia.
  destruct (finished_out Hs master _ HGc Bm BT ltac:(lia)) as [[Bcf Lcf] _].
  destruct (P_TLS_msg.C63_finished (client_finished Hs GMSSL master (concat pre)) ltac:(lia)) as (m_cfin & M6 & F6 & U6').
  pose proof (good_msg_intro _ _ (out_fin _ _ Bcf ltac:(lia) M6) F6) as G6. pose proof (good_msg_len _ G6) as L6.
  assert (BT2 : bytes (concat pre ++ m_cfin)) by (apply bytes_app; split; [exact BT|apply G6]).
  assert (LT2 : zlen (concat pre ++ m_cfin) < 2 ^ 41) by (rewrite zlen_app; lia).
  destruct (finished_out Hs master _ HGc Bm BT2 ltac:(lia)) as [_ [Bsf Lsf]].
  destruct (P_TLS_msg.C63_finished (server_finished Hs GMSSL master (concat pre ++ m_cfin)) ltac:(lia)) as (m_sfin & M7 & F7 & U7').
  pose proof (good_msg_intro _ _ (out_fin _ _ Bsf ltac:(lia) M7) F7) as G7.
  assert (MT : forall t m, P_TLS_msg.framed t m -> mtype m = t) by (intros t m (bd & ->); reflexivity).
  destruct (client_picks _ HI) as (su' & NS' & SU'). fold suites in NS'.
  assert (MH : makeClientHelloGM cfg rn = Ok (honest_ch cr suites)).
  { unfold makeClientHelloGM. replace ((zlen (cf_serverName cfg) =? 0) && negb (cf_skip cfg)) with false.
    - rewrite RHc. reflexivity.
    - destruct NM as [-> |NM]; [rewrite andb_false_r; reflexivity|]. destruct (cf_serverName cfg); [congruence|]. reflexivity. }
  destruct (client_noskx_run E Hs HLc HGc cfg rn cr suites sr chraw su' m_sh m_cert ders x0 x1 xs (sPub k1) ct pms m_ckx master kb m_cfin m_sfin [])
    as (r & RUN & _ & RPe); auto; try (apply G1 || apply G2 || apply G3 || apply G5 || apply G6 || apply G7).
  { apply p_sh; [apply MT; exact F2|exact U2']. }
  { apply p_cert; [apply MT; exact F3|exact U3']. }
  { now apply ku_sign_conv. }
  { now apply ku_enc_conv. }
  { rewrite RP, RE. exact GK. }
  { fold pre. lia. }
  { apply p_fin; [apply MT; exact F7|exact U7']. }
  eexists _, r, _. split; [exact RUN|]. split; [exact RPe|].
  intros m Hm. cbn [map app] in Hm. destruct Hm as [Hm|[Hm|[Hm|[Hm|[Hm|[Hm|[Hm|[Hm|[Hm|[Hm|[]]]]]]]]]]]; try discriminate Hm; injection Hm as <-.
  - rewrite (MT 2 _ F2). discriminate.
  - rewrite (MT 11 _ F3). discriminate.
  - discriminate.
  - rewrite (MT 20 _ F7). discriminate.
Qed.

(** C77 and C92 at the concrete parties of P_TLS_hs_example *)
Theorem C77_hyps : exists hello log, bytes hello /\ serverHandshakeGM xE script (xscfg NoClientCert) None (xrn 7) ([IMsg hello], []) = (HPanic, ([], log)) /\ forall a, ~ In (EvAlert a) log.
Proof.
  destruct (xserver NoClientCert) as [_ _ _ _ _ _ (RH & Bsr & Lsr) _ (CO & CS) _].
  eapply (C77_no_client_crashes_the_server_refuted xE xHs _ _ (repeat 7 32)); [exact xworld|reflexivity|reflexivity|exact RH|exact Bsr|exact Lsr|exact CO|exact CS|].
  right. left. reflexivity.
Qed.
Theorem C92_hyps : exists inbox r log, clientHandshakeGM xE script xccfg None (xrn 8) (inbox, []) = (HOk (r, None), ([], log)) /\ hr_peer r = [xx0; xx1] /\
  forall m, In (EvRecv m) log -> mtype m <> 12.
Proof.
  destruct (xserver NoClientCert) as [_ _ _ _ (_ & K2 & K3 & K4) _ (RH & Bsr & Lsr) _ (CO & CS) _].
  eapply (C92_server_signature_was_checked_refuted xE xHs xccfg (xrn 8) _ (repeat 7 32) _ _ _ xkey xkey [48; 2]);
    [exact xworld|exact cv_std_good|exact (xclient NoClientCert)|exact K2|exact K3|exact K4| |exact Bsr|exact Lsr|exact CO|exact CS].
  left. reflexivity.
Qed.

(** C95 refuted: "VerifiedChains are chains from PeerCertificates[0], as documented for ConnectionState".  The chains a GM client reports start at the LAST certificate of the
    server's message (with two certificates: the encryption certificate); a chain of the signing certificate is reported only when that is the same certificate. *)
Theorem C95_chains_of_the_leaf_refuted {T} (E : env T) C Hs cfg cache rn c r ns log : world_ok E Hs -> client_completes E C cfg cache rn c r ns log -> hr_resumed r = false -> cf_skip cfg = false ->
  exists first last_, hd_error (hr_peer r) = Some first /\ (exists front, hr_peer r = front ++ [last_] /\ front <> []) /\ hr_chains r <> [] /\
    forall chain, In chain (hr_chains r) -> hd_error chain = Some (g_cert last_) /\ (g_cert last_ <> g_cert first -> hd_error chain <> Some (g_cert first)).
Proof.
  intros HW H HR SK. destruct (C87_server_authenticated E C Hs HW _ _ _ _ _ _ _ H HR) as (c0 & c1 & rest & m & ders & EP & _ & _ & _ & _ & _ & _ & _ & _ & _ & V). destruct (V SK) as [_ W]. clear V.
  exists c0, (last (c1 :: rest) c0). split; [rewrite EP; reflexivity|]. split. { exists (c0 :: removelast (c1 :: rest)). split; [|discriminate]. rewrite EP. cbn [app]. f_equal. apply app_removelast_last. discriminate. }
  destruct (W (Datatypes.S (length rest)) (last (c1 :: rest) c0)) as (chains & inters & _ & [TN TF] & _ & EQ).
  { rewrite EP. cbn [nth_error]. clear. revert c1. induction rest as [|x l IH]; intros c1; [reflexivity|]. cbn [length]. cbn [nth_error]. specialize (IH x). rewrite IH. reflexivity. }
  rewrite EQ by (rewrite EP; reflexivity). split; [exact TN|]. intros chain Hc. rewrite Forall_forall in TF. destruct (TF chain Hc) as [VP _]. destruct VP as (X & _).
  split; [exact X|]. intros NE HX. rewrite X in HX. injection HX as HX. exact (NE HX).
Qed.
(** the two certificates of the concrete run are different *)
Theorem C95_hyps : g_cert xx1 <> g_cert xx0 /\ exists c r log, world_ok xE xHs /\ client_completes xE script xccfg None (xrn 8) c r None log /\ hr_resumed r = false /\ cf_skip xccfg = false /\ hr_peer r = [xx0; xx1].
Proof.
  split; [intros H; apply (f_equal raw) in H; discriminate H|]. destruct C83_C90_hyps as (clog & slog & rc & rs & cc & sc & H0 & _ & _ & H & HR & _ & _ & _ & _ & _ & _ & HP & _).
  exists cc, rc, clog. split; [exact H0|]. split; [exact H|]. split; [exact HR|]. split; [reflexivity|exact HP].
Qed.

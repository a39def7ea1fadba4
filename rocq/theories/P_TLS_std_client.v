(** Property theorems for the client's side of the ordinary TLS handshake (C126-C130); [C] is arbitrary, as in P_TLS_std_server. *)
From Verif Require Import GoBase GoLemmas BigBytes Asn1_model X509_spec SM2_model TLS_record_model TLS_prf_model TLS_prf_spec TLS_prf_proofs
  TLS_gmka_model TLS_ticket_model TLS_msg_model TLS_msg_proofs TLS_neg_model TLS_hs_model TLS_hs_proofs TLS_hs_bytes TLS_hs_server TLS_hs_spec TLS_std_model TLS_std_spec
  TLS_std_proofs TLS_std_server TLS_std_client.
From Verif Require X509_model P_TLS_neg P_TLS_prf P_TLS_msg.
From Verif Require Import P_TLS_hs_server P_TLS_hs_client P_TLS_std_server P_TLS_std_server2.
Open Scope Z_scope.
#[local] Opaque fh_Write discardHandshakeBuffer clientSum serverSum PRF newFinishedHash hashForClientCertificate.

Ltac no_fin := unfold opt; let HX := fresh "HX" in intros HX; rewrite ?in_app_iff in HX; cbn in HX;
  repeat match type of HX with context [if ?b then _ else _] => destruct b end; cbn in HX; intuition discriminate.
(** a Finished message of the length all protocols use *)
Lemma finished_frame v m : zlen v = 12 \/ zlen v = 36 -> m_finished v = Ok m -> m = 20 :: be_bytes 3 (zlen v) ++ v.
Proof.
  intros ZV Hm. unfold m_finished, fill in Hm. replace (zlen ([20; 0; 0; u8 (zlen v)] ++ v)) with (zlen v + 4) in Hm by (unfold zlen; rewrite app_length; cbn [length]; lia).
  destruct ZV as [ZV|ZV]; rewrite ZV in *; cbn in Hm; injection Hm as <-; cbn; now rewrite app_nil_r.
Qed.
Lemma client_finished_length Hs ver ms t : ver <> SSL30 -> ver <> GMSSL -> length (client_finished Hs ver ms t) = 12%nat.
Proof. intros H1 H2. destruct ver as [| | |b|]; try congruence; cbn [client_finished]; apply PRF_length. Qed.

Section Client.
Context {T : Type} (E : senv T) (C : chan) (Hs : hashes) (H512 : list Z -> list Z) (HW : std_world_ok E Hs H512).
(** a completed call, what it leaves behind, and what it did on the connection.  [cache]: None - no session cache, otherwise what it returned; [pr]: None - the connection's
    first handshake, otherwise what the previous one left *)
Definition std_client_completes (cfg : sconfig T) (addr : list Z) (cache : option (option (csession T))) (rn : rnds) (pr : option (prior T)) (c : CS C) (r : sclient T) (log : list event) : Prop :=
  exists c', std_clientHandshake E C cfg addr cache rn pr (c, []) = (HOk r, (c', log)).
(** config.rand() delivers byte strings of sensible size *)
Definition std_client_random_ok (rn : rnds) : Prop := hello_random_ok rn /\ forall b, r_pms rn = Some b -> bytes b /\ zlen b <= 2 ^ 16.

(** what the hello contains *)
Lemma std_hello_fields cfg cache rn (pr : option (prior T)) hello0 hello (session : option (csession T)) : makeClientHello E cfg rn = Ok hello0 ->
  complete_hello (s_cfg cfg) (match pr, cache with Some _, Some _ => Some None | _, ca => ca end) rn (std_hello1 pr hello0) = Ok (hello, session) ->
  ch_vers hello = hi cfg /\ r_hello rn = Some (ch_random hello) /\ ch_sni hello = hostnameInSNI E (cf_serverName (s_cfg cfg)) /\ ch_alpn hello = cf_protos (s_cfg cfg) /\
  ch_npn hello = nonempty (cf_protos (s_cfg cfg)) /\ ch_comp hello = [0] /\ ch_reneg hello = (match pr with Some p => pr_clientFinished p | None => [] end) /\ ch_renegOn hello = true /\
  ch_suites hello = filter (fun id => existsb (fun s => (su_id s =? id) && negb ((maxVersion (cf_max (s_cfg cfg)) <? VersionTLS12) && has_flag s suiteTLS12)) cipherSuites) (cfg_cipherSuites (cf_suites (s_cfg cfg))) /\
  ch_ticketOn hello = (match cache with Some _ => true | None => false end) /\ ch_ocsp hello = true /\ ch_scts hello = true /\ ch_curves hello = curvePreferences (s_curves cfg) /\ ch_points hello = [0] /\
  ch_sigalgs hello = (if 0x0303 <=? hi cfg then supportedSignatureAlgorithms else []) /\
  ch_ticket hello = (match session with Some s => cs_ticket s | None => [] end) /\ (session = None -> ch_sessionId hello = []) /\ (session <> None -> r_sid rn = Some (ch_sessionId hello)) /\
  (forall s, session = Some s -> pr = None /\ cache = Some (Some s) /\ In (cs_suite s) (ch_suites hello) /\ minVersion (cf_min (s_cfg cfg)) <= cs_vers s <= maxVersion (cf_max (s_cfg cfg))) /\
  (cf_serverName (s_cfg cfg) = [] -> cf_skip (s_cfg cfg) = true).
Proof.
  unfold makeClientHello. cbv zeta. destruct ((zlen (cf_serverName (s_cfg cfg)) =? 0) && negb (cf_skip (s_cfg cfg))) eqn:E0; [discriminate|].
  destruct (existsb _ (cf_protos _)); [discriminate|]. destruct (0xffff <? _); [discriminate|]. destruct (r_hello rn) as [rd|] eqn:Er; [|discriminate]. intros [= <-] H2.
  assert (SK : cf_serverName (s_cfg cfg) = [] -> cf_skip (s_cfg cfg) = true). { intros X. rewrite X in E0. cbn in E0. now apply negb_false_iff in E0. }
  assert (HI : maxVersion (cf_max (s_cfg cfg)) = hi cfg). { unfold maxVersion, hi, maxVersionConst, VersionTLS12. destruct (Z.eqb_spec (cf_max (s_cfg cfg)) 0), (Z.eq_dec (cf_max (s_cfg cfg)) 0); congruence. }
  rewrite <- HI, <- nonempty_zlen. change 0x0303 with VersionTLS12. clear HI E0.
  match type of H2 with complete_hello _ ?c _ (std_hello1 _ ?h) = _ => set (ca := c) in *; set (h0 := std_hello1 pr h) in * end.
  set (h1 := match ca with None => h0 | Some _ => set_ch_ticketOn h0 true end).
  assert (F : forall s, offered_session (s_cfg cfg) ca h1 = Some s -> pr = None /\ cache = Some (Some s) /\ In (cs_suite s) (ch_suites h1) /\ minVersion (cf_min (s_cfg cfg)) <= cs_vers s <= maxVersion (cf_max (s_cfg cfg))).
  { intros s. unfold offered_session. subst ca. destruct pr, cache as [[x|]|]; try discriminate. match goal with |- (if ?b then _ else _) = _ -> _ => destruct b eqn:EB; [|discriminate] end. intros [= <-].
    rewrite !andb_true_iff in EB. destruct EB as [[B1 B2] B3]. apply existsb_exists in B1 as (y & B1 & B4). apply Z.eqb_eq in B4. subst y. apply Z.leb_le in B2, B3. auto. }
  assert (T0 : ch_ticketOn h1 = match cache with Some _ => true | None => false end) by (subst h1 h0 ca; destruct pr, cache as [[x|]|]; reflexivity).
  assert (R0 : ch_reneg h1 = match pr with Some p => pr_clientFinished p | None => [] end) by (subst h1 h0 ca; destruct pr, cache as [[x|]|]; reflexivity).
  assert (G0 : h1 = set_ch_ticketOn (set_ch_reneg h0 (ch_reneg h1)) (ch_ticketOn h1)) by (subst h1 h0 ca; destruct pr, cache as [[x|]|]; reflexivity).
  unfold complete_hello in H2. fold h1 in H2.
  assert (HB : forall g, g = ch_random \/ g = ch_sni -> g h1 = g h0) by (intros g [-> | ->]; subst h1; destruct ca; reflexivity).
  assert (P0 : ch_vers h1 = maxVersion (cf_max (s_cfg cfg)) /\ ch_random h1 = rd /\ ch_sni h1 = hostnameInSNI E (cf_serverName (s_cfg cfg)) /\ ch_alpn h1 = cf_protos (s_cfg cfg) /\ ch_npn h1 = (0 <? zlen (cf_protos (s_cfg cfg))) /\
     ch_comp h1 = [0] /\ ch_renegOn h1 = true /\
     ch_suites h1 = filter (fun id => existsb (fun s => (su_id s =? id) && negb ((maxVersion (cf_max (s_cfg cfg)) <? VersionTLS12) && has_flag s suiteTLS12)) cipherSuites) (cfg_cipherSuites (cf_suites (s_cfg cfg))) /\
     ch_ocsp h1 = true /\ ch_scts h1 = true /\ ch_curves h1 = curvePreferences (s_curves cfg) /\ ch_points h1 = [0] /\ ch_sigalgs h1 = (if VersionTLS12 <=? maxVersion (cf_max (s_cfg cfg)) then supportedSignatureAlgorithms else []) /\
     ch_ticket h1 = [] /\ ch_sessionId h1 = []).
  { rewrite G0. clear. subst h0. destruct pr; cbn; repeat (split; [reflexivity|]); reflexivity. }
  clearbody h1. clear HB G0 h0. destruct P0 as (P1 & P2 & P3 & P4 & P5 & P6 & P7 & P8 & P9 & P10 & P11 & P12 & P13 & P14 & P15).
  destruct (offered_session (s_cfg cfg) ca h1) as [s|] eqn:EO.
  - destruct (r_sid rn) as [sid|] eqn:Es; [|discriminate]. injection H2 as <- <-. cbn [ch_vers ch_random ch_sni ch_alpn ch_npn ch_comp ch_reneg ch_renegOn ch_suites ch_ticketOn ch_ocsp ch_scts ch_curves ch_points ch_sigalgs ch_ticket ch_sessionId set_ch_sessionId set_ch_ticket].
    repeat (split; [assumption || congruence || (intros; discriminate) || (intros s' [= <-]; auto)|]). exact SK.
  - injection H2 as <- <-. repeat (split; [assumption || congruence || (intros; discriminate)|]). exact SK.
Qed.

(** what every completed call went through *)
Lemma std_client_parts cfg addr cache rn pr c r log : std_client_completes cfg addr cache rn pr c r log ->
  exists hello session chraw m_sh sh su vers ver resumed rest,
    log = EvSend chraw :: EvRecv m_sh :: rest /\ m_clientHello hello = Ok chraw /\ mtype m_sh = tServerHello /\ u_serverHello sh_empty m_sh = Ok sh /\
    (exists hello0, makeClientHello E cfg rn = Ok hello0 /\ complete_hello (s_cfg cfg) (match pr, cache with Some _, Some _ => Some None | _, ca => ca end) rn (std_hello1 pr hello0) = Ok (hello, session)) /\
    lo cfg <= sh_vers sh /\ vers = Z.min (sh_vers sh) (hi cfg) /\ In vers [0x0301; 0x0302; 0x0303] /\ version_of vers (sha384_suite (su_id su)) = Some ver /\ su_sha384 su = sha384_suite (su_id su) /\
    In su cipherSuites /\ su_id su = sh_suite sh /\ In (su_id su) (ch_suites hello) /\ std_sh_ok pr vers hello sh su session (cl_secure r) resumed /\
    match resumed with
    | Some cs => hr_resumed (cl_hr r) = true /\ exists k l_np l_t m_fin m_sfin cfin sfin, std_client_rrun E Hs cfg addr cache pr cs hello chraw m_sh sh su vers r log k l_np l_t m_fin m_sfin cfin sfin
    | None => hr_resumed (cl_hr r) = false /\ exists f lf k l_np l_t m_fin m_sfin cfin sfin, std_client_run E Hs cfg addr cache rn pr hello chraw m_sh sh su vers r log f lf k l_np l_t m_fin m_sfin cfin sfin
    end.
Proof.
  intros [c' H]. destruct HW as (HL & HG & _).
  apply (std_clientHandshake_inv E Hs HL HG) in H as (hello0 & hello & session & chraw & m_sh & sh & su & vers & resumed & H1 & H2 & H3 & H4 & H5 & H6 & H7 & H8 & H9).
  apply P_TLS_neg.C65_client_version in H5 as (L1 & L2 & L3). fold (lo cfg) in L1. fold (hi cfg) in L2.
  apply P_TLS_neg.C66_mutual_suite in H6 as (S1 & S2 & S3). destruct (suite_facts _ S2) as (S4 & _).
  destruct H8 as [->|(ver & Ev)]; [lia|].
  assert (VI : In vers [0x0301; 0x0302; 0x0303]).
  { revert Ev. unfold version_of. destruct (Z.eqb_spec vers 768) as [->|]; [lia|]. repeat match goal with |- (if ?a =? ?b then _ else _) = _ -> _ => destruct (Z.eqb_spec a b) as [->|]; [cbn; auto 10|] end. discriminate. }
  pose proof (parse_type _ _ _ H4) as Ht. apply up_serverHello in H4. rewrite S4 in Ev.
  assert (EL : exists rest, log = EvSend chraw :: EvRecv m_sh :: rest).
  { destruct resumed; destruct H9 as [_ H9].
    - destruct H9 as (k & l_np & l_t & m_fin & m_sfin & cfin & sfin & H9). rewrite (scv_log _ _ _ _ _ _ _ _ _ _ _ _ _ _ _ _ _ _ _ _ _ _ H9). eexists. reflexivity.
    - destruct H9 as (f & lf & k & l_np & l_t & m_fin & m_sfin & cfin & sfin & H9). rewrite (scu_log _ _ _ _ _ _ _ _ _ _ _ _ _ _ _ _ _ _ _ _ _ _ _ _ H9). eexists. reflexivity. }
  destruct EL as (rest & EL). exists hello, session, chraw, m_sh, sh, su, vers, ver, resumed, rest.
  split; [exact EL|]. split; [exact H3|]. split; [exact Ht|]. split; [exact H4|]. split; [eauto|]. split; [exact L1|]. split; [exact L2|]. split; [exact VI|]. split; [exact Ev|]. split; [exact S4|].
  split; [exact S2|]. split; [exact S3|]. split; [congruence|]. split; [exact H7|exact H9].
Qed.

Lemma std_cfull_steps cfg rn pr vers hello sh su f l0 l : std_cfull_run E Hs cfg rn pr vers hello sh su f l0 l -> In su cipherSuites ->
  exists st rq cv : bool, steps l = [In_ tCertificate] ++ opt st (In_ tCertificateStatus) ++ opt (ecdhe_suite (su_id su)) (In_ tServerKeyExchange) ++ opt rq (In_ tCertificateRequest) ++ [In_ tServerHelloDone] ++
    opt rq (Out tCertificate) ++ [Out tClientKeyExchange] ++ opt cv (Out tCertificateVerify) /\ (st = true -> sh_ocsp sh = true) /\ (cv = true -> rq = true) /\ (s_certs cfg = [] -> s_getClientCert cfg = None -> cv = false) /\ keys_of l = [].
Proof.
  intros HF SI. destruct (tc_flow _ _ _ _ _ _ _ _ _ _ _ _ HF) as (m_cert & ders & l_st & l_skx & ka & l_req & req & chain & m_done & l_cc & pms & ct & m_ckx & l_cv & -> & P1 & _ & _ & Q3 & Q4 & Q5 & P6 & Q7 & Q8 & _ & _ & Q9).
  assert (S1 : exists st : bool, steps l_st = opt st (In_ tCertificateStatus) /\ keys_of l_st = [] /\ (st = true -> sh_ocsp sh = true)).
  { destruct Q3 as [-> |(HO & m & st & -> & P)]; [exists false; repeat split; discriminate|exists true]. split; [cbn; now rewrite (parse_type _ _ _ P)|auto]. }
  destruct S1 as (st & S1 & K1 & I1).
  assert (S2 : steps l_skx = opt (ecdhe_suite (su_id su)) (In_ tServerKeyExchange) /\ keys_of l_skx = []).
  { destruct (suite_facts _ SI) as (_ & _ & EE & _). rewrite <- EE. destruct Q4 as [[-> ->]|(m & key & -> & P & Q4)].
    - destruct (has_flag su suiteECDHE) eqn:EF; [|split; reflexivity]. unfold std_generateCKX in Q7. rewrite EF in Q7. discriminate Q7.
    - unfold std_processSKX in Q4. destruct (has_flag su suiteECDHE); [|discriminate Q4]. split; [cbn; now rewrite (parse_type _ _ _ P)|reflexivity]. }
  destruct S2 as [S2 K2].
  assert (S3 : exists rq cv : bool, steps l_req = opt rq (In_ tCertificateRequest) /\ steps l_cc = opt rq (Out tCertificate) /\ steps l_cv = opt cv (Out tCertificateVerify) /\ (cv = true -> rq = true) /\
     (s_certs cfg = [] -> s_getClientCert cfg = None -> cv = false) /\ keys_of l_req = [] /\ keys_of l_cc = [] /\ keys_of l_cv = []).
  { destruct Q5 as [(-> & -> & -> & ->)|(m & cr & cc & mc & -> & P & -> & -> & Fc & -> & Em)].
    - rewrite Q9. exists false, false. repeat split; auto.
    - exists true. assert (SR : steps [EvRecv m] = [In_ tCertificateRequest] /\ steps [EvSend mc] = [Out tCertificate]). { cbn. rewrite (parse_std_type _ _ _ P), (t_certificate _ _ Em). auto. }
      destruct SR as [SR1 SR2]. destruct (sc_chain cc) as [|d ds] eqn:Ec.
      + exists false. rewrite Q9. repeat split; auto.
      + destruct Q9 as (sign & mv & alg & s0 & hash & dg & sig & _ & _ & _ & -> & Mv & _). exists true. cbn [opt]. split; [exact SR1|]. split; [exact SR2|]. split; [cbn; now rewrite (t_cv _ _ _ Mv)|].
        split; [auto|]. split; [|auto]. intros H1 H2. unfold chosen_cert in Fc. rewrite H2, H1 in Fc. destruct Fc as [[]|X]. congruence. }
  destruct S3 as (rq & cv & S3 & S4 & S5 & I2 & I3 & K3 & K4 & K5). exists st, rq, cv. rewrite !steps_app, !keys_of_app, S1, S2, S3, S4, S5, K1, K2, K3, K4, K5.
  cbn [steps step_of flat_map app]. rewrite (parse_type _ _ _ P1), (parse_type _ _ _ P6), (t_ckx _ _ Q8). repeat split; auto.
Qed.

(** ** C126.  What a completed handshake exchanged *)
(** Exactly the prescribed messages in the prescribed order: a ServerKeyExchange exactly for the ECDHE suites, a CertificateStatus only if the ServerHello announced it, the client's
    Certificate exactly when the server asked, CertificateVerify only then, NextProtocol and NewSessionTicket exactly when the ServerHello announced them; no alert. *)
Theorem C126_client_flow cfg addr cache rn pr c r log : std_client_completes cfg addr cache rn pr c r log -> hr_resumed (cl_hr r) = false ->
  exists ch sh (st rq cv : bool), hello_sent log ch /\ server_hello_read log sh /\ steps log = std_client_flow st (ecdhe_suite (hr_suite (cl_hr r))) rq cv (sh_npn sh) (sh_ticketOn sh) /\
    (st = true -> sh_ocsp sh = true) /\ (cv = true -> rq = true) /\ (s_certs cfg = [] -> s_getClientCert cfg = None -> cv = false).
Proof.
  intros H HR. destruct (std_client_parts _ _ _ _ _ _ _ _ H) as (hello & session & chraw & m_sh & sh & su & vers & ver & resumed & rest & EL & Em & Ht & Hu & (h0 & M1 & M2) & L1 & L2 & VI & Ev & ES & SI & Sid & SO & SH & HB).
  destruct resumed; [destruct HB; congruence|]. destruct HB as (_ & f & lf & k & l_np & l_t & m_fin & m_sfin & cfin & sfin & CR).
  destruct (scu_res _ _ _ _ _ _ _ _ _ _ _ _ _ _ _ _ _ _ _ _ _ _ _ _ CR) as (_ & -> & _).
  destruct (std_cfull_steps _ _ _ _ _ _ _ _ _ _ (scu_full _ _ _ _ _ _ _ _ _ _ _ _ _ _ _ _ _ _ _ _ _ _ _ _ CR) SI) as (st & rq & cv & SF & I1 & I2 & I3 & _).
  exists hello, sh, st, rq, cv. split; [exists chraw; eexists; eauto|]. split; [exists (EvSend chraw), m_sh; eexists; eauto|]. split; [|auto].
  pose proof (scu_np _ _ _ _ _ _ _ _ _ _ _ _ _ _ _ _ _ _ _ _ _ _ _ _ CR) as N. pose proof (scu_t _ _ _ _ _ _ _ _ _ _ _ _ _ _ _ _ _ _ _ _ _ _ _ _ CR) as Tk.
  pose proof (t_finished _ _ (scu_fin _ _ _ _ _ _ _ _ _ _ _ _ _ _ _ _ _ _ _ _ _ _ _ _ CR)) as TF. pose proof (parse_type _ _ _ (scu_sfin _ _ _ _ _ _ _ _ _ _ _ _ _ _ _ _ _ _ _ _ _ _ _ _ CR)) as TS.
  assert (S1 : steps l_np = opt (sh_npn sh) (Out tNextProtocol)). { destruct (sh_npn sh); [destruct N as (m & p & b & -> & _ & N & _); cbn; now rewrite (t_np _ _ N)|now destruct N as [-> _]]. }
  assert (S2 : steps l_t = opt (sh_ticketOn sh) (In_ tNewSessionTicket)). { destruct (sh_ticketOn sh); [destruct Tk as (m & t & -> & Tk & _); cbn; now rewrite (parse_type _ _ _ Tk)|now destruct Tk as [-> _]]. }
  rewrite (scu_log _ _ _ _ _ _ _ _ _ _ _ _ _ _ _ _ _ _ _ _ _ _ _ _ CR). rewrite !steps_app, SF, S1, S2. cbn [steps step_of flat_map app]. rewrite TF, TS, Ht, (t_clientHello _ _ Em).
  unfold std_client_flow. cbn [type_of]. repeat (cbn [app]; rewrite <- app_assoc). reflexivity.
Qed.
Theorem C126_client_short_flow cfg addr cache rn pr c r log : std_client_completes cfg addr cache rn pr c r log -> hr_resumed (cl_hr r) = true ->
  exists ch sh, hello_sent log ch /\ server_hello_read log sh /\ steps log = std_client_short_flow (sh_npn sh) (sh_ticketOn sh).
Proof.
  intros H HR. destruct (std_client_parts _ _ _ _ _ _ _ _ H) as (hello & session & chraw & m_sh & sh & su & vers & ver & resumed & rest & EL & Em & Ht & Hu & (h0 & M1 & M2) & L1 & L2 & VI & Ev & ES & SI & Sid & SO & SH & HB).
  destruct resumed as [cs|]; [|destruct HB; congruence]. destruct HB as (_ & k & l_np & l_t & m_fin & m_sfin & cfin & sfin & CR).
  exists hello, sh. split; [exists chraw; eexists; eauto|]. split; [exists (EvSend chraw), m_sh; eexists; eauto|].
  pose proof (scv_np _ _ _ _ _ _ _ _ _ _ _ _ _ _ _ _ _ _ _ _ _ _ CR) as N. pose proof (scv_t _ _ _ _ _ _ _ _ _ _ _ _ _ _ _ _ _ _ _ _ _ _ CR) as Tk.
  pose proof (t_finished _ _ (scv_fin _ _ _ _ _ _ _ _ _ _ _ _ _ _ _ _ _ _ _ _ _ _ CR)) as TF. pose proof (parse_type _ _ _ (scv_sfin _ _ _ _ _ _ _ _ _ _ _ _ _ _ _ _ _ _ _ _ _ _ CR)) as TS.
  assert (S1 : steps l_np = opt (sh_npn sh) (Out tNextProtocol)). { destruct (sh_npn sh); [destruct N as (m & p & b & -> & _ & N & _); cbn; now rewrite (t_np _ _ N)|now destruct N as [-> _]]. }
  assert (S2 : steps l_t = opt (sh_ticketOn sh) (In_ tNewSessionTicket)). { destruct (sh_ticketOn sh); [destruct Tk as (m & t & -> & Tk & _); cbn; now rewrite (parse_type _ _ _ Tk)|now destruct Tk as [-> _]]. }
  rewrite (scv_log _ _ _ _ _ _ _ _ _ _ _ _ _ _ _ _ _ _ _ _ _ _ CR). rewrite !steps_app, S1, S2. cbn [steps step_of flat_map app]. rewrite TF, TS, Ht, (t_clientHello _ _ Em). reflexivity.
Qed.

(** the pre-master secret is a byte string *)
Lemma client_pms_small rn su ka v pub pms ct : groups_ok E -> std_client_random_ok rn -> std_generateCKX E rn su ka v pub = Ok (pms, ct) -> small pms.
Proof.
  intros [G1 G2] [_ RP] H. unfold std_generateCKX in H. destruct (has_flag su suiteECDHE); cbn [negb] in H.
  - destruct (fst ka =? 0); [discriminate|]. unfold curveForCurveID in H. destruct (if fst ka =? X25519 then _ else _) as [g|] eqn:EG; [|discriminate].
    destruct (kx_gen g (r_pms rn)) as [[priv ser]| |]; [|discriminate..]. cbn [rbind] in H. injection H as <- _.
    destruct (fst ka =? X25519); [injection EG as <-; apply G1|]. destruct (_ || _) in EG; [|discriminate]. injection EG as <-. apply G2.
  - destruct (r_pms rn) as [rnd|]; [|discriminate]. destruct pub; try discriminate. cbv zeta in H. destruct (se_rsaenc _ _ _ _); [|discriminate..]. cbn [rbind] in H. injection H as <- _.
    destruct (RP _ eq_refl) as [B L]. split.
    + apply Forall_cons; [apply u8_byte|]. apply Forall_cons; [apply u8_byte|exact B].
    + unfold zlen in *. cbn [length app]. assert (2 ^ 16 + 2 < 2 ^ 60) by reflexivity. lia.
Qed.
Lemma client_master_small cfg rn pr vers hello sh su f l0 l ver : std_cfull_run E Hs cfg rn pr vers hello sh su f l0 l -> groups_ok E -> std_client_random_ok rn ->
  bytes (ch_random hello) -> length (ch_random hello) = 32%nat -> bytes (sh_random sh) -> length (sh_random sh) = 32%nat -> version_of vers (su_sha384 su) = Some ver -> small (cf_master f).
Proof.
  intros HF GO RO B1 L1 B2 L2 Ev. destruct HW as (HL & HG & _). destruct (tc_flow _ _ _ _ _ _ _ _ _ _ _ _ HF) as (m_cert & ders & l_st & l_skx & ka & l_req & req & chain & m_done & l_cc & pms & ct & m_ckx & l_cv & _ & _ & _ & _ & _ & _ & _ & _ & Q7 & _ & Q8 & _).
  pose proof (client_pms_small _ _ _ _ _ _ _ GO RO Q7) as SP. destruct (master_std _ Hs HL HG _ _ _ _ _ _ SP B1 B2 L1 L2 Q8 ver Ev) as (_ & _ & _ & X). exact X.
Qed.
Lemma all_ctors : forall h, exists Hc, implements (hash_ctor E h) Hc (2 ^ 61).
Proof. intros h. eexists. exact (hash_ctor_ok E Hs H512 h HW). Qed.

(** Every Finished message the client took, or sent, in a completed handshake - full or resumed - carries the value the negotiated protocol prescribes
    for the master secret and all handshake messages before it. *)
Theorem C126_client_finished cfg addr cache rn pr c r log : std_client_completes cfg addr cache rn pr c r log -> wire_ok log -> std_client_random_ok rn -> groups_ok E ->
  (hr_resumed (cl_hr r) = true -> small (hr_master (cl_hr r))) ->
  exists ver, version_of (hr_vers (cl_hr r)) (sha384_suite (hr_suite (cl_hr r))) = Some ver /\
    (forall pre m post, log = pre ++ EvRecv m :: post -> mtype m = tFinished -> skipn 4 m = server_finished Hs ver (hr_master (cl_hr r)) (transcript pre)) /\
    (forall pre m post, log = pre ++ EvSend m :: post -> mtype m = tFinished ->
       m = 20 :: be_bytes 3 (zlen (client_finished Hs ver (hr_master (cl_hr r)) (transcript pre))) ++ client_finished Hs ver (hr_master (cl_hr r)) (transcript pre)).
Proof.
  intros H WO RO GO SM. destruct (std_client_parts _ _ _ _ _ _ _ _ H) as (hello & session & chraw & m_sh & sh & su & vers & ver & resumed & rest & EL0 & Em & Ht & Hu & (h0 & M1 & M2) & L1 & L2 & VI & Ev & ES & SI & Sid & SO & SH & HB).
  assert (NV : ver <> SSL30 /\ ver <> GMSSL). { apply version_of_inv in Ev as (EV & NG & _). split; [|exact NG]. intros ->. cbn in EV. rewrite EV in VI. cbn in VI. unfold VersionSSL30 in VI. lia. }
  pose proof (t_clientHello _ _ Em) as TC.
  destruct resumed as [cs|].
  - destruct HB as (HR & k & l_np & l_t & m_fin & m_sfin & cfin & sfin & CR).
    destruct (scv_res _ _ _ _ _ _ _ _ _ _ _ _ _ _ _ _ _ _ _ _ _ _ CR) as (R1 & R2 & R3 & _). rewrite R1, R2, R3 in *. exists ver. split; [exact Ev|].
    pose proof (scv_log _ _ _ _ _ _ _ _ _ _ _ _ _ _ _ _ _ _ _ _ _ _ CR) as EL. pose proof (scv_np _ _ _ _ _ _ _ _ _ _ _ _ _ _ _ _ _ _ _ _ _ _ CR) as N. pose proof (scv_t _ _ _ _ _ _ _ _ _ _ _ _ _ _ _ _ _ _ _ _ _ _ CR) as Tk.
    pose proof (scv_fin _ _ _ _ _ _ _ _ _ _ _ _ _ _ _ _ _ _ _ _ _ _ CR) as PF. pose proof (scv_sfin _ _ _ _ _ _ _ _ _ _ _ _ _ _ _ _ _ _ _ _ _ _ CR) as PS.
    rewrite <- ES in Ev. destruct (scv_val _ _ _ _ _ _ _ _ _ _ _ _ _ _ _ _ _ _ _ _ _ _ CR ver Ev WO (SM HR)) as [V1 V2].
    pose proof (t_finished _ _ PF) as TF. pose proof (parse_type _ _ _ PS) as TS.
    assert (S1 : steps l_np = opt (sh_npn sh) (Out tNextProtocol)). { destruct (sh_npn sh); [destruct N as (m & p & b & -> & _ & N & _); cbn; now rewrite (t_np _ _ N)|now destruct N as [-> _]]. }
    assert (S2 : steps l_t = opt (sh_ticketOn sh) (In_ tNewSessionTicket)). { destruct (sh_ticketOn sh); [destruct Tk as (m & t & -> & Tk & _); cbn; now rewrite (parse_type _ _ _ Tk)|now destruct Tk as [-> _]]. }
    set (A := [EvSend chraw; EvRecv m_sh; EvKeys k] ++ l_t) in *.
    assert (E1 : log = (A ++ [EvRecvCCS]) ++ EvRecv m_sfin :: ([EvSendCCS] ++ l_np ++ [EvSend m_fin])) by (rewrite EL; unfold A; rewrite <- !app_assoc; reflexivity).
    assert (E2 : log = (A ++ [EvRecvCCS; EvRecv m_sfin; EvSendCCS] ++ l_np) ++ EvSend m_fin :: []) by (rewrite EL; unfold A; rewrite <- !app_assoc; reflexivity).
    assert (SA : steps A = [Out tClientHello; In_ tServerHello] ++ opt (sh_ticketOn sh) (In_ tNewSessionTicket)). { unfold A. rewrite steps_app, S2. cbn [steps step_of flat_map app]. rewrite Ht, TC. reflexivity. }
    split.
    + intros pre m post Hl Hm.
      destruct (unique_event (recv_type tFinished) log (A ++ [EvRecvCCS]) ([EvSendCCS] ++ l_np ++ [EvSend m_fin]) pre post (EvRecv m_sfin) (EvRecv m) E1) as (-> & Em' & _); auto.
      * apply no_recv. rewrite !steps_app, SA. cbn [steps step_of flat_map app]. no_fin.
      * apply no_recv. rewrite !steps_app, S1. cbn [steps step_of flat_map app]. no_fin.
      * exists m. auto.
      * injection Em' as ->. destruct (parse_finished _ _ _ PS) as [_ <-]. rewrite V1. unfold A. rewrite <- !app_assoc. reflexivity.
    + intros pre m post Hl Hm.
      destruct (unique_event (send_type tFinished) log (A ++ [EvRecvCCS; EvRecv m_sfin; EvSendCCS] ++ l_np) [] pre post (EvSend m_fin) (EvSend m) E2) as (-> & Em' & _); auto.
      * apply no_send. rewrite !steps_app, SA, S1. cbn [steps step_of flat_map app]. no_fin.
      * intros HX. inversion HX.
      * exists m. auto.
      * injection Em' as ->. unfold A. rewrite <- !app_assoc. rewrite V2 in PF. apply finished_frame; [|exact PF]. left. unfold zlen. rewrite client_finished_length by tauto. reflexivity.
  - destruct HB as (HR & f & lf & k & l_np & l_t & m_fin & m_sfin & cfin & sfin & CR).
    destruct (scu_res _ _ _ _ _ _ _ _ _ _ _ _ _ _ _ _ _ _ _ _ _ _ _ _ CR) as (R1 & R2 & R3 & _). rewrite R1, R2, R3 in *. exists ver. split; [exact Ev|].
    pose proof (scu_log _ _ _ _ _ _ _ _ _ _ _ _ _ _ _ _ _ _ _ _ _ _ _ _ CR) as EL. pose proof (scu_np _ _ _ _ _ _ _ _ _ _ _ _ _ _ _ _ _ _ _ _ _ _ _ _ CR) as N. pose proof (scu_t _ _ _ _ _ _ _ _ _ _ _ _ _ _ _ _ _ _ _ _ _ _ _ _ CR) as Tk.
    pose proof (scu_fin _ _ _ _ _ _ _ _ _ _ _ _ _ _ _ _ _ _ _ _ _ _ _ _ CR) as PF. pose proof (scu_sfin _ _ _ _ _ _ _ _ _ _ _ _ _ _ _ _ _ _ _ _ _ _ _ _ CR) as PS.
    pose proof (scu_full _ _ _ _ _ _ _ _ _ _ _ _ _ _ _ _ _ _ _ _ _ _ _ _ CR) as HF.
    destruct (std_hello_fields _ _ _ _ _ _ _ M1 M2) as (_ & F2 & _). destruct (proj1 RO _ F2) as [B1 N1].
    destruct (sh_random_ok _ _ _ Hu) as [B2 N2]. { apply wire_ok_recv. eapply wire_ok_in; [exact WO|]. rewrite EL0. right. now left. }
    rewrite <- ES in Ev. pose proof (client_master_small _ _ _ _ _ _ _ _ _ _ _ HF GO RO B1 N1 B2 N2 Ev) as SMM.
    destruct (scu_val _ _ _ _ _ _ _ _ _ _ _ _ _ _ _ _ _ _ _ _ _ _ _ _ CR ver Ev WO SMM all_ctors) as [V1 V2].
    destruct (std_cfull_steps _ _ _ _ _ _ _ _ _ _ HF SI) as (st & rq & cv & SF & _).
    pose proof (t_finished _ _ PF) as TF. pose proof (parse_type _ _ _ PS) as TS.
    assert (S1 : steps l_np = opt (sh_npn sh) (Out tNextProtocol)). { destruct (sh_npn sh); [destruct N as (m & p & b & -> & _ & N & _); cbn; now rewrite (t_np _ _ N)|now destruct N as [-> _]]. }
    assert (S2 : steps l_t = opt (sh_ticketOn sh) (In_ tNewSessionTicket)). { destruct (sh_ticketOn sh); [destruct Tk as (m & t & -> & Tk & _); cbn; now rewrite (parse_type _ _ _ Tk)|now destruct Tk as [-> _]]. }
    set (A := [EvSend chraw; EvRecv m_sh] ++ lf ++ [EvKeys k; EvSendCCS] ++ l_np) in *.
    assert (E1 : log = A ++ EvSend m_fin :: (l_t ++ [EvRecvCCS; EvRecv m_sfin])) by (rewrite EL; unfold A; rewrite <- !app_assoc; reflexivity).
    assert (E2 : log = (A ++ [EvSend m_fin] ++ l_t ++ [EvRecvCCS]) ++ EvRecv m_sfin :: []) by (rewrite EL; unfold A; rewrite <- !app_assoc; reflexivity).
    assert (SA : steps A = [Out tClientHello; In_ tServerHello] ++ ([In_ tCertificate] ++ opt st (In_ tCertificateStatus) ++ opt (ecdhe_suite (su_id su)) (In_ tServerKeyExchange) ++ opt rq (In_ tCertificateRequest) ++ [In_ tServerHelloDone] ++
      opt rq (Out tCertificate) ++ [Out tClientKeyExchange] ++ opt cv (Out tCertificateVerify)) ++ [OutCCS] ++ opt (sh_npn sh) (Out tNextProtocol)).
    { unfold A. rewrite !steps_app, SF, S1. cbn [steps step_of flat_map]. rewrite Ht, TC. reflexivity. }
    split.
    + intros pre m post Hl Hm.
      destruct (unique_event (recv_type tFinished) log (A ++ [EvSend m_fin] ++ l_t ++ [EvRecvCCS]) [] pre post (EvRecv m_sfin) (EvRecv m) E2) as (-> & Em' & _); auto.
      * apply no_recv. rewrite !steps_app, SA, S2. cbn [steps step_of flat_map app]. rewrite TF. no_fin.
      * intros HX. inversion HX.
      * exists m. auto.
      * injection Em' as ->. destruct (parse_finished _ _ _ PS) as [_ <-]. rewrite V2. unfold A. rewrite <- !app_assoc. reflexivity.
    + intros pre m post Hl Hm.
      destruct (unique_event (send_type tFinished) log A (l_t ++ [EvRecvCCS; EvRecv m_sfin]) pre post (EvSend m_fin) (EvSend m) E1) as (-> & Em' & _); auto.
      * apply no_send. rewrite SA. no_fin.
      * apply no_send. rewrite !steps_app, S2. cbn [steps step_of flat_map app]. rewrite TS. no_fin.
      * exists m. auto.
      * injection Em' as ->. rewrite V1 in PF. apply finished_frame; [|exact PF]. left. unfold zlen. rewrite client_finished_length by tauto. reflexivity.
Qed.
End Client.

(** Property theorems for the client's side of the GM handshake (C86-C88); [C] is arbitrary, as in P_TLS_hs_server. *)
From Verif Require Import GoBase GoLemmas BigBytes Asn1_model X509_spec SM2_model SM3_spec TLS_record_model TLS_prf_model TLS_prf_spec TLS_prf_proofs
  TLS_gmka_model TLS_ticket_model TLS_msg_model TLS_msg_proofs TLS_neg_model TLS_hs_model TLS_hs_proofs TLS_hs_bytes TLS_hs_server TLS_hs_client TLS_hs_spec P_TLS_hs_server.
From Verif Require X509_model X509_proofs P_X509 P_TLS_prf P_TLS_msg P_TLS_neg P_TLS_gmka.
Open Scope Z_scope.
#[local] Opaque sm3 fh_Write discardHandshakeBuffer clientSum serverSum PRF.

(** what a parsed message of a known kind says about its bytes *)
Ltac unparse H := let Ht := fresh in pose proof (parse_type _ _ _ H) as Ht; cbn [type_of] in Ht;
  match type of H with parse_msg _ ?m = _ => let t := fresh "t" in destruct m as [|t ?]; [discriminate Ht|]; cbn [mtype] in Ht; subst t; cbn in H; apply rmap_ok in H as (? & H & [=]); subst end.
Lemma up_certificate v m x : parse_msg v m = Ok (MCertificate x) -> u_certificate m = Ok x. Proof. intros H. now unparse H. Qed.
Lemma up_serverHello v m x : parse_msg v m = Ok (MServerHello x) -> u_serverHello sh_empty m = Ok x. Proof. intros H. now unparse H. Qed.
Lemma up_clientHello v m x : parse_msg v m = Ok (MClientHello x) -> u_clientHello ch_empty m = Ok x. Proof. intros H. now unparse H. Qed.
Lemma up_skx v m x : parse_msg v m = Ok (MServerKeyExchange x) -> u_serverKeyExchange m = Ok x. Proof. intros H. now unparse H. Qed.
Lemma up_ckx v m x : parse_msg v m = Ok (MClientKeyExchange x) -> u_clientKeyExchange m = Ok x. Proof. intros H. now unparse H. Qed.
Lemma up_ticket v m x : parse_msg v m = Ok (MNewSessionTicket x) -> u_newSessionTicket m = Ok x. Proof. intros H. now unparse H. Qed.

Lemma Forall2_len {A B} (P : A -> B -> Prop) l l' : Forall2 P l l' -> length l = length l'.
Proof. induction 1; cbn; auto. Qed.
(** the key usages GM/T 0024 asks for, bit by bit (x509.go:596-606) *)
Definition may_sign (ku : Z) : Prop := Z.testbit ku 0 = true \/ Z.testbit ku 1 = true.
Definition may_encrypt (ku : Z) : Prop := Z.testbit ku 2 = true \/ Z.testbit ku 3 = true \/ Z.testbit ku 4 = true.
Lemma ku_sign_bits ku : ku_sign ku = true -> may_sign ku.
Proof.
  unfold ku_sign, may_sign, KeyUsageDigitalSignature, KeyUsageContentCommitment. rewrite negb_true_iff, orb_false_iff. intros [_ H]. apply Z.eqb_neq in H.
  destruct (Z.testbit ku 0) eqn:E0; [auto|]. destruct (Z.testbit ku 1) eqn:E1; [auto|]. exfalso. apply H. apply Z.bits_inj'. intros i Hi. rewrite Z.land_spec, Z.lor_spec, Z.land_spec, Z.bits_0.
  destruct (Z.eq_dec i 0) as [->|]; [now rewrite E0|]. destruct (Z.eq_dec i 1) as [->|]; [now rewrite E1|].
  change 1 with (2 ^ 0) at 1. change 2 with (2 ^ 1). rewrite !Z.pow2_bits_false by lia. now rewrite andb_false_r, andb_false_r.
Qed.
Lemma ku_enc_bits ku : ku_enc ku = true -> may_encrypt ku.
Proof.
  unfold ku_enc, may_encrypt, KeyUsageDataEncipherment, KeyUsageKeyEncipherment, KeyUsageKeyAgreement. rewrite negb_true_iff, orb_false_iff. intros [_ H]. apply Z.eqb_neq in H.
  destruct (Z.testbit ku 2) eqn:E0; [auto|]. destruct (Z.testbit ku 3) eqn:E1; [auto|]. destruct (Z.testbit ku 4) eqn:E2; [auto|]. exfalso. apply H. apply Z.bits_inj'. intros i Hi. rewrite Z.land_spec, !Z.lor_spec, Z.bits_0.
  destruct (Z.eq_dec i 2) as [->|]; [now rewrite E0|]. destruct (Z.eq_dec i 3) as [->|]; [now rewrite E1|]. destruct (Z.eq_dec i 4) as [->|]; [now rewrite E2|].
  change 8 with (2 ^ 3). change 4 with (2 ^ 2) at 1. change 16 with (2 ^ 4). rewrite !Z.pow2_bits_false by lia. now rewrite andb_false_r.
Qed.
Lemma master_small' L Hs v pms cr sr master : std_impl L Hs -> good_hashes Hs -> small pms ->
  bytes cr -> bytes sr -> length cr = 32%nat -> length sr = 32%nat -> v = VersionGMSSL -> masterFromPreMasterSecret L v false pms cr sr = Ok master ->
  master = PRF Hs GMSSL 48 pms ascii_master_secret (cr ++ sr) /\ bytes master /\ length master = 48%nat.
Proof.
  intros HL HG SP B2 B3 L2 L3 -> H.
  assert (LBL : zlen masterSecretLabel + zlen (cr ++ sr) < 2 ^ 59) by (unfold zlen; rewrite app_length, L2, L3; reflexivity).
  pose proof (prfForVersion_ok L Hs HL HG GMSSL false 48 pms masterSecretLabel (cr ++ sr) SP) as X. change (sha384_of GMSSL false) with false in X. change (vers_of GMSSL) with VersionGMSSL in X.
  unfold masterFromPreMasterSecret in H. rewrite X in H; [|apply bytesb_spec; reflexivity|apply bytes_app; auto|exact LBL|intros; discriminate].
  injection H as <-. split; [reflexivity|]. split; [|apply PRF_length].
  apply PRF_bytes; auto; [apply SP|apply bytesb_spec; reflexivity|apply bytes_app; auto|lia].
Qed.

Section Client.
Context {T : Type} (E : env T) (C : chan) (Hs : hashes) (HW : world_ok E Hs).
(** a completed call, its result, the session it hands to the cache, and what it did on the connection.  [cache]: None - no session cache; otherwise what it returned *)
Definition client_completes (cfg : config T) (cache : option (option (csession T))) (rn : rnds) (c : CS C) (r : hresult T) (ns : option (csession T)) (log : list event) : Prop :=
  exists c', clientHandshakeGM E C cfg cache rn (c, []) = (HOk (r, ns), (c', log)).
(** the ClientHello sent and the ServerHello received *)
Definition hello_sent (log : list event) (ch : clientHello) : Prop := exists m rest, log = EvSend m :: rest /\ m_clientHello ch = Ok m.
Definition server_hello_read (log : list event) (sh : serverHello) : Prop := exists e m rest, log = e :: EvRecv m :: rest /\ mtype m = tServerHello /\ u_serverHello sh_empty m = Ok sh.
(** config.rand() delivers bytes: 32 for the hello, 46 for the pre-master secret; the curve code delivers shared secrets of bounded size *)
Definition client_random_ok (rn : rnds) : Prop := hello_random_ok rn /\ (forall b, r_pms rn = Some b -> bytes b /\ length b = 46%nat) /\ (forall id pms ser, e_ecdh E id = HOk (pms, ser) -> small pms).

Lemma client_parts cfg cache rn c r ns log : client_completes cfg cache rn c r ns log -> hr_resumed r = false ->
  exists hello hello0 session chraw m_sh sh su f h0 lf k l_np l_t m_fin m_sfin, client_run E Hs cfg rn hello chraw m_sh sh su r ns log f h0 lf k l_np l_t m_fin m_sfin /\
    makeClientHelloGM cfg rn = Ok hello0 /\ complete_hello cfg cache rn hello0 = Ok (hello, session) /\ m_clientHello hello = Ok chraw /\
    parse_msg VersionGMSSL m_sh = Ok (MServerHello sh) /\ sh_vers sh = VersionGMSSL /\ mutualCipherSuiteGM (ch_suites hello) (sh_suite sh) = Some su /\
    sh_comp sh = 0 /\ sh_npn sh = false /\ sh_alpn sh = [].
Proof.
  intros [c' H] HR. destruct HW as (HL & HG & _).
  apply (clientHandshake_inv E Hs HL HG) in H as (hello0 & hello & session & chraw & m_sh & sh & su & H1 & H2 & H3 & H4 & H5 & H6 & H7 & H8 & H9 & H10 & [(_ & f & h0 & lf & k & l_np & l_t & m_fin & m_sfin & X)|(X & _)]); [|congruence].
  exists hello, hello0, session, chraw, m_sh, sh, su, f, h0, lf, k, l_np, l_t, m_fin, m_sfin. split; [exact X|]. do 7 (split; [assumption|]).
  assert (N : ch_npn hello = false /\ ch_alpn hello = []).
  { unfold makeClientHelloGM in H1. destruct (_ && _); [discriminate|]. destruct (r_hello rn); [|discriminate]. injection H1 as <-.
    unfold complete_hello in H2. destruct (offered_session _ _ _); [destruct (r_sid rn); [|discriminate]|]; injection H2 as <- _; destruct cache; split; reflexivity. }
  destruct N as [N1 N2]. split.
  - destruct (sh_npn sh); [|reflexivity]. specialize (H9 eq_refl). congruence.
  - destruct (sh_alpn sh); [reflexivity|]. exfalso. apply (H10 ltac:(discriminate)). exact N2.
Qed.
(** what the hello contains *)
Lemma hello_fields (cfg : config T) cache rn hello0 hello (session : option (csession T)) : makeClientHelloGM cfg rn = Ok hello0 -> complete_hello cfg cache rn hello0 = Ok (hello, session) ->
  ch_vers hello = VersionGMSSL /\ r_hello rn = Some (ch_random hello) /\ ch_sni hello = [] /\ ch_alpn hello = [] /\ ch_npn hello = false /\ ch_comp hello = [0] /\ ch_reneg hello = [] /\
  ch_suites hello = filter (fun id => existsb (fun s => su_id s =? id) gmCipherSuites) (getCipherSuites (cf_suites cfg)) /\
  ch_ticketOn hello = (match cache with Some _ => true | None => false end) /\ ch_ocsp hello = false /\ ch_scts hello = false /\ ch_curves hello = [] /\ ch_points hello = [] /\ ch_sigalgs hello = [] /\ ch_renegOn hello = false /\
  ch_ticket hello = (match session with Some s => cs_ticket s | None => [] end) /\ (session = None -> ch_sessionId hello = []) /\ (session <> None -> r_sid rn = Some (ch_sessionId hello)).
Proof.
  unfold makeClientHelloGM. destruct (_ && _); [discriminate|]. destruct (r_hello rn) as [rd|] eqn:Er; [|discriminate]. intros [= <-] H2.
  unfold complete_hello in H2. destruct (offered_session _ _ _) as [s|]; [destruct (r_sid rn) as [sid|] eqn:Es; [|discriminate]|]; injection H2 as <- <-; destruct cache as [[|]|]; repeat split; auto; try congruence.
Qed.

Lemma cfull_steps cfg rn hello sh su h0 f l m_cert ders l_skx l_req l_cc l_cv m_done m_ckx pms ct curveid chain :
  cfull_run E Hs cfg rn hello sh su h0 f l m_cert ders l_skx l_req l_cc l_cv m_done m_ckx pms ct curveid chain ->
  exists sk rq cv : bool, steps l = [In_ tCertificate] ++ opt sk (In_ tServerKeyExchange) ++ opt rq (In_ tCertificateRequest) ++ [In_ tServerHelloDone] ++
    opt rq (Out tCertificate) ++ [Out tClientKeyExchange] ++ opt cv (Out tCertificateVerify) /\
    steps l_skx = opt sk (In_ tServerKeyExchange) /\ (cv = true -> rq = true) /\ (cf_certs cfg = [] -> cf_getClientCert cfg = None -> cv = false) /\ keys_of l = [].
Proof.
  intros [Fl [Pc _] _ _ _ Skx Req Pd [_ Mk] Cv _ _ _].
  assert (S1 : exists sk : bool, steps l_skx = opt sk (In_ tServerKeyExchange) /\ keys_of l_skx = []).
  { destruct Skx as [[-> _]|(m & key & -> & P & _)]; [exists false; auto|exists true]. cbn. now rewrite (parse_type _ _ _ P). }
  destruct S1 as (sk & S1 & K1).
  assert (S2 : exists rq cv : bool, steps l_req = opt rq (In_ tCertificateRequest) /\ steps l_cc = opt rq (Out tCertificate) /\ steps l_cv = opt cv (Out tCertificateVerify) /\ (cv = true -> rq = true) /\
     (cf_certs cfg = [] -> cf_getClientCert cfg = None -> cv = false) /\ keys_of l_req = [] /\ keys_of l_cc = [] /\ keys_of l_cv = []).
  { destruct Req as [(-> & -> & ->)|(m & cr & c & mc & -> & P & -> & Fc & -> & Em)].
    - rewrite Cv. exists false, false. repeat split; auto.
    - exists true. assert (SR : steps [EvRecv m] = [In_ tCertificateRequest] /\ steps [EvSend mc] = [Out tCertificate]).
      { cbn. rewrite (parse_type _ _ _ P), (t_certificate _ _ Em). auto. }
      destruct SR as [SR1 SR2]. destruct (ce_chain c) as [|d ds] eqn:Ec.
      + exists false. rewrite Cv. repeat split; auto.
      + destruct Cv as (key & dg & sig & mv & _ & _ & Mv & -> & _). exists true. cbn [opt]. split; [exact SR1|]. split; [exact SR2|]. split; [cbn; now rewrite (t_cv _ _ _ Mv)|].
        split; [auto|]. split; [|auto]. intros H1 H2. rewrite H2, H1 in Fc. cbn in Fc. injection Fc as <-. discriminate. }
  destruct S2 as (rq & cv & S2 & S3 & S4 & I1 & I2 & K2 & K3 & K4). exists sk, rq, cv. rewrite Fl. rewrite !steps_app, !keys_of_app, S1, S2, S3, S4, K1, K2, K3, K4.
  cbn [steps step_of flat_map app]. rewrite (parse_type _ _ _ Pc), (parse_type _ _ _ Pd), (t_ckx _ _ Mk). repeat split; auto.
Qed.
Lemma crun_tail cfg rn hello chraw m_sh sh su r ns log f h0 lf k l_np l_t m_fin m_sfin : client_run E Hs cfg rn hello chraw m_sh sh su r ns log f h0 lf k l_np l_t m_fin m_sfin -> sh_npn sh = false ->
  l_np = [] /\ steps l_t = opt (sh_ticketOn sh) (In_ tNewSessionTicket) /\ keys_of l_t = [] /\ mtype m_fin = tFinished /\ mtype m_sfin = tFinished /\ hr_proto r = sh_alpn sh.
Proof.
  intros HR Np. pose proof (cl_np _ _ _ _ _ _ _ _ _ _ _ _ _ _ _ _ _ _ _ _ HR) as X. rewrite Np in X.
  pose proof (cl_t _ _ _ _ _ _ _ _ _ _ _ _ _ _ _ _ _ _ _ _ HR) as Y.
  split; [tauto|]. split; [|split]; [..|split; [exact (t_finished _ _ (cl_fin _ _ _ _ _ _ _ _ _ _ _ _ _ _ _ _ _ _ _ _ HR))|split; [exact (parse_type _ _ _ (cl_sfin _ _ _ _ _ _ _ _ _ _ _ _ _ _ _ _ _ _ _ _ HR))|tauto]]].
  - destruct (sh_ticketOn sh); [destruct Y as (m & t & -> & P & _); cbn; now rewrite (parse_type _ _ _ P)|now destruct Y as [-> _]].
  - destruct (sh_ticketOn sh); [destruct Y as (m & t & -> & P & _)|destruct Y as [-> _]]; reflexivity.
Qed.

(** ** C86.  What a completed full handshake exchanged *)
(** Exactly the prescribed messages in the prescribed order: the client's Certificate exactly when the server asked, CertificateVerify only then,
    a NewSessionTicket exactly when the ServerHello announced one.  The ServerKeyExchange may be missing (see C87). *)
Theorem C86_client_flow cfg cache rn c r ns log : client_completes cfg cache rn c r ns log -> hr_resumed r = false ->
  exists ch sh (sk rq cv : bool), hello_sent log ch /\ server_hello_read log sh /\ steps log = client_flow sk rq cv false (sh_ticketOn sh) /\
    (cv = true -> rq = true) /\ (cf_certs cfg = [] -> cf_getClientCert cfg = None -> cv = false) /\
    (* the ClientHello: version 1.1, the random number drawn, only GM suites the configuration allows, no server name and no protocols *)
    ch_vers ch = 0x0101 /\ r_hello rn = Some (ch_random ch) /\ ch_sni ch = [] /\ ch_alpn ch = [] /\ ch_npn ch = false /\ ch_comp ch = [0] /\
    (forall id, In id (ch_suites ch) <-> In id (getCipherSuites (cf_suites cfg)) /\ (id = 0xe013 \/ id = 0xe011)) /\
    (* the ServerHello: the same version, one of these suites, no compression; and what ConnectionState shows *)
    sh_vers sh = 0x0101 /\ sh_comp sh = 0 /\ In (sh_suite sh) (ch_suites ch) /\ sh_alpn sh = [] /\ sh_npn sh = false /\
    hr_vers r = 0x0101 /\ hr_suite r = sh_suite sh /\ hr_clientRandom r = ch_random ch /\ hr_serverRandom r = sh_random sh /\ hr_proto r = [].
Proof.
  intros H HR. destruct (client_parts _ _ _ _ _ _ _ H HR) as (hello & hello0 & session & chraw & m_sh & sh & su & f & h0 & lf & k & l_np & l_t & m_fin & m_sfin & CR & M1 & M2 & Em & Psh & Ev & Ms & Cp & Np & Al).
  pose proof (cl_log _ _ _ _ _ _ _ _ _ _ _ _ _ _ _ _ _ _ _ _ CR) as EL.
  destruct (cl_full _ _ _ _ _ _ _ _ _ _ _ _ _ _ _ _ _ _ _ _ CR) as (m_cert & ders & l_skx & l_req & l_cc & l_cv & m_done & m_ckx & pms & ct & curveid & chain & CF).
  destruct (cfull_steps _ _ _ _ _ _ _ _ _ _ _ _ _ _ _ _ _ _ _ _ CF) as (sk & rq & cv & S1 & _ & I1 & I2 & _).
  destruct (crun_tail _ _ _ _ _ _ _ _ _ _ _ _ _ _ _ _ _ _ CR Np) as (-> & S2 & _ & T1 & T2 & Ep).
  destruct (hello_fields _ _ _ _ _ _ M1 M2) as (F1 & F2 & F3 & F4 & F5 & F6 & F7 & F8 & _).
  destruct (cl_res _ _ _ _ _ _ _ _ _ _ _ _ _ _ _ _ _ _ _ _ CR) as (R1 & R2 & R3 & R4 & R5 & _).
  destruct (P_TLS_neg.C66_mutual_suite (ch_suites hello) (sh_suite sh) su) as [_ [X _]]. destruct (X Ms) as (Y1 & Y2 & Y3). clear X.
  exists hello, sh, sk, rq, cv. split; [exists chraw; eexists; split; [rewrite EL; reflexivity|exact Em]|].
  split; [exists (EvSend chraw), m_sh; eexists; split; [rewrite EL; reflexivity|]; split; [exact (parse_type _ _ _ Psh)|exact (up_serverHello _ _ _ Psh)]|].
  split. { rewrite EL, !steps_app, S1, S2. cbn [steps step_of flat_map app]. rewrite T1, T2, (t_clientHello _ _ Em), (parse_type _ _ _ Psh). cbn [type_of].
    unfold client_flow. repeat (rewrite <- ?app_assoc; cbn [app]). reflexivity. }
  do 2 (split; [assumption|]). do 6 (split; [assumption|]). split.
  { intros id. rewrite F8, filter_In. split; intros [A B]; (split; [exact A|]).
    - apply existsb_exists in B as (s & Hin & B). apply Z.eqb_eq in B. destruct Hin as [<-|[<-|[]]]; cbn in B; auto.
    - destruct B as [-> | ->]; reflexivity. }
  do 5 (split; [assumption|]). split; [exact R1|]. split; [now rewrite R2, Y3|]. split; [exact R4|]. split; [exact R5|]. rewrite Ep. exact Al.
Qed.

(** the pre-master secret and the master secret *)
Lemma client_secret cfg rn hello chraw m_sh sh su r ns log f h0 lf k l_np l_t m_fin m_sfin : client_run E Hs cfg rn hello chraw m_sh sh su r ns log f h0 lf k l_np l_t m_fin m_sfin -> wire_ok log ->
  client_random_ok rn -> ch_vers hello = VersionGMSSL -> r_hello rn = Some (ch_random hello) -> parse_msg VersionGMSSL m_sh = Ok (MServerHello sh) ->
  exists m pms ct curveid c0 c1 rest, cf_peer f = c0 :: c1 :: rest /\ In (EvSend m) lf /\ m_clientKeyExchange ct = Ok m /\ ka_generateCKX E su curveid VersionGMSSL rn (cf_peer f) = HOk (pms, ct) /\ small pms /\
    cf_master f = PRF Hs GMSSL 48 pms ascii_master_secret (ch_random hello ++ sh_random sh) /\ bytes (cf_master f) /\ length (cf_master f) = 48%nat /\
    bytes (ch_random hello) /\ length (ch_random hello) = 32%nat /\ bytes (sh_random sh) /\ length (sh_random sh) = 32%nat.
Proof.
  intros CR WO (RO & RP & REC) Ev Er Psh. destruct HW as (HL & HG & HM).
  pose proof (cl_log _ _ _ _ _ _ _ _ _ _ _ _ _ _ _ _ _ _ _ _ CR) as EL.
  destruct (cl_full _ _ _ _ _ _ _ _ _ _ _ _ _ _ _ _ _ _ _ _ CR) as (m_cert & ders & l_skx & l_req & l_cc & l_cv & m_done & m_ckx & pms & ct & curveid & chain & CF).
  destruct CF as [Fl [Pc Ld] (Fp & _) _ _ _ _ _ [Gk Mk] _ Ma _ _]. rewrite Ev in Gk.
  assert (LP : exists c0 c1 rest, cf_peer f = c0 :: c1 :: rest).
  { pose proof (Forall2_len _ _ _ Fp) as LL. destruct (cf_peer f) as [|c0 [|c1 rest]]; cbn in LL; try lia. eauto. }
  destruct LP as (c0 & c1 & rest & LP).
  destruct (RO _ Er) as [RC1 RC2].
  assert (RS : bytes (sh_random sh) /\ length (sh_random sh) = 32%nat).
  { eapply sh_random_ok; [exact (up_serverHello _ _ _ Psh)|]. apply wire_ok_recv. eapply wire_ok_in; [exact WO|]. rewrite EL. cbn. auto. }
  destruct RS as [RS1 RS2].
  assert (SP : small pms).
  { rewrite LP in Gk. cbn [ka_generateCKX] in Gk. destruct (su_id su =? ECC).
    - destruct (g_pub c1) as [p| | |]; try discriminate. destruct (generateClientKeyExchange _ _ _ _ _ _) as [res|] eqn:EG; [|discriminate].
      apply of_res_ok in Gk. subst res. unfold generateClientKeyExchange in EG. destruct (r_pms rn) as [b|]; [|discriminate]. destruct (RP b eq_refl) as [B1 B2].
      destruct (Encrypt _ _ _ _ _) as [[enc| |]|]; try discriminate. cbn [option_map rbind] in EG. injection EG as <- _.
      split; [apply P_TLS_gmka.bytes_two; exact B1|unfold zlen; cbn [app length]; rewrite B2; reflexivity].
    - destruct (curveid =? 0); [discriminate|]. destruct (_ || _) in Gk; [|discriminate]. destruct (e_ecdh E curveid) as [[p s]| | |] eqn:EE; try discriminate.
      injection Gk as <- _. exact (REC _ _ _ EE). }
  destruct (master_small' _ _ _ _ _ _ _ HL HG SP RC1 RS1 RC2 RS2 eq_refl Ma) as (X1 & X2 & X3).
  exists m_ckx, pms, ct, curveid, c0, c1, rest. split; [exact LP|]. split; [rewrite Fl, !in_app_iff; cbn; tauto|]. repeat (split; [assumption|]). assumption.
Qed.

(** Every Finished message the client sent, or took, carries the PRF of the master secret over the SM3 hash of all handshake messages before it. *)
Theorem C86_client_finished cfg cache rn c r ns log : client_random_ok rn -> client_completes cfg cache rn c r ns log -> hr_resumed r = false -> wire_ok log ->
  (forall pre m post, log = pre ++ EvSend m :: post -> mtype m = tFinished -> m = [20; 0; 0; 12] ++ client_finished Hs GMSSL (hr_master r) (transcript pre)) /\
  (forall pre m post, log = pre ++ EvRecv m :: post -> mtype m = tFinished -> skipn 4 m = server_finished Hs GMSSL (hr_master r) (transcript pre)) /\
  length (hr_master r) = 48%nat.
Proof.
  intros RO H HR WO. destruct (client_parts _ _ _ _ _ _ _ H HR) as (hello & hello0 & session & chraw & m_sh & sh & su & f & h0 & lf & k & l_np & l_t & m_fin & m_sfin & CR & M1 & M2 & Em & Psh & Ev & Ms & Cp & Np & Al).
  pose proof (cl_log _ _ _ _ _ _ _ _ _ _ _ _ _ _ _ _ _ _ _ _ CR) as EL.
  destruct (hello_fields _ _ _ _ _ _ M1 M2) as (F1 & F2 & _).
  destruct (client_secret _ _ _ _ _ _ _ _ _ _ _ _ _ _ _ _ _ _ CR WO RO F1 F2 Psh) as (_ & _ & _ & _ & _ & _ & _ & _ & _ & _ & _ & _ & _ & Bm & Lm & _).
  destruct (cl_full _ _ _ _ _ _ _ _ _ _ _ _ _ _ _ _ _ _ _ _ CR) as (m_cert & ders & l_skx & l_req & l_cc & l_cv & m_done & m_ckx & pms & ct & curveid & chain & CF).
  destruct (cfull_steps _ _ _ _ _ _ _ _ _ _ _ _ _ _ _ _ _ _ _ _ CF) as (sk & rq & cv & S1 & _).
  destruct (crun_tail _ _ _ _ _ _ _ _ _ _ _ _ _ _ _ _ _ _ CR Np) as (-> & S2 & _ & T1 & T2 & _).
  destruct (cl_res _ _ _ _ _ _ _ _ _ _ _ _ _ _ _ _ _ _ _ _ CR) as (_ & _ & -> & _).
  assert (SM : small (cf_master f)) by (split; [exact Bm|unfold zlen; rewrite Lm; reflexivity]).
  destruct (cl_val _ _ _ _ _ _ _ _ _ _ _ _ _ _ _ _ _ _ _ _ CR WO SM) as [V1 V2]. rewrite app_nil_l in *.
  set (A1 := [EvSend chraw; EvRecv m_sh] ++ lf ++ [EvKeys k; EvSendCCS] ++ []) in *.
  set (A2 := [EvSend chraw; EvRecv m_sh] ++ lf ++ [EvKeys k; EvSendCCS] ++ [EvSend m_fin] ++ l_t) in *.
  assert (E1 : log = A1 ++ EvSend m_fin :: (l_t ++ [EvRecvCCS; EvRecv m_sfin])) by (rewrite EL; unfold A1; rewrite <- !app_assoc; reflexivity).
  assert (E2 : log = (A2 ++ [EvRecvCCS]) ++ EvRecv m_sfin :: []) by (rewrite EL; unfold A2; rewrite <- !app_assoc; reflexivity).
  assert (SA1 : steps A1 = [Out (mtype chraw); In_ (mtype m_sh)] ++ steps lf ++ [OutCCS]) by (unfold A1; rewrite !steps_app; reflexivity).
  assert (SA2 : steps A2 = steps A1 ++ [Out (mtype m_fin)] ++ steps l_t) by (unfold A1, A2; rewrite !steps_app, <- !app_assoc; reflexivity).
  pose proof (t_clientHello _ _ Em) as TC. pose proof (parse_type _ _ _ Psh) as TS. cbn [type_of] in TS.
  split; [|split; [|exact Lm]].
  - intros pre m post Hl Hm.
    destruct (unique_event (send_type tFinished) log A1 _ pre post _ (EvSend m) E1) as (-> & Eq & _); auto.
    + apply no_send. rewrite SA1, S1, TC, TS. unfold opt. intros HX. rewrite !in_app_iff in HX. cbn in HX.
      repeat match type of HX with context [if ?b then _ else _] => destruct b end; cbn in HX; intuition discriminate.
    + apply no_send. rewrite steps_app, S2. unfold opt. destruct (sh_ticketOn sh); cbn; intuition discriminate.
    + exists m. auto.
    + injection Eq as ->. apply finished_wire; [|apply PRF_length]. rewrite <- V1. exact (cl_fin _ _ _ _ _ _ _ _ _ _ _ _ _ _ _ _ _ _ _ _ CR).
  - intros pre m post Hl Hm.
    destruct (unique_event (recv_type tFinished) log (A2 ++ [EvRecvCCS]) _ pre post _ (EvRecv m) E2) as (-> & Eq & _); auto.
    + apply no_recv. rewrite steps_app, SA2, SA1, S1, S2, T1, TC, TS. unfold opt. intros HX. rewrite !in_app_iff in HX. cbn in HX.
      repeat match type of HX with context [if ?b then _ else _] => destruct b end; cbn in HX; intuition discriminate.
    + intros HX. inversion HX.
    + exists m. auto.
    + injection Eq as ->. rewrite transcript_app. change (transcript [EvRecvCCS]) with (@nil Z). rewrite app_nil_r, <- V2.
      destruct (parse_finished _ _ _ (cl_sfin _ _ _ _ _ _ _ _ _ _ _ _ _ _ _ _ _ _ _ _ CR)) as [_ <-]. reflexivity.
Qed.

(** With the suite ECC_SM4_SM3 the pre-master secret is 1.1 and the 46 random bytes, sent encrypted for the second certificate's key; master secret
    and the six installed keys derive from it as specified. *)
Theorem C86_client_secrets cfg cache rn c r ns log : client_random_ok rn -> client_completes cfg cache rn c r ns log -> hr_resumed r = false -> wire_ok log -> hr_suite r = 0xe013 ->
  exists c0 c1 rest p m ct pms b kb, hr_peer r = c0 :: c1 :: rest /\ g_pub c1 = PkSM2 p /\ In (EvSend m) log /\ m_clientKeyExchange ct = Ok m /\
    r_pms rn = Some b /\ pms = [1; 1] ++ b /\
    (exists enc, Encrypt (e_cv E) (e_fuel E) (r_enc rn) p pms = Some (Ok enc) /\ ct = [u8 (Z.shiftr (zlen enc) 8); u8 (zlen enc)] ++ enc) /\
    hr_master r = PRF Hs GMSSL 48 pms ascii_master_secret (hr_clientRandom r ++ hr_serverRandom r) /\
    keys_of log = [kb] /\ cuts_block kb (PRF Hs GMSSL 128 (hr_master r) ascii_key_expansion (hr_serverRandom r ++ hr_clientRandom r)).
Proof.
  intros RO H HR WO HE. destruct (client_parts _ _ _ _ _ _ _ H HR) as (hello & hello0 & session & chraw & m_sh & sh & su & f & h0 & lf & k & l_np & l_t & m_fin & m_sfin & CR & M1 & M2 & Em & Psh & Ev & Ms & Cp & Np & Al).
  pose proof (cl_log _ _ _ _ _ _ _ _ _ _ _ _ _ _ _ _ _ _ _ _ CR) as EL.
  destruct (hello_fields _ _ _ _ _ _ M1 M2) as (F1 & F2 & _).
  destruct (client_secret _ _ _ _ _ _ _ _ _ _ _ _ _ _ _ _ _ _ CR WO RO F1 F2 Psh) as (m & pms & ct & curveid & c0 & c1 & rest & LP & Hin & Mk & Gk & SP & Ma & Bm & Lm & RC1 & RC2 & RS1 & RS2).
  destruct (cl_full _ _ _ _ _ _ _ _ _ _ _ _ _ _ _ _ _ _ _ _ CR) as (m_cert & ders & l_skx & l_req & l_cc & l_cv & m_done & m_ckx & pms' & ct' & curveid' & chain & CF).
  destruct (cfull_steps _ _ _ _ _ _ _ _ _ _ _ _ _ _ _ _ _ _ _ _ CF) as (sk & rq & cv & _ & _ & _ & _ & KF).
  destruct (crun_tail _ _ _ _ _ _ _ _ _ _ _ _ _ _ _ _ _ _ CR Np) as (-> & _ & KT & _).
  destruct (cl_res _ _ _ _ _ _ _ _ _ _ _ _ _ _ _ _ _ _ _ _ CR) as (_ & R2 & -> & -> & -> & -> & _).
  rewrite R2 in HE. rewrite LP in Gk. cbn [ka_generateCKX] in Gk. change ECC with 0xe013 in Gk. rewrite HE, Z.eqb_refl in Gk.
  destruct (g_pub c1) as [p| | |] eqn:EP; try discriminate. destruct (generateClientKeyExchange _ _ _ _ _ _) as [res|] eqn:EG; [|discriminate].
  apply of_res_ok in Gk. subst res. unfold generateClientKeyExchange in EG. destruct (r_pms rn) as [b|]; [|discriminate].
  destruct (Encrypt _ _ _ _ _) as [[enc| |]|] eqn:EN; try discriminate. cbn [option_map rbind] in EG. injection EG as <- <-.
  exists c0, c1, rest, p, m. do 2 eexists. exists b, k. split; [exact LP|]. split; [exact EP|]. split; [rewrite EL, !in_app_iff; auto|]. split; [exact Mk|]. split; [reflexivity|]. split; [reflexivity|].
  split; [exists enc; split; [exact EN|reflexivity]|]. split; [exact Ma|]. split; [rewrite EL, !keys_of_app, KF, KT; reflexivity|].
  destruct HW as (HL & HG & _).
  assert (SM : small (cf_master f)) by (split; [exact Bm|unfold zlen; rewrite Lm; reflexivity]).
  pose proof (P_TLS_prf.C55_key_block (e_std E) Hs HL HG GMSSL false (cf_master f) (ch_random hello) (sh_random sh) 32 16 16 SM RC1 RS1 RC2 RS2 ltac:(intros; discriminate)) as (kk & X1 & X2 & _).
  pose proof (cl_keys _ _ _ _ _ _ _ _ _ _ _ _ _ _ _ _ _ _ _ _ CR) as HK. unfold gm_keys in HK. change VersionGMSSL with (vers_of GMSSL) in HK. change (sha384_of GMSSL false) with false in X1. rewrite X1 in HK. injection HK as <-. exact X2.
Qed.

(** ** C87.  Server authentication *)
(** A completed full handshake means: the server's Certificate message holds at least two certificates, all with SM2 keys, the first usable for signing
    and the second for encryption; and, unless InsecureSkipVerify is set, each of them - as [VerifyOptions] demand - chains to RootCAs for server
    authentication, is valid now and carries the configured server name.  VerifiedChains are the chains of the last one. *)
Theorem C87_server_authenticated cfg cache rn c r ns log : client_completes cfg cache rn c r ns log -> hr_resumed r = false ->
  exists c0 c1 rest m ders, hr_peer r = c0 :: c1 :: rest /\ In (EvRecv m) log /\ mtype m = tCertificate /\ u_certificate m = Ok ders /\
    Forall2 (fun d x => e_parse E d = Some x) ders (hr_peer r) /\ Forall (fun x => exists p, g_pub x = PkSM2 p) (hr_peer r) /\
    may_sign (keyUsage (g_cert c0)) /\ may_encrypt (keyUsage (g_cert c1)) /\
    (forall g, cf_verifyPeer cfg = Some g -> g ders (hr_chains r) = None) /\
    (cf_skip cfg = true -> hr_chains r = []) /\
    (cf_skip cfg = false -> cf_serverName cfg <> [] /\
       forall j x, nth_error (hr_peer r) j = Some x -> exists chains inters, (forall y, In y inters -> In y (map g_cert (skipn 2 (firstn j (hr_peer r))))) /\
         trusted E (match cf_rootCAs cfg with Some p => X509_model.certs p | None => [] end) inters (cf_time cfg) (cf_serverName cfg) 1 (g_cert x) chains /\
         e_host E (g_cert x) (cf_serverName cfg) = true /\ (Datatypes.S j = length (hr_peer r) -> hr_chains r = chains)).
Proof.
  intros H HR. destruct (client_parts _ _ _ _ _ _ _ H HR) as (hello & hello0 & session & chraw & m_sh & sh & su & f & h0 & lf & k & l_np & l_t & m_fin & m_sfin & CR & M1 & M2 & Em & Psh & Ev & Ms & Cp & Np & Al).
  pose proof (cl_log _ _ _ _ _ _ _ _ _ _ _ _ _ _ _ _ _ _ _ _ CR) as EL.
  destruct (cl_full _ _ _ _ _ _ _ _ _ _ _ _ _ _ _ _ _ _ _ _ CR) as (m_cert & ders & l_skx & l_req & l_cc & l_cv & m_done & m_ckx & pms & ct & curveid & chain & CF).
  destruct CF as [Fl [Pc Ld] (Fp & Fs & K0 & K1) Vf Cb _ _ _ _ _ _ _ _].
  destruct (cl_res _ _ _ _ _ _ _ _ _ _ _ _ _ _ _ _ _ _ _ _ CR) as (_ & _ & _ & _ & _ & -> & ->).
  assert (LP : exists c0 c1 rest, cf_peer f = c0 :: c1 :: rest).
  { pose proof (Forall2_len _ _ _ Fp) as LL. destruct (cf_peer f) as [|c0 [|c1 rest]]; cbn in LL; try lia. eauto. }
  destruct LP as (c0 & c1 & rest & LP).
  exists c0, c1, rest, m_cert, ders. split; [exact LP|]. split; [rewrite EL, Fl, !in_app_iff; cbn; tauto|]. split; [exact (parse_type _ _ _ Pc)|]. split; [exact (up_certificate _ _ _ Pc)|].
  split; [exact Fp|]. split; [exact Fs|]. split; [apply ku_sign_bits, K0; rewrite LP; reflexivity|]. split; [apply ku_enc_bits, K1; rewrite LP; reflexivity|]. split; [exact Cb|].
  split; [intros SK; rewrite SK in Vf; exact Vf|]. intros SK. rewrite SK in Vf.
  assert (SN : cf_serverName cfg <> []).
  { intros EN. unfold makeClientHelloGM in M1. rewrite EN, SK in M1. discriminate. }
  split; [exact SN|]. intros j x Hx. destruct (Vf j x Hx) as (chs & EV & EC).
  apply (x509_verify_trusted E _ _ _ 1) in EV as [EV EHost]; [|lia|reflexivity]. cbn [server_verify_opts X509_model.o_roots X509_model.o_inter X509_model.o_now X509_model.o_dns] in EV, EHost.
  exists chs. eexists. split; [|split; [|split; [exact (EHost SN)|exact EC]]].
  2: { unfold client_roots in EV. destruct (cf_rootCAs cfg); exact EV. }
  intros y Hy. unfold inter_for in Hy. now apply pool_certs in Hy.
Qed.
(** So the host's root certificates are never used: without RootCAs (and without InsecureSkipVerify) no handshake completes; and the two certificates the
    connection rests on are accepted only if a root signed them directly, whatever intermediates the server sends. *)
Theorem C87_no_intermediates_refuted cfg cache rn c r ns log : client_completes cfg cache rn c r ns log -> hr_resumed r = false -> cf_skip cfg = false ->
  cf_rootCAs cfg <> None /\
  forall j x, (j < 2)%nat -> nth_error (hr_peer r) j = Some x -> exists chain,
    valid_path (fun child parent => X509_model.CheckSignatureFrom (e_checksig E) (e_entrust E) child parent = true) (match cf_rootCAs cfg with Some p => X509_model.certs p | None => [] end) []
      (cf_time cfg) (cf_serverName cfg) (g_cert x) chain /\ (length chain <= 2)%nat.
Proof.
  intros H HR SK. destruct (C87_server_authenticated _ _ _ _ _ _ _ H HR) as (c0 & c1 & rest & m & ders & EP & _ & _ & _ & _ & _ & _ & _ & _ & _ & V). destruct (V SK) as [_ W]. clear V.
  split.
  - intros EN. destruct (W 0%nat c0) as (chs & inters & _ & TR & _); [rewrite EP; reflexivity|]. rewrite EN in TR. destruct TR as [TN TF].
    destruct chs as [|ch chs]; [now apply TN|]. inversion TF as [|? ? [VP _] _]. destruct VP as (_ & (rt & e & Hin & _) & _). exact Hin.
  - intros j x Hj Hx. destruct (W j x Hx) as (chs & inters & HI & [TN TF] & _).
    assert (inters = []) as ->. { destruct inters as [|y ys]; [reflexivity|]. specialize (HI y (or_introl eq_refl)). rewrite skipn_all2 in HI; [destruct HI|]. rewrite firstn_length. lia. }
    destruct chs as [|ch chs]; [exfalso; now apply TN|]. inversion TF as [|? ? [VP _] _]. exists ch. split; [exact VP|]. subst.
    destruct VP as (_ & _ & _ & _ & LK). destruct ch as [|a [|b [|d ch]]]; cbn; try lia. exfalso. destruct (LK 0%nat a b eq_refl eq_refl) as (_ & _ & _ & X). destruct X as [[] _]. cbn. lia.
Qed.
(** When the suite is ECC_SM4_SM3 and the server did send a ServerKeyExchange, the first certificate's key signed both randoms and the second certificate. *)
Theorem C87_server_signature_partial cfg cache rn c r ns log : client_completes cfg cache rn c r ns log -> hr_resumed r = false -> hr_suite r = 0xe013 ->
  forall m, In (EvRecv m) log -> mtype m = tServerKeyExchange -> exists c0 c1 rest pk key rr ss, hr_peer r = c0 :: c1 :: rest /\ g_pub c0 = PkSM2 pk /\ u_serverKeyExchange m = Ok key /\
    parse_ints2 (skipn 2 key) = Ok (rr, ss) /\
    let cert := raw (g_cert c1) in Verify (e_cv E) pk (hr_clientRandom r ++ hr_serverRandom r ++ [u8 (Z.shiftr (zlen cert) 16); u8 (Z.shiftr (zlen cert) 8); u8 (zlen cert)] ++ cert) rr ss = Ok true.
Proof.
  intros H HR HE m Hin Hm. destruct (client_parts _ _ _ _ _ _ _ H HR) as (hello & hello0 & session & chraw & m_sh & sh & su & f & h0 & lf & k & l_np & l_t & m_fin & m_sfin & CR & M1 & M2 & Em & Psh & Ev & Ms & Cp & Np & Al).
  pose proof (cl_log _ _ _ _ _ _ _ _ _ _ _ _ _ _ _ _ _ _ _ _ CR) as EL.
  destruct (cl_full _ _ _ _ _ _ _ _ _ _ _ _ _ _ _ _ _ _ _ _ CR) as (m_cert & ders & l_skx & l_req & l_cc & l_cv & m_done & m_ckx & pms & ct & curveid & chain & CF).
  destruct (crun_tail _ _ _ _ _ _ _ _ _ _ _ _ _ _ _ _ _ _ CR Np) as (-> & _ & _ & _ & T2 & _).
  pose proof (cl_t _ _ _ _ _ _ _ _ _ _ _ _ _ _ _ _ _ _ _ _ CR) as Tk.
  destruct (cl_res _ _ _ _ _ _ _ _ _ _ _ _ _ _ _ _ _ _ _ _ CR) as (_ & R2 & _ & -> & -> & -> & _).
  destruct CF as [Fl [Pc Ld] (Fp & Fs & K0 & K1) _ _ Skx Req Pd _ Cv _ _ _].
  assert (Hsk : In (EvRecv m) l_skx).
  { assert (NC : ~ In (EvRecv m) l_cv). { destruct chain as [cc|]; [|rewrite Cv; auto]. destruct (ce_chain cc); [rewrite Cv; auto|]. destruct Cv as (? & ? & ? & mv & _ & _ & _ & -> & _). intros [X|[]]; discriminate. }
    assert (NT : ~ In (EvRecv m) l_t). { destruct (sh_ticketOn sh); [|destruct Tk as [-> _]; auto]. destruct Tk as (mt & t & -> & P & _). intros [[= ->]|[]]. apply parse_type in P. rewrite Hm in P. discriminate. }
    assert (NQ : ~ In (EvRecv m) l_req /\ ~ In (EvRecv m) l_cc).
    { destruct Req as [(-> & -> & _)|(mq & cr & cc & mc & -> & P & _ & _ & -> & _)]; [auto|]. split; intros [X|[]]; [|discriminate]. injection X as ->. apply parse_type in P. rewrite Hm in P. discriminate. }
    destruct NQ as [NQ1 NQ2].
    assert (NS : m_sh <> m /\ m_cert <> m /\ m_done <> m /\ m_sfin <> m).
    { apply parse_type in Psh, Pc, Pd. cbn [type_of] in *; repeat split; intros EX; rewrite EX in *; unfold tServerKeyExchange, tFinished in *; first [rewrite Hm in Psh; discriminate|rewrite Hm in Pc; discriminate|rewrite Hm in Pd; discriminate|rewrite Hm in T2; discriminate]. }
    rewrite EL, Fl, !in_app_iff in Hin. cbn in Hin.
    destruct NS as (N1 & N2 & N3 & N4). repeat (destruct Hin as [Hin|Hin]; try discriminate; try tauto; try (injection Hin as Hin; exfalso; tauto)). }
  destruct Skx as [[-> _]|(mk & key & -> & P & PS)]; [destruct Hsk|]. destruct Hsk as [[= ->]|[]].
  assert (LP : exists c0 c1 rest, cf_peer f = c0 :: c1 :: rest).
  { pose proof (Forall2_len _ _ _ Fp) as LL. destruct (cf_peer f) as [|c0 [|c1 rest]]; cbn in LL; try lia. eauto. }
  destruct LP as (c0 & c1 & rest & LP). rewrite LP in *. cbn [ka_processSKX] in PS. change ECC with 0xe013 in PS. rewrite <- R2, HE, Z.eqb_refl in PS.
  apply rbind_ok in PS as ([] & PS & _). apply P_TLS_gmka.C60_accepts_only_verified in PS as (pk & rr & ss & cc & E1 & E2 & _ & E4).
  exists c0, c1, rest, pk, key, rr, ss. split; [reflexivity|]. split; [destruct (g_pub c0); congruence|]. split; [exact (up_skx _ _ _ P)|]. split; [exact E2|exact E4].
Qed.

(** ** C88.  Resumption by the client *)
(** The client resumes only the session its cache returned for this server, at version 1.1 and with the session's suite; the server proved knowledge of the
    session's master secret by its Finished message; the peer's certificates are those of the session. *)
Theorem C88_client_resumes cfg cache rn c r ns log : client_completes cfg cache rn c r ns log -> hr_resumed r = true ->
  exists s ch sh, cache = Some (Some s) /\ hello_sent log ch /\ server_hello_read log sh /\ ch_ticket ch = cs_ticket s /\ sh_sessionId sh = ch_sessionId ch /\ r_sid rn = Some (ch_sessionId ch) /\
    cs_vers s = 0x0101 /\ hr_vers r = 0x0101 /\ hr_suite r = cs_suite s /\ In (cs_suite s) (getCipherSuites (cf_suites cfg)) /\ hr_master r = cs_master s /\ hr_peer r = cs_certs s /\ hr_chains r = cs_chains s /\
    (wire_ok log -> small (cs_master s) -> forall pre m post, log = pre ++ EvRecv m :: post -> mtype m = tFinished -> skipn 4 m = server_finished Hs GMSSL (cs_master s) (transcript pre)).
Proof.
  intros [c' H] HR. destruct HW as (HL & HG & _).
  apply (clientHandshake_inv E Hs HL HG) in H as (hello0 & hello & session & chraw & m_sh & sh & su & H1 & H2 & H3 & H4 & H5 & H6 & H7 & H8 & H9 & H10 & [(X & _)|(_ & x & k & l_np & l_t & m_fin & m_sfin & -> & X)]); [congruence|].
  destruct (hello_fields _ _ _ _ _ _ H1 H2) as (F1 & F2 & F3 & F4 & F5 & F6 & F7 & F8 & _ & _ & _ & _ & _ & _ & _ & F9 & _ & F10).
  destruct X as [EL KK (Y1 & Y2 & Y3) Sf Va Fn Npx Tk (R1 & R2 & R3 & _ & _ & R4 & R5)].
  destruct (P_TLS_neg.C66_mutual_suite (ch_suites hello) (sh_suite sh) su) as [_ [X _]]. destruct (X H6) as (Z1 & Z2 & Z3). clear X.
  assert (EC : cache = Some (Some x)).
  { unfold complete_hello in H2. destruct (offered_session _ _ _) as [s|] eqn:EO; [|discriminate]. destruct (r_sid rn); [|discriminate]. injection H2 as _ <-.
    unfold offered_session in EO. destruct cache as [[y|]|]; try discriminate. destruct (_ && _) in EO; [|discriminate]. congruence. }
  exists x, hello, sh. split; [exact EC|]. split; [exists chraw; eexists; split; [rewrite EL; reflexivity|exact H3]|].
  split; [exists (EvSend chraw), m_sh; eexists; split; [rewrite EL; reflexivity|]; split; [exact (parse_type _ _ _ H4)|exact (up_serverHello _ _ _ H4)]|].
  split; [exact F9|]. split; [exact Y1|]. split; [apply F10; discriminate|]. split; [exact Y2|]. split; [exact R1|]. split; [congruence|].
  split. { rewrite Y3, Z3. rewrite F8 in Z1. now apply filter_In in Z1 as [Z1 _]. }
  split; [exact R3|]. split; [exact R4|]. split; [exact R5|].
  intros WO SM pre m post Hl Hm. specialize (Va WO SM).
  set (A := [EvSend chraw; EvRecv m_sh; EvKeys k] ++ l_t) in *.
  assert (E1 : log = (A ++ [EvRecvCCS]) ++ EvRecv m_sfin :: (EvSendCCS :: l_np ++ [EvSend m_fin])) by (rewrite EL; unfold A; rewrite <- !app_assoc; reflexivity).
  assert (TM : mtype m_sfin = tFinished) by exact (parse_type _ _ _ Sf).
  destruct Va as [Va _].
  assert (Np : sh_npn sh = false) by (destruct (sh_npn sh); [specialize (H9 eq_refl); congruence|reflexivity]). specialize (Npx Np). subst l_np.
  assert (ST : steps l_t = opt (sh_ticketOn sh) (In_ tNewSessionTicket)) by (destruct (sh_ticketOn sh); [destruct Tk as (mt & t & -> & P); cbn; now rewrite (parse_type _ _ _ P)|now rewrite Tk]).
  destruct (unique_event (recv_type tFinished) log (A ++ [EvRecvCCS]) _ pre post _ (EvRecv m) E1) as (-> & Eq & _); auto.
  - apply no_recv. unfold A. rewrite !steps_app, ST. cbn [steps step_of flat_map app]. rewrite (parse_type _ _ _ H4). unfold opt. destruct (sh_ticketOn sh); cbn; intuition discriminate.
  - apply no_recv. cbn. intuition discriminate.
  - exists m. auto.
  - injection Eq as ->. rewrite transcript_app. change (transcript [EvRecvCCS]) with (@nil Z). rewrite app_nil_r, <- Va. destruct (parse_finished _ _ _ Sf) as [_ <-]. reflexivity.
Qed.
End Client.
Print Assumptions C86_client_flow.
Print Assumptions C86_client_finished.
Print Assumptions C86_client_secrets.
Print Assumptions C87_server_authenticated.
Print Assumptions C87_no_intermediates_refuted.
Print Assumptions C87_server_signature_partial.
Print Assumptions C88_client_resumes.

(** Property theorems for the client's side of the ordinary TLS handshake: negotiation (C126), server authentication (C127), secrets (C128), renegotiation (C129),
    resumption (C130). *)
From Verif Require Import GoBase GoLemmas BigBytes Asn1_model X509_spec SM2_model TLS_record_model TLS_prf_model TLS_prf_spec TLS_prf_proofs
  TLS_gmka_model TLS_ticket_model TLS_msg_model TLS_msg_proofs TLS_neg_model TLS_hs_model TLS_hs_proofs TLS_hs_bytes TLS_hs_server TLS_hs_spec TLS_std_model TLS_std_spec
  TLS_std_proofs TLS_std_server TLS_std_client.
From Verif Require X509_model P_TLS_neg P_TLS_prf P_TLS_msg.
From Verif Require Import P_TLS_hs_server P_TLS_hs_client P_TLS_std_server P_TLS_std_server2 P_TLS_std_client.
Open Scope Z_scope.
#[local] Opaque fh_Write discardHandshakeBuffer clientSum serverSum PRF newFinishedHash hashForClientCertificate.

Section Client.
Context {T : Type} (E : senv T) (C : chan) (Hs : hashes) (H512 : list Z -> list Z) (HW : std_world_ok E Hs H512).
Lemma client_suites_iff mx ours id :
  In id (filter (fun id => existsb (fun s => (su_id s =? id) && negb ((mx <? VersionTLS12) && has_flag s suiteTLS12)) cipherSuites) ours) <->
  In id ours /\ In id (map fst suite_table) /\ (tls12_suite id = true -> 0x0303 <= mx).
Proof.
  rewrite filter_In, existsb_exists. change VersionTLS12 with 0x0303. split; intros [H1 H2].
  - destruct H2 as (su & SI & H2). apply andb_true_iff in H2 as [H2 H3]. apply Z.eqb_eq in H2. subst id. destruct (suite_facts _ SI) as (_ & ST & _ & _ & F3).
    split; [exact H1|]. split; [apply in_map_iff; eexists; split; [|exact ST]; reflexivity|]. intros HT. rewrite F3, HT, andb_true_r in H3. apply negb_true_iff, Z.ltb_ge in H3. exact H3.
  - destruct H2 as [H2 H3]. split; [exact H1|].
    assert (X : incl (map fst suite_table) (map su_id cipherSuites)). { intros x Hx. vm_compute in Hx |- *. tauto. } apply X in H2. apply in_map_iff in H2 as (su & <- & SI).
    exists su. split; [exact SI|]. rewrite Z.eqb_refl. cbn [andb]. destruct (suite_facts _ SI) as (_ & _ & _ & _ & ->). apply negb_true_iff, andb_false_iff. destruct (tls12_suite (su_id su)); [left; apply Z.ltb_ge; auto|now right].
Qed.

(** ** C126.  Negotiation *)
(** The hello offers the configured versions, suites, curves and protocols; whatever the server answers, the suite in use is one the client offered and the one the server named, the
    version lies between the configured bounds and is the server's (or the client's maximum, if the server named a higher one), compression is off; the application protocol is the
    one the server named (ALPN), or the first of the server's list that is in NextProtos, or else the first of NextProtos (NPN). *)
Theorem C126_client_negotiation cfg addr cache rn pr c r log : std_client_completes E C cfg addr cache rn pr c r log ->
  exists ch sh, hello_sent log ch /\ server_hello_read log sh /\
    (ch_vers ch = hi cfg /\ r_hello rn = Some (ch_random ch) /\ ch_comp ch = [0] /\ ch_sni ch = hostnameInSNI E (cf_serverName (s_cfg cfg)) /\ ch_alpn ch = cf_protos (s_cfg cfg) /\
     ch_curves ch = curvePreferences (s_curves cfg) /\ ch_points ch = [0] /\ ch_renegOn ch = true /\
     (forall id, In id (ch_suites ch) <-> In id (cfg_cipherSuites (cf_suites (s_cfg cfg))) /\ In id (map fst suite_table) /\ (tls12_suite id = true -> 0x0303 <= hi cfg))) /\
    (lo cfg <= sh_vers sh /\ hr_vers (cl_hr r) = Z.min (sh_vers sh) (hi cfg) /\ In (hr_vers (cl_hr r)) [0x0301; 0x0302; 0x0303] /\ hr_suite (cl_hr r) = sh_suite sh /\
     In (hr_suite (cl_hr r)) (ch_suites ch) /\ sh_comp sh = 0 /\ hr_clientRandom (cl_hr r) = ch_random ch /\ hr_serverRandom (cl_hr r) = sh_random sh) /\
    (sh_alpn sh <> [] -> cf_protos (s_cfg cfg) <> [] /\ sh_npn sh = false /\ hr_proto (cl_hr r) = sh_alpn sh) /\
    (sh_alpn sh = [] -> sh_npn sh = false -> hr_proto (cl_hr r) = match pr with Some p => pr_proto p | None => [] end) /\
    (sh_npn sh = true -> cf_protos (s_cfg cfg) <> [] /\
       ((exists before after, sh_protos sh = before ++ hr_proto (cl_hr r) :: after /\ In (hr_proto (cl_hr r)) (cf_protos (s_cfg cfg)) /\ forall q, In q before -> ~ In q (cf_protos (s_cfg cfg))) \/
        (exists others, cf_protos (s_cfg cfg) = hr_proto (cl_hr r) :: others) /\ forall q, In q (sh_protos sh) -> ~ In q (cf_protos (s_cfg cfg)))).
Proof.
  intros H. destruct (std_client_parts E C Hs H512 HW _ _ _ _ _ _ _ _ H) as (hello & session & chraw & m_sh & sh & su & vers & ver & resumed & rest & EL & Em & Ht & Hu & (h0 & M1 & M2) & L1 & L2 & VI & Ev & ES & SI & Sid & SO & SH & HB).
  destruct (std_hello_fields E _ _ _ _ _ _ _ M1 M2) as (F1 & F2 & F3 & F4 & F5 & F6 & F7 & F8 & F9 & F10 & F11 & F12 & F13 & F14 & F15 & F16 & F17 & F18 & F19 & F20).
  assert (HI : maxVersion (cf_max (s_cfg cfg)) = hi cfg). { unfold maxVersion, hi, maxVersionConst, VersionTLS12. destruct (Z.eqb_spec (cf_max (s_cfg cfg)) 0), (Z.eq_dec (cf_max (s_cfg cfg)) 0); congruence. }
  exists hello, sh. split; [exists chraw; eexists; eauto|]. split; [exists (EvSend chraw), m_sh; eexists; eauto|].
  split. { split; [exact F1|]. split; [exact F2|]. split; [exact F6|]. split; [exact F3|]. split; [exact F4|]. split; [exact F13|]. split; [exact F14|]. split; [exact F8|]. intros id. rewrite F9, HI. apply client_suites_iff. }
  assert (X : hr_vers (cl_hr r) = vers /\ hr_suite (cl_hr r) = su_id su /\ hr_clientRandom (cl_hr r) = ch_random hello /\ hr_serverRandom (cl_hr r) = sh_random sh /\
    exists l_np, if sh_npn sh then exists mn p b, l_np = [EvSend mn] /\ mutualProtocol (cf_protos (s_cfg cfg)) (sh_protos sh) = Ok (p, b) /\ m_nextProto p = Ok mn /\ hr_proto (cl_hr r) = p
           else l_np = [] /\ hr_proto (cl_hr r) = if 0 <? zlen (sh_alpn sh) then sh_alpn sh else match pr with Some p => pr_proto p | None => [] end).
  { destruct resumed as [cs|]; destruct HB as [_ HB].
    - destruct HB as (k & l_np & l_t & m_fin & m_sfin & cfin & sfin & CR). destruct (scv_res _ _ _ _ _ _ _ _ _ _ _ _ _ _ _ _ _ _ _ _ _ _ CR) as (R1 & R2 & _ & R4 & R5 & _).
      split; [exact R1|]. split; [exact R2|]. split; [exact R4|]. split; [exact R5|]. exists l_np. exact (scv_np _ _ _ _ _ _ _ _ _ _ _ _ _ _ _ _ _ _ _ _ _ _ CR).
    - destruct HB as (f & lf & k & l_np & l_t & m_fin & m_sfin & cfin & sfin & CR). destruct (scu_res _ _ _ _ _ _ _ _ _ _ _ _ _ _ _ _ _ _ _ _ _ _ _ _ CR) as (R1 & R2 & _ & R4 & R5 & _).
      split; [exact R1|]. split; [exact R2|]. split; [exact R4|]. split; [exact R5|]. exists l_np. exact (scu_np _ _ _ _ _ _ _ _ _ _ _ _ _ _ _ _ _ _ _ _ _ _ _ _ CR). }
  destruct X as (R1 & R2 & R4 & R5 & l_np & N). rewrite R1, R2.
  split. { split; [exact L1|]. split; [exact L2|]. split; [exact VI|]. split; [exact Sid|]. split; [exact SO|]. split; [exact (sho_comp _ _ _ _ _ _ _ _ SH)|]. auto. }
  split. { intros HA. destruct (sho_alpn _ _ _ _ _ _ _ _ SH HA) as [A1 A2]. rewrite A2 in N. destruct N as [_ ->]. rewrite <- F4. split; [exact A1|]. split; [exact A2|]. rewrite nonempty_zlen. destruct (sh_alpn sh); [congruence|reflexivity]. }
  split. { intros HA HN. rewrite HN, HA in N. now destruct N as [_ ->]. }
  intros HN. pose proof (sho_npn _ _ _ _ _ _ _ _ SH HN) as CN. rewrite F5 in CN. assert (NP : cf_protos (s_cfg cfg) <> []) by (intros X; rewrite X in CN; discriminate). split; [exact NP|].
  rewrite HN in N. destruct N as (mn & p & b & _ & N & _ & ->). destruct (P_TLS_neg.C66_protocol (cf_protos (s_cfg cfg)) (sh_protos sh)) as (A1 & A2 & _). destruct b.
  - right. apply A2 in N as [(others & N) N']. split; [exists others; exact N|exact N'].
  - left. apply A1 in N. exact N.
Qed.

(** ** C127.  Server authentication *)
(** First handshake on a connection, not resumed: the peer certificates of the connection are those of the server's Certificate message, VerifyPeerCertificate accepted them,
    the first has an RSA or ECDSA key; unless InsecureSkipVerify is set ServerName is not empty, the certificate is valid for that name and every verified chain runs from it, through
    certificates the server sent, to RootCAs (or the host's roots), valid now and for server authentication - and there is one. *)
Theorem C127_server_authenticated cfg addr cache rn c r log : std_client_completes E C cfg addr cache rn None c r log -> hr_resumed (cl_hr r) = false ->
  exists leaf rest m ders, hr_peer (cl_hr r) = leaf :: rest /\ In (EvRecv m) log /\ mtype m = tCertificate /\ u_certificate m = Ok ders /\
    Forall2 (fun d x => e_parse (se E) d = Some x) ders (leaf :: rest) /\ (is_rsa (g_pub leaf) = true \/ is_ecdsa (g_pub leaf) = true) /\
    (forall g, cf_verifyPeer (s_cfg cfg) = Some g -> g ders (hr_chains (cl_hr r)) = None) /\
    (cf_skip (s_cfg cfg) = true -> hr_chains (cl_hr r) = []) /\
    (cf_skip (s_cfg cfg) = false -> cf_serverName (s_cfg cfg) <> [] /\ e_host (se E) (g_cert leaf) (cf_serverName (s_cfg cfg)) = true /\
       exists roots inters, (match cf_rootCAs (s_cfg cfg) with Some p => Some p | None => e_sysroots (se E) end) = Some roots /\ (forall x, In x inters -> In x (map g_cert rest)) /\
         trusted (se E) (X509_model.certs roots) inters (cf_time (s_cfg cfg)) (cf_serverName (s_cfg cfg)) 1 (g_cert leaf) (hr_chains (cl_hr r))).
Proof.
  intros H HR. destruct (std_client_parts E C Hs H512 HW _ _ _ _ _ _ _ _ H) as (hello & session & chraw & m_sh & sh & su & vers & ver & resumed & rest & EL & Em & Ht & Hu & (h0 & M1 & M2) & L1 & L2 & VI & Ev & ES & SI & Sid & SO & SH & HB).
  destruct (std_hello_fields E _ _ _ _ _ _ _ M1 M2) as (_ & _ & _ & _ & _ & _ & _ & _ & _ & _ & _ & _ & _ & _ & _ & _ & _ & _ & _ & SK).
  destruct resumed; [destruct HB; congruence|]. destruct HB as (_ & f & lf & k & l_np & l_t & m_fin & m_sfin & cfin & sfin & CR).
  destruct (scu_res _ _ _ _ _ _ _ _ _ _ _ _ _ _ _ _ _ _ _ _ _ _ _ _ CR) as (_ & _ & _ & _ & _ & R6 & R7 & _). rewrite R6, R7.
  destruct (tc_flow _ _ _ _ _ _ _ _ _ _ _ _ (scu_full _ _ _ _ _ _ _ _ _ _ _ _ _ _ _ _ _ _ _ _ _ _ _ _ CR)) as (m_cert & ders & l_st & l_skx & ka & l_req & req & chain & m_done & l_cc & pms & ct & m_ckx & l_cv & El & P1 & _ & CO & _).
  cbn [std_certs_ok] in CO. destruct CO as (FP & (c0 & rs & EP & KT & VF) & CB).
  exists c0, rs, m_cert, ders. rewrite EP in *. split; [reflexivity|]. split; [rewrite (scu_log _ _ _ _ _ _ _ _ _ _ _ _ _ _ _ _ _ _ _ _ _ _ _ _ CR), El, !in_app_iff; cbn; tauto|].
  split; [exact (parse_type _ _ _ P1)|]. split; [exact (up_certificate _ _ _ P1)|]. split; [exact FP|]. split; [exact KT|]. split; [exact CB|].
  split; [intros X; rewrite X in VF; exact VF|]. intros X. rewrite X in VF. destruct VF as (roots & ER & VF).
  assert (SN : cf_serverName (s_cfg cfg) <> []) by (intros Y; apply SK in Y; congruence). split; [exact SN|].
  apply (x509_verify_trusted (se E) _ _ _ 1) in VF as [VF VH]; [|lia|reflexivity]. split; [apply VH; exact SN|].
  exists roots. eexists. split; [exact ER|]. split; [|exact VF]. cbn [std_verify_opts X509_model.o_inter]. intros x Hx. now apply pool_certs in Hx.
Qed.

(** ** C128.  Secrets *)
(** the received ServerKeyExchange parsed into curve, point, signature algorithm and signature *)
Definition skx_parts (vers : Z) (key : list Z) (curve : Z) (point : list Z) (alg : Z) (sig params : list Z) : Prop :=
  exists c1 c0 a1 a0 s1 s0, curve = 256 * c1 + c0 /\ params = [3; c1; c0; zlen point] ++ point /\ alg = 256 * a1 + a0 /\ zlen sig = 256 * s1 + s0 /\
    key = params ++ (if 0x0303 <=? vers then [a1; a0] else []) ++ [s1; s0] ++ sig.
Lemma processSKX_inv vers su ch sr pub key ka : std_processSKX E vers su ch sr pub key = Ok ka -> In su cipherSuites -> is_rsa pub = true \/ is_ecdsa pub = true ->
  bytes key -> zlen key < 2 ^ 59 -> bytes (ch_random ch) -> length (ch_random ch) = 32%nat -> bytes sr -> length sr = 32%nat ->
  exists point g alg sig params kind hash, group E (fst ka) = Some g /\ snd ka = point /\ skx_parts vers key (fst ka) point alg sig params /\
    scheme_ok vers (is_rsa pub) [alg] alg kind hash /\ (0x0303 <= vers -> In alg (ch_sigalgs ch)) /\ is_rsa pub = negb (ecdsa_suite (su_id su)) /\
    se_verify E (kind_code kind) hash pub (signed_params Hs vers (is_rsa pub) (hash_fn Hs H512 hash) (ch_random ch) sr params) sig = true /\
    (fst ka = 29 -> zlen point = 32) /\ (fst ka <> 29 -> kx_point g point = true).
Proof.
  intros H SI HP BK LK B1 N1 B2 N2. destruct (suite_facts _ SI) as (_ & _ & EE & EC & _).
  unfold std_processSKX in H. destruct (has_flag su suiteECDHE); [|discriminate H]. cbn [negb] in H.
  destruct key as [|k0 [|k1 [|k2 [|k3 key]]]]; try discriminate H.
  destruct (Z.eqb_spec k0 3) as [->|]; cbn [negb] in H; [|discriminate H].
  destruct (Z.ltb_spec (zlen (3 :: k1 :: k2 :: k3 :: key)) (k3 + 4)) as [|LL]; [discriminate H|].
  assert (B3 : is_byte k3). { inversion BK as [|? ? _ BK1]; subst. inversion BK1 as [|? ? _ BK2]; subst. inversion BK2 as [|? ? _ BK3]; subst. inversion BK3; subst. assumption. }
  unfold is_byte in B3. cbv zeta in H.
  set (point := firstn (Z.to_nat k3) key) in *. set (tail := skipn (Z.to_nat k3) key) in *.
  assert (EK : key = point ++ tail) by (symmetry; apply firstn_skipn).
  replace (Z.to_nat (4 + k3)) with (4 + Z.to_nat k3)%nat in H by lia. cbn [firstn skipn plus] in H. fold point in H. fold tail in H.
  assert (LP : zlen point = k3). { unfold point, zlen. rewrite firstn_length. unfold zlen in LL. cbn [length] in LL. lia. }
  clearbody point tail. destruct (zlen tail <? 2) eqn:LT; [discriminate H|].
  assert (PT : exists g, group E (256 * k1 + k2) = Some g /\ (256 * k1 + k2 = 29 -> zlen point = 32) /\ (256 * k1 + k2 <> 29 -> kx_point g point = true) /\
     (do as_ <- (if VersionTLS12 <=? vers then
                         match tail with
                         | a0 :: a1 :: sig => if zlen sig <? 2 then Err errServerKeyExchange else Ok (256 * a0 + a1, sig)
                         | _ => Panic
                         end
                       else Ok (0, tail));
            let '(alg, sig) := as_ in
            do p <- pickSignatureAlgorithm pub [alg] (ch_sigalgs ch) vers;
            let '(_, st, h) := p in
            if negb (Bool.eqb (is_rsa_sig st) (negb (has_flag su suiteECDSA))) then Err errServerKeyExchange
            else
              match sig with
              | s0 :: s1 :: sig' =>
                  if negb (256 * s0 + s1 + 2 =? zlen sig) then Err errServerKeyExchange
                  else
                    do digest <- hashForServerKeyExchange E st h vers [ch_random ch; sr; 3 :: k1 :: k2 :: k3 :: point];
                    do ok <- std_verify E st h pub digest sig';
                    if ok then Ok (256 * k1 + k2, point) else Err eSignature
              | _ => Panic
              end) = Ok ka).
  { unfold group, curveForCurveID in *. change X25519 with 29 in H. destruct (Z.eqb_spec (256 * k1 + k2) 29) as [E29|N29].
    - destruct (Z.eqb_spec (zlen point) 32) as [E32|]; cbn [negb] in H; [|discriminate H]. cbn [rbind] in H. eexists. split; [reflexivity|]. split; [auto|]. split; [congruence|exact H].
    - cbn [existsb]. rewrite orb_false_r, orb_assoc. destruct ((256 * k1 + k2 =? 23) || (256 * k1 + k2 =? 24) || (256 * k1 + k2 =? 25)); [|discriminate H].
      destruct (kx_point (se_nist E (256 * k1 + k2)) point) eqn:KP; [|discriminate H]. cbn [rbind] in H. eexists. split; [reflexivity|]. split; [congruence|]. split; [auto|exact H]. }
  clear H. destruct PT as (g & GE & G1 & G2 & H). change VersionTLS12 with 0x0303 in H.
  assert (AS : exists alg a1 a0 sig0, tail = (if 0x0303 <=? vers then [a1; a0] else []) ++ sig0 /\ alg = 256 * a1 + a0 /\
     (do p <- pickSignatureAlgorithm pub [alg] (ch_sigalgs ch) vers;
            let '(_, st, h) := p in
            if negb (Bool.eqb (is_rsa_sig st) (negb (has_flag su suiteECDSA))) then Err errServerKeyExchange
            else
              match sig0 with
              | s0 :: s1 :: sig' =>
                  if negb (256 * s0 + s1 + 2 =? zlen sig0) then Err errServerKeyExchange
                  else
                    do digest <- hashForServerKeyExchange E st h vers [ch_random ch; sr; 3 :: k1 :: k2 :: k3 :: point];
                    do ok <- std_verify E st h pub digest sig';
                    if ok then Ok (256 * k1 + k2, point) else Err eSignature
              | _ => Panic
              end) = Ok ka).
  { destruct (771 <=? vers) eqn:EV.
    - destruct tail as [|a1 [|a0 sig0]]; [discriminate H..|]. destruct (zlen sig0 <? 2); [discriminate H|]. cbn [rbind] in H. exists (256 * a1 + a0), a1, a0, sig0. split; [reflexivity|]. split; [reflexivity|exact H].
    - cbn [rbind] in H. exists 0, 0, 0, tail. split; [reflexivity|]. split; [reflexivity|exact H]. }
  clear H. destruct AS as (alg & a1 & a0 & sig0 & ET & EA & H).
  destruct (pickSignatureAlgorithm pub [alg] (ch_sigalgs ch) vers) as [[[sch st] h]| |] eqn:PK; [|discriminate H..]. cbn [rbind] in H.
  destruct (Bool.eqb (is_rsa_sig st) (negb (has_flag su suiteECDSA))) eqn:EB; cbn [negb] in H; [|discriminate H]. apply eqb_prop in EB.
  destruct sig0 as [|s1 [|s0 sig]]; [discriminate H..|].
  destruct (Z.eqb_spec (256 * s1 + s0 + 2) (zlen (s1 :: s0 :: sig))) as [ELS|]; cbn [negb] in H; [|discriminate H].
  destruct (pick_ok _ _ _ _ _ _ _ PK HP) as (K1 & K2 & K3 & K4).
  assert (BPR : bytes (3 :: k1 :: k2 :: k3 :: point)).
  { clear -BK EK. rewrite EK in BK. clear EK. unfold bytes in *. change (3 :: k1 :: k2 :: k3 :: point ++ tail) with ((3 :: k1 :: k2 :: k3 :: point) ++ tail) in BK. apply Forall_app in BK. tauto. }
  rewrite (SKX_hash_ok E Hs H512 st h vers _ _ (3 :: k1 :: k2 :: k3 :: point) HW B1 B2 BPR) in H.
  2: { rewrite EK in LK. unfold zlen in *. cbn [length] in *. rewrite !app_length in *. rewrite N1, N2. cbn [length]. assert (2 ^ 59 + 64 < 2 ^ 61) by reflexivity. lia. }
  2: { exact (pick_old _ _ _ _ _ _ _ PK HP). }
  cbn [rbind] in H. destruct (std_verify E st h pub _ sig) as [ok| |] eqn:SV; [|discriminate H..]. cbn [rbind] in H. destruct ok; [|discriminate H]. injection H as <-. cbn [fst snd].
  apply std_verify_ok in SV; [|exact HP].
  assert (SCH : 0x0303 <= vers -> sch = alg). { intros HV. destruct K2 as (_ & _ & X). destruct (X HV) as [[<-|[]] _]. reflexivity. }
  exists point, g, alg, sig, (3 :: k1 :: k2 :: k3 :: point), (kind_of st), h.
  split; [exact GE|]. split; [reflexivity|]. split.
  { exists k1, k2, a1, a0, s1, s0. split; [reflexivity|]. split; [rewrite LP; reflexivity|]. split; [exact EA|]. split; [unfold zlen in *; cbn [length] in ELS; lia|]. rewrite EK, ET. cbn [app]. reflexivity. }
  split. { destruct K2 as (X1 & X2 & X3). split; [exact X1|]. split; [exact X2|]. intros HV. rewrite (SCH HV) in X3. exact (X3 HV). }
  split. { intros HV. rewrite <- (SCH HV). apply K3; [exact HV|discriminate]. }
  split; [rewrite <- K4, EB, EC; reflexivity|]. split; [rewrite K1, <- K4; exact SV|]. auto.
Qed.

(** The server's first certificate holds an RSA or ECDSA key: checked in a connection's first handshake (C127), inherited by a renegotiation. *)
Definition prior_ok (pr : option (prior T)) : Prop := forall p leaf rest, pr = Some p -> pr_peer p = leaf :: rest -> is_rsa (g_pub leaf) = true \/ is_ecdsa (g_pub leaf) = true.
Lemma certs_leaf cfg pr ders certs chains : std_certs_ok E cfg pr ders certs chains -> prior_ok pr -> exists leaf rest, certs = leaf :: rest /\ (is_rsa (g_pub leaf) = true \/ is_ecdsa (g_pub leaf) = true).
Proof.
  intros H PO. destruct pr as [p|]; cbn [std_certs_ok] in H.
  - destruct H as (-> & _ & c0 & rest & d0 & dr & EP & _). exists c0, rest. split; [exact EP|]. eapply PO; eauto.
  - destruct H as (_ & (c0 & rest & -> & K & _) & _). eauto.
Qed.

(** RSA key exchange: the pre-master secret - the highest version the client offered and fresh random bytes - goes to the server encrypted under the key of its certificate.
    ECDHE: the server's point comes in a ServerKeyExchange that the certificate's key signed together with both randoms, with an algorithm the client offered that fits key, suite and
    version; the point is checked; the client's own pair is fresh.  Master secret and connection keys follow by the PRF of the negotiated protocol; the keys are installed exactly once. *)
Theorem C128_client_secrets cfg addr cache rn pr c r log : std_client_completes E C cfg addr cache rn pr c r log -> hr_resumed (cl_hr r) = false -> wire_ok log ->
  std_client_random_ok rn -> groups_ok E -> prior_ok pr ->
  exists ch sh leaf rest ver lens kb mck ct pms, hello_sent log ch /\ server_hello_read log sh /\ hr_peer (cl_hr r) = leaf :: rest /\
    version_of (hr_vers (cl_hr r)) (sha384_suite (hr_suite (cl_hr r))) = Some ver /\ In (hr_suite (cl_hr r), lens) suite_table /\
    keys_of log = [kb] /\ cut_into kb lens (PRF Hs ver (block_len lens) (hr_master (cl_hr r)) ascii_key_expansion (hr_serverRandom (cl_hr r) ++ hr_clientRandom (cl_hr r))) /\
    hr_master (cl_hr r) = PRF Hs ver 48 pms ascii_master_secret (hr_clientRandom (cl_hr r) ++ hr_serverRandom (cl_hr r)) /\
    In (EvSend mck) log /\ m_clientKeyExchange ct = Ok mck /\
    (ecdhe_suite (hr_suite (cl_hr r)) = false -> exists k rnd enc, g_pub leaf = PkRSA k /\ r_pms rn = Some rnd /\ pms = [u8 (Z.shiftr (hi cfg) 8); u8 (hi cfg)] ++ rnd /\
       se_rsaenc E (r_enc rn) k pms = Ok enc /\ ct = [u8 (Z.shiftr (zlen enc) 8); u8 (zlen enc)] ++ enc) /\
    (ecdhe_suite (hr_suite (cl_hr r)) = true -> exists m key curve g point alg sig params kind hash priv pub,
       In (EvRecv m) log /\ mtype m = tServerKeyExchange /\ u_serverKeyExchange m = Ok key /\ skx_parts (hr_vers (cl_hr r)) key curve point alg sig params /\ group E curve = Some g /\
       scheme_ok (hr_vers (cl_hr r)) (is_rsa (g_pub leaf)) [alg] alg kind hash /\ (0x0303 <= hr_vers (cl_hr r) -> In alg (ch_sigalgs ch)) /\ is_rsa (g_pub leaf) = negb (ecdsa_suite (hr_suite (cl_hr r))) /\
       se_verify E (kind_code kind) hash (g_pub leaf) (signed_params Hs (hr_vers (cl_hr r)) (is_rsa (g_pub leaf)) (hash_fn Hs H512 hash) (hr_clientRandom (cl_hr r)) (hr_serverRandom (cl_hr r)) params) sig = true /\
       (curve = 29 -> zlen point = 32) /\ (curve <> 29 -> kx_point g point = true) /\
       kx_gen g (r_pms rn) = Ok (priv, pub) /\ pms = kx_shared g priv point /\ ct = zlen pub :: pub).
Proof.
  intros H HR WO RO GO PO. pose proof HW as (HL & HG & _).
  destruct (std_client_parts E C Hs H512 HW _ _ _ _ _ _ _ _ H) as (hello & session & chraw & m_sh & sh & su & vers & ver & resumed & rest & EL0 & Em & Ht & Hu & (h0 & M1 & M2) & L1 & L2 & VI & Ev & ES & SI & Sid & SO & SH & HB).
  destruct (std_hello_fields E _ _ _ _ _ _ _ M1 M2) as (F1 & F2 & _).
  destruct resumed; [destruct HB; congruence|]. destruct HB as (_ & f & lf & k & l_np & l_t & m_fin & m_sfin & cfin & sfin & CR).
  destruct (scu_res _ _ _ _ _ _ _ _ _ _ _ _ _ _ _ _ _ _ _ _ _ _ _ _ CR) as (R1 & R2 & R3 & R4 & R5 & R6 & R7 & _). rewrite R1, R2, R3, R4, R5, R6.
  pose proof (scu_log _ _ _ _ _ _ _ _ _ _ _ _ _ _ _ _ _ _ _ _ _ _ _ _ CR) as EL. pose proof (scu_full _ _ _ _ _ _ _ _ _ _ _ _ _ _ _ _ _ _ _ _ _ _ _ _ CR) as HF.
  destruct (proj1 RO _ F2) as [B1 N1]. destruct (sh_random_ok _ _ _ Hu) as [B2 N2]. { apply wire_ok_recv. eapply wire_ok_in; [exact WO|]. rewrite EL0. right. now left. }
  destruct (std_cfull_steps E Hs _ _ _ _ _ _ _ _ _ _ HF SI) as (_ & _ & _ & _ & _ & _ & _ & KF).
  destruct (tc_flow _ _ _ _ _ _ _ _ _ _ _ _ HF) as (m_cert & ders & l_st & l_skx & ka & l_req & req & chain & m_done & l_cc & pms & ct & m_ckx & l_cv & El & P1 & _ & CO & Q3 & Q4 & Q5 & P6 & Q7 & Q8 & Q9 & _ & Q10).
  destruct (certs_leaf _ _ _ _ _ CO PO) as (leaf & rs & EP & KT). assert (EK : leaf_key f = g_pub leaf) by (unfold leaf_key; rewrite EP; reflexivity). rewrite EK in *.
  destruct (suite_facts _ SI) as (_ & _ & EE & _). rewrite <- ES in Ev.
  pose proof (client_pms_small E _ _ _ _ _ _ _ GO RO Q7) as SP.
  destruct (master_std _ Hs HL HG _ _ _ _ _ _ SP B1 B2 N1 N2 Q9 ver Ev) as (EM & _ & _ & SMM). rewrite ES in Ev.
  destruct (std_keys_ok _ Hs _ _ _ _ _ _ _ HL HG (scu_keys _ _ _ _ _ _ _ _ _ _ _ _ _ _ _ _ _ _ _ _ _ _ _ _ CR) SI Ev SMM B1 B2 N1 N2) as (lens & IT & CUT).
  exists hello, sh, leaf, rs, ver, lens, k, m_ckx, ct, pms.
  split; [exists chraw; eexists; eauto|]. split; [exists (EvSend chraw), m_sh; eexists; eauto|]. split; [exact EP|]. split; [exact Ev|]. split; [exact IT|]. split.
  { rewrite EL, !keys_of_app, KF.
    assert (KN : keys_of l_np = []). { pose proof (scu_np _ _ _ _ _ _ _ _ _ _ _ _ _ _ _ _ _ _ _ _ _ _ _ _ CR) as N. destruct (sh_npn sh); [destruct N as (m & p & b & -> & _)|destruct N as [-> _]]; reflexivity. }
    assert (KT' : keys_of l_t = []). { pose proof (scu_t _ _ _ _ _ _ _ _ _ _ _ _ _ _ _ _ _ _ _ _ _ _ _ _ CR) as N. destruct (sh_ticketOn sh); [destruct N as (m & p & -> & _)|destruct N as [-> _]]; reflexivity. }
    rewrite KN, KT'. reflexivity. }
  split; [exact CUT|]. split; [exact EM|]. split; [rewrite EL, El, !in_app_iff; cbn; tauto|]. split; [exact Q8|]. rewrite <- EE. unfold std_generateCKX in Q7. rewrite F1 in Q7.
  split; intros EF; rewrite EF in *; cbn [negb] in Q7.
  - destruct (r_pms rn) as [rnd|]; [|discriminate Q7]. destruct (g_pub leaf) as [| |kr|]; try discriminate Q7. cbv zeta in Q7.
    destruct (se_rsaenc E (r_enc rn) kr _) as [enc| |] eqn:EN; [|discriminate Q7..]. cbn [rbind] in Q7. injection Q7 as <- <-. exists kr, rnd, enc. auto.
  - destruct (Z.eqb_spec (fst ka) 0) as [|NZ]; [discriminate Q7|]. destruct Q4 as [[_ ->]|(m & key & -> & P & Q4)]; [cbn in NZ; congruence|].
    assert (WM : wire_ok [EvRecv m]) by (eapply wire_ok_in; [exact WO|]; rewrite EL, El, !in_app_iff; cbn; tauto).
    assert (BK : bytes key /\ zlen key < 2 ^ 59).
    { pose proof (up_skx _ _ _ P) as U. unfold u_serverKeyExchange in U. apply fails_ok in U as [_ U]. destruct WM as [W1 W2]. unfold transcript in W1, W2. cbn in W1, W2. rewrite app_nil_r in W1, W2.
      unfold sl_from in U. destruct (_ && _) in U; [|discriminate U]. assert (EU : key = skipn (Z.to_nat 4) m) by congruence. rewrite EU. clear -W1 W2. generalize (Z.to_nat 4). intros n. split; [now apply bytes_skipn|]. unfold zlen in *. rewrite skipn_length. lia. }
    destruct BK as [BK LK].
    destruct (processSKX_inv _ _ _ _ _ _ _ Q4 SI KT BK LK B1 N1 B2 N2) as (point & g & alg & sig & params & kind & hash & G1 & G2 & G3 & G4 & G5 & G6 & G7 & G8 & G9).
    assert (GE : (if fst ka =? X25519 then Some (se_x25519 E) else curveForCurveID E (fst ka)) = Some g).
    { revert G1. unfold group, curveForCurveID. change X25519 with 29. destruct (fst ka =? 29) eqn:E29; [auto|]. cbn [existsb]. rewrite orb_false_r, orb_assoc. auto. }
    rewrite GE in Q7. destruct (kx_gen g (r_pms rn)) as [[priv ser]| |] eqn:KG; [|discriminate Q7..]. cbn [rbind] in Q7. injection Q7 as <- <-.
    assert (KB : kex_bytes g). { destruct GO as [X1 X2]. unfold group in G1. destruct (fst ka =? 29); [injection G1 as <-; exact X1|]. destruct (existsb _ _); [|discriminate]. injection G1 as <-. apply X2. }
    destruct (proj2 KB _ _ _ KG) as [_ LS].
    exists m, key, (fst ka), g, point, alg, sig, params, kind, hash, priv, ser.
    split; [rewrite EL, El, !in_app_iff; cbn; tauto|]. split; [exact (parse_type _ _ _ P)|]. split; [exact (up_skx _ _ _ P)|]. split; [exact G3|]. split; [exact G1|]. split; [exact G4|]. split; [exact G5|].
    split; [exact G6|]. split; [exact G7|]. split; [exact G8|]. split; [exact G9|]. split; [exact KG|]. split; [rewrite G2; reflexivity|].
    assert (u8 (zlen ser) = zlen ser) as -> by (unfold u8, zlen; apply Z.mod_small; lia). reflexivity.
Qed.

(** The CertificateVerify a client sends is a signature, by the key of the certificate it chose, of everything exchanged so far. *)
Theorem C128_client_signature cfg addr cache rn pr c r log : std_client_completes E C cfg addr cache rn pr c r log -> hr_resumed (cl_hr r) = false -> wire_ok log ->
  forall m, In (EvSend m) log -> mtype m = tCertificateVerify ->
  exists pre post cr ce sign alg kind hash sig mq mc ver, log = pre ++ EvSend m :: post /\
    In (EvRecv mq) log /\ parse_std (hr_vers (cl_hr r)) mq = Ok (MCertificateRequest cr) /\ chosen_cert cfg (hr_vers (cl_hr r)) cr ce /\ In (EvSend mc) log /\ m_certificate (sc_chain ce) = Ok mc /\
    version_of (hr_vers (cl_hr r)) (sha384_suite (hr_suite (cl_hr r))) = Some ver /\ k_sign (sc_key ce) = Some sign /\ m_certificateVerify (0x0303 <=? hr_vers (cl_hr r)) (alg, sig) = Ok m /\
    (is_rsa (k_pub (sc_key ce)) = true \/ is_ecdsa (k_pub (sc_key ce)) = true ->
       scheme_ok (hr_vers (cl_hr r)) (is_rsa (k_pub (sc_key ce))) (cr_sigs cr) alg kind hash /\
       sign (kind_code kind) hash (r_sign rn) (signed_transcript Hs ver (is_rsa (k_pub (sc_key ce))) (hash_fn Hs H512 hash) [] (transcript pre)) = Ok sig).
Proof.
  intros H HR WO m HIn Hm. pose proof HW as (HL & HG & _).
  destruct (std_client_parts E C Hs H512 HW _ _ _ _ _ _ _ _ H) as (hello & session & chraw & m_sh & sh & su & vers & ver & resumed & rest & EL0 & Em & Ht & Hu & (h0 & M1 & M2) & L1 & L2 & VI & Ev & ES & SI & Sid & SO & SH & HB).
  destruct resumed; [destruct HB; congruence|]. destruct HB as (_ & f & lf & k & l_np & l_t & m_fin & m_sfin & cfin & sfin & CR).
  destruct (scu_res _ _ _ _ _ _ _ _ _ _ _ _ _ _ _ _ _ _ _ _ _ _ _ _ CR) as (R1 & R2 & _). rewrite R1, R2.
  pose proof (scu_log _ _ _ _ _ _ _ _ _ _ _ _ _ _ _ _ _ _ _ _ _ _ _ _ CR) as EL. pose proof (scu_full _ _ _ _ _ _ _ _ _ _ _ _ _ _ _ _ _ _ _ _ _ _ _ _ CR) as HF.
  destruct (tc_flow _ _ _ _ _ _ _ _ _ _ _ _ HF) as (m_cert & ders & l_st & l_skx & ka & l_req & req & chain & m_done & l_cc & pms & ct & m_ckx & l_cv & El & P1 & _ & CO & Q3 & Q4 & Q5 & P6 & Q7 & Q8 & Q9 & _ & Q10).
  assert (HV : In (EvSend m) l_cv).
  { assert (N1 : EvSend m <> EvSend chraw) by (intros [= ->]; rewrite (t_clientHello _ _ Em) in Hm; discriminate).
    assert (N2 : EvSend m <> EvSend m_ckx) by (intros [= ->]; rewrite (t_ckx _ _ Q8) in Hm; discriminate).
    assert (N3 : EvSend m <> EvSend m_fin) by (intros [= ->]; rewrite (t_finished _ _ (scu_fin _ _ _ _ _ _ _ _ _ _ _ _ _ _ _ _ _ _ _ _ _ _ _ _ CR)) in Hm; discriminate).
    assert (N4 : ~ In (EvSend m) l_np). { pose proof (scu_np _ _ _ _ _ _ _ _ _ _ _ _ _ _ _ _ _ _ _ _ _ _ _ _ CR) as N. destruct (sh_npn sh); [destruct N as (mn & p & b & -> & _ & N & _)|destruct N as [-> _]; auto]. intros [[= ->]|[]]. rewrite (t_np _ _ N) in Hm. discriminate. }
    assert (N5 : ~ In (EvSend m) l_t). { pose proof (scu_t _ _ _ _ _ _ _ _ _ _ _ _ _ _ _ _ _ _ _ _ _ _ _ _ CR) as N. destruct (sh_ticketOn sh); [destruct N as (mn & p & -> & _)|destruct N as [-> _]; auto]. intros [X|[]]. discriminate. }
    assert (N6 : ~ In (EvSend m) l_st). { destruct Q3 as [-> |(_ & m' & st & -> & _)]; [auto|]. intros [X|[]]. discriminate. }
    assert (N7 : ~ In (EvSend m) l_skx). { destruct Q4 as [[-> _]|(m' & st & -> & _)]; [auto|]. intros [X|[]]. discriminate. }
    assert (N8 : ~ In (EvSend m) l_req /\ ~ In (EvSend m) l_cc). { destruct Q5 as [(-> & _ & _ & ->)|(m' & cr & cc & mc & -> & _ & _ & _ & _ & -> & X)]; [auto|]. split; intros [Y|[]]; [discriminate|]. injection Y as ->. rewrite (t_certificate _ _ X) in Hm. discriminate. }
    destruct N8 as [N8 N9]. rewrite EL, El, !in_app_iff in HIn. cbn in HIn. clear -HIn N1 N2 N3 N4 N5 N6 N7 N8 N9.
    repeat (destruct HIn as [HIn|HIn]; try discriminate; try tauto; try (symmetry in HIn; tauto)). }
  destruct Q5 as [(_ & _ & -> & _)|(mq & cr & ce & mc & Elq & Pq & -> & -> & Cc & Elc & Mc)]; [rewrite Q10 in HV; destruct HV|].
  destruct (sc_chain ce) as [|d ds] eqn:Ech; [rewrite Q10 in HV; destruct HV|].
  destruct Q10 as (sign & mv & alg & st & hash & dg & sig & K & PK & SG & Elv & Mv & DG). rewrite Elv in HV. destruct HV as [[= ->]|[]].
  exists ([EvSend chraw; EvRecv m_sh] ++ [EvRecv m_cert] ++ l_st ++ l_skx ++ l_req ++ [EvRecv m_done] ++ l_cc ++ [EvSend m_ckx]), ([EvKeys k; EvSendCCS] ++ l_np ++ [EvSend m_fin] ++ l_t ++ [EvRecvCCS; EvRecv m_sfin]), cr, ce, sign, alg, (kind_of st), hash, sig, mq, mc, ver.
  assert (EQ : log = ([EvSend chraw; EvRecv m_sh] ++ [EvRecv m_cert] ++ l_st ++ l_skx ++ l_req ++ [EvRecv m_done] ++ l_cc ++ [EvSend m_ckx]) ++ EvSend m :: [EvKeys k; EvSendCCS] ++ l_np ++ [EvSend m_fin] ++ l_t ++ [EvRecvCCS; EvRecv m_sfin]).
  { rewrite EL, El, Elv. rewrite <- !app_assoc. reflexivity. }
  split; [exact EQ|]. split; [rewrite EQ, Elq, !in_app_iff; cbn; tauto|]. split; [exact Pq|]. split; [exact Cc|]. split; [rewrite EQ, Elc, !in_app_iff; cbn; tauto|]. split; [rewrite <- Ech in Mc; exact Mc|].
  split; [exact Ev|]. split; [exact K|]. split; [exact Mv|]. intros KT. destruct (pick_ok _ _ _ _ _ _ _ PK KT) as (K1 & K2 & _ & K4). split; [exact K2|]. rewrite K1, <- SG. f_equal.
  assert (WO' : wire_ok ([EvSend chraw; EvRecv m_sh] ++ lf)). { rewrite EL in WO. rewrite app_assoc in WO. now apply wire_ok_app in WO as [WO _]. }
  rewrite <- ES in Ev. rewrite (DG _ (hash_ctor_ok E Hs H512 hash HW) (pick_old _ _ _ _ _ _ _ PK KT) ver Ev WO').
  rewrite <- K4. unfold signed_transcript, is_rsa_sig. rewrite ES in Ev. destruct ver; try reflexivity; (assert (LT : vers < VersionTLS12) by (apply version_of_inv in Ev as (-> & _); reflexivity); destruct (pick_old _ _ _ _ _ _ _ PK KT LT) as [-> | ->]; reflexivity).
Qed.

(** ** C129.  Renegotiation *)
(** First handshake: the hello carries an empty renegotiation_info, and a server that answers with one must answer with an empty one.  Renegotiation: the hello carries the
    Finished value the client sent in the previous handshake; if that one was secure the server must answer with both Finished values; the server's certificate must be the one of
    the previous handshake, peer certificates and verified chains do not change, no session is resumed, and whether the connection counts as secure never changes. *)
Theorem C129_renegotiation cfg addr cache rn pr c r log : std_client_completes E C cfg addr cache rn pr c r log ->
  exists ch sh, hello_sent log ch /\ server_hello_read log sh /\ ch_renegOn ch = true /\
    (pr = None -> ch_reneg ch = [] /\ (sh_renegOn sh = true -> sh_reneg sh = []) /\ cl_secure r = sh_renegOn sh) /\
    (forall p, pr = Some p -> ch_reneg ch = pr_clientFinished p /\ (pr_secure p = true -> sh_reneg sh = pr_clientFinished p ++ pr_serverFinished p) /\ cl_secure r = pr_secure p /\
       hr_resumed (cl_hr r) = false /\ hr_peer (cl_hr r) = pr_peer p /\ hr_chains (cl_hr r) = pr_chains p /\
       exists m leaf rest der ders, In (EvRecv m) log /\ mtype m = tCertificate /\ u_certificate m = Ok (der :: ders) /\ pr_peer p = leaf :: rest /\ raw (g_cert leaf) = der).
Proof.
  intros H. destruct (std_client_parts E C Hs H512 HW _ _ _ _ _ _ _ _ H) as (hello & session & chraw & m_sh & sh & su & vers & ver & resumed & rest & EL0 & Em & Ht & Hu & (h0 & M1 & M2) & L1 & L2 & VI & Ev & ES & SI & Sid & SO & SH & HB).
  destruct (std_hello_fields E _ _ _ _ _ _ _ M1 M2) as (F1 & F2 & F3 & F4 & F5 & F6 & F7 & F8 & F9 & F10 & F11 & F12 & F13 & F14 & F15 & F16 & F17 & F18 & F19 & F20).
  exists hello, sh. split; [exists chraw; eexists; eauto|]. split; [exists (EvSend chraw), m_sh; eexists; eauto|]. split; [exact F8|].
  split. { intros ->. split; [exact F7|]. split; [exact (sho_first _ _ _ _ _ _ _ _ SH eq_refl)|exact (sho_secure _ _ _ _ _ _ _ _ SH)]. }
  intros p ->. split; [exact F7|]. split; [exact (sho_again _ _ _ _ _ _ _ _ SH p eq_refl)|]. split; [exact (sho_secure _ _ _ _ _ _ _ _ SH)|].
  destruct resumed as [cs|]. { destruct (sho_resumed _ _ _ _ _ _ _ _ SH cs eq_refl) as (X & _). destruct (F19 _ X) as (Y & _). discriminate. }
  destruct HB as (HR & f & lf & k & l_np & l_t & m_fin & m_sfin & cfin & sfin & CR). split; [exact HR|].
  destruct (scu_res _ _ _ _ _ _ _ _ _ _ _ _ _ _ _ _ _ _ _ _ _ _ _ _ CR) as (_ & _ & _ & _ & _ & -> & -> & _).
  destruct (tc_flow _ _ _ _ _ _ _ _ _ _ _ _ (scu_full _ _ _ _ _ _ _ _ _ _ _ _ _ _ _ _ _ _ _ _ _ _ _ _ CR)) as (m_cert & ders & l_st & l_skx & ka & l_req & req & chain & m_done & l_cc & pms & ct & m_ckx & l_cv & El & P1 & _ & CO & _).
  cbn [std_certs_ok] in CO. destruct CO as (-> & -> & c0 & rs & d0 & dr & EP & -> & ER). split; [reflexivity|]. split; [reflexivity|]. exists m_cert, c0, rs, d0, dr.
  split; [rewrite (scu_log _ _ _ _ _ _ _ _ _ _ _ _ _ _ _ _ _ _ _ _ _ _ _ _ CR), El, !in_app_iff; cbn; tauto|]. split; [exact (parse_type _ _ _ P1)|]. split; [exact (up_certificate _ _ _ P1)|]. auto.
Qed.
(** What the connection remembers for the next renegotiation are the contents of the two Finished messages of this handshake. *)
Theorem C129_remembered cfg addr cache rn pr c r log : std_client_completes E C cfg addr cache rn pr c r log -> wire_ok log -> std_client_random_ok rn -> groups_ok E ->
  (hr_resumed (cl_hr r) = true -> small (hr_master (cl_hr r))) ->
  exists mc ms, In (EvSend mc) log /\ mtype mc = tFinished /\ hr_clientFinished (cl_hr r) = skipn 4 mc /\ In (EvRecv ms) log /\ mtype ms = tFinished /\ hr_serverFinished (cl_hr r) = skipn 4 ms /\
    length (skipn 4 mc) = 12%nat /\ length (skipn 4 ms) = 12%nat.
Proof.
  intros H WO RO GO SM. destruct (C126_client_finished E C Hs H512 HW _ _ _ _ _ _ _ _ H WO RO GO SM) as (ver & Ev & V1 & V2).
  destruct (std_client_parts E C Hs H512 HW _ _ _ _ _ _ _ _ H) as (hello & session & chraw & m_sh & sh & su & vers & ver' & resumed & rest & EL0 & Em & Ht & Hu & (h0 & M1 & M2) & L1 & L2 & VI & Ev' & ES & SI & Sid & SO & SH & HB).
  assert (NV : ver <> SSL30 /\ ver <> GMSSL).
  { assert (X : In (hr_vers (cl_hr r)) [0x0301; 0x0302; 0x0303]). { destruct resumed; destruct HB as [_ HB].
      - destruct HB as (k & l_np & l_t & m_fin & m_sfin & cfin & sfin & CR). destruct (scv_res _ _ _ _ _ _ _ _ _ _ _ _ _ _ _ _ _ _ _ _ _ _ CR) as (-> & _). exact VI.
      - destruct HB as (f & lf & k & l_np & l_t & m_fin & m_sfin & cfin & sfin & CR). destruct (scu_res _ _ _ _ _ _ _ _ _ _ _ _ _ _ _ _ _ _ _ _ _ _ _ _ CR) as (-> & _). exact VI. }
    apply version_of_inv in Ev as (EV & NG & _). split; [|exact NG]. intros ->. cbn in EV. rewrite EV in X. cbn in X. unfold VersionSSL30 in X. lia. }
  assert (SL : forall ms t, length (server_finished Hs ver ms t) = 12%nat). { intros ms t. destruct NV. destruct ver; try congruence; cbn [server_finished]; apply PRF_length. }
  assert (F12 : forall l : list Z, length l = 12%nat -> fin12 l = l) by (intros l Hl; unfold fin12; rewrite <- Hl; apply firstn_all).
  assert (K : exists m_fin m_sfin cfin sfin, In (EvSend m_fin) log /\ In (EvRecv m_sfin) log /\ m_finished cfin = Ok m_fin /\ parse_msg vers m_sfin = Ok (MFinished sfin) /\ hr_clientFinished (cl_hr r) = fin12 cfin /\ hr_serverFinished (cl_hr r) = fin12 sfin).
  { destruct resumed; destruct HB as [_ HB].
    - destruct HB as (k & l_np & l_t & m_fin & m_sfin & cfin & sfin & CR). destruct (scv_res _ _ _ _ _ _ _ _ _ _ _ _ _ _ _ _ _ _ _ _ _ _ CR) as (_ & _ & _ & _ & _ & _ & _ & X1 & X2).
      exists m_fin, m_sfin, cfin, sfin. split; [rewrite (scv_log _ _ _ _ _ _ _ _ _ _ _ _ _ _ _ _ _ _ _ _ _ _ CR), !in_app_iff; cbn; tauto|]. split; [rewrite (scv_log _ _ _ _ _ _ _ _ _ _ _ _ _ _ _ _ _ _ _ _ _ _ CR), !in_app_iff; cbn; tauto|].
      split; [exact (scv_fin _ _ _ _ _ _ _ _ _ _ _ _ _ _ _ _ _ _ _ _ _ _ CR)|]. split; [exact (scv_sfin _ _ _ _ _ _ _ _ _ _ _ _ _ _ _ _ _ _ _ _ _ _ CR)|auto].
    - destruct HB as (f & lf & k & l_np & l_t & m_fin & m_sfin & cfin & sfin & CR). destruct (scu_res _ _ _ _ _ _ _ _ _ _ _ _ _ _ _ _ _ _ _ _ _ _ _ _ CR) as (_ & _ & _ & _ & _ & _ & _ & X1 & X2).
      exists m_fin, m_sfin, cfin, sfin. split; [rewrite (scu_log _ _ _ _ _ _ _ _ _ _ _ _ _ _ _ _ _ _ _ _ _ _ _ _ CR), !in_app_iff; cbn; tauto|]. split; [rewrite (scu_log _ _ _ _ _ _ _ _ _ _ _ _ _ _ _ _ _ _ _ _ _ _ _ _ CR), !in_app_iff; cbn; tauto|].
      split; [exact (scu_fin _ _ _ _ _ _ _ _ _ _ _ _ _ _ _ _ _ _ _ _ _ _ _ _ CR)|]. split; [exact (scu_sfin _ _ _ _ _ _ _ _ _ _ _ _ _ _ _ _ _ _ _ _ _ _ _ _ CR)|auto]. }
  destruct K as (m_fin & m_sfin & cfin & sfin & I1 & I2 & PF & PS & -> & ->). exists m_fin, m_sfin.
  pose proof (t_finished _ _ PF) as TF. pose proof (parse_type _ _ _ PS) as TS. destruct (parse_finished _ _ _ PS) as [_ ->].
  apply in_split in I2 as I2'. destruct I2' as (pre & post & E2). pose proof (V1 _ _ _ E2 TS) as V1'. pose proof (f_equal (@length Z) V1') as LS. rewrite SL in LS.
  apply in_split in I1 as I1'. destruct I1' as (pre' & post' & E1). pose proof (V2 _ _ _ E1 TF) as V2'. set (cf := client_finished Hs ver _ _) in V2'.
  assert (LC : length cf = 12%nat) by (apply client_finished_length; tauto).
  assert (EC : skipn 4 m_fin = cf) by (rewrite V2'; unfold zlen; rewrite LC; reflexivity).
  assert (EF : cfin = cf).
  { clear -PF EC. unfold m_finished in PF. set (b := [20; 0; 0; u8 (zlen cfin)]) in *. assert (LB : length b = 4%nat) by reflexivity. clearbody b. unfold fill in PF.
    destruct (Z.leb _ _) in PF; [|discriminate]. assert (EM : m_fin = (b ++ cfin) ++ zeros (Z.to_nat (4 + zlen cfin - zlen (b ++ cfin)))) by congruence. clear PF.
    replace (4 + zlen cfin - zlen (b ++ cfin)) with 0 in EM by (unfold zlen; rewrite app_length; lia). change (zeros (Z.to_nat 0)) with (@nil Z) in EM. rewrite app_nil_r in EM.
    rewrite EM, <- LB in EC. rewrite skipn_app, skipn_all, Nat.sub_diag in EC. exact EC. }
  split; [exact I1|]. split; [exact TF|]. rewrite EF, EC. split; [apply F12; exact LC|]. split; [exact I2|]. split; [exact TS|]. split; [apply F12; exact LS|]. split; [exact LC|exact LS].
Qed.

(** ** C130.  Resumption *)
(** The client resumes only in a connection's first handshake, only the session its cache returned, only if the server repeated the session id, at the version and with the suite of the
    session - one it offers again; master secret, peer certificates and chains are the session's; the keys follow from that secret and the new randoms. *)
Theorem C130_client_resumes cfg addr cache rn pr c r log : std_client_completes E C cfg addr cache rn pr c r log -> hr_resumed (cl_hr r) = true ->
  exists ch sh s, hello_sent log ch /\ server_hello_read log sh /\ pr = None /\ cache = Some (Some s) /\ ch_ticket ch = cs_ticket s /\ r_sid rn = Some (ch_sessionId ch) /\ sh_sessionId sh = ch_sessionId ch /\
    cs_vers s = hr_vers (cl_hr r) /\ cs_suite s = hr_suite (cl_hr r) /\ In (hr_suite (cl_hr r)) (ch_suites ch) /\
    hr_master (cl_hr r) = cs_master s /\ hr_peer (cl_hr r) = cs_certs s /\ hr_chains (cl_hr r) = cs_chains s /\
    (wire_ok log -> hello_random_ok rn -> small (cs_master s) ->
       exists ver lens kb, version_of (hr_vers (cl_hr r)) (sha384_suite (hr_suite (cl_hr r))) = Some ver /\ In (hr_suite (cl_hr r), lens) suite_table /\ keys_of log = [kb] /\
         cut_into kb lens (PRF Hs ver (block_len lens) (cs_master s) ascii_key_expansion (hr_serverRandom (cl_hr r) ++ hr_clientRandom (cl_hr r)))).
Proof.
  intros H HR. pose proof HW as (HL & HG & _).
  destruct (std_client_parts E C Hs H512 HW _ _ _ _ _ _ _ _ H) as (hello & session & chraw & m_sh & sh & su & vers & ver & resumed & rest & EL0 & Em & Ht & Hu & (h0 & M1 & M2) & L1 & L2 & VI & Ev & ES & SI & Sid & SO & SH & HB).
  destruct (std_hello_fields E _ _ _ _ _ _ _ M1 M2) as (F1 & F2 & F3 & F4 & F5 & F6 & F7 & F8 & F9 & F10 & F11 & F12 & F13 & F14 & F15 & F16 & F17 & F18 & F19 & F20).
  destruct resumed as [cs|]; [|destruct HB; congruence]. destruct HB as (_ & k & l_np & l_t & m_fin & m_sfin & cfin & sfin & CR).
  destruct (sho_resumed _ _ _ _ _ _ _ _ SH cs eq_refl) as (S1 & S2 & S3 & S4). destruct (F19 _ S1) as (-> & -> & _).
  destruct (scv_res _ _ _ _ _ _ _ _ _ _ _ _ _ _ _ _ _ _ _ _ _ _ CR) as (R1 & R2 & R3 & R4 & R5 & R6 & R7 & _). rewrite R1, R2, R3, R4, R5, R6, R7.
  exists hello, sh, cs. split; [exists chraw; eexists; eauto|]. split; [exists (EvSend chraw), m_sh; eexists; eauto|]. split; [reflexivity|]. split; [reflexivity|]. rewrite S1 in F16, F18.
  split; [exact F16|]. split; [apply F18; discriminate|]. split; [exact S2|]. split; [exact S3|]. split; [exact S4|]. split; [exact SO|]. split; [reflexivity|]. split; [reflexivity|]. split; [reflexivity|].
  intros WO RO SMM. destruct (RO _ F2) as [B1 N1]. destruct (sh_random_ok _ _ _ Hu) as [B2 N2]. { apply wire_ok_recv. eapply wire_ok_in; [exact WO|]. rewrite EL0. right. now left. }
  destruct (std_keys_ok _ Hs _ _ _ _ _ _ _ HL HG (scv_keys _ _ _ _ _ _ _ _ _ _ _ _ _ _ _ _ _ _ _ _ _ _ CR) SI Ev SMM B1 B2 N1 N2) as (lens & IT & CUT).
  exists ver, lens, k. split; [exact Ev|]. split; [exact IT|]. split; [|exact CUT]. rewrite (scv_log _ _ _ _ _ _ _ _ _ _ _ _ _ _ _ _ _ _ _ _ _ _ CR), !keys_of_app.
  assert (KN : keys_of l_np = []). { pose proof (scv_np _ _ _ _ _ _ _ _ _ _ _ _ _ _ _ _ _ _ _ _ _ _ CR) as N. destruct (sh_npn sh); [destruct N as (m & p & b & -> & _)|destruct N as [-> _]]; reflexivity. }
  assert (KT' : keys_of l_t = []). { pose proof (scv_t _ _ _ _ _ _ _ _ _ _ _ _ _ _ _ _ _ _ _ _ _ _ CR) as N. destruct (sh_ticketOn sh); [destruct N as (m & p & -> & _)|destruct N as [-> _]]; reflexivity. }
  rewrite KN, KT'. reflexivity.
Qed.
(** What is put in the session cache: exactly when the server announced a ticket, the ticket it sent with version, suite, master secret, certificates and chains of this
    connection; under the server's name, or its address without a name. *)
Theorem C130_client_stores cfg addr cache rn pr c r log : std_client_completes E C cfg addr cache rn pr c r log ->
  exists sh, server_hello_read log sh /\
    match cl_put r with
    | None => cache = None \/ sh_ticketOn sh = false
    | Some (key, s) => cache <> None /\ sh_ticketOn sh = true /\ (pr = None -> key = if nonempty (cf_serverName (s_cfg cfg)) then cf_serverName (s_cfg cfg) else addr) /\
        cs_vers s = hr_vers (cl_hr r) /\ cs_suite s = hr_suite (cl_hr r) /\ cs_master s = hr_master (cl_hr r) /\ cs_certs s = hr_peer (cl_hr r) /\ cs_chains s = hr_chains (cl_hr r) /\
        exists m, In (EvRecv m) log /\ mtype m = tNewSessionTicket /\ u_newSessionTicket m = Ok (cs_ticket s)
    end.
Proof.
  intros H. destruct (std_client_parts E C Hs H512 HW _ _ _ _ _ _ _ _ H) as (hello & session & chraw & m_sh & sh & su & vers & ver & resumed & rest & EL0 & Em & Ht & Hu & (h0 & M1 & M2) & L1 & L2 & VI & Ev & ES & SI & Sid & SO & SH & HB).
  exists sh. split; [exists (EvSend chraw), m_sh; eexists; eauto|].
  assert (KK : forall t ms pc chs m, (forall e, e = EvRecv m -> In e log) -> parse_msg vers m = Ok (MNewSessionTicket t) -> sh_ticketOn sh = true ->
     hr_vers (cl_hr r) = vers -> hr_suite (cl_hr r) = su_id su -> hr_master (cl_hr r) = ms -> hr_peer (cl_hr r) = pc -> hr_chains (cl_hr r) = chs ->
     cl_put r = match cache with Some _ => Some (std_cache_key cfg addr pr, mkCSess t vers (su_id su) ms pc chs) | None => None end ->
     match cl_put r with
    | None => cache = None \/ sh_ticketOn sh = false
    | Some (key, s) => cache <> None /\ sh_ticketOn sh = true /\ (pr = None -> key = if nonempty (cf_serverName (s_cfg cfg)) then cf_serverName (s_cfg cfg) else addr) /\
        cs_vers s = hr_vers (cl_hr r) /\ cs_suite s = hr_suite (cl_hr r) /\ cs_master s = hr_master (cl_hr r) /\ cs_certs s = hr_peer (cl_hr r) /\ cs_chains s = hr_chains (cl_hr r) /\
        exists m, In (EvRecv m) log /\ mtype m = tNewSessionTicket /\ u_newSessionTicket m = Ok (cs_ticket s)
    end).
  { intros t ms pc chs m HI P HT -> -> -> -> -> ->. destruct cache; [|now left]. split; [discriminate|]. split; [exact HT|]. split; [intros ->; unfold std_cache_key; rewrite nonempty_zlen; reflexivity|].
    cbn [cs_vers cs_suite cs_master cs_certs cs_chains cs_ticket]. repeat (split; [reflexivity|]). exists m. split; [auto|]. split; [exact (parse_type _ _ _ P)|exact (up_ticket _ _ _ P)]. }
  destruct resumed as [cs|]; destruct HB as [HR HB].
  - destruct HB as (k & l_np & l_t & m_fin & m_sfin & cfin & sfin & CR). pose proof (scv_t _ _ _ _ _ _ _ _ _ _ _ _ _ _ _ _ _ _ _ _ _ _ CR) as N. pose proof (scv_log _ _ _ _ _ _ _ _ _ _ _ _ _ _ _ _ _ _ _ _ _ _ CR) as EL.
    destruct (scv_res _ _ _ _ _ _ _ _ _ _ _ _ _ _ _ _ _ _ _ _ _ _ CR) as (R1 & R2 & R3 & _ & _ & R6 & R7 & _). destruct (sh_ticketOn sh) eqn:TO.
    + destruct N as (m & t & -> & P & EQ). apply (KK t (cs_master cs) (cs_certs cs) (cs_chains cs) m); auto. intros e ->. rewrite EL, !in_app_iff. cbn. tauto.
    + destruct N as [_ ->]. now right.
  - destruct HB as (f & lf & k & l_np & l_t & m_fin & m_sfin & cfin & sfin & CR). pose proof (scu_t _ _ _ _ _ _ _ _ _ _ _ _ _ _ _ _ _ _ _ _ _ _ _ _ CR) as N. pose proof (scu_log _ _ _ _ _ _ _ _ _ _ _ _ _ _ _ _ _ _ _ _ _ _ _ _ CR) as EL.
    destruct (scu_res _ _ _ _ _ _ _ _ _ _ _ _ _ _ _ _ _ _ _ _ _ _ _ _ CR) as (R1 & R2 & R3 & _ & _ & R6 & R7 & _). destruct (sh_ticketOn sh) eqn:TO.
    + destruct N as (m & t & -> & P & EQ). apply (KK t (cf_master f) (cf_peer f) (cf_chains f) m); auto. intros e ->. rewrite EL, !in_app_iff. cbn. tauto.
    + destruct N as [_ ->]. now right.
Qed.
(** ... but a session obtained in a renegotiation goes into the cache under the empty key, whatever the server's name: where no name was given to find it, another connection will. *)
Theorem C130_renegotiated_key_refuted cfg addr cache rn p c r log key s : std_client_completes E C cfg addr cache rn (Some p) c r log -> cl_put r = Some (key, s) -> key = [].
Proof.
  intros H EP. destruct (std_client_parts E C Hs H512 HW _ _ _ _ _ _ _ _ H) as (hello & session & chraw & m_sh & sh & su & vers & ver & resumed & rest & EL0 & Em & Ht & Hu & (h0 & M1 & M2) & L1 & L2 & VI & Ev & ES & SI & Sid & SO & SH & HB).
  destruct resumed as [cs|]; destruct HB as [HR HB].
  - destruct HB as (k & l_np & l_t & m_fin & m_sfin & cfin & sfin & CR). pose proof (scv_t _ _ _ _ _ _ _ _ _ _ _ _ _ _ _ _ _ _ _ _ _ _ CR) as N. destruct (sh_ticketOn sh); [destruct N as (m & t & _ & _ & N)|destruct N as [_ N]; congruence]. rewrite N in EP. destruct cache; [|discriminate]. now injection EP as <- _.
  - destruct HB as (f & lf & k & l_np & l_t & m_fin & m_sfin & cfin & sfin & CR). pose proof (scu_t _ _ _ _ _ _ _ _ _ _ _ _ _ _ _ _ _ _ _ _ _ _ _ _ CR) as N. destruct (sh_ticketOn sh); [destruct N as (m & t & _ & _ & N)|destruct N as [_ N]; congruence]. rewrite N in EP. destruct cache; [|discriminate]. now injection EP as <- _.
Qed.
End Client.
Print Assumptions C126_client_negotiation.
Print Assumptions C127_server_authenticated.
Print Assumptions C128_client_secrets.
Print Assumptions C128_client_signature.
Print Assumptions C129_renegotiation.
Print Assumptions C129_remembered.
Print Assumptions C130_client_resumes.
Print Assumptions C130_client_stores.

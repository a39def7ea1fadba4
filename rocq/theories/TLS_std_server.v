(** Inversion of the ordinary TLS server's handshake. *)
From Verif Require Import GoBase GoLemmas BigBytes Asn1_model X509_spec SM2_model TLS_record_model TLS_prf_model TLS_prf_spec TLS_prf_proofs
  TLS_gmka_model TLS_ticket_model TLS_msg_model TLS_neg_model TLS_hs_model TLS_hs_proofs TLS_hs_bytes TLS_hs_server TLS_hs_spec TLS_std_model TLS_std_spec TLS_std_proofs.
From Verif Require X509_model P_TLS_neg P_TLS_prf.
Open Scope Z_scope.
#[local] Opaque fh_Write discardHandshakeBuffer clientSum serverSum PRF newFinishedHash hashForClientCertificate.

Section Server.
Context {T : Type} (E : senv T) {C : chan} (Hs : hashes) (HL : std_impl (e_std (se E)) Hs) (HG : good_hashes Hs).
Implicit Types s : hst C.
(** the configuration used for a ClientHello *)
Definition scfg_for (cfg : sconfig T) (getcfg : option (clientHello -> res (option (sconfig T)))) (ch : clientHello) (cfg' : sconfig T) : Prop :=
  match getcfg with None => cfg' = cfg | Some f => exists r, f ch = Ok r /\ cfg' = match r with Some c => c | None => cfg end end.
(** the certificate chosen for a ClientHello (C68) *)
Definition certificate_for (cfg : sconfig T) (ch : clientHello) (ce : scertificate T) : Prop :=
  getCertificate (se_lower E) (option_map (fun f => f ch) (s_getCert cfg)) (s_certs cfg) (s_byName cfg) (ch_sni ch) = (Some ce, None).
Definition signer (ce : scertificate T) : bool := match k_sign (sc_key ce) with Some _ => true | None => false end.
Definition decrypter (ce : scertificate T) : bool := match k_dec (sc_key ce) with Some _ => true | None => false end.
Definition is_rsa (p : pubk T) : bool := match p with PkRSA _ => true | _ => false end.
Definition is_ecdsa (p : pubk T) : bool := match p with PkECDSA _ => true | _ => false end.

Lemma std_server_hello_inv cfg getcfg rn hs s s' : std_server_hello E (C := C) cfg getcfg rn s = (HOk hs, s') ->
  exists random, snd s' = snd s ++ [EvRecv (st_chraw hs)] /\ parse_msg 0 (st_chraw hs) = Ok (MClientHello (st_ch hs)) /\
    scfg_for cfg getcfg (st_ch hs) (st_cfg hs) /\ mutualVersion (cf_min (s_cfg (st_cfg hs))) (cf_max (s_cfg (st_cfg hs))) (ch_vers (st_ch hs)) = Some (st_v hs) /\
    In 0 (ch_comp (st_ch hs)) /\ ch_reneg (st_ch hs) = [] /\ r_hello rn = Some random /\
    certificate_for (st_cfg hs) (st_ch hs) (st_cert hs) /\
    st_ell hs = existsb (fun c => existsb (Z.eqb c) (curvePreferences (s_curves (st_cfg hs)))) (ch_curves (st_ch hs)) && existsb (Z.eqb 0) (ch_points (st_ch hs)) /\
    st_ecdsa hs = signer (st_cert hs) && is_ecdsa (k_pub (sc_key (st_cert hs))) /\ st_rsaSign hs = signer (st_cert hs) && is_rsa (k_pub (sc_key (st_cert hs))) /\
    st_rsaDec hs = decrypter (st_cert hs) && is_rsa (k_pub (sc_key (st_cert hs))) /\
    (signer (st_cert hs) = true -> is_ecdsa (k_pub (sc_key (st_cert hs))) = true \/ is_rsa (k_pub (sc_key (st_cert hs))) = true) /\
    (let npn := negb (0 <? zlen (ch_alpn (st_ch hs))) && ch_npn (st_ch hs) && (0 <? zlen (cf_protos (s_cfg (st_cfg hs)))) in
     st_sh hs = mkSH (st_v hs) random [] 0 0 npn (if npn then cf_protos (s_cfg (st_cfg hs)) else []) false (if ch_scts (st_ch hs) then sc_scts (st_cert hs) else [])
                     false [] (ch_renegOn (st_ch hs)) (st_proto hs)) /\
    (if 0 <? zlen (ch_alpn (st_ch hs)) then exists p b, mutualProtocol (ch_alpn (st_ch hs)) (cf_protos (s_cfg (st_cfg hs))) = Ok (p, b) /\ st_proto hs = if b then [] else p
     else st_proto hs = []).
Proof.
  unfold std_server_hello. intros H. apply bind_ok in H as ([msg raw] & s0 & E0 & H). apply readS_ok in E0 as [P0 L0]. cbv beta iota in H.
  destruct msg as [|m| | | | | | | | | | | ]; try now apply unexpected_ok in H.
  apply bind_ok in H as (cfg' & s1 & E1 & H). cbv beta in H.
  assert (X1 : scfg_for cfg getcfg m cfg' /\ s1 = s0).
  { unfold scfg_for. destruct getcfg as [f|].
    - bnd E1. prim E0. prim E1. apply of_res_ok in E0. subst. eauto.
    - prim E1. auto. }
  destruct X1 as [Xc ->]. clear E1.
  destruct (mutualVersion (cf_min (s_cfg cfg')) (cf_max (s_cfg cfg')) (ch_vers m)) as [v|] eqn:EV; [|now apply fail_with_ok in H].
  apply bind_ok in H as (u & s1 & E1 & H). apply setvers_ok in E1. cbv beta zeta in H.
  destruct (existsb (Z.eqb 0) (ch_comp m)) eqn:EC; cbn [negb] in H; [|now apply fail_with_ok in H].
  destruct (r_hello rn) as [random|] eqn:ER; [|now apply fail_with_ok in H].
  destruct (zlen (ch_reneg m) =? 0) eqn:HR; cbn [negb] in H; [|now apply fail_with_ok in H].
  apply bind_ok in H as (alpn & s2 & E2 & H). cbv beta in H.
  assert (X2 : s2 = s1 /\ if 0 <? zlen (ch_alpn m) then exists p b, mutualProtocol (ch_alpn m) (cf_protos (s_cfg cfg')) = Ok (p, b) /\ alpn = if b then [] else p else alpn = []).
  { destruct (0 <? zlen (ch_alpn m)).
    - apply bind_ok in E2 as ([p b] & s3 & E3 & E2). prim E3. apply of_res_ok in E3. prim E2. subst. cbn [fst snd]. split; [reflexivity|]. eauto.
    - prim E2. subst. auto. }
  destruct X2 as [-> XA]. clear E2.
  destruct (getCertificate _ _ _ _ _) as [[ce|] [e|]] eqn:EG; try now apply fail_with_ok in H. 2: now apply panic_ok in H.
  match type of H with (if ?c then _ else _) _ = _ => destruct c eqn:EK end; [now apply fail_with_ok in H|].
  prim H. subst s' hs. exists random. cbn [st_cfg st_v st_ch st_chraw st_sh st_proto st_cert st_ell st_ecdsa st_rsaSign st_rsaDec].
  split; [now rewrite E1|]. split; [apply parse_std_msg; [exact P0|discriminate]|]. split; [exact Xc|]. split; [exact EV|].
  split. { apply existsb_exists in EC as (x & Hx & Ex). apply Z.eqb_eq in Ex. subst x. exact Hx. }
  split. { destruct (ch_reneg m); [reflexivity|]. unfold zlen in HR. cbn [length] in HR. apply Z.eqb_eq in HR. lia. }
  split; [reflexivity|]. split; [exact EG|]. split; [reflexivity|]. split; [reflexivity|]. split; [reflexivity|]. split; [reflexivity|].
  split. { intros SG. unfold signer in SG. rewrite SG in EK. cbn [andb] in EK. apply orb_false_iff in EK as [EK _]. apply negb_false_iff, orb_true_iff in EK. exact EK. }
  split; [reflexivity|exact XA].
Qed.

Lemma std_processCerts_inv cfg ders p s s' : std_processCerts E (C := C) cfg ders s = (HOk p, s') ->
  s' = s /\ client_certs_ok (se E) cfg ders (snd (fst p)) (snd p) /\
  match snd (fst p) with
  | [] => fst (fst p) = None
  | c0 :: _ => fst (fst p) = Some (g_pub c0) /\ (is_rsa (g_pub c0) = true \/ is_ecdsa (g_pub c0) = true)
  end.
Proof.
  unfold std_processCerts. intros H. apply bind_ok in H as (q & s1 & H1 & H). cbv beta in H. apply processCerts_inv in H1 as (-> & HC & HP).
  destruct q as [[pub certs] chains]. cbn [fst snd] in *.
  assert (X : p = (pub, certs, chains) /\ s' = s /\ forall k, pub <> Some (PkSM2 k)).
  { destruct pub as [[k|k|k|]|]; [now apply fail_with_ok in H|..]; prim H; subst; repeat split; discriminate. }
  destruct X as (-> & -> & NS). cbn [fst snd]. split; [reflexivity|]. split; [exact HC|]. destruct certs as [|c0 rest]; [exact HP|].
  destruct HP as [-> HP]. split; [reflexivity|]. destruct (g_pub c0) as [k|k|k|]; cbn; [destruct (NS k eq_refl)|auto|auto|congruence].
Qed.

Definition sto_stapled (hs : sths (T := T)) : bool := ch_ocsp (st_ch hs) && (0 <? zlen (sc_ocsp (st_cert hs))).
Definition std_full_sh (hs : sths (T := T)) (su : suite) : serverHello :=
  set_sh_suite (set_sh_ticketOn (set_sh_ocsp (st_sh hs) (sto_stapled hs)) (ch_ticketOn (st_ch hs) && negb (cf_noTickets (s_cfg (st_cfg hs))))) (su_id su).
Definition sasks (hs : sths (T := T)) : bool := RequestClientCert <=? cf_auth (s_cfg (st_cfg hs)).
(** what doFullHandshake did; [l0]: the log before it *)
Record std_full_run (hs : sths (T := T)) (su : suite) (rn : rnds) (f : sfull (T := T)) (l0 l : list event) : Prop := mkSTR {
  tr_sh : sf_sh f = std_full_sh hs su;
  tr_flow : exists m_sh m_cert l_st skx ka l_skx l_req l_cc m_ckx l_cv ct pms,
    l = [EvSend m_sh; EvSend m_cert] ++ l_st ++ l_skx ++ l_req ++ [EvSend m_serverHelloDone] ++ l_cc ++ [EvRecv m_ckx] ++ l_cv /\
    m_serverHello (sf_sh f) = Ok m_sh /\ m_certificate (sc_chain (st_cert hs)) = Ok m_cert /\
    (if sto_stapled hs then exists m, l_st = [EvSend m] /\ m_certificateStatus (1, sc_ocsp (st_cert hs)) = Ok m else l_st = []) /\
    std_generateSKX E (st_cfg hs) (st_cert hs) rn (st_v hs) su (st_ch hs) (sh_random (sf_sh f)) = Ok (skx, ka) /\
    match skx with Some key => exists m, l_skx = [EvSend m] /\ m_serverKeyExchange key = Ok m | None => l_skx = [] end /\
    (if sasks hs then exists m, l_req = [EvSend m] /\
       m_certificateRequest (VersionTLS12 <=? st_v hs) (TLS_msg_model.mkCR [1; 64] (if VersionTLS12 <=? st_v hs then supportedSignatureAlgorithms else [])
          (match cf_clientCAs (s_cfg (st_cfg hs)) with Some p => X509_model.Subjects p | None => [] end)) = Ok m else l_req = []) /\
    (if sasks hs then exists m, l_cc = [EvRecv m] /\ parse_msg (st_v hs) m = Ok (MCertificate (sf_ders f)) /\
       client_certs_ok (se E) (s_cfg (st_cfg hs)) (sf_ders f) (sf_certs f) (sf_chains f) /\
       (cf_auth (s_cfg (st_cfg hs)) = RequireAnyClientCert \/ cf_auth (s_cfg (st_cfg hs)) = RequireAndVerifyClientCert -> sf_ders f <> [])
     else l_cc = [] /\ sf_ders f = [] /\ sf_certs f = [] /\ sf_chains f = []) /\
    parse_msg (st_v hs) m_ckx = Ok (MClientKeyExchange ct) /\ std_processCKX E (st_cert hs) (st_v hs) su ka ct = Ok pms /\
    masterFromPreMasterSecret (e_std (se E)) (st_v hs) (su_sha384 su) pms (ch_random (st_ch hs)) (sh_random (sf_sh f)) = Ok (sf_master f) /\
    cf_keylog (s_cfg (st_cfg hs)) (ch_random (st_ch hs)) (sf_master f) = None /\
    match sf_certs f with
    | [] => l_cv = []
    | c0 :: _ => exists m alg sig sch sigType hash digest, l_cv = [EvRecv m] /\ parse_msg (st_v hs) m = Ok (MCertificateVerify alg sig) /\
        (is_rsa (g_pub c0) = true \/ is_ecdsa (g_pub c0) = true) /\
        pickSignatureAlgorithm (g_pub c0) [alg] supportedSignatureAlgorithms (st_v hs) = Ok (sch, sigType, hash) /\
        std_verify E sigType hash (g_pub c0) digest sig = Ok true /\
        (forall Hc, implements (hash_ctor E hash) Hc (2 ^ 61) -> small (sf_master f) -> (st_v hs < VersionTLS12 -> sigType = signatureECDSA \/ sigType = signaturePKCS1v15) ->
         forall ver, version_of (st_v hs) (su_sha384 su) = Some ver -> wire_ok (l0 ++ l) ->
         digest = signed_transcript Hs ver (sigType =? signaturePKCS1v15) Hc (sf_master f)
                    (transcript (l0 ++ [EvSend m_sh; EvSend m_cert] ++ l_st ++ l_skx ++ l_req ++ [EvSend m_serverHelloDone] ++ l_cc ++ [EvRecv m_ckx])))
    end;
  tr_hash : small (sf_master f) -> (forall h, exists Hc, implements (hash_ctor E h) Hc (2 ^ 61)) -> hlog Hs (st_v hs) (su_sha384 su) true false false (l0 ++ l) (sf_h f) }.

(** what pickSignatureAlgorithm yields below TLS 1.2 *)
Lemma pick_old (pub : pubk T) peer our vers sch st hash : pickSignatureAlgorithm pub peer our vers = Ok (sch, st, hash) -> is_rsa pub = true \/ is_ecdsa pub = true ->
  vers < VersionTLS12 -> st = signatureECDSA \/ st = signaturePKCS1v15.
Proof.
  unfold pickSignatureAlgorithm. intros H HP HV. replace (vers <? VersionTLS12) with true in H by (symmetry; apply Z.ltb_lt; exact HV). cbn [orb] in H.
  destruct pub; cbn in HP; try (destruct HP; discriminate); injection H as _ <- _; auto.
Qed.

Lemma std_server_full_inv hs su rn f s s' : std_server_full E (C := C) hs su rn s = (HOk f, s') -> snd s = [EvRecv (st_chraw hs)] ->
  (st_v hs = 0x0101 \/ exists ver, version_of (st_v hs) (su_sha384 su) = Some ver) /\
  exists l, snd s' = snd s ++ l /\ std_full_run hs su rn f (snd s) l.
Proof.
  unfold std_server_full. cbv zeta. fold (sto_stapled hs). fold (std_full_sh hs su). fold (sasks hs). intros H LOG0.
  set (base := s_cfg (st_cfg hs)) in *. set (vers := st_v hs) in *. set (sha := su_sha384 su) in *.
  apply bind_ok in H as (h0 & s0 & H0 & H). prim H0. apply of_res_ok in H0. subst s0. cbv beta in H.
  split; [eapply newFinishedHash_vers; exact H0|].
  assert (G0 : exists d, hlog Hs vers sha d false false [] (if cf_auth base =? NoClientCert then discardHandshakeBuffer h0 else h0) /\ (cf_auth base <> NoClientCert -> d = false)).
  { apply (hlog_new _ Hs HL HG) in H0. destruct (Z.eqb_spec (cf_auth base) NoClientCert).
    - exists true. split; [eapply hlog_discard; exact H0|congruence].
    - exists false. split; [exact H0|auto]. }
  destruct G0 as (d & G0 & GD). clear H0.
  set (h1 := if cf_auth base =? NoClientCert then discardHandshakeBuffer h0 else h0) in *. clearbody h1. clear h0.
  apply bind_ok in H as (h2 & s2 & H2 & H). prim H2. subst s2. cbv beta in H.
  apply (hlog_recv Hs _ _ _ _ _ _ _ _ _ G0) in H2. cbn [app] in H2. rewrite <- LOG0 in H2. clear G0.
  apply bind_ok in H as (h3 & s3 & H3 & H). apply (hlog_emit Hs _ _ _ _ _ _ _ _ _ _ H2) in H3 as (m_sh & Esh & L3 & G3). cbv beta in H.
  apply bind_ok in H as (h4 & s4 & H4 & H). apply (hlog_emit Hs _ _ _ _ _ _ _ _ _ _ G3) in H4 as (m_cert & Ecert & L4 & G4). cbv beta in H.
  apply bind_ok in H as (h5 & s5 & H5 & H). cbv beta in H.
  assert (X5 : exists l_st, snd s5 = snd s4 ++ l_st /\ (if sto_stapled hs then exists m, l_st = [EvSend m] /\ m_certificateStatus (1, sc_ocsp (st_cert hs)) = Ok m else l_st = []) /\ hlog Hs vers sha d false false (snd s5) h5).
  { destruct (sto_stapled hs).
    - apply (hlog_emit Hs _ _ _ _ _ _ _ _ _ _ G4) in H5 as (m & Em & L5 & G5). exists [EvSend m]. split; [exact L5|]. split; [eauto|exact G5].
    - prim H5. subst. exists []. split; [now rewrite app_nil_r|]. split; [reflexivity|exact G4]. }
  destruct X5 as (l_st & L5 & X5 & G5). clear H5.
  apply bind_ok in H as ([skx ka] & s6 & H6 & H). apply orfail_ok in H6 as [Eskx ->]. apply of_res_ok in Eskx. cbv beta iota in H.
  apply bind_ok in H as (h7 & s7 & H7 & H). cbv beta in H.
  assert (X7 : exists l_skx, snd s7 = snd s5 ++ l_skx /\ match skx with Some key => exists m, l_skx = [EvSend m] /\ m_serverKeyExchange key = Ok m | None => l_skx = [] end /\ hlog Hs vers sha d false false (snd s7) h7).
  { destruct skx as [key|].
    - apply (hlog_emit Hs _ _ _ _ _ _ _ _ _ _ G5) in H7 as (m & Em & L7 & G7). exists [EvSend m]. split; [exact L7|]. split; [eauto|exact G7].
    - prim H7. subst. exists []. split; [now rewrite app_nil_r|]. split; [reflexivity|exact G5]. }
  destruct X7 as (l_skx & L7 & X7 & G7). clear H7.
  apply bind_ok in H as (h8 & s8 & H8 & H). cbv beta in H.
  match type of H8 with (if _ then emit _ ?req else _) _ = _ => set (reqm := req) in * end.
  assert (X8 : exists l_req, snd s8 = snd s7 ++ l_req /\ (if sasks hs then exists m, l_req = [EvSend m] /\ reqm = Ok m else l_req = []) /\ hlog Hs vers sha d false false (snd s8) h8).
  { destruct (sasks hs).
    - apply (hlog_emit Hs _ _ _ _ _ _ _ _ _ _ G7) in H8 as (m & Em & L8 & G8). exists [EvSend m]. split; [exact L8|]. split; [eauto|exact G8].
    - prim H8. subst. exists []. split; [now rewrite app_nil_r|]. split; [reflexivity|exact G7]. }
  destruct X8 as (l_req & L8 & X8 & G8). clear H8.
  apply bind_ok in H as (h9 & s9 & H9 & H). apply (hlog_emit Hs _ _ _ _ _ _ _ _ _ _ G8) in H9 as (m_done & Edone & L9 & G9). injection Edone as <-. cbv beta in H.
  apply bind_ok in H as ([mm1 raw1] & s10 & H10 & H). apply readS_ok in H10 as [P10 L10]. cbv beta in H. cbn [fst snd] in H.
  apply bind_ok in H as ([[[h11 mr11] ders] [[pub certs] chains]] & s11 & H11 & H). cbv beta iota in H.
  assert (X11 : exists l_cc mm2 raw2, mr11 = (mm2, raw2) /\ parse_std vers raw2 = Ok mm2 /\ snd s11 = snd s9 ++ l_cc ++ [EvRecv raw2] /\ hlog Hs vers sha d false false (snd s9 ++ l_cc) h11 /\
    (if sasks hs then exists m, l_cc = [EvRecv m] /\ parse_msg vers m = Ok (MCertificate ders) /\
       client_certs_ok (se E) base ders certs chains /\
       (cf_auth base = RequireAnyClientCert \/ cf_auth base = RequireAndVerifyClientCert -> ders <> []) /\
       match certs with [] => pub = None | c0 :: _ => pub = Some (g_pub c0) /\ (is_rsa (g_pub c0) = true \/ is_ecdsa (g_pub c0) = true) end
     else l_cc = [] /\ ders = [] /\ certs = [] /\ chains = [])).
  { destruct (sasks hs).
    - destruct mm1 as [| | | |ders1| | | | | | | | ]; try now apply unexpected_ok in H11.
      apply bind_ok in H11 as (hx & sx & Hx & H11). prim Hx. subst sx. cbv beta in H11.
      destruct ((zlen ders1 =? 0) && _) eqn:EZ; [now apply fail_with_ok in H11|].
      apply bind_ok in H11 as (p & sp & Hp & H11). apply std_processCerts_inv in Hp as (-> & HC & HP). cbv beta in H11.
      apply bind_ok in H11 as ([mm2 raw2] & sy & Hy & H11). apply readS_ok in Hy as [P2 Hy]. cbv beta in H11.
      prim H11. subst s11. injection H11 as -> -> -> E1. destruct p as [[pub1 certs1] chains1]. injection E1 as -> -> ->. cbn [fst snd] in *.
      exists [EvRecv raw1], mm2, raw2. split; [reflexivity|]. split; [exact P2|]. split; [now rewrite Hy, L10, <- app_assoc|].
      split; [eapply hlog_recv; [exact G9|exact Hx]|].
      exists raw1. split; [reflexivity|]. split; [apply parse_std_msg; [exact P10|discriminate]|]. split; [exact HC|]. split; [|exact HP].
      intros HA ->. destruct HA as [HA|HA]; rewrite HA in EZ; discriminate EZ.
    - prim H11. subst s11. injection H11 as -> -> -> -> -> ->. exists [], mm1, raw1. rewrite app_nil_r. split; [reflexivity|]. split; [exact P10|]. split; [exact L10|]. split; [exact G9|auto]. }
  destruct X11 as (l_cc & mm2 & raw2 & -> & P11 & L11 & G11 & X11). clear H11 P10 L10 s10 mm1 raw1. cbn [fst snd] in H.
  destruct mm2 as [| | | | | | | | |ct| | | ]; try now apply unexpected_ok in H.
  apply bind_ok in H as (h12 & s12 & H12 & H). prim H12. subst s12. cbv beta in H.
  apply (hlog_recv Hs _ _ _ _ _ _ _ _ _ G11) in H12. rewrite <- app_assoc, <- L11 in H12.
  apply bind_ok in H as (pms & s13 & H13 & H). apply orfail_ok in H13 as [Epms ->]. apply of_res_ok in Epms. cbv beta in H.
  apply bind_ok in H as (master & s14 & H14 & H). prim H14. apply of_res_ok in H14. subst s14. cbv beta in H.
  destruct (cf_keylog base (ch_random (st_ch hs)) master) eqn:EK; [now apply fail_with_ok in H|].
  apply bind_ok in H as (h15 & s15 & H15 & H). cbv beta in H. prim H. subst s' f. cbn [sf_sh sf_h sf_master sf_ders sf_certs sf_chains].
  assert (LK : snd s11 = snd s ++ [EvSend m_sh; EvSend m_cert] ++ l_st ++ l_skx ++ l_req ++ [EvSend m_serverHelloDone] ++ l_cc ++ [EvRecv raw2]).
  { rewrite L11, L9, L8, L7, L5, L4, L3. rewrite <- !app_assoc. reflexivity. }
  assert (X15 : exists l_cv, snd s15 = snd s11 ++ l_cv /\
    match certs with
    | [] => l_cv = []
    | c0 :: _ => exists m alg sig sch sigType hash digest, l_cv = [EvRecv m] /\ parse_msg vers m = Ok (MCertificateVerify alg sig) /\
        (is_rsa (g_pub c0) = true \/ is_ecdsa (g_pub c0) = true) /\
        pickSignatureAlgorithm (g_pub c0) [alg] supportedSignatureAlgorithms vers = Ok (sch, sigType, hash) /\
        std_verify E sigType hash (g_pub c0) digest sig = Ok true /\
        (forall Hc, implements (hash_ctor E hash) Hc (2 ^ 61) -> small master -> (vers < VersionTLS12 -> sigType = signatureECDSA \/ sigType = signaturePKCS1v15) ->
         forall ver, version_of vers sha = Some ver -> wire_ok (snd s15) -> digest = signed_transcript Hs ver (sigType =? signaturePKCS1v15) Hc master (transcript (snd s11)))
    end /\ (small master -> (forall h, exists Hc, implements (hash_ctor E h) Hc (2 ^ 61)) -> hlog Hs vers sha d false false (snd s15) h15)).
  { destruct certs as [|c0 cr].
    - prim H15. subst. exists []. rewrite app_nil_r. split; [reflexivity|]. split; [reflexivity|]. intros _ _. exact H12.
    - assert (HPUB : pub = Some (g_pub c0) /\ (is_rsa (g_pub c0) = true \/ is_ecdsa (g_pub c0) = true) /\ sasks hs = true).
      { destruct (sasks hs); [|destruct X11 as (_ & _ & Ec & _); discriminate Ec]. destruct X11 as (? & _ & _ & _ & _ & [? ?]). auto. }
      destruct HPUB as (-> & NPO & HAsk).
      assert (HA : d = false). { apply GD. unfold sasks, RequestClientCert, NoClientCert in *. apply Z.leb_le in HAsk. fold base in HAsk. lia. }
      subst d.
      apply bind_ok in H15 as ([mm raw] & sx & Hx & H15). apply readS_ok in Hx as [Px Lx]. cbv beta in H15. cbn [fst snd] in H15.
      destruct mm as [| | | | | | | | | |alg sig| | ]; try now apply unexpected_ok in H15.
      apply bind_ok in H15 as ([[sch sigType] hash] & sy & Hy & H15). apply orfail_ok in Hy as [Pk ->]. apply of_res_ok in Pk. cbv beta iota in H15.
      destruct (hashForClientCertificate (e_std (se E)) h12 sigType (hash_ctor E hash) master) as [[digest h13]| |] eqn:EH; [|now apply fail_with_ok in H15|now apply panic_ok in H15].
      apply bind_ok in H15 as (ok & sz & Hz & H15). prim Hz. apply of_res_ok in Hz. subst sz. cbv beta in H15. destruct ok; [|now apply fail_with_ok in H15].
      prim H15. subst s15. exists [EvRecv raw]. split; [exact Lx|].
      assert (CV := fun Hc HI Sm HT => hlog_cv (e_std (se E)) Hs HL HG vers sha (snd s11) h12 sigType (hash_ctor E hash) Hc master digest h13 H12 EH HI Sm HT).
      split.
      + exists raw, alg, sig, sch, sigType, hash, digest. split; [reflexivity|]. split; [apply parse_std_msg; [exact Px|discriminate]|]. split; [exact NPO|]. split; [exact Pk|]. split; [exact Hz|].
        intros Hc HI Sm HT ver Ev WO. apply (proj1 (CV Hc HI Sm HT)); [exact Ev|]. rewrite Lx in WO. now apply wire_ok_app in WO as [WO _].
      + intros Sm HX. destruct (HX hash) as [Hc HI]. rewrite Lx. eapply hlog_recv; [|exact H15]. apply (proj2 (CV Hc HI Sm (pick_old _ _ _ _ _ _ _ Pk NPO))). }
  destruct X15 as (l_cv & L15 & XD & XH).
  exists ([EvSend m_sh; EvSend m_cert] ++ l_st ++ l_skx ++ l_req ++ [EvSend m_serverHelloDone] ++ l_cc ++ [EvRecv raw2] ++ l_cv).
  assert (LL : snd s15 = snd s ++ [EvSend m_sh; EvSend m_cert] ++ l_st ++ l_skx ++ l_req ++ [EvSend m_serverHelloDone] ++ l_cc ++ [EvRecv raw2] ++ l_cv).
  { rewrite L15, LK. rewrite <- !app_assoc. reflexivity. }
  split; [exact LL|].
  constructor; cbn [sf_sh sf_h sf_master sf_ders sf_certs sf_chains]; [reflexivity| |].
  - exists m_sh, m_cert, l_st, skx, ka, l_skx, l_req, l_cc, raw2, l_cv, ct, pms.
    split; [reflexivity|]. split; [exact Esh|]. split; [exact Ecert|]. split; [exact X5|]. split; [exact Eskx|]. split; [exact X7|]. split; [exact X8|].
    split. { destruct (sasks hs); [|exact X11]. destruct X11 as (m & ? & ? & ? & ? & _). exists m. auto. }
    split; [apply parse_std_msg; [exact P11|discriminate]|]. split; [exact Epms|]. split; [exact H14|]. split; [exact EK|].
    rewrite <- LL. rewrite LK in XD. exact XD.
  - intros Sm HX. rewrite <- LL. eapply hlog_discard. apply XH; assumption.
Qed.

(** ** Finished messages, tickets, keys *)
Lemma std_server_readFinished_inv vers sha d sv npn h master s s' h' verify proto : std_server_readFinished (C := C) vers npn h master s = (HOk (h', verify, proto), s') ->
  exists l_np m_fin, snd s' = snd s ++ [EvRecvCCS] ++ l_np ++ [EvRecv m_fin] /\ parse_msg vers m_fin = Ok (MFinished verify) /\
    (if npn then exists m p, l_np = [EvRecv m] /\ parse_msg vers m = Ok (MNextProto p) /\ proto = Some p else l_np = [] /\ proto = None) /\
    (small master -> hlog Hs vers sha d false sv (snd s) h ->
       (forall ver, version_of vers sha = Some ver -> wire_ok (snd s') -> verify = client_finished Hs ver master (transcript (snd s ++ [EvRecvCCS] ++ l_np))) /\
       hlog Hs vers sha d true sv (snd s') h').
Proof.
  unfold std_server_readFinished. intros H. apply bind_ok in H as (u & s0 & H0 & H). apply recv_ccs_ok in H0. cbv beta in H.
  apply bind_ok in H as ([h1 proto1] & s1 & H1 & H). cbv beta iota in H.
  assert (X1 : exists l_np, snd s1 = snd s0 ++ l_np /\ (if npn then exists m p, l_np = [EvRecv m] /\ parse_msg vers m = Ok (MNextProto p) /\ proto1 = Some p
                                   else l_np = [] /\ proto1 = None) /\ (forall c, hlog Hs vers sha d c sv (snd s0) h -> hlog Hs vers sha d c sv (snd s1) h1)).
  { destruct npn.
    - apply bind_ok in H1 as ([mm raw] & sx & Hx & H1). apply readS_ok in Hx as [Px Lx]. cbv beta in H1. cbn [fst snd] in H1.
      destruct mm as [| | | | | | | | | | |p| ]; try now apply unexpected_ok in H1.
      apply bind_ok in H1 as (hx & sy & Hy & H1). prim Hy. prim H1. subst. injection H1 as -> ->. exists [EvRecv raw]. split; [exact Lx|].
      split; [exists raw, p; split; [reflexivity|]; split; [apply parse_std_msg; [exact Px|discriminate]|reflexivity]|]. intros c G. rewrite Lx. eapply hlog_recv; eauto.
    - prim H1. subst. injection H1 as -> ->. exists []. split; [now rewrite app_nil_r|auto]. }
  destruct X1 as (l_np & L1 & X1 & G1). clear H1.
  apply bind_ok in H as ([mm raw] & s2 & H2 & H). apply readS_ok in H2 as [P2 L2]. cbv beta in H. cbn [fst snd] in H.
  destruct mm as [| | | | | | | | | | | |vd]; try now apply unexpected_ok in H.
  apply bind_ok in H as ([v h2] & s3 & H3 & H). prim H3. apply of_res_ok in H3. subst s3. cbv beta iota in H.
  destruct (beqb v vd) eqn:EB; [|now apply fail_with_ok in H]. apply beqb_eq in EB. subst vd.
  apply bind_ok in H as (h3 & s3 & W & H). prim W. prim H. subst. injection H as -> -> ->.
  exists l_np, raw. split; [rewrite L2, L1, H0, <- !app_assoc; reflexivity|]. split; [apply parse_std_msg; [exact P2|discriminate]|].
  split; [exact X1|].
  intros Sm G. apply (hlog_skip Hs _ _ _ _ _ _ [EvRecvCCS]) in G; [|reflexivity]. rewrite <- H0 in G. apply G1 in G.
  destruct (hlog_client Hs HG _ _ _ _ _ _ _ _ _ G H3 Sm) as [V G2].
  assert (EL : snd s1 = snd s ++ [EvRecvCCS] ++ l_np) by (rewrite L1, H0, <- app_assoc; reflexivity).
  split.
  - intros ver Ev WO. rewrite <- EL. apply V; [exact Ev|]. rewrite L2 in WO. now apply wire_ok_app in WO as [WO _].
  - rewrite L2. eapply hlog_recv; eauto.
Qed.
Lemma std_ticket_inv cfg rn on vers sha d c sv id master ders h s s' h' : sendSessionTicket (se E) C cfg rn on vers id master ders h s = (HOk h', s') ->
  exists l_t, snd s' = snd s ++ l_t /\
    (if on then exists m t, l_t = [EvSend m] /\ m_newSessionTicket t = Ok m /\
        encryptTicket (e_aes (se E)) (e_sha256 (se E)) (r_iv rn) (cf_keys cfg) (mkSS vers id master ders false) = Ok t
     else l_t = []) /\
    (hlog Hs vers sha d c sv (snd s) h -> hlog Hs vers sha d c sv (snd s') h').
Proof.
  unfold sendSessionTicket. intros H. destruct on; cbn [negb] in H.
  - apply bind_ok in H as (t & s0 & H0 & H). prim H0. apply of_res_ok in H0. subst s0. cbv beta in H.
    pose proof H as H'. apply emit_ok in H' as (m & Em & W & Lg). exists [EvSend m]. split; [exact Lg|]. split; [eauto|]. intros G. rewrite Lg. eapply hlog_send; eauto.
  - prim H. subst. exists []. split; [now rewrite app_nil_r|]. split; [reflexivity|auto].
Qed.
Lemma std_sendFinished_inv vers sha d c h master s s' h' vd : server_sendFinished C h master s = (HOk (h', vd), s') ->
  exists m, snd s' = snd s ++ [EvSendCCS; EvSend m] /\ m_finished vd = Ok m /\
    (small master -> hlog Hs vers sha d c false (snd s) h ->
      (forall ver, version_of vers sha = Some ver -> wire_ok (snd s') -> vd = server_finished Hs ver master (transcript (snd s ++ [EvSendCCS]))) /\ hlog Hs vers sha d c true (snd s') h').
Proof.
  unfold server_sendFinished. intros H. apply bind_ok in H as (u & s0 & H0 & H). apply send_ccs_ok in H0. cbv beta in H.
  apply bind_ok in H as ([v h2] & s3 & H3 & H). prim H3. apply of_res_ok in H3. subst s3. cbv beta iota in H.
  apply bind_ok in H as (h3 & s3 & H4 & H). apply emit_ok in H4 as (m & Em & W & Lg). prim H. subst. injection H as -> ->. exists m.
  split; [rewrite Lg, H0, <- app_assoc; reflexivity|]. split; [exact Em|].
  intros Sm G. apply (hlog_skip Hs _ _ _ _ _ _ [EvSendCCS]) in G; [|reflexivity]. rewrite <- H0 in G.
  destruct (hlog_server Hs HG _ _ _ _ _ _ _ _ _ G H3 Sm) as [V G2]. split.
  - intros ver Ev WO. rewrite <- H0. apply V; [exact Ev|]. rewrite Lg in WO. now apply wire_ok_app in WO as [WO _].
  - rewrite Lg. eapply hlog_send; eauto.
Qed.
Lemma std_server_keys_inv vers su master cr sr s u s' : std_server_keys E (C := C) vers su master cr sr s = (HOk u, s') ->
  exists k, snd s' = snd s ++ [EvKeys k] /\ std_keys (e_std (se E)) vers su master cr sr = HOk k.
Proof. unfold std_server_keys. intros H. apply bind_ok in H as (k & s0 & H0 & H). prim H0. subst. cbv beta in H. prim H. eauto. Qed.

(** ** The whole handshake *)
Record std_server_run (hs : sths (T := T)) (su : suite) (rn : rnds) (r : hresult T) (log : list event) (f : sfull (T := T)) (lf : list event) (k : keyblock)
    (l_np l_t : list event) (m_fin m_sfin cfin sfin : list Z) : Prop := mkSSR {
  ssr_log : log = [EvRecv (st_chraw hs)] ++ lf ++ [EvKeys k; EvRecvCCS] ++ l_np ++ [EvRecv m_fin] ++ l_t ++ [EvSendCCS; EvSend m_sfin];
  ssr_full : std_full_run hs su rn f [EvRecv (st_chraw hs)] lf;
  ssr_keys : std_keys (e_std (se E)) (st_v hs) su (sf_master f) (ch_random (st_ch hs)) (sh_random (sf_sh f)) = HOk k;
  ssr_fin : parse_msg (st_v hs) m_fin = Ok (MFinished cfin) /\ hr_clientFinished r = fin12 cfin;
  ssr_np : if sh_npn (sf_sh f) then exists m p, l_np = [EvRecv m] /\ parse_msg (st_v hs) m = Ok (MNextProto p) /\ hr_proto r = p else l_np = [] /\ hr_proto r = st_proto hs;
  ssr_t : if sh_ticketOn (sf_sh f) then exists m t, l_t = [EvSend m] /\ m_newSessionTicket t = Ok m /\
        encryptTicket (e_aes (se E)) (e_sha256 (se E)) (r_iv rn) (cf_keys (s_cfg (st_cfg hs))) (mkSS (st_v hs) (su_id su) (sf_master f) (sf_ders f) false) = Ok t else l_t = [];
  ssr_val : forall ver, version_of (st_v hs) (su_sha384 su) = Some ver -> wire_ok log -> small (sf_master f) -> (forall h, exists Hc, implements (hash_ctor E h) Hc (2 ^ 61)) ->
     cfin = client_finished Hs ver (sf_master f) (transcript ([EvRecv (st_chraw hs)] ++ lf ++ [EvKeys k; EvRecvCCS] ++ l_np)) /\
     sfin = server_finished Hs ver (sf_master f) (transcript ([EvRecv (st_chraw hs)] ++ lf ++ [EvKeys k; EvRecvCCS] ++ l_np ++ [EvRecv m_fin] ++ l_t ++ [EvSendCCS]));
  ssr_sfin : m_finished sfin = Ok m_sfin;
  ssr_res : hr_vers r = st_v hs /\ hr_suite r = su_id su /\ hr_master r = sf_master f /\ hr_clientRandom r = ch_random (st_ch hs) /\ hr_serverRandom r = sh_random (sf_sh f) /\
     hr_peer r = sf_certs f /\ hr_chains r = sf_chains f /\ hr_serverName r = ch_sni (st_ch hs) }.
(** the abbreviated handshake *)
Definition std_resume_sh (hs : sths (T := T)) (st : sessionState) (su : suite) : serverHello :=
  set_sh_suite (set_sh_ticketOn (set_sh_sessionId (st_sh hs) (ch_sessionId (st_ch hs))) (ss_usedOldKey st)) (su_id su).
Record std_server_rrun (hs : sths (T := T)) (st : sessionState) (su : suite) (rn : rnds) (r : hresult T) (log : list event) (k : keyblock)
    (l_np l_t : list event) (m_sh m_fin m_sfin cfin sfin : list Z) : Prop := mkSRR {
  srr_log : log = [EvRecv (st_chraw hs); EvSend m_sh; EvKeys k] ++ l_t ++ [EvSendCCS; EvSend m_sfin; EvRecvCCS] ++ l_np ++ [EvRecv m_fin];
  srr_sh : m_serverHello (std_resume_sh hs st su) = Ok m_sh;
  srr_keys : std_keys (e_std (se E)) (st_v hs) su (ss_masterSecret st) (ch_random (st_ch hs)) (sh_random (st_sh hs)) = HOk k;
  srr_vers : st_v hs = 0x0101 \/ exists ver, version_of (st_v hs) (su_sha384 su) = Some ver;
  srr_fin : parse_msg (st_v hs) m_fin = Ok (MFinished cfin) /\ hr_serverFinished r = fin12 sfin;
  srr_np : if sh_npn (st_sh hs) then exists m p, l_np = [EvRecv m] /\ parse_msg (st_v hs) m = Ok (MNextProto p) /\ hr_proto r = p else l_np = [] /\ hr_proto r = st_proto hs;
  srr_t : if ss_usedOldKey st then exists m t, l_t = [EvSend m] /\ m_newSessionTicket t = Ok m /\
        encryptTicket (e_aes (se E)) (e_sha256 (se E)) (r_iv rn) (cf_keys (s_cfg (st_cfg hs))) (mkSS (st_v hs) (su_id su) (ss_masterSecret st) (ss_certificates st) false) = Ok t else l_t = [];
  srr_val : forall ver, version_of (st_v hs) (su_sha384 su) = Some ver -> wire_ok log -> small (ss_masterSecret st) ->
     sfin = server_finished Hs ver (ss_masterSecret st) (transcript ([EvRecv (st_chraw hs); EvSend m_sh; EvKeys k] ++ l_t ++ [EvSendCCS])) /\
     cfin = client_finished Hs ver (ss_masterSecret st) (transcript ([EvRecv (st_chraw hs); EvSend m_sh; EvKeys k] ++ l_t ++ [EvSendCCS; EvSend m_sfin; EvRecvCCS] ++ l_np));
  srr_sfin : m_finished sfin = Ok m_sfin;
  srr_certs : client_certs_ok (se E) (s_cfg (st_cfg hs)) (ss_certificates st) (hr_peer r) (hr_chains r) \/ (ss_certificates st = [] /\ hr_peer r = [] /\ hr_chains r = []);
  srr_res : hr_vers r = st_v hs /\ hr_suite r = su_id su /\ hr_master r = ss_masterSecret st /\ hr_clientRandom r = ch_random (st_ch hs) /\ hr_serverRandom r = sh_random (st_sh hs) /\
     hr_serverName r = ch_sni (st_ch hs) }.

Lemma std_server_resume_inv hs st su sh h certs chains s s' : std_server_resume E (C := C) hs st su s = (HOk (sh, h, certs, chains), s') -> snd s = [EvRecv (st_chraw hs)] ->
  (st_v hs = 0x0101 \/ exists ver, version_of (st_v hs) (su_sha384 su) = Some ver) /\
  exists m_sh, sh = std_resume_sh hs st su /\ snd s' = snd s ++ [EvSend m_sh] /\ m_serverHello sh = Ok m_sh /\ hlog Hs (st_v hs) (su_sha384 su) true false false (snd s') h /\
    (client_certs_ok (se E) (s_cfg (st_cfg hs)) (ss_certificates st) certs chains \/ (ss_certificates st = [] /\ certs = [] /\ chains = [])).
Proof.
  unfold std_server_resume. cbv zeta. fold (std_resume_sh hs st su). intros H L0.
  apply bind_ok in H as (h0 & s0 & H0 & H). prim H0. apply of_res_ok in H0. subst s0. cbv beta in H. split; [eapply newFinishedHash_vers; exact H0|].
  apply (hlog_new _ Hs HL HG), hlog_discard in H0.
  apply bind_ok in H as (h1 & s1 & H1 & H). prim H1. subst s1. cbv beta in H. apply (hlog_recv Hs _ _ _ _ _ _ _ _ _ H0) in H1. cbn [app] in H1. rewrite <- L0 in H1.
  apply bind_ok in H as (h2 & s2 & H2 & H). apply (hlog_emit Hs _ _ _ _ _ _ _ _ _ _ H1) in H2 as (m_sh & Esh & L2 & G2). cbv beta in H.
  exists m_sh. destruct (Z.ltb_spec 0 (zlen (ss_certificates st))) as [HC|HC].
  - apply bind_ok in H as ([[pub cs] chs] & s3 & H3 & H). cbv beta iota in H. apply std_processCerts_inv in H3 as (-> & HCC & _). cbn [fst snd] in HCC.
    prim H. subst. injection H as -> -> -> ->. auto 10.
  - prim H. subst. injection H as -> -> -> ->. split; [reflexivity|]. split; [exact L2|]. split; [exact Esh|]. split; [exact G2|]. right. split; [|auto].
    destruct (ss_certificates st); [reflexivity|]. unfold zlen in HC. cbn [length] in HC. lia.
Qed.

Lemma std_serverHandshake_inv cfg getcfg rn c r c' log : std_serverHandshake E C cfg getcfg rn (c, []) = (HOk r, (c', log)) ->
  exists hs, (exists s0, std_server_hello E (C := C) cfg getcfg rn (c, []) = (HOk hs, s0)) /\
   ((exists st su k l_np l_t m_sh m_fin m_sfin cfin sfin, std_checkForResumption E hs = Some (st, su) /\ hr_resumed r = true /\
       std_server_rrun hs st su rn r log k l_np l_t m_sh m_fin m_sfin cfin sfin) \/
    (hr_resumed r = false /\ std_checkForResumption E hs = None /\
     exists su f lf k l_np l_t m_fin m_sfin cfin sfin,
       negotiate_suite cipherSuites (st_ok hs (st_v hs)) (cf_prefer (s_cfg (st_cfg hs))) (cfg_cipherSuites (cf_suites (s_cfg (st_cfg hs)))) (ch_suites (st_ch hs)) = Some su /\
       bad_fallback (ch_suites (st_ch hs)) (ch_vers (st_ch hs)) (maxVersion (cf_max (s_cfg (st_cfg hs)))) = false /\
       (st_v hs = 0x0101 \/ exists ver, version_of (st_v hs) (su_sha384 su) = Some ver) /\
       std_server_run hs su rn r log f lf k l_np l_t m_fin m_sfin cfin sfin)).
Proof.
  unfold std_serverHandshake. intros H. apply bind_ok in H as (hs & s0 & H0 & H). cbv beta zeta in H.
  exists hs. split; [eauto|]. apply std_server_hello_inv in H0 as (random & L0 & _ & _ & _ & _ & _ & _ & _ & _ & _ & _ & _ & _ & SH0 & _). cbn [snd app] in L0. cbv zeta in SH0.
  destruct (std_checkForResumption E hs) as [[st su]|] eqn:ER.
  - left. apply bind_ok in H as ([[[sh h] certs] chains] & s1 & H1 & H). cbv beta iota zeta in H.
    apply (std_server_resume_inv _ _ _ _ _ _ _ _ _ H1) in L0 as X1. destruct X1 as (VV & m_sh & -> & L1 & Esh & G1 & XC). clear H1.
    apply bind_ok in H as (u & s2 & H2 & H). apply std_server_keys_inv in H2 as (k & L2 & EK). cbv beta in H.
    apply (hlog_skip Hs _ _ _ _ _ _ [EvKeys k]) in G1; [|reflexivity]. rewrite <- L2 in G1.
    apply bind_ok in H as (h3 & s3 & H3 & H). cbv beta in H. apply (std_ticket_inv _ _ _ _ (su_sha384 su) true false false) in H3 as (l_t & L3 & T3 & V3). apply V3 in G1.
    apply bind_ok in H as ([h4 sfin] & s4 & H4 & H). cbv beta iota in H. apply (std_sendFinished_inv (st_v hs) (su_sha384 su) true false) in H4 as (m_sfin & L4 & M4 & V4).
    apply bind_ok in H as ([[h5 cfin] proto] & s5 & H5 & H). cbv beta iota in H.
    apply (std_server_readFinished_inv _ (su_sha384 su) true true) in H5 as (l_np & m_fin & L5 & P5 & N5 & V5).
    prim H. subst s5 r. cbn [snd] in L5.
    assert (SR : sh_random (std_resume_sh hs st su) = sh_random (st_sh hs)) by reflexivity.
    assert (SN : sh_npn (std_resume_sh hs st su) = sh_npn (st_sh hs)) by reflexivity.
    assert (ST : sh_ticketOn (std_resume_sh hs st su) = ss_usedOldKey st) by reflexivity.
    rewrite SR in EK. rewrite SN in N5. rewrite ST in T3.
    assert (LG3 : snd s3 = [EvRecv (st_chraw hs); EvSend m_sh; EvKeys k] ++ l_t).
    { rewrite L3, L2, L1, L0. reflexivity. }
    assert (LG4 : snd s4 = [EvRecv (st_chraw hs); EvSend m_sh; EvKeys k] ++ l_t ++ [EvSendCCS; EvSend m_sfin]).
    { rewrite L4, LG3, <- app_assoc. reflexivity. }
    assert (LG : log = [EvRecv (st_chraw hs); EvSend m_sh; EvKeys k] ++ l_t ++ [EvSendCCS; EvSend m_sfin; EvRecvCCS] ++ l_np ++ [EvRecv m_fin]).
    { rewrite L5, LG4, <- !app_assoc. reflexivity. }
    exists st, su, k, l_np, l_t, m_sh, m_fin, m_sfin, cfin, sfin. split; [reflexivity|]. split; [reflexivity|].
    constructor; cbn [hr_serverFinished hr_proto hr_vers hr_suite hr_master hr_clientRandom hr_serverRandom hr_peer hr_chains hr_serverName]; auto.
    + destruct (sh_npn (st_sh hs)); [destruct N5 as (m & p & ? & ? & ->); eauto|destruct N5 as [-> ->]; auto].
    + intros ver Ev WO Sm. destruct (V4 Sm G1) as [V4a G4]. destruct (V5 Sm G4) as [V5a _].
      assert (W4 : wire_ok (snd s4)). { rewrite L5 in WO. now apply wire_ok_app in WO as [WO _]. }
      split.
      * rewrite (V4a ver Ev W4), LG3, <- app_assoc. reflexivity.
      * rewrite (V5a ver Ev WO), LG4, <- !app_assoc. reflexivity.
    + repeat split; auto.
  - right. apply bind_ok in H as (su & s1 & H1 & H). cbv beta in H.
    assert (X1 : negotiate_suite cipherSuites (st_ok hs (st_v hs)) (cf_prefer (s_cfg (st_cfg hs))) (cfg_cipherSuites (cf_suites (s_cfg (st_cfg hs)))) (ch_suites (st_ch hs)) = Some su /\
       bad_fallback (ch_suites (st_ch hs)) (ch_vers (st_ch hs)) (maxVersion (cf_max (s_cfg (st_cfg hs)))) = false /\ s1 = s0).
    { unfold std_suite in H1. destruct (negotiate_suite _ _ _ _ _) as [su'|]; [|now apply fail_with_ok in H1].
      destruct (bad_fallback _ _ _); [now apply fail_with_ok in H1|]. prim H1. subst. auto. }
    destruct X1 as (X1 & X2 & ->). clear H1.
    apply bind_ok in H as (f & s2 & H2 & H). cbv beta in H.
    apply (fun X => std_server_full_inv _ _ _ _ _ _ X L0) in H2 as (VV & lf & L2 & HF). rewrite L0 in L2, HF.
    apply bind_ok in H as (u3 & s3 & H3 & H). apply std_server_keys_inv in H3 as (k & L3 & EK). cbv beta in H.
    apply bind_ok in H as ([[h4 cfin] proto] & s4 & H4 & H). cbv beta iota in H.
    apply (std_server_readFinished_inv _ (su_sha384 su) true false) in H4 as (l_np & m_fin & L4 & P4 & N4 & V4).
    apply bind_ok in H as (h5 & s5 & H5 & H). cbv beta in H. apply (std_ticket_inv _ _ _ _ (su_sha384 su) true true false) in H5 as (l_t & L5 & T5 & V5).
    apply bind_ok in H as ([h6 sfin] & s6 & H6 & H). cbv beta in H. apply (std_sendFinished_inv (st_v hs) (su_sha384 su) true true) in H6 as (m_sfin & L6 & M6 & V6).
    prim H. subst s6 r. cbn [snd] in L6.
    split; [reflexivity|]. split; [reflexivity|]. exists su, f, lf, k, l_np, l_t, m_fin, m_sfin, cfin, sfin. split; [exact X1|]. split; [exact X2|]. split; [exact VV|].
    assert (LG3 : snd s3 = [EvRecv (st_chraw hs)] ++ lf ++ [EvKeys k]) by (rewrite L3, L2, <- app_assoc; reflexivity).
    assert (LG4 : snd s4 = [EvRecv (st_chraw hs)] ++ lf ++ [EvKeys k; EvRecvCCS] ++ l_np ++ [EvRecv m_fin]) by (rewrite L4, LG3, <- !app_assoc; reflexivity).
    assert (LG5 : snd s5 = [EvRecv (st_chraw hs)] ++ lf ++ [EvKeys k; EvRecvCCS] ++ l_np ++ [EvRecv m_fin] ++ l_t) by (rewrite L5, LG4, <- !app_assoc; reflexivity).
    assert (LG : log = [EvRecv (st_chraw hs)] ++ lf ++ [EvKeys k; EvRecvCCS] ++ l_np ++ [EvRecv m_fin] ++ l_t ++ [EvSendCCS; EvSend m_sfin]) by (rewrite L6, LG5, <- !app_assoc; reflexivity).
    constructor; cbn [hr_clientFinished hr_proto hr_vers hr_suite hr_master hr_clientRandom hr_serverRandom hr_peer hr_chains hr_serverName]; auto.
    + destruct (sh_npn (sf_sh f)); [destruct N4 as (m & p & ? & ? & ->); eauto|destruct N4 as [-> ->]; auto].
    + intros ver Ev WO Sm HX. pose proof (tr_hash _ _ _ _ _ _ HF Sm HX) as G2. rewrite <- L2 in G2.
      apply (hlog_skip Hs _ _ _ _ _ _ [EvKeys k]) in G2; [|reflexivity]. rewrite <- L3 in G2.
      destruct (V4 Sm G2) as [V4a G4]. apply V5 in G4. destruct (V6 Sm G4) as [V6a _].
      assert (W5 : wire_ok (snd s5)) by (rewrite L6 in WO; now apply wire_ok_app in WO as [WO _]).
      assert (W4 : wire_ok (snd s4)) by (rewrite L5 in W5; now apply wire_ok_app in W5 as [W5 _]).
      split.
      * rewrite (V4a ver Ev W4), LG3, <- !app_assoc. reflexivity.
      * rewrite (V6a ver Ev WO), LG5, <- !app_assoc. reflexivity.
    + repeat split.
Qed.
End Server.

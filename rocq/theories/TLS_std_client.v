(** Inversion of the ordinary TLS client's handshake. *)
From Verif Require Import GoBase GoLemmas BigBytes Asn1_model X509_spec SM2_model TLS_record_model TLS_prf_model TLS_prf_spec TLS_prf_proofs
  TLS_gmka_model TLS_ticket_model TLS_msg_model TLS_neg_model TLS_hs_model TLS_hs_proofs TLS_hs_bytes TLS_hs_server TLS_hs_spec TLS_std_model TLS_std_spec TLS_std_proofs TLS_std_server.
From Verif Require X509_model P_TLS_neg P_TLS_prf.
Open Scope Z_scope.
#[local] Opaque fh_Write discardHandshakeBuffer clientSum serverSum PRF newFinishedHash hashForClientCertificate.

Section Client.
Context {T : Type} (E : senv T) {C : chan} (Hs : hashes) (HL : std_impl (e_std (se E)) Hs) (HG : good_hashes Hs).
Implicit Types s : hst C.
Lemma hlog_cv_inv vers sha l h sigType I Hc secret v h' : hlog Hs vers sha false false false l h -> hashForClientCertificate (e_std (se E)) h sigType I secret = Ok (v, h') ->
  implements I Hc (2 ^ 61) -> small secret -> hlog Hs vers sha false false false l h'.
Proof.
  intros H E0 HI Sm ver Ev WO. specialize (H ver Ev WO). pose proof (version_of_inv _ _ _ Ev) as (EV & NG & _).
  pose proof (hashForClientCertificate_ok _ Hs HL HG ver _ _ _ h sigType I Hc secret H eq_refl eq_refl HI (proj2 WO) Sm) as X. rewrite E0 in X.
  assert (F : forall w hh, (exists h'' : finishedHash, Ok (v, h') = Ok (w, h'') /\ hh h'') -> hh h'). { intros w hh (h2 & E2 & H2). injection E2 as <- <-. auto. }
  destruct ver as [| | |b|]; try (apply F in X; exact X). destruct (sigType =? signaturePKCS1v15); [|discriminate]. apply F in X. exact X.
Qed.

(** ** The server's certificates *)
Definition std_roots (cfg : sconfig T) : option X509_model.pool := match cf_rootCAs (s_cfg cfg) with Some p => Some p | None => e_sysroots (se E) end.
Definition std_verify_opts (cfg : sconfig T) (roots : X509_model.pool) (rest : list (gcert T)) : X509_model.options :=
  X509_model.mkOpts (cf_serverName (s_cfg cfg)) (cf_time (s_cfg cfg)) (Some (fold_left X509_model.AddCert (map g_cert rest) X509_model.NewCertPool)) roots [].
Definition std_certs_ok (cfg : sconfig T) (pr : option (prior T)) (ders : list (list Z)) (certs : list (gcert T)) (chains : list (list cert)) : Prop :=
  match pr with
  | None => Forall2 (fun d x => e_parse (se E) d = Some x) ders certs /\
      (exists c0 rest, certs = c0 :: rest /\ (is_rsa (g_pub c0) = true \/ is_ecdsa (g_pub c0) = true) /\
        (if cf_skip (s_cfg cfg) then chains = [] else exists roots, std_roots cfg = Some roots /\ x509_verify (se E) (std_verify_opts cfg roots rest) c0 = Some chains)) /\
      (forall g, cf_verifyPeer (s_cfg cfg) = Some g -> g ders chains = None)
  | Some p => certs = pr_peer p /\ chains = pr_chains p /\ exists c0 rest d0 dr, pr_peer p = c0 :: rest /\ ders = d0 :: dr /\ raw (g_cert c0) = d0
  end.
Lemma std_server_certs_inv cfg pr ders cc s s' : std_server_certs E (C := C) cfg pr ders s = (HOk cc, s') -> s' = s /\ std_certs_ok cfg pr ders (fst cc) (snd cc).
Proof.
  unfold std_server_certs. intros H. destruct pr as [p|]; unfold std_certs_ok.
  - destruct (pr_peer p) as [|c0 rest] eqn:EP; [now apply panic_ok in H|]. destruct ders as [|d0 dr]; [now apply panic_ok in H|].
    destruct (beqb (raw (g_cert c0)) d0) eqn:EB; [|now apply fail_with_ok in H]. prim H. subst. cbn [fst snd]. apply beqb_eq in EB. split; [reflexivity|]. split; [reflexivity|]. split; [reflexivity|]. exists c0, rest, d0, dr. auto.
  - destruct (parse_all (se E) ders) as [certs|] eqn:EP; [|now apply fail_with_ok in H]. apply parse_all_ok in EP.
    destruct certs as [|c0 rest]; [now apply panic_ok in H|].
    apply bind_ok in H as (chains & s1 & H1 & H). cbv beta in H.
    assert (X : s1 = s /\ if cf_skip (s_cfg cfg) then chains = [] else exists roots, std_roots cfg = Some roots /\ x509_verify (se E) (std_verify_opts cfg roots rest) c0 = Some chains).
    { destruct (cf_skip (s_cfg cfg)); [prim H1; auto|]. fold (std_roots cfg) in H1. destruct (std_roots cfg) as [roots|]; [|now apply fail_with_ok in H1]. cbv zeta in H1. fold (std_verify_opts cfg roots rest) in H1.
      destruct (x509_verify _ _ _) as [ch|] eqn:EV; [|now apply fail_with_ok in H1]. prim H1. subst. eauto. }
    destruct X as [-> X].
    destruct (match cf_verifyPeer (s_cfg cfg) with Some f => f ders chains | None => None end) eqn:EG; [now apply fail_with_ok in H|].
    assert (Y : s' = s /\ cc = (c0 :: rest, chains) /\ (is_rsa (g_pub c0) = true \/ is_ecdsa (g_pub c0) = true)).
    { destruct (g_pub c0); try now apply fail_with_ok in H.
      - prim H. subst. cbn. auto.
      - prim H. subst. cbn. auto. }
    destruct Y as (-> & -> & Y). cbn [fst snd]. split; [reflexivity|]. split; [exact EP|]. split; [exists c0, rest; auto|]. intros g HV. rewrite HV in EG. exact EG.
Qed.

(** ** The client's certificate *)
Definition no_client_certs (cfg : sconfig T) : bool := match s_certs cfg, s_getClientCert cfg with [], None => true | _, _ => false end.
Definition chosen_cert (cfg : sconfig T) (vers : Z) (cr : certRequest) (c : scertificate T) : Prop :=
  match s_getClientCert cfg with
  | Some f => exists schemes, f (cr_cas cr) schemes = Ok (Some c) /\ (VersionTLS12 <= vers -> schemes = cr_sigs cr)
  | None => In c (s_certs cfg) \/ sc_chain c = []
  end.
Lemma std_find_chain_in ra ea cas certs : forall c, std_find_chain E ra ea cas certs = Ok c -> In c certs \/ sc_chain c = [].
Proof.
  induction certs as [|ce certs IH]; cbn [std_find_chain]; intros c H; [injection H as <-; now right|].
  apply rbind_ok in H as (b & _ & H). destruct b; [injection H as <-; left; now left|]. destruct (IH _ H); [left; now right|now right].
Qed.
Lemma std_getCertificate_inv cfg vers cr oc s s' : std_getCertificate E (C := C) cfg vers cr s = (HOk oc, s') ->
  snd s' = snd s /\ forall c, oc = Some c -> chosen_cert cfg vers cr c.
Proof.
  unfold std_getCertificate, chosen_cert. cbv zeta. destruct (s_getClientCert cfg) as [f|]; intros H.
  - prim H. apply of_res_ok in H. subst. split; [reflexivity|]. intros c ->. eexists. split; [exact H|]. intros HV. replace (VersionTLS12 <=? vers) with true by (symmetry; now apply Z.leb_le). reflexivity.
  - destruct (std_find_chain _ _ _ _ _) as [c| |] eqn:EF; [|now (apply bind_ok in H as (? & ? & ? & H); apply fail_with_ok in H)|now apply panic_ok in H].
    prim H. subst. split; [reflexivity|]. intros c' [= <-]. eapply std_find_chain_in; eauto.
Qed.
Lemma chosen_buffer cfg vers cr c : chosen_cert cfg vers cr c -> sc_chain c <> [] -> no_client_certs cfg = false.
Proof. unfold chosen_cert, no_client_certs. destruct (s_getClientCert cfg); [destruct (s_certs cfg); reflexivity|]. destruct (s_certs cfg); [intros [[]|H] HN; congruence|reflexivity]. Qed.

(** ** doFullHandshake *)
Definition leaf_key (f : cfull (T := T)) : pubk T := match cf_peer f with c0 :: _ => g_pub c0 | [] => PkOther end.
Record std_cfull_run (cfg : sconfig T) (rn : rnds) (pr : option (prior T)) (vers : Z) (hello : clientHello) (sh : serverHello) (su : suite) (f : cfull (T := T)) (l0 l : list event) : Prop := mkSCR {
  tc_flow : exists m_cert ders l_st l_skx ka l_req req chain m_done l_cc pms ct m_ckx l_cv,
    l = [EvRecv m_cert] ++ l_st ++ l_skx ++ l_req ++ [EvRecv m_done] ++ l_cc ++ [EvSend m_ckx] ++ l_cv /\
    parse_msg vers m_cert = Ok (MCertificate ders) /\ ders <> [] /\ std_certs_ok cfg pr ders (cf_peer f) (cf_chains f) /\
    (l_st = [] \/ sh_ocsp sh = true /\ exists m st, l_st = [EvRecv m] /\ parse_msg vers m = Ok (MCertificateStatus st)) /\
    ((l_skx = [] /\ ka = (0, [])) \/ exists m key, l_skx = [EvRecv m] /\ parse_msg vers m = Ok (MServerKeyExchange key) /\
       std_processSKX E vers su hello (sh_random sh) (leaf_key f) key = Ok ka) /\
    ((l_req = [] /\ req = None /\ chain = None /\ l_cc = []) \/ exists m cr c mc, l_req = [EvRecv m] /\ parse_std vers m = Ok (MCertificateRequest cr) /\ req = Some cr /\ chain = Some c /\
       chosen_cert cfg vers cr c /\ l_cc = [EvSend mc] /\ m_certificate (sc_chain c) = Ok mc) /\
    parse_msg vers m_done = Ok MServerHelloDone /\
    std_generateCKX E rn su ka (ch_vers hello) (leaf_key f) = Ok (pms, ct) /\ m_clientKeyExchange ct = Ok m_ckx /\
    masterFromPreMasterSecret (e_std (se E)) vers (su_sha384 su) pms (ch_random hello) (sh_random sh) = Ok (cf_master f) /\
    cf_keylog (s_cfg cfg) (ch_random hello) (cf_master f) = None /\
    match chain with
    | None => l_cv = []
    | Some c => match sc_chain c with [] => l_cv = [] | _ => exists sign m alg st hash digest sig, k_sign (sc_key c) = Some sign /\
        pickSignatureAlgorithm (k_pub (sc_key c)) (match req with Some cr => cr_sigs cr | None => [] end) (ch_sigalgs hello) vers = Ok (alg, st, hash) /\
        sign st hash (r_sign rn) digest = Ok sig /\ l_cv = [EvSend m] /\ m_certificateVerify (VersionTLS12 <=? vers) (alg, sig) = Ok m /\
        (forall Hc, implements (hash_ctor E hash) Hc (2 ^ 61) -> (vers < VersionTLS12 -> st = signatureECDSA \/ st = signaturePKCS1v15) ->
         forall ver, version_of vers (su_sha384 su) = Some ver -> wire_ok (l0 ++ l) ->
         digest = signed_transcript Hs ver (st =? signaturePKCS1v15) Hc []
                    (transcript (l0 ++ [EvRecv m_cert] ++ l_st ++ l_skx ++ l_req ++ [EvRecv m_done] ++ l_cc ++ [EvSend m_ckx]))) end
    end;
  tc_hash : (forall h, exists Hc, implements (hash_ctor E h) Hc (2 ^ 61)) -> hlog Hs vers (su_sha384 su) true false false (l0 ++ l) (cf_h f) }.

Lemma small_nil : small []. Proof. split; [constructor|reflexivity]. Qed.
Lemma std_client_full_inv cfg rn pr vers hello sh su h f s s' : std_client_full E (C := C) cfg rn pr vers hello sh su h s = (HOk f, s') ->
  hlog Hs vers (su_sha384 su) (no_client_certs cfg) false false (snd s) h ->
  exists l, snd s' = snd s ++ l /\ std_cfull_run cfg rn pr vers hello sh su f (snd s) l.
Proof.
  unfold std_client_full. cbv zeta. intros H G0. set (sha := su_sha384 su) in *. set (d := no_client_certs cfg) in *.
  apply bind_ok in H as ([mm m_cert] & s1 & H1 & H). apply readS_ok in H1 as [P1 L1]. cbv beta in H. cbn [fst snd] in H.
  destruct mm as [| | | |ders| | | | | | | | ]; try now apply unexpected_ok in H.
  destruct (zlen ders =? 0) eqn:ZD; [now apply unexpected_ok in H|].
  apply bind_ok in H as (h1 & s2 & W1 & H). prim W1. subst s2. cbv beta in H. apply (hlog_recv Hs _ _ _ _ _ _ _ _ _ G0) in W1. rewrite <- L1 in W1.
  apply bind_ok in H as ([certs chains] & s2 & H2 & H). apply std_server_certs_inv in H2 as [-> CO]. cbv beta iota in H. cbn [fst snd] in CO.
  set (lk := match certs with c0 :: _ => g_pub c0 | [] => PkOther end) in *.
  apply bind_ok in H as ([mm m2] & s2 & H2 & H). apply readS_ok in H2 as [P2 L2]. cbv beta in H. cbn [fst snd] in H.
  (* CertificateStatus *)
  apply bind_ok in H as ([h2 [mm3 m3]] & s3 & H3 & H). cbv beta iota in H. cbn [fst snd] in H.
  assert (X3 : exists l_st, snd s3 = snd s1 ++ l_st ++ [EvRecv m3] /\ parse_std vers m3 = Ok mm3 /\ hlog Hs vers sha d false false (snd s1 ++ l_st) h2 /\
     (l_st = [] \/ sh_ocsp sh = true /\ exists m st, l_st = [EvRecv m] /\ parse_msg vers m = Ok (MCertificateStatus st))).
  { assert (D : (h2, (mm3, m3)) = (h1, (mm, m2)) /\ s3 = s2 -> exists l_st, snd s3 = snd s1 ++ l_st ++ [EvRecv m3] /\ parse_std vers m3 = Ok mm3 /\ hlog Hs vers sha d false false (snd s1 ++ l_st) h2 /\
     (l_st = [] \/ sh_ocsp sh = true /\ exists m st, l_st = [EvRecv m] /\ parse_msg vers m = Ok (MCertificateStatus st))).
    { intros [[= -> -> ->] ->]. exists []. cbn [app]. rewrite app_nil_r. split; [exact L2|]. split; [exact P2|]. split; [exact W1|now left]. }
    destruct mm as [| | | | | |stt| | | | | | ]; try (prim H3; apply D; split; congruence). clear D.
    destruct (sh_ocsp sh); cbn [negb] in H3; [|now apply fail_with_ok in H3].
    apply bind_ok in H3 as (hx & sx & Wx & H3). prim Wx. subst sx. cbv beta in H3. apply (hlog_recv Hs _ _ _ _ _ _ _ _ _ W1) in Wx.
    apply bind_ok in H3 as ([mm4 m4] & sx & Hx & H3). apply readS_ok in Hx as [Px Lx]. prim H3. subst s3. injection H3 as -> -> ->.
    exists [EvRecv m2]. rewrite Lx, L2, <- app_assoc. split; [reflexivity|]. split; [exact Px|]. split; [exact Wx|]. right. split; [reflexivity|]. exists m2. eexists. split; [reflexivity|]. apply parse_std_msg; [exact P2|discriminate]. }
  destruct X3 as (l_st & L3 & P3 & G3 & X3). clear H3 P2 L2.
  (* ServerKeyExchange *)
  apply bind_ok in H as ([[h4 ka] [mm4 m4]] & s4 & H4 & H). cbv beta iota in H. cbn [fst snd] in H.
  assert (X4 : exists l_skx, snd s4 = snd s1 ++ l_st ++ l_skx ++ [EvRecv m4] /\ parse_std vers m4 = Ok mm4 /\ hlog Hs vers sha d false false (snd s1 ++ l_st ++ l_skx) h4 /\
     ((l_skx = [] /\ ka = (0, [])) \/ exists m key, l_skx = [EvRecv m] /\ parse_msg vers m = Ok (MServerKeyExchange key) /\ std_processSKX E vers su hello (sh_random sh) lk key = Ok ka)).
  { assert (D : (h4, ka, (mm4, m4)) = (h2, (0, []), (mm3, m3)) /\ s4 = s3 -> exists l_skx, snd s4 = snd s1 ++ l_st ++ l_skx ++ [EvRecv m4] /\ parse_std vers m4 = Ok mm4 /\ hlog Hs vers sha d false false (snd s1 ++ l_st ++ l_skx) h4 /\
     ((l_skx = [] /\ ka = (0, [])) \/ exists m key, l_skx = [EvRecv m] /\ parse_msg vers m = Ok (MServerKeyExchange key) /\ std_processSKX E vers su hello (sh_random sh) lk key = Ok ka)).
    { intros [[= -> -> -> ->] ->]. exists []. cbn [app]. rewrite !app_nil_r. split; [exact L3|]. split; [exact P3|]. split; [exact G3|now left]. }
    destruct mm3 as [| | | | | | |key| | | | | ]; try (prim H4; apply D; split; congruence). clear D.
    apply bind_ok in H4 as (hx & sx & Wx & H4). prim Wx. subst sx. cbv beta in H4. apply (hlog_recv Hs _ _ _ _ _ _ _ _ _ G3) in Wx.
    apply bind_ok in H4 as (kx & sx & Hx & H4). prim Hx. apply of_res_ok in Hx. subst sx. cbv beta in H4.
    apply bind_ok in H4 as ([mm5 m5] & sx & Hy & H4). apply readS_ok in Hy as [Py Ly]. prim H4. subst s4. injection H4 as -> -> -> ->.
    exists [EvRecv m3]. rewrite Ly, L3, <- !app_assoc. split; [reflexivity|]. split; [exact Py|]. split; [rewrite app_assoc; exact Wx|]. right. exists m3, key. split; [reflexivity|]. split; [apply parse_std_msg; [exact P3|discriminate]|exact Hx]. }
  destruct X4 as (l_skx & L4 & P4 & G4 & X4). clear H4 P3 L3 G3.
  (* CertificateRequest *)
  apply bind_ok in H as ([[[h5 req] chain] [mm5 m5]] & s5 & H5 & H). cbv beta iota in H. cbn [fst snd] in H.
  assert (X5 : exists l_req, snd s5 = snd s1 ++ l_st ++ l_skx ++ l_req ++ [EvRecv m5] /\ parse_std vers m5 = Ok mm5 /\ hlog Hs vers sha d false false (snd s1 ++ l_st ++ l_skx ++ l_req) h5 /\
     ((l_req = [] /\ req = None /\ chain = None) \/ exists m cr, l_req = [EvRecv m] /\ parse_std vers m = Ok (MCertificateRequest cr) /\ req = Some cr /\ forall c, chain = Some c -> chosen_cert cfg vers cr c)).
  { assert (D : (h5, req, chain, (mm5, m5)) = (h4, None, None, (mm4, m4)) /\ s5 = s4 -> exists l_req, snd s5 = snd s1 ++ l_st ++ l_skx ++ l_req ++ [EvRecv m5] /\ parse_std vers m5 = Ok mm5 /\ hlog Hs vers sha d false false (snd s1 ++ l_st ++ l_skx ++ l_req) h5 /\
     ((l_req = [] /\ req = None /\ chain = None) \/ exists m cr, l_req = [EvRecv m] /\ parse_std vers m = Ok (MCertificateRequest cr) /\ req = Some cr /\ forall c, chain = Some c -> chosen_cert cfg vers cr c)).
    { intros [[= -> -> -> -> ->] ->]. exists []. cbn [app]. rewrite !app_nil_r. split; [exact L4|]. split; [exact P4|]. split; [exact G4|now left]. }
    destruct mm4 as [| | | | |cr| | | | | | | ]; try (prim H5; apply D; split; congruence). clear D.
    apply bind_ok in H5 as (hx & sx & Wx & H5). prim Wx. subst sx. cbv beta in H5. apply (hlog_recv Hs _ _ _ _ _ _ _ _ _ G4) in Wx.
    apply bind_ok in H5 as (oc & sx & Hx & H5). apply std_getCertificate_inv in Hx as [Lx Hx]. cbv beta in H5.
    apply bind_ok in H5 as ([mm6 m6] & sy & Hy & H5). apply readS_ok in Hy as [Py Ly]. prim H5. subst s5. injection H5 as -> -> -> -> ->.
    exists [EvRecv m4]. rewrite Ly, Lx, L4, <- !app_assoc. split; [reflexivity|]. split; [exact Py|]. rewrite <- !app_assoc in Wx. split; [exact Wx|]. right. exists m4, cr. auto. }
  destruct X5 as (l_req & L5 & P5 & G5 & X5). clear H5 P4 L4 G4.
  destruct mm5 as [| | | | | | | | | | | | ]; try now apply unexpected_ok in H.
  apply bind_ok in H as (h6 & s6 & W6 & H). prim W6. subst s6. cbv beta in H. apply (hlog_recv Hs _ _ _ _ _ _ _ _ _ G5) in W6. rewrite <- !app_assoc, <- L5 in W6.
  (* Certificate *)
  apply bind_ok in H as (h7 & s7 & H7 & H). cbv beta in H.
  assert (X7 : exists l_cc, snd s7 = snd s5 ++ l_cc /\ hlog Hs vers sha d false false (snd s7) h7 /\
    ((l_req = [] /\ req = None /\ chain = None /\ l_cc = []) \/ exists m cr c mc, l_req = [EvRecv m] /\ parse_std vers m = Ok (MCertificateRequest cr) /\ req = Some cr /\ chain = Some c /\
       chosen_cert cfg vers cr c /\ l_cc = [EvSend mc] /\ m_certificate (sc_chain c) = Ok mc)).
  { destruct X5 as [(-> & -> & ->)|(m & cr & -> & Pm & -> & Hc)].
    - prim H7. subst. exists []. rewrite app_nil_r. auto 10.
    - destruct chain as [c|]; [|now apply panic_ok in H7]. apply (hlog_emit Hs _ _ _ _ _ _ _ _ _ _ W6) in H7 as (mc & Em & Lc & Gc). exists [EvSend mc]. split; [exact Lc|]. split; [exact Gc|]. right. exists m, cr, c, mc. auto 10. }
  destruct X7 as (l_cc & L7 & G7 & X7). clear H7 X5.
  apply bind_ok in H as ([pms ct] & s8 & H8 & H). prim H8. apply of_res_ok in H8. subst s8. cbv beta iota in H.
  apply bind_ok in H as (h9 & s9 & H9 & H). apply (hlog_emit Hs _ _ _ _ _ _ _ _ _ _ G7) in H9 as (m_ckx & Eck & L9 & G9). cbv beta in H.
  assert (LK : snd s9 = snd s ++ [EvRecv m_cert] ++ l_st ++ l_skx ++ l_req ++ [EvRecv m5] ++ l_cc ++ [EvSend m_ckx]).
  { rewrite L9, L7, L5, L1, <- !app_assoc. reflexivity. }
  (* CertificateVerify *)
  apply bind_ok in H as (h10 & s10 & H10 & H). cbv beta in H.
  apply bind_ok in H as (master & s11 & H11 & H). prim H11. apply of_res_ok in H11. subst s11. cbv beta in H.
  destruct (cf_keylog (s_cfg cfg) (ch_random hello) master) eqn:EK; [now apply fail_with_ok in H|]. prim H. subst s' f.
  assert (CASES : (snd s10 = snd s9 /\ h10 = h9 /\ match chain with None => True | Some c => sc_chain c = [] end) \/
    exists c c0 cl sign alg st hash digest hh sig m, chain = Some c /\ sc_chain c = c0 :: cl /\ k_sign (sc_key c) = Some sign /\
        pickSignatureAlgorithm (k_pub (sc_key c)) (match req with Some cr => cr_sigs cr | None => [] end) (ch_sigalgs hello) vers = Ok (alg, st, hash) /\
        hashForClientCertificate (e_std (se E)) h9 st (hash_ctor E hash) [] = Ok (digest, hh) /\ sign st hash (r_sign rn) digest = Ok sig /\
        m_certificateVerify (VersionTLS12 <=? vers) (alg, sig) = Ok m /\ fh_Write hh m = Ok h10 /\ snd s10 = snd s9 ++ [EvSend m]).
  { destruct chain as [c|]; [|prim H10; subst; left; auto]. destruct (sc_chain c) as [|c0 cl] eqn:EC; [prim H10; subst; left; auto|].
    destruct (k_sign (sc_key c)) as [sign|] eqn:ESG; [|now apply fail_with_ok in H10].
    apply bind_ok in H10 as ([[alg st] hash] & sx & Hx & H10). prim Hx. apply of_res_ok in Hx. subst sx. cbv beta iota in H10.
    apply bind_ok in H10 as ([digest hh] & sx & Hy & H10). prim Hy. apply of_res_ok in Hy. subst sx. cbv beta iota in H10.
    apply bind_ok in H10 as (sig & sx & Hz & H10). prim Hz. apply of_res_ok in Hz. subst sx. cbv beta in H10.
    apply emit_ok in H10 as (m & Em & W & Lg). right. exists c, c0, cl, sign, alg, st, hash, digest, hh, sig, m. auto 12. }
  clear H10.
  assert (LD : match chain with Some c => sc_chain c <> [] -> d = false | None => True end).
  { destruct X7 as [(_ & _ & -> & _)|(m & cr & c & mc & _ & _ & _ & -> & Hc & _)]; [exact I|]. intros HN. eapply chosen_buffer; eauto. }
  destruct CASES as [(Ls & -> & CN)|(c & c0 & cl & sign & alg & st & hash & digest & hh & sig & m & -> & ECH & ESG & Pk & Hd & Sg & Em & W & Lg)].
  - exists ([EvRecv m_cert] ++ l_st ++ l_skx ++ l_req ++ [EvRecv m5] ++ l_cc ++ [EvSend m_ckx] ++ []).
    split; [rewrite app_nil_r; congruence|]. constructor; cbn [cf_h cf_master cf_peer cf_chains].
    + exists m_cert, ders, l_st, l_skx, ka, l_req, req, chain, m5, l_cc, pms, ct, m_ckx, [].
      split; [reflexivity|]. split; [apply parse_std_msg; [exact P1|discriminate]|]. split; [intros ->; discriminate ZD|]. split; [exact CO|]. split; [exact X3|]. split; [exact X4|]. split; [exact X7|].
      split; [apply parse_std_msg; [exact P5|discriminate]|]. split; [exact H8|]. split; [exact Eck|]. split; [exact H11|]. split; [exact EK|]. destruct chain as [c|]; [|reflexivity]. rewrite CN. reflexivity.
    + intros _. rewrite app_nil_r, <- LK. eapply hlog_discard. exact G9.
  - rewrite ECH in LD. assert (Ed : d = false) by (apply LD; discriminate). rewrite Ed in *.
    exists ([EvRecv m_cert] ++ l_st ++ l_skx ++ l_req ++ [EvRecv m5] ++ l_cc ++ [EvSend m_ckx] ++ [EvSend m]).
    assert (LL : snd s10 = snd s ++ [EvRecv m_cert] ++ l_st ++ l_skx ++ l_req ++ [EvRecv m5] ++ l_cc ++ [EvSend m_ckx] ++ [EvSend m]) by (rewrite Lg, LK, <- !app_assoc; reflexivity).
    split; [exact LL|]. constructor; cbn [cf_h cf_master cf_peer cf_chains].
    + exists m_cert, ders, l_st, l_skx, ka, l_req, req, (Some c), m5, l_cc, pms, ct, m_ckx, [EvSend m].
      split; [reflexivity|]. split; [apply parse_std_msg; [exact P1|discriminate]|]. split; [intros ->; discriminate ZD|]. split; [exact CO|]. split; [exact X3|]. split; [exact X4|]. split; [exact X7|].
      split; [apply parse_std_msg; [exact P5|discriminate]|]. split; [exact H8|]. split; [exact Eck|]. split; [exact H11|]. split; [exact EK|]. rewrite ECH.
      exists sign, m, alg, st, hash, digest, sig. split; [exact ESG|]. split; [exact Pk|]. split; [exact Sg|]. split; [reflexivity|]. split; [exact Em|].
      intros Hc HI HT ver Ev WO. rewrite <- LK. apply (proj1 (hlog_cv (e_std (se E)) Hs HL HG vers sha (snd s9) h9 st (hash_ctor E hash) Hc [] digest hh G9 Hd HI small_nil HT)); [exact Ev|].
      rewrite <- LL, Lg in WO. now apply wire_ok_app in WO as [WO _].
    + intros HX. destruct (HX hash) as [Hc HI]. rewrite <- LL. eapply hlog_discard. rewrite Lg. eapply hlog_send; [|exact W]. eapply hlog_cv_inv; [exact G9|exact Hd|exact HI|exact small_nil].
Qed.

(** ** Finished, tickets, keys *)
Lemma std_client_sendFinished_inv (cfg : config T) vers sha d sv sh h master s s' h' vd proto : client_sendFinished C cfg sh h master s = (HOk (h', vd, proto), s') ->
  exists l_np m, snd s' = snd s ++ [EvSendCCS] ++ l_np ++ [EvSend m] /\ m_finished vd = Ok m /\
    (if sh_npn sh then exists mn p b, l_np = [EvSend mn] /\ mutualProtocol (cf_protos cfg) (sh_protos sh) = Ok (p, b) /\ m_nextProto p = Ok mn /\ proto = Some p else l_np = [] /\ proto = None) /\
    (small master -> hlog Hs vers sha d false sv (snd s) h ->
      (forall ver, version_of vers sha = Some ver -> wire_ok (snd s') -> vd = client_finished Hs ver master (transcript (snd s ++ [EvSendCCS] ++ l_np))) /\ hlog Hs vers sha d true sv (snd s') h').
Proof.
  unfold client_sendFinished. intros H. apply bind_ok in H as (u & s0 & H0 & H). apply send_ccs_ok in H0. cbv beta in H.
  apply bind_ok in H as ([h1 pr] & s1 & H1 & H). cbv beta iota in H.
  assert (X : exists l_np, snd s1 = snd s0 ++ l_np /\ (if sh_npn sh then exists mn p b, l_np = [EvSend mn] /\ mutualProtocol (cf_protos cfg) (sh_protos sh) = Ok (p, b) /\ m_nextProto p = Ok mn /\ pr = Some p else l_np = [] /\ pr = None) /\
     (forall c, hlog Hs vers sha d c sv (snd s0) h -> hlog Hs vers sha d c sv (snd s1) h1)).
  { destruct (sh_npn sh).
    - apply bind_ok in H1 as ([p b] & s2 & H2 & H1). prim H2. apply of_res_ok in H2. subst s2. cbv beta in H1. cbn [fst] in H1.
      apply bind_ok in H1 as (hx & s2 & H3 & H1). apply emit_ok in H3 as (mn & Em & W & Lg). prim H1. subst. injection H1 as -> ->. exists [EvSend mn]. split; [exact Lg|]. split; [exists mn, p, b; auto|]. intros cc G. rewrite Lg. eapply hlog_send; eauto.
    - prim H1. subst. injection H1 as -> ->. exists []. split; [now rewrite app_nil_r|auto]. }
  destruct X as (l_np & L1 & X & G1). clear H1.
  apply bind_ok in H as ([v h2] & s3 & H3 & H). prim H3. apply of_res_ok in H3. subst s3. cbv beta iota in H.
  apply bind_ok in H as (h3 & s3 & H4 & H). apply emit_ok in H4 as (m & Em & W & Lg). prim H. subst. injection H as -> -> ->.
  exists l_np, m. split; [rewrite Lg, L1, H0, <- !app_assoc; reflexivity|]. split; [exact Em|]. split; [exact X|].
  intros Sm G. apply (hlog_skip Hs _ _ _ _ _ _ [EvSendCCS]) in G; [|reflexivity]. rewrite <- H0 in G. apply G1 in G.
  destruct (hlog_client Hs HG _ _ _ _ _ _ _ _ _ G H3 Sm) as [V G2].
  assert (EL : snd s1 = snd s ++ [EvSendCCS] ++ l_np) by (rewrite L1, H0, <- app_assoc; reflexivity). split.
  - intros ver Ev WO. rewrite <- EL. apply V; [exact Ev|]. rewrite Lg in WO. now apply wire_ok_app in WO as [WO _].
  - rewrite Lg. eapply hlog_send; eauto.
Qed.
Lemma std_client_readFinished_inv vers sha d c h master s s' h' verify : std_client_readFinished (C := C) vers h master s = (HOk (h', verify), s') ->
  exists m, snd s' = snd s ++ [EvRecvCCS; EvRecv m] /\ parse_msg vers m = Ok (MFinished verify) /\
    (small master -> hlog Hs vers sha d c false (snd s) h ->
      (forall ver, version_of vers sha = Some ver -> wire_ok (snd s') -> verify = server_finished Hs ver master (transcript (snd s ++ [EvRecvCCS]))) /\ hlog Hs vers sha d c true (snd s') h').
Proof.
  unfold std_client_readFinished. intros H. apply bind_ok in H as (u & s0 & H0 & H). apply recv_ccs_ok in H0. cbv beta in H.
  apply bind_ok in H as ([mm raw] & s2 & H2 & H). apply readS_ok in H2 as [P2 L2]. cbv beta in H. cbn [fst snd] in H.
  destruct mm as [| | | | | | | | | | | |vd]; try now apply unexpected_ok in H.
  apply bind_ok in H as ([v h2] & s3 & H3 & H). prim H3. apply of_res_ok in H3. subst s3. cbv beta iota in H.
  destruct (beqb v vd) eqn:EB; [|now apply fail_with_ok in H]. apply beqb_eq in EB. subst vd.
  apply bind_ok in H as (h3 & s3 & W & H). prim W. prim H. subst. injection H as -> ->.
  exists raw. split; [rewrite L2, H0, <- app_assoc; reflexivity|]. split; [apply parse_std_msg; [exact P2|discriminate]|].
  intros Sm G. apply (hlog_skip Hs _ _ _ _ _ _ [EvRecvCCS]) in G; [|reflexivity]. rewrite <- H0 in G.
  destruct (hlog_server Hs HG _ _ _ _ _ _ _ _ _ G H3 Sm) as [V G2]. split.
  - intros ver Ev WO. rewrite <- H0. apply V; [exact Ev|]. rewrite L2 in WO. now apply wire_ok_app in WO as [WO _].
  - rewrite L2. eapply hlog_recv; eauto.
Qed.
Lemma std_readSessionTicket_inv vers sha d c sv sh su master peer chains h s s' h' ns : std_readSessionTicket (T := T) (C := C) vers sh su master peer chains h s = (HOk (h', ns), s') ->
  exists l_t, snd s' = snd s ++ l_t /\
    (if sh_ticketOn sh then exists m t, l_t = [EvRecv m] /\ parse_msg vers m = Ok (MNewSessionTicket t) /\ ns = Some (mkCSess t vers (su_id su) master peer chains) else l_t = [] /\ ns = None) /\
    (hlog Hs vers sha d c sv (snd s) h -> hlog Hs vers sha d c sv (snd s') h').
Proof.
  unfold std_readSessionTicket. intros H. destruct (sh_ticketOn sh); cbn [negb] in H.
  - apply bind_ok in H as ([mm raw] & s2 & H2 & H). apply readS_ok in H2 as [P2 L2]. cbv beta in H. cbn [fst snd] in H.
    destruct mm as [| | |t| | | | | | | | | ]; try now apply unexpected_ok in H.
    apply bind_ok in H as (hx & sx & W & H). prim W. prim H. subst. injection H as -> ->. exists [EvRecv raw]. split; [exact L2|]. split; [exists raw, t; split; [reflexivity|]; split; [apply parse_std_msg; [exact P2|discriminate]|reflexivity]|].
    intros G. rewrite L2. eapply hlog_recv; eauto.
  - prim H. subst. injection H as -> ->. exists []. split; [now rewrite app_nil_r|auto].
Qed.
Lemma std_client_keys_inv vers su master cr sr s u s' : std_client_keys E (C := C) vers su master cr sr s = (HOk u, s') ->
  exists k, snd s' = snd s ++ [EvKeys k] /\ std_keys (e_std (se E)) vers su master cr sr = HOk k.
Proof. unfold std_client_keys. intros H. apply bind_ok in H as (k & s0 & H0 & H). prim H0. subst. cbv beta in H. prim H. eauto. Qed.

Record std_sh_ok (pr : option (prior T)) (vers : Z) (hello : clientHello) (sh : serverHello) (su : suite) (session : option (csession T)) (secure : bool) (resumed : option (csession T)) : Prop := mkSHO {
  sho_comp : sh_comp sh = 0;
  sho_first : pr = None -> sh_renegOn sh = true -> sh_reneg sh = [];
  sho_again : forall p, pr = Some p -> pr_secure p = true -> sh_reneg sh = pr_clientFinished p ++ pr_serverFinished p;
  sho_secure : secure = match pr with Some p => pr_secure p | None => sh_renegOn sh end;
  sho_npn : sh_npn sh = true -> ch_npn hello = true;
  sho_alpn : sh_alpn sh <> [] -> ch_alpn hello <> [] /\ sh_npn sh = false;
  sho_resumed : forall cs, resumed = Some cs -> session = Some cs /\ sh_sessionId sh = ch_sessionId hello /\ cs_vers cs = vers /\ cs_suite cs = su_id su }.
Lemma std_processServerHello_inv pr vers hello sh su session secure resumed s s' : std_processServerHello (C := C) (T := T) pr vers hello sh su session s = (HOk (secure, resumed), s') ->
  s' = s /\ std_sh_ok pr vers hello sh su session secure resumed.
Proof.
  unfold std_processServerHello. cbv zeta. intros H.
  destruct (Z.eqb_spec (sh_comp sh) 0) as [EC|]; cbn [negb] in H; [|now apply fail_with_ok in H].
  match type of H with (if ?b then _ else _) _ = _ => destruct b eqn:E1; [now apply fail_with_ok in H|] end.
  match type of H with (if ?b then _ else _) _ = _ => destruct b eqn:E2; [now apply fail_with_ok in H|] end.
  match type of H with (if ?b then _ else _) _ = _ => destruct b eqn:E3; [now apply fail_with_ok in H|] end.
  match type of H with (if ?b then _ else _) _ = _ => destruct b eqn:E4; [now apply fail_with_ok in H|] end.
  match type of H with (if ?b then _ else _) _ = _ => destruct b eqn:E5; [now apply fail_with_ok in H|] end.
  assert (ZN : forall (l : list Z), (zlen l =? 0) = true -> l = []) by (intros [|x l]; [reflexivity|unfold zlen; cbn [length]; intros X; apply Z.eqb_eq in X; lia]).
  assert (F1 : pr = None -> sh_renegOn sh = true -> sh_reneg sh = []). { intros -> HR. rewrite HR in E1. cbn [andb] in E1. apply negb_false_iff in E1. auto. }
  assert (F2 : forall p, pr = Some p -> pr_secure p = true -> sh_reneg sh = pr_clientFinished p ++ pr_serverFinished p). { intros p -> HS. rewrite HS in E2. cbn [andb] in E2. apply negb_false_iff, beqb_eq in E2. exact E2. }
  assert (F3 : sh_npn sh = true -> ch_npn hello = true) by (intros HN; rewrite HN, andb_true_r in E3; now apply negb_false_iff in E3).
  assert (F4 : sh_alpn sh <> [] -> ch_alpn hello <> [] /\ sh_npn sh = false).
  { intros HA. destruct (sh_alpn sh) as [|x l]; [congruence|]. change (0 <? zlen (x :: l)) with true in *. rewrite andb_true_r in E4, E5. split; [|exact E5]. intros EA. rewrite EA in E4. discriminate. }
  assert (X : s' = s /\ secure = match pr with Some p => pr_secure p | None => sh_renegOn sh end /\ (forall cs, resumed = Some cs -> session = Some cs /\ sh_sessionId sh = ch_sessionId hello /\ cs_vers cs = vers /\ cs_suite cs = su_id su)).
  { destruct session as [cs|]; [|prim H; subst; injection H as -> ->; split; [reflexivity|]; split; [reflexivity|discriminate]].
    destruct (beqb (sh_sessionId sh) (ch_sessionId hello)) eqn:EB; cbn [negb] in H; [|prim H; subst; injection H as -> ->; split; [reflexivity|]; split; [reflexivity|discriminate]].
    destruct (Z.eqb_spec (cs_vers cs) vers) as [EV|]; cbn [negb] in H; [|now apply fail_with_ok in H].
    destruct (Z.eqb_spec (cs_suite cs) (su_id su)) as [ES|]; cbn [negb] in H; [|now apply fail_with_ok in H].
    prim H. subst s'. injection H as -> ->. apply beqb_eq in EB. split; [reflexivity|]. split; [reflexivity|]. intros cs' [= <-]. auto. }
  destruct X as (-> & -> & X). split; [reflexivity|]. constructor; auto.
Qed.

(** ** The whole handshake *)
Definition std_hello1 (pr : option (prior T)) (hello0 : clientHello) : clientHello := match pr with Some p => set_ch_reneg hello0 (pr_clientFinished p) | None => hello0 end.
Definition std_cache_key (cfg : sconfig T) (addr : list Z) (pr : option (prior T)) : list Z := match pr with Some _ => [] | None => if 0 <? zlen (cf_serverName (s_cfg cfg)) then cf_serverName (s_cfg cfg) else addr end.
Record std_client_run (cfg : sconfig T) (addr : list Z) (cache : option (option (csession T))) (rn : rnds) (pr : option (prior T)) (hello : clientHello) (chraw m_sh : list Z) (sh : serverHello) (su : suite) (vers : Z) (r : sclient T) (log : list event)
    (f : cfull (T := T)) (lf : list event) (k : keyblock) (l_np l_t : list event) (m_fin m_sfin cfin sfin : list Z) : Prop := mkSCU {
  scu_log : log = [EvSend chraw; EvRecv m_sh] ++ lf ++ [EvKeys k; EvSendCCS] ++ l_np ++ [EvSend m_fin] ++ l_t ++ [EvRecvCCS; EvRecv m_sfin];
  scu_full : std_cfull_run cfg rn pr vers hello sh su f [EvSend chraw; EvRecv m_sh] lf;
  scu_keys : std_keys (e_std (se E)) vers su (cf_master f) (ch_random hello) (sh_random sh) = HOk k;
  scu_fin : m_finished cfin = Ok m_fin;
  scu_np : if sh_npn sh then exists mn p b, l_np = [EvSend mn] /\ mutualProtocol (cf_protos (s_cfg cfg)) (sh_protos sh) = Ok (p, b) /\ m_nextProto p = Ok mn /\ hr_proto (cl_hr r) = p
           else l_np = [] /\ hr_proto (cl_hr r) = if 0 <? zlen (sh_alpn sh) then sh_alpn sh else match pr with Some p => pr_proto p | None => [] end;
  scu_t : if sh_ticketOn sh then exists m t, l_t = [EvRecv m] /\ parse_msg vers m = Ok (MNewSessionTicket t) /\
             cl_put r = match cache with Some _ => Some (std_cache_key cfg addr pr, mkCSess t vers (su_id su) (cf_master f) (cf_peer f) (cf_chains f)) | None => None end
          else l_t = [] /\ cl_put r = None;
  scu_sfin : parse_msg vers m_sfin = Ok (MFinished sfin);
  scu_val : forall ver, version_of vers (su_sha384 su) = Some ver -> wire_ok log -> small (cf_master f) -> (forall h, exists Hc, implements (hash_ctor E h) Hc (2 ^ 61)) ->
     cfin = client_finished Hs ver (cf_master f) (transcript ([EvSend chraw; EvRecv m_sh] ++ lf ++ [EvKeys k; EvSendCCS] ++ l_np)) /\
     sfin = server_finished Hs ver (cf_master f) (transcript ([EvSend chraw; EvRecv m_sh] ++ lf ++ [EvKeys k; EvSendCCS] ++ l_np ++ [EvSend m_fin] ++ l_t ++ [EvRecvCCS]));
  scu_res : hr_vers (cl_hr r) = vers /\ hr_suite (cl_hr r) = su_id su /\ hr_master (cl_hr r) = cf_master f /\ hr_clientRandom (cl_hr r) = ch_random hello /\ hr_serverRandom (cl_hr r) = sh_random sh /\
     hr_peer (cl_hr r) = cf_peer f /\ hr_chains (cl_hr r) = cf_chains f /\ hr_clientFinished (cl_hr r) = fin12 cfin /\ hr_serverFinished (cl_hr r) = fin12 sfin }.
Record std_client_rrun (cfg : sconfig T) (addr : list Z) (cache : option (option (csession T))) (pr : option (prior T)) (cs : csession T) (hello : clientHello) (chraw m_sh : list Z) (sh : serverHello) (su : suite) (vers : Z) (r : sclient T) (log : list event)
    (k : keyblock) (l_np l_t : list event) (m_fin m_sfin cfin sfin : list Z) : Prop := mkSCV {
  scv_log : log = [EvSend chraw; EvRecv m_sh; EvKeys k] ++ l_t ++ [EvRecvCCS; EvRecv m_sfin; EvSendCCS] ++ l_np ++ [EvSend m_fin];
  scv_keys : std_keys (e_std (se E)) vers su (cs_master cs) (ch_random hello) (sh_random sh) = HOk k;
  scv_fin : m_finished cfin = Ok m_fin;
  scv_np : if sh_npn sh then exists mn p b, l_np = [EvSend mn] /\ mutualProtocol (cf_protos (s_cfg cfg)) (sh_protos sh) = Ok (p, b) /\ m_nextProto p = Ok mn /\ hr_proto (cl_hr r) = p
           else l_np = [] /\ hr_proto (cl_hr r) = if 0 <? zlen (sh_alpn sh) then sh_alpn sh else match pr with Some p => pr_proto p | None => [] end;
  scv_t : if sh_ticketOn sh then exists m t, l_t = [EvRecv m] /\ parse_msg vers m = Ok (MNewSessionTicket t) /\
             cl_put r = match cache with Some _ => Some (std_cache_key cfg addr pr, mkCSess t vers (su_id su) (cs_master cs) (cs_certs cs) (cs_chains cs)) | None => None end
          else l_t = [] /\ cl_put r = None;
  scv_sfin : parse_msg vers m_sfin = Ok (MFinished sfin);
  scv_val : forall ver, version_of vers (su_sha384 su) = Some ver -> wire_ok log -> small (cs_master cs) ->
     sfin = server_finished Hs ver (cs_master cs) (transcript ([EvSend chraw; EvRecv m_sh; EvKeys k] ++ l_t ++ [EvRecvCCS])) /\
     cfin = client_finished Hs ver (cs_master cs) (transcript ([EvSend chraw; EvRecv m_sh; EvKeys k] ++ l_t ++ [EvRecvCCS; EvRecv m_sfin; EvSendCCS] ++ l_np));
  scv_res : hr_vers (cl_hr r) = vers /\ hr_suite (cl_hr r) = su_id su /\ hr_master (cl_hr r) = cs_master cs /\ hr_clientRandom (cl_hr r) = ch_random hello /\ hr_serverRandom (cl_hr r) = sh_random sh /\
     hr_peer (cl_hr r) = cs_certs cs /\ hr_chains (cl_hr r) = cs_chains cs /\ hr_clientFinished (cl_hr r) = fin12 cfin /\ hr_serverFinished (cl_hr r) = fin12 sfin }.

Lemma std_clientHandshake_inv cfg addr cache rn pr c r c' log : std_clientHandshake E C cfg addr cache rn pr (c, []) = (HOk r, (c', log)) ->
  exists hello0 hello session chraw m_sh sh su vers resumed,
    makeClientHello E cfg rn = Ok hello0 /\ complete_hello (s_cfg cfg) (match pr, cache with Some _, Some _ => Some None | _, ca => ca end) rn (std_hello1 pr hello0) = Ok (hello, session) /\
    m_clientHello hello = Ok chraw /\ parse_msg 0 m_sh = Ok (MServerHello sh) /\ pickTLSVersion (cf_min (s_cfg cfg)) (cf_max (s_cfg cfg)) (sh_vers sh) = Some vers /\
    mutualCipherSuite (ch_suites hello) (sh_suite sh) = Some su /\ std_sh_ok pr vers hello sh su session (cl_secure r) resumed /\
    (vers = 0x0101 \/ exists ver, version_of vers (su_sha384 su) = Some ver) /\
    match resumed with
    | Some cs => hr_resumed (cl_hr r) = true /\ exists k l_np l_t m_fin m_sfin cfin sfin, std_client_rrun cfg addr cache pr cs hello chraw m_sh sh su vers r log k l_np l_t m_fin m_sfin cfin sfin
    | None => hr_resumed (cl_hr r) = false /\ exists f lf k l_np l_t m_fin m_sfin cfin sfin, std_client_run cfg addr cache rn pr hello chraw m_sh sh su vers r log f lf k l_np l_t m_fin m_sfin cfin sfin
    end.
Proof.
  unfold std_clientHandshake. cbv zeta. intros H.
  apply bind_ok in H as (hello0 & s0 & H0 & H). prim H0. apply of_res_ok in H0. subst s0. cbv beta in H. fold (std_hello1 pr hello0) in H.
  apply bind_ok in H as ([hello session] & s0 & H1 & H). prim H1. apply of_res_ok in H1. subst s0. cbv beta iota in H.
  apply bind_ok in H as (chraw & s0 & H2 & H). prim H2. subst s0. cbv beta in H.
  apply bind_ok in H as (u & s0 & H3 & H). apply send_ok in H3. cbv beta in H. cbn [snd app] in H3.
  apply bind_ok in H as ([mm m_sh] & s1 & H4 & H). apply readS_ok in H4 as [P4 L4]. cbv beta in H. cbn [fst snd] in H.
  destruct mm as [| |sh| | | | | | | | | | ]; try now apply unexpected_ok in H.
  destruct (pickTLSVersion _ _ _) as [vers|] eqn:EV; [|now apply fail_with_ok in H].
  apply bind_ok in H as (u2 & s2 & H5 & H). apply setvers_ok in H5. cbv beta in H.
  destruct (mutualCipherSuite _ _) as [su|] eqn:ES; [|now apply fail_with_ok in H].
  apply bind_ok in H as ([secure resumed] & s3 & H6 & H). apply std_processServerHello_inv in H6 as [-> SO]. cbv beta iota in H.
  apply bind_ok in H as (h0 & s3 & H7 & H). prim H7. apply of_res_ok in H7. subst s3. cbv beta in H. fold (no_client_certs cfg) in H.
  pose proof (newFinishedHash_vers _ _ _ _ H7) as VV. apply (hlog_new _ Hs HL HG) in H7.
  set (dd := (match resumed with Some _ => true | None => false end) || no_client_certs cfg) in H.
  assert (G0 : hlog Hs vers (su_sha384 su) dd false false [] (if dd then discardHandshakeBuffer h0 else h0)). { destruct dd; [eapply hlog_discard; exact H7|exact H7]. }
  apply bind_ok in H as (h1 & s3 & W1 & H). prim W1. subst s3. cbv beta in H. apply (hlog_send Hs _ _ _ _ _ _ _ _ _ G0) in W1. cbn [app] in W1.
  apply bind_ok in H as (h2 & s3 & W2 & H). prim W2. subst s3. cbv beta in H. apply (hlog_recv Hs _ _ _ _ _ _ _ _ _ W1) in W2. cbn [app] in W2.
  assert (LS : snd s2 = [EvSend chraw; EvRecv m_sh]) by (rewrite H5, L4, H3; reflexivity). rewrite <- LS in W2.
  exists hello0, hello, session, chraw, m_sh, sh, su, vers, resumed.
  split; [exact H0|]. split; [exact H1|]. split; [exact H2|]. split; [apply parse_std_msg; [exact P4|discriminate]|]. split; [exact EV|]. split; [exact ES|].
  destruct resumed as [cs|].
  - cbn [orb] in dd. subst dd.
    apply bind_ok in H as (u3 & s3 & H8 & H). apply std_client_keys_inv in H8 as (k & L8 & K8). cbv beta in H.
    apply (hlog_skip Hs _ _ _ _ _ _ [EvKeys k]) in W2; [|reflexivity]. rewrite <- L8 in W2.
    apply bind_ok in H as ([h3 ns] & s4 & H9 & H). apply (std_readSessionTicket_inv vers (su_sha384 su) true false false) in H9 as (l_t & L9 & X9 & G9). cbv beta iota in H. apply G9 in W2.
    apply bind_ok in H as ([h4 sfin] & s5 & H10 & H). apply (std_client_readFinished_inv vers (su_sha384 su) true false) in H10 as (m_sfin & L10 & P10 & V10). cbv beta iota in H.
    apply bind_ok in H as ([[h5 cfin] proto] & s6 & H11 & H). apply (std_client_sendFinished_inv _ vers (su_sha384 su) true true) in H11 as (l_np & m_fin & L11 & E11 & N11 & V11). cbv beta iota in H.
    prim H. subst r. subst s6. cbn [cl_secure cl_hr cl_put hr_resumed snd] in *. split; [exact SO|]. split; [exact VV|]. split; [reflexivity|].
    assert (LB : snd s4 = [EvSend chraw; EvRecv m_sh; EvKeys k] ++ l_t) by (rewrite L9, L8, LS, <- app_assoc; reflexivity).
    exists k, l_np, l_t, m_fin, m_sfin, cfin, sfin. constructor; cbn [cl_hr cl_put hr_vers hr_suite hr_master hr_clientRandom hr_serverRandom hr_peer hr_chains hr_proto hr_clientFinished hr_serverFinished].
    + rewrite L11, L10, LB, <- !app_assoc. reflexivity.
    + exact K8.
    + exact E11.
    + destruct (sh_npn sh); [destruct N11 as (mn & p & b & -> & N1 & N2 & ->); exists mn, p, b; auto|]. destruct N11 as [-> ->]. auto.
    + destruct (sh_ticketOn sh); [destruct X9 as (m & t & -> & P9 & ->); exists m, t; destruct cache; auto|]. destruct X9 as [-> ->]. destruct cache; auto.
    + exact P10.
    + intros ver Ev WO Sm. destruct (V10 Sm W2) as [V1 G1]. destruct (V11 Sm G1) as [V2 _].
      rewrite L11 in WO. pose proof (proj1 (wire_ok_app _ _ WO)) as WO1. split.
      * rewrite (V1 ver Ev WO1), LB, <- app_assoc. reflexivity.
      * rewrite (V2 ver Ev); [|rewrite L11; exact WO]. rewrite L10, LB, <- !app_assoc. reflexivity.
    + auto 12.
  - cbn [orb] in dd. subst dd. cbn [negb] in H. rename W2 into G1.
    apply bind_ok in H as (f & s3 & H8 & H). apply std_client_full_inv in H8 as (lf & L8 & HF); [|exact G1]. cbv beta in H.
    apply bind_ok in H as (u3 & s4 & H9 & H). apply std_client_keys_inv in H9 as (k & L9 & K9). cbv beta in H.
    apply bind_ok in H as ([[h5 cfin] proto] & s5 & H10 & H). apply (std_client_sendFinished_inv _ vers (su_sha384 su) true false) in H10 as (l_np & m_fin & L10 & E10 & N10 & V10). cbv beta iota in H.
    apply bind_ok in H as ([h6 ns] & s6 & H11 & H). apply (std_readSessionTicket_inv vers (su_sha384 su) true true false) in H11 as (l_t & L11 & X11 & G11). cbv beta iota in H.
    apply bind_ok in H as ([h7 sfin] & s7 & H12 & H). apply (std_client_readFinished_inv vers (su_sha384 su) true true) in H12 as (m_sfin & L12 & P12 & V12). cbv beta iota in H.
    prim H. subst r. subst s7. cbn [cl_secure cl_hr cl_put hr_resumed snd] in *. split; [exact SO|]. split; [exact VV|]. split; [reflexivity|]. rewrite LS in HF.
    assert (LB : snd s4 = [EvSend chraw; EvRecv m_sh] ++ lf ++ [EvKeys k]) by (rewrite L9, L8, LS, <- app_assoc; reflexivity).
    exists f, lf, k, l_np, l_t, m_fin, m_sfin, cfin, sfin. constructor; cbn [cl_hr cl_put hr_vers hr_suite hr_master hr_clientRandom hr_serverRandom hr_peer hr_chains hr_proto hr_clientFinished hr_serverFinished].
    + rewrite L12, L11, L10, LB, <- !app_assoc. reflexivity.
    + exact HF.
    + exact K9.
    + exact E10.
    + destruct (sh_npn sh); [destruct N10 as (mn & p & b & -> & N1 & N2 & ->); exists mn, p, b; auto|]. destruct N10 as [-> ->]. auto.
    + destruct (sh_ticketOn sh); [destruct X11 as (m & t & -> & P9 & ->); exists m, t; destruct cache; auto|]. destruct X11 as [-> ->]. destruct cache; auto.
    + exact P12.
    + intros ver Ev WO Sm HX. pose proof (tc_hash _ _ _ _ _ _ _ _ _ _ HF HX) as G2. apply (hlog_skip Hs _ _ _ _ _ _ [EvKeys k]) in G2; [|reflexivity]. rewrite <- app_assoc, <- LB in G2.
      destruct (V10 Sm G2) as [V1 G3]. apply G11 in G3. destruct (V12 Sm G3) as [V2 _].
      rewrite L12 in WO. pose proof (proj1 (wire_ok_app _ _ WO)) as WO1. rewrite L11 in WO1. pose proof (proj1 (wire_ok_app _ _ WO1)) as WO2. split.
      * rewrite (V1 ver Ev WO2), LB, <- !app_assoc. reflexivity.
      * rewrite (V2 ver Ev); [|rewrite L12; exact WO]. rewrite L11, L10, LB, <- !app_assoc. reflexivity.
    + auto 12.
Qed.
End Client.

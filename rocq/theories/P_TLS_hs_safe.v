(** C93: no server can crash a client that offers only the ECC suite. *)
From Verif Require Import GoBase GoLemmas BigBytes Asn1_model X509_spec Prime_cert SM2_curve_spec SM2_group SM2_jac SM2_spec SM2_model SM2_proofs SM3_spec SM3_model TLS_record_model TLS_prf_model TLS_prf_spec TLS_prf_proofs
  TLS_gmka_model TLS_ticket_model TLS_msg_model TLS_msg_proofs TLS_neg_model TLS_hs_model TLS_hs_proofs TLS_hs_bytes TLS_hs_server TLS_hs_client TLS_hs_spec TLS_hs_run P_TLS_hs_server P_TLS_hs_client P_TLS_hs_agree P_TLS_hs_run TLS_hs_safe.
From Verif Require X509_model P_SM2 P_TLS_msg P_TLS_gmka P_TLS_prf P_TLS_neg.
Open Scope Z_scope.
Ltac Zify.zify_post_hook ::= Z.div_mod_to_equations.
#[local] Opaque sm3 PRF smul padd sm2_n sm2_p be_bytes SumSM3 parse_msg getCipherSuites gm_keys masterFromPreMasterSecret serverSum clientSum newFinishedHashGM fh_Write discardHandshakeBuffer
  PrivSign generateClientKeyExchange processServerKeyExchange m_certificate m_clientKeyExchange m_certificateVerify m_finished m_clientHello o_sum.

(** the hello of a client: [sid], [tk]: session id and ticket *)
Definition any_ch (cr sid suites : list Z) (on : bool) (tk : list Z) : clientHello := mkCH VersionGMSSL cr sid suites [0] false [] false false [] [] on tk [] [] false [].
Lemma any_ch_fine cr sid suites on tk : bytes cr -> length cr = 32%nat -> bytes sid -> zlen sid <= 32 -> zlen suites < 2 ^ 15 -> (on = false -> tk = []) -> bytes tk -> zlen tk < 2 ^ 15 ->
  fine (m_clientHello (any_ch cr sid (offered suites) on tk)).
Proof.
  intros B1 L1 B2 L2 L3 Ht B3 L4. assert (HL : zlen (offered suites) < 2 ^ 15). { pose proof (offered_length suites). unfold zlen in *. lia. }
  assert (EX : ch_extensions (any_ch cr sid (offered suites) on tk) = if on then b2 35 ++ b2 (zlen tk) ++ tk else []).
  { unfold ch_extensions, any_ch. cbn [ch_npn ch_sni ch_ocsp ch_curves ch_points ch_ticketOn ch_ticket ch_sigalgs ch_renegOn ch_alpn ch_scts]. change (0 <? zlen (@nil Z)) with false. change (0 <? zlen (@nil (list Z))) with false. cbn [app]. now rewrite app_nil_r. }
  assert (BX : bytes (ch_extensions (any_ch cr sid (offered suites) on tk))) by (rewrite EX; destruct on; [apply bytes_app; split; [apply bytes_b2|apply bytes_app; split; [apply bytes_b2|exact B3]]|constructor]).
  assert (LX : zlen (ch_extensions (any_ch cr sid (offered suites) on tk)) <= 4 + zlen tk).
  { rewrite EX. destruct on; [rewrite !zlen_app; change (zlen (b2 _)) with 2; change (zlen (b2 (zlen tk))) with 2; lia|pose proof (zlen_nonneg tk); rewrite (@zlen_nil Z); lia]. }
  destruct (P_TLS_msg.C63_clientHello (any_ch cr sid (offered suites) on tk)) as (m & M & _).
  { unfold P_TLS_msg.ch_ok. split; [unfold any_ch, VersionGMSSL; cbn; lia|]. split; [exact L1|]. split; [exact L2|].
    split. { apply Forall_forall. intros x Hx. apply offered_in in Hx as [_ [-> | ->]]; lia. }
    split; [cbn [any_ch ch_suites]; lia|]. split; [cbn; lia|]. split; [cbn; congruence|]. split; [constructor|]. split; [cbn; lia|]. split; [constructor|]. split; [cbn; lia|]. split; [constructor|].
    split; [exact Ht|]. split; [intros _; split; [auto|]; intros H; apply offered_in in H as [_ [H|H]]; discriminate|]. lia. }
  rewrite M. with_strategy transparent [m_clientHello] unfold m_clientHello in M. cbn [any_ch ch_alpn existsb] in M. cbv zeta in M. apply fill_out in M as [H1 H2].
  - split; [exact H1|]. rewrite H2. cbn [any_ch ch_sessionId ch_suites ch_comp]. change (zlen [0]) with 1.
    pose proof (P_TLS_msg.ch_ext_len (any_ch cr sid (offered suites) on tk)) as EL. unfold any_ch in EL, LX. destruct (Z.ltb_spec 0 (ch_numExt (any_ch cr sid (offered suites) on tk))); unfold any_ch in *; lia.
  - cbn [any_ch ch_vers ch_random ch_sessionId ch_suites ch_comp] in *. fold (any_ch cr sid (offered suites) on tk).
    byt.
    destruct (0 <? _); [apply bytes_b2|constructor].
Qed.

(** what the client's own side must provide *)
Definition chain_fine (ders : list (list Z)) : Prop := Forall P_TLS_msg.cert_ok ders /\ 3 * zlen ders + sum_len ders < 2 ^ 24 - 3.
Record client_sane {T} (E : env T) (cfg : config T) (cache : option (option (csession T))) (rn : rnds) : Prop := {
  sa_suites : ~ In 0xe011 (getCipherSuites (cf_suites cfg)) /\ zlen (getCipherSuites (cf_suites cfg)) < 2 ^ 15;
  sa_hello : forall b, r_hello rn = Some b -> bytes b /\ length b = 32%nat;
  sa_pms : forall b, r_pms rn = Some b -> bytes b /\ length b = 46%nat;
  sa_sid : forall b, r_sid rn = Some b -> bytes b /\ length b = 16%nat;
  sa_enc : exists b, r_enc rn = Some b;
  sa_sign : exists b, r_sign rn = Some b;
  sa_raw : forall d x, e_parse E d = Some x -> bytes (raw (g_cert x));
  sa_certs : forall ce, In ce (cf_certs cfg) -> chain_fine (ce_chain ce);
  sa_getcert : forall f cas, cf_getClientCert cfg = Some f -> match f cas with Ok (Some ce) => chain_fine (ce_chain ce) | Err _ => True | _ => False end;
  sa_session : forall s, cache = Some (Some s) -> bytes (cs_ticket s) /\ zlen (cs_ticket s) < 2 ^ 15 /\ small (cs_master s) }.

Section Client.
Context {T : Type} (E : env T) (C : chan) (HC : chan_ok C (fun _ => True)) (Hs : hashes) (HL : std_impl (e_std E) Hs) (HG : good_hashes Hs) (GC : good_curve (e_cv E)).
Context (cfg : config T) (cache : option (option (csession T))) (rn : rnds) (SA : client_sane E cfg cache rn).
Notation safe := (safe C).
Notation hg := (hg Hs).
Notation got := (got (fun _ => True)).

Definition raws (cs : list (gcert T)) : Prop := Forall (fun x => bytes (raw (g_cert x)) /\ exists p, g_pub x = PkSM2 p) cs.
Lemma check_certs_safe ders : forall i, safe (check_certs E i ders) (fun cs => raws cs /\ length cs = length ders).
Proof.
  induction ders as [|d ders IH]; intros i; cbn [check_certs]; [apply safe_ret; split; [constructor|reflexivity]|].
  destruct (e_parse E d) as [x|] eqn:EP; [|apply safe_fail]. destruct (g_pub x) as [p| | |] eqn:GP; try apply safe_fail. cbv zeta.
  match goal with |- safe (if ?b then _ else _) _ => destruct b end; [apply safe_fail|]. match goal with |- safe (if ?b then _ else _) _ => destruct b end; [apply safe_fail|].
  eapply safe_bind; [apply IH|]. intros cs [R Ln]. apply safe_ret. split; [constructor; [split; [exact (sa_raw _ _ _ _ SA _ _ EP)|eauto]|exact R]|cbn; now rewrite Ln].
Qed.
Lemma verify_certs_safe cs : forall roots i inter ch, safe (verify_certs E cfg roots i inter cs ch) (fun _ => True).
Proof.
  induction cs as [|x cs IH]; intros roots i inter ch; cbn [verify_certs]; [now apply safe_ret|]. destruct (x509_verify _ _ _); [|apply safe_fail]. apply IH.
Qed.
Lemma chain_matches_np cas ders : forall leaf j, chain_matches E leaf j cas ders <> Panic.
Proof.
  induction ders as [|d ders IH]; intros leaf j; cbn [chain_matches]; [discriminate|].
  match goal with |- match ?x with _ => _ end <> _ => destruct x as [y|] end; [|discriminate]. destruct (negb _); [discriminate|]. destruct cas as [|c0 cas0]; [discriminate|]. destruct (existsb _ _); [discriminate|apply IH].
Qed.
Lemma find_chain_fine cas certs : (forall ce, In ce certs -> chain_fine (ce_chain ce)) -> match find_chain E cas certs with Ok ce => chain_fine (ce_chain ce) | Err _ => True | Panic => False end.
Proof.
  induction certs as [|ce certs IH]; intros HF; cbn [find_chain]; [split; [constructor|cbn; lia]|].
  pose proof (chain_matches_np cas (ce_chain ce) (ce_leaf ce) 0). destruct (chain_matches E (ce_leaf ce) 0 cas (ce_chain ce)) as [[|]| |]; cbn [rbind]; [apply HF; now left|apply IH; intros; apply HF; now right|exact I|congruence].
Qed.
Lemma getCertificate_safe cas : safe (client_getCertificate E C cfg cas) (fun o => exists ce, o = Some ce /\ chain_fine (ce_chain ce)).
Proof.
  unfold client_getCertificate. destruct (cf_getClientCert cfg) as [f|] eqn:EF.
  - apply safe_orfail. pose proof (sa_getcert _ _ _ _ SA f cas EF) as X. destruct (f cas) as [[ce|]| |]; cbn [of_res]; [exists ce; split; [reflexivity|exact X]|destruct X|exact I|exact X].
  - pose proof (find_chain_fine cas _ (sa_certs _ _ _ _ SA)) as X. destruct (find_chain E cas (cf_certs cfg)) as [ce| |]; [apply safe_ret; eauto|intros s; exact I|destruct X].
Qed.
Lemma osum_safe d n h : hg d n h -> n < 64 -> safe (lift (of_res (o_sum (fh_client h) []))) (fun r => bytes (fst r) /\ hg d n (mkFH (snd r) (fh_server h) (fh_clientMD5 h) (fh_serverMD5 h) (fh_buffer h) (fh_version h) (fh_prf h))).
Proof.
  intros (t & G & Ln) Hn. apply safe_res. destruct (client_sum Hs t d h G ltac:(lia)) as (oc & -> & G'). cbn [fst snd].
  split; [apply sm3_good; destruct G as [_ _ _ Bt _ _]; exact Bt|]. exists t. auto.
Qed.

(** what the full handshake leaves behind *)
Lemma client_full_safe cr sid on tk sh su h : bytes cr -> length cr = 32%nat -> bytes (sh_random sh) -> length (sh_random sh) = 32%nat -> su_id su = ECC -> (exists d, hg d 2 h) ->
  safe (client_full E cfg rn (any_ch cr sid (offered (getCipherSuites (cf_suites cfg))) on tk) sh su h) (fun f => small (cf_master f) /\ hg true 9 (cf_h f)).
Proof.
  intros B1 L1 B2 L2 HS (d & G). unfold client_full. cbn [any_ch ch_random ch_vers].
  eapply safe_bind; [apply (safe_read C (fun _ => True)), HC|]. intros [msg m1] (P1 & Bm1 & Lm1 & _). cbn [fst snd] in *. destruct msg; try apply safe_unexpected.
  destruct (Z.eqb_spec (zlen cs) 0); [apply safe_unexpected|]. destruct (Z.ltb_spec (zlen cs) 2); [apply safe_fail|].
  eapply safe_bind; [eapply safe_wr; [exact G|exact Bm1|lia]|]. intros h1 G1.
  eapply safe_bind; [apply check_certs_safe|]. intros certs [RW Ln]. destruct certs as [|c0 [|c1 rest]]; [unfold zlen in *; cbn [length] in Ln; exfalso; lia|unfold zlen in *; cbn [length] in Ln; exfalso; lia|].
  assert (R1 : bytes (raw (g_cert c1)) /\ exists p, g_pub c1 = PkSM2 p) by (inversion_clear RW as [|? ? _ RW']; inversion_clear RW'; assumption). destruct R1 as [Br (p1 & Hp1)].
  eapply safe_bind; [instantiate (1 := fun _ => True); destruct (cf_skip cfg); [now apply safe_ret|apply verify_certs_safe]|]. intros chains _.
  destruct (match cf_verifyPeer cfg with Some f => f cs chains | None => None end); [apply safe_fail|].
  eapply safe_bind; [apply (safe_read C (fun _ => True)), HC|]. intros mr2 GM2.
  eapply safe_bind with (P := fun r => hg d 4 (fst (fst r)) /\ got VersionGMSSL (snd r)).
  { assert (K : safe (ret (h1, 0, mr2)) (fun r => hg d 4 (fst (fst r)) /\ got VersionGMSSL (snd r))) by (apply safe_ret; cbn [fst snd]; split; [eapply hg_mono; [exact G1|lia]|exact GM2]).
    destruct (fst mr2) eqn:F2; try exact K. clear K. destruct GM2 as (P2 & Bm2 & Lm2 & _).
    eapply safe_bind; [eapply safe_wr; [exact G1|exact Bm2|lia]|]. intros h2 G2. eapply safe_bind; [apply safe_orfail with (P := fun _ => True)|].
    - unfold ka_processSKX. rewrite HS. cbn [Z.eqb ECC Pos.eqb]. pose proof (processSKX_np (e_cv E) cr (sh_random sh) (raw (g_cert c1)) (match g_pub c0 with PkSM2 p => Some p | _ => None end) k B1 B2 Br) as NP.
      destruct (processServerKeyExchange _ _ _ _ _ _) as [u|e|]; cbn [rbind of_res]; [exact I|exact I|congruence].
    - intros cid _. eapply safe_bind; [apply (safe_read C (fun _ => True)), HC|]. intros mr3 GM3. apply safe_ret. cbn [fst snd]. split; [eapply hg_mono; [exact G2|lia]|exact GM3]. }
  intros [[h2 cid] mr3] [G2 GM3]. cbn [fst snd] in G2, GM3.
  eapply safe_bind with (P := fun r => let '(h, requested, chain, mr) := r in hg d 5 h /\ got VersionGMSSL mr /\ (requested = false -> chain = None) /\ (requested = true -> exists ce, chain = Some ce) /\ (forall ce, chain = Some ce -> chain_fine (ce_chain ce))).
  { assert (K : safe (ret (h2, false, @None (certificate T), mr3)) (fun r => let '(h, requested, chain, mr) := r in hg d 5 h /\ got VersionGMSSL mr /\ (requested = false -> chain = None) /\ (requested = true -> exists ce, chain = Some ce) /\ (forall ce, chain = Some ce -> chain_fine (ce_chain ce)))).
    { apply safe_ret. split; [eapply hg_mono; [exact G2|lia]|]. split; [exact GM3|]. repeat split; discriminate. }
    destruct (fst mr3) eqn:F3; try exact K. clear K. destruct GM3 as (P3 & Bm3 & Lm3 & _).
    eapply safe_bind; [eapply safe_wr; [exact G2|exact Bm3|lia]|]. intros h3 G3. eapply safe_bind; [apply getCertificate_safe|]. intros chain (ce & -> & CF).
    eapply safe_bind; [apply (safe_read C (fun _ => True)), HC|]. intros mr4 GM4. apply safe_ret. split; [eapply hg_mono; [exact G3|lia]|]. split; [exact GM4|]. split; [discriminate|]. split; [eauto|]. intros ce' [= <-]. exact CF. }
  intros [[[h3 requested] chain] mr4] (G3 & GM4 & RN & RS & CF). destruct (fst mr4) eqn:F4; try apply safe_unexpected. destruct GM4 as (P4 & Bm4 & Lm4 & _).
  eapply safe_bind; [eapply safe_wr; [exact G3|exact Bm4|lia]|]. intros h4 G4.
  eapply safe_bind with (P := hg d 7).
  { destruct requested; [|apply safe_ret; eapply hg_mono; [exact G4|lia]]. destruct (RS eq_refl) as [ce ->]. destruct (CF ce eq_refl) as [CF1 CF2]. eapply safe_weak; [eapply safe_emit; [exact HC|exact G4|now apply fine_cert]|]. intros hx Gx. eapply hg_mono; [exact Gx|lia]. }
  intros h5 G5. destruct (sa_enc _ _ _ _ SA) as [be He]. destruct (sa_sign _ _ _ _ SA) as [bs Hsg].
  eapply safe_bind with (P := fun k => small (fst k) /\ bytes (snd k) /\ zlen (snd k) < 2 ^ 20).
  { apply safe_orfail. unfold ka_generateCKX. rewrite HS. cbn [Z.eqb ECC Pos.eqb]. rewrite Hp1, He.
    pose proof (generateCKX_out (e_cv E) (e_fuel E) (r_pms rn) be VersionGMSSL p1 GC) as X.
    destruct (generateClientKeyExchange (e_cv E) (e_fuel E) (r_pms rn) (Some be) VersionGMSSL p1) as [[[pms ct]| |]|]; cbn [of_res]; try exact I; apply X; intros r Hr; destruct (sa_pms _ _ _ _ SA r Hr) as [Q1 Q2]; (split; [exact Q1|unfold zlen; rewrite Q2; reflexivity]). }
  intros [pms ct] (SP & Bct & Lct). cbn [fst snd] in SP, Bct, Lct.
  eapply safe_bind; [eapply safe_emit; [exact HC|exact G5|now apply fine_ckx]|]. intros h6 G6.
  eapply safe_bind with (P := hg d 9).
  { destruct chain as [ce|]; [|apply safe_ret; eapply hg_mono; [exact G6|lia]]. destruct (ce_chain ce); [apply safe_ret; eapply hg_mono; [exact G6|lia]|]. destruct (ce_key ce) as [key|]; [|apply safe_fail].
    eapply safe_bind; [eapply osum_safe; [exact G6|lia]|]. intros [digest oc] [BD G7]. cbn [fst snd] in BD, G7. rewrite Hsg. destruct (PrivSign_out (e_cv E) bs key digest BD) as [NP HX].
    eapply safe_bind with (P := fun sig => bytes sig /\ zlen sig <= 84).
    - apply safe_orfail. destruct (PrivSign (e_cv E) (Some bs) key digest) as [sig| |]; cbn [of_res]; [now apply HX|exact I|congruence].
    - intros sig [S1 S2]. eapply safe_weak; [eapply safe_emit; [exact HC|exact G7|now apply fine_cv]|]. intros hx Gx. eapply hg_mono; [exact Gx|lia]. }
  intros h7 G7. pose proof (master_safe Hs HG (e_std E) HL pms cr (sh_random sh) SP B1 B2 L1 L2) as MS.
  eapply safe_bind with (P := small); [apply safe_res; destruct (masterFromPreMasterSecret _ _ _ _ _ _); auto|]. intros master SM.
  destruct (cf_keylog cfg cr master); [apply safe_fail|]. apply safe_ret. split; [exact SM|]. cbn [cf_h]. eapply hg_discard. exact G7.
Qed.
Lemma sendFinished_safe d n sh h master : sh_npn sh = false -> hg d n h -> n < 60 -> small master -> safe (client_sendFinished (T := T) C cfg sh h master) (fun r => hg d (n + 1) (fst (fst r))).
Proof.
  intros Np G Hn SM. unfold client_sendFinished. rewrite Np. eapply safe_bind; [apply (safe_sendccs C (fun _ => True)), HC|]. intros _ _. eapply safe_bind; [apply safe_ret with (P := fun x => x = (h, None)); reflexivity|]. intros x ->. cbv iota beta.
  eapply safe_bind; [apply (safe_clientSum C Hs HG d n); [exact G|lia|exact SM]|]. intros [vd h1] [V G1]. cbn [fst snd] in V, G1. cbv iota. eapply safe_bind; [eapply safe_emit; [exact HC|exact G1|now apply fine_fin]|].
  intros h2 G2. apply safe_ret. exact G2.
Qed.
Lemma readFinished_safe d n h master : hg d n h -> n < 60 -> small master -> safe (client_readFinished C h master) (fun r => hg d (n + 1) (fst r)).
Proof.
  intros G Hn SM. unfold client_readFinished. eapply safe_bind; [apply (safe_ccs C (fun _ => True)), HC|]. intros _ _. eapply safe_bind; [apply (safe_read C (fun _ => True)), HC|]. intros mr (P & B & Lm & _).
  destruct (fst mr); try apply safe_unexpected. eapply safe_bind; [apply (safe_serverSum C Hs HG d n); [exact G|lia|exact SM]|]. intros [v h1] [V G1]. cbn [fst snd] in V, G1. cbv iota. destruct (beqb v vd); [|apply safe_fail].
  eapply safe_bind; [eapply safe_wr; [exact G1|exact B|lia]|]. intros h2 G2. apply safe_ret. exact G2.
Qed.
Lemma ticket_safe d n sh su master peer chains h : hg d n h -> safe (readSessionTicket (T := T) C sh su master peer chains h) (fun r => hg d (n + 1) (fst r)).
Proof.
  intros G. unfold readSessionTicket. destruct (negb _); [apply safe_ret; eapply hg_mono; [exact G|lia]|]. eapply safe_bind; [apply (safe_read C (fun _ => True)), HC|]. intros mr (P & B & Lm & _).
  destruct (fst mr); try apply safe_unexpected. eapply safe_bind; [eapply safe_wr; [exact G|exact B|lia]|]. intros h2 G2. apply safe_ret. exact G2.
Qed.
Lemma keys_step master cr sr : small master -> bytes cr -> bytes sr -> length cr = 32%nat -> length sr = 32%nat -> safe (client_keys E C master cr sr) (fun _ => True).
Proof.
  intros SM B1 B2 L1 L2. unfold client_keys. destruct (keys_safe Hs HG (e_std E) HL VersionGMSSL master cr sr eq_refl SM B1 B2 L1 L2) as [kb ->]. eapply safe_bind; [apply safe_lift with (P := fun _ => True); exact I|]. intros k _. apply safe_setkeys.
Qed.
Lemma client_safe : safe (clientHandshakeGM E C cfg cache rn) (fun _ => True).
Proof.
  unfold clientHandshakeGM. eapply safe_bind; [apply safe_setvers|]. intros _ _. destruct (sa_suites _ _ _ _ SA) as [NE Ls]. fold (offered (getCipherSuites (cf_suites cfg))).
  eapply safe_bind with (P := fun hello => exists cr, r_hello rn = Some cr /\ hello = any_ch cr [] (offered (getCipherSuites (cf_suites cfg))) false []).
  { apply safe_res. unfold makeClientHelloGM. destruct (_ && _); [exact I|]. destruct (r_hello rn) as [cr|]; [|exact I]. exists cr. split; reflexivity. }
  intros hello0 (cr & Hcr & ->). destruct (sa_hello _ _ _ _ SA cr Hcr) as [B1 L1].
  eapply safe_bind with (P := fun hs => exists sid on tk, fst hs = any_ch cr sid (offered (getCipherSuites (cf_suites cfg))) on tk /\ fine (m_clientHello (fst hs)) /\ (forall s, snd hs = Some s -> cache = Some (Some s))).
  { apply safe_res. unfold complete_hello. destruct cache as [[s|]|] eqn:EC.
    - change (set_ch_ticketOn (any_ch cr [] (offered (getCipherSuites (cf_suites cfg))) false []) true) with (any_ch cr [] (offered (getCipherSuites (cf_suites cfg))) true []).
      cbv zeta. destruct (offered_session cfg (Some (Some s)) _) as [s'|] eqn:OS.
      + assert (s' = s) as -> by (unfold offered_session in OS; destruct (_ && _) in OS; congruence). destruct (r_sid rn) as [sid|] eqn:ES; [|exact I]. destruct (sa_sid _ _ _ _ SA sid ES) as [B2 L2].
        destruct (sa_session _ _ _ _ SA s eq_refl) as (B3 & L3 & _). exists sid, true, (cs_ticket s). cbn [fst snd]. split; [reflexivity|]. split; [|intros s'' [= <-]; reflexivity].
        change (set_ch_sessionId _ _) with (any_ch cr sid (offered (getCipherSuites (cf_suites cfg))) true (cs_ticket s)).
        apply any_ch_fine; auto; [unfold zlen; rewrite L2; cbn; lia|discriminate].
      + exists [], true, []. cbn [fst snd]. split; [reflexivity|]. split; [|discriminate]. apply any_ch_fine; auto; try (constructor); try (cbn; lia).
    - cbn [offered_session]. exists [], true, []. cbn [fst snd]. split; [reflexivity|]. split; [|discriminate].
      change (set_ch_ticketOn _ _) with (any_ch cr [] (offered (getCipherSuites (cf_suites cfg))) true []). apply any_ch_fine; auto; try (constructor); try (cbn; lia).
    - cbn [offered_session]. exists [], false, []. cbn [fst snd]. split; [reflexivity|]. split; [|discriminate]. apply any_ch_fine; auto; try (constructor); try (cbn; lia). }
  intros [hello session] (sid & on & tk & EH & FI & HSess). cbn [fst snd] in EH, FI, HSess. cbv iota beta. subst hello.
  eapply safe_bind with (P := fun m => bytes m /\ zlen m < 2 ^ 26). { unfold enc. apply safe_res. destruct (m_clientHello _); exact FI. }
  intros chraw [B0 L0]. eapply safe_bind; [apply (safe_send C (fun _ => True)), HC|]. intros _ _.
  eapply safe_bind; [apply (safe_read C (fun _ => True)), HC|]. intros [msg m_sh] (Psh & B2 & L2 & _). cbn [fst snd] in *. destruct msg as [| |sh| | | | | | | | | | ]; try apply safe_unexpected.
  assert (SR : bytes (sh_random sh) /\ length (sh_random sh) = 32%nat) by (apply up_serverHello in Psh; exact (sh_random_ok _ _ _ Psh B2)). destruct SR as [B3 L3].
  destruct (negb (sh_vers sh =? VersionGMSSL)); [apply safe_fail|]. destruct (mutualCipherSuiteGM _ (sh_suite sh)) as [su|] eqn:MU; [|apply safe_fail].
  assert (HSu : su_id su = ECC).
  { cbn [any_ch ch_suites] in MU. assert (X : In (su_id su) (offered (getCipherSuites (cf_suites cfg))) /\ In su gmCipherSuites).
    { clear FI. revert MU. unfold mutualCipherSuiteGM. induction (offered (getCipherSuites (cf_suites cfg))) as [|id l IH]; [discriminate|]. cbn [mutual_suite]. destruct (Z.eqb_spec id (sh_suite sh)) as [->|].
      - intros F. apply P_TLS_neg.find_suite_spec in F as [F1 F2]. split; [left; auto|exact F1].
      - intros F. destruct (IH F). split; [now right|assumption]. }
    destruct X as [X1 X2]. apply offered_in in X1 as [X1 [X|X]]; [exact X|]. exfalso. apply NE. rewrite <- X. exact X1. }
  eapply safe_bind with (P := fun r => sh_npn sh = false /\ forall s, r = Some s -> session = Some s).
  { unfold processServerHello. destruct (negb _); [apply safe_fail|]. destruct (_ && _); [apply safe_fail|]. cbn [any_ch ch_npn negb andb]. destruct (sh_npn sh); [apply safe_fail|].
    destruct (_ && _); [apply safe_fail|]. destruct (_ && _); [apply safe_fail|]. destruct session as [s|]; [|apply safe_ret; split; [reflexivity|discriminate]].
    destruct (negb _); [apply safe_ret; split; [reflexivity|discriminate]|]. destruct (negb _); [apply safe_fail|]. destruct (negb _); [apply safe_fail|]. apply safe_ret. split; [reflexivity|auto]. }
  intros resumed [Np HR]. eapply safe_bind; [apply safe_res with (P := hg false 0); pose proof (hg_new Hs HG (e_std E) HL) as X; destruct newFinishedHashGM; [exact X|exact I|exact X]|]. intros h0 G0. cbv zeta.
  match goal with |- context [if ?b then discardHandshakeBuffer h0 else h0] => set (h1 := if b then discardHandshakeBuffer h0 else h0); assert (G1 : exists d, hg d 0 h1) end.
  { unfold h1. match goal with |- context [if ?b then _ else _] => destruct b end; [exists true; eapply hg_discard; exact G0|eauto]. }
  clearbody h1. destruct G1 as [d G1].
  eapply safe_bind; [eapply safe_wr; [exact G1|exact B0|lia]|]. intros h2 G2. eapply safe_bind; [eapply safe_wr; [exact G2|exact B2|lia]|]. intros h3 G3.
  destruct resumed as [s|].
  - specialize (HR s eq_refl). destruct (sa_session _ _ _ _ SA s (HSess s HR)) as (_ & _ & SM). cbn [any_ch ch_random].
    eapply safe_bind; [apply keys_step; assumption|]. intros _ _. eapply safe_bind; [eapply ticket_safe; exact G3|]. intros [h4 ns] G4. cbn [fst] in G4. cbv iota beta.
    eapply safe_bind; [eapply readFinished_safe; [exact G4|lia|exact SM]|]. intros [h5 sf] G5. cbn [fst] in G5. cbv iota beta.
    eapply safe_bind; [eapply sendFinished_safe; [exact Np|exact G5|lia|exact SM]|]. intros [[h6 cf] pr] G6. now apply safe_ret.
  - eapply safe_bind; [apply client_full_safe; eauto|]. intros f [SM G4]. cbn [any_ch ch_random].
    eapply safe_bind; [apply keys_step; assumption|]. intros _ _. eapply safe_bind; [eapply sendFinished_safe; [exact Np|exact G4|lia|exact SM]|]. intros [[h6 cf] pr] G6. cbn [fst] in G6. cbv iota beta.
    eapply safe_bind; [eapply ticket_safe; exact G6|]. intros [h7 ns] G7. cbn [fst] in G7. cbv iota beta.
    eapply safe_bind; [eapply readFinished_safe; [exact G7|lia|exact SM]|]. intros [h8 sf] G8. now apply safe_ret.
Qed.
End Client.
(** C93: whatever the server sends, a GM client that does not offer the ECDHE suite does not panic: Handshake returns a result or an error (or blocks). *)
Theorem C93_no_server_crashes_the_client {T} (E : env T) C Hs cfg cache rn c :
  world_ok E Hs -> good_curve (e_cv E) -> chan_ok C (fun _ => True) -> client_sane E cfg cache rn -> fst (clientHandshakeGM E C cfg cache rn (c, [])) <> HPanic.
Proof.
  intros (HL & HG & _) GC HC SA. pose proof (client_safe E C HC Hs HL HG GC cfg cache rn SA (c, [])) as X. intros HX. rewrite HX in X. exact X.
Qed.

(** C134: no server can crash an ordinary TLS client that offers only ECDHE suites; C133: no client can crash an ordinary TLS server whose versions are
    SSL 3.0 to TLS 1.2 (see P_TLS_std_crash.v for what happens without these restrictions). *)
From Verif Require Import GoBase GoLemmas BigBytes HMAC Asn1_model X509_spec SM2_model SM2_proofs TLS_record_model TLS_prf_model TLS_prf_spec TLS_prf_proofs
  TLS_gmka_model TLS_ticket_model TLS_msg_model TLS_msg_proofs TLS_neg_model TLS_hs_model TLS_hs_proofs TLS_hs_bytes TLS_hs_server TLS_hs_client TLS_hs_spec TLS_hs_run P_TLS_hs_server P_TLS_hs_client P_TLS_hs_agree P_TLS_hs_run TLS_hs_safe
  TLS_std_model TLS_std_spec TLS_std_proofs TLS_std_server TLS_std_client P_TLS_std_server P_TLS_std_server2 P_TLS_std_client TLS_std_safe TLS_std_safe2.
From Verif Require X509_model P_TLS_msg P_TLS_prf P_TLS_neg P_TLS_ticket P_TLS_hs_safe.
Open Scope Z_scope.
#[local] Opaque PRF be_bytes fh_Write discardHandshakeBuffer clientSum serverSum newFinishedHash hashForClientCertificate parse_msg parse_std masterFromPreMasterSecret std_keys
  m_certificate m_clientKeyExchange m_certificateVerify m_finished m_clientHello m_nextProto m_serverHello m_certificateRequest m_certificateStatus m_newSessionTicket m_serverKeyExchange.

(** ** The client's hello *)
Lemma piece_len (c : bool) (e : list Z) : zlen (if c then e else []) <= zlen e.
Proof. destruct c; [lia|apply zlen_nonneg]. Qed.
Lemma ch_ext_bound m : zlen (ch_extensions m) <= 100 + zlen (ch_sni m) + 2 * zlen (ch_curves m) + zlen (ch_points m) + zlen (ch_ticket m) + 2 * zlen (ch_sigalgs m) + zlen (ch_reneg m) + zlen (alpn_strings (ch_alpn m)).
Proof.
  unfold ch_extensions. rewrite !zlen_app.
  repeat match goal with |- context [zlen (if ?c then ?e else @nil Z)] => let H := fresh in pose proof (piece_len c e) as H; generalize dependent (zlen (if c then e else @nil Z)); intros end.
  rewrite ?zlen_app, ?zlen_b2, ?concat_b2_len in *. repeat match goal with H : context [zlen (_ :: _)] |- _ => unfold zlen in H at 1; cbn [length] in H end.
  unfold zlen in *. cbn [length] in *. lia.
Qed.
Lemma ch_ext_bytes m : bytes (ch_sni m) -> bytes (ch_points m) -> bytes (ch_ticket m) -> bytes (ch_reneg m) -> Forall bytes (ch_alpn m) -> bytes (ch_extensions m).
Proof.
  intros B1 B2 B3 B4 B5. unfold ch_extensions. assert (BA : bytes (alpn_strings (ch_alpn m))). { unfold alpn_strings. apply bytes_concat_map. intros x Hx. rewrite Forall_forall in B5. apply bytes_cons. split; [apply u8_byte|auto]. }
  repeat (apply bytes_app; split); match goal with |- bytes (if ?c then _ else _) => destruct c; [|constructor] end; byt.
Qed.
Lemma ch_fineB m : existsb bad_alpn (ch_alpn m) = false -> ch_renegOn m = true -> bytes (ch_random m) -> bytes (ch_sessionId m) -> bytes (ch_comp m) -> bytes (ch_sni m) -> bytes (ch_points m) -> bytes (ch_ticket m) -> bytes (ch_reneg m) -> Forall bytes (ch_alpn m) ->
  zlen (ch_sessionId m) + zlen (ch_suites m) + zlen (ch_comp m) + zlen (ch_sni m) + zlen (ch_curves m) + zlen (ch_points m) + zlen (ch_ticket m) + zlen (ch_sigalgs m) + zlen (ch_reneg m) + zlen (alpn_strings (ch_alpn m)) < 2 ^ 45 ->
  fineB (m_clientHello m).
Proof.
  intros HA HR B0 B1 B2 B3 B4 B5 B6 B7 Ln. pose proof (ch_ext_bytes m B3 B4 B5 B6 B7) as BX. pose proof (ch_ext_bound m) as LX. pose proof (P_TLS_msg.ch_ext_len m) as EL.
  assert (NE : 0 < ch_numExt m).
  { assert (X : forall b, 0 <= Z.b2z b) by (intros []; cbn; lia). unfold ch_numExt. rewrite HR. change (Z.b2z true) with 1.
    repeat match goal with |- context [Z.b2z ?b] => let H := fresh in pose proof (X b) as H; generalize dependent (Z.b2z b); intros end. lia. }
  with_strategy transparent [m_clientHello] unfold m_clientHello. rewrite HA. cbv zeta. apply Z.ltb_lt in NE. rewrite NE.
  pose proof (zlen_nonneg (ch_sessionId m)). pose proof (zlen_nonneg (ch_suites m)). pose proof (zlen_nonneg (ch_comp m)). pose proof (zlen_nonneg (ch_sni m)). pose proof (zlen_nonneg (ch_curves m)). pose proof (zlen_nonneg (ch_points m)).
  pose proof (zlen_nonneg (ch_ticket m)). pose proof (zlen_nonneg (ch_sigalgs m)). pose proof (zlen_nonneg (ch_reneg m)). pose proof (zlen_nonneg (alpn_strings (ch_alpn m))).
  apply fill_fine; [byt| |].
  - rewrite !zlen_app, !zlen_b2, concat_b2_len. change (zlen (b3 _)) with 3. change (zlen [1]) with 1. change (zlen [_; _]) with 2. change (zlen [u8 (zlen (ch_sessionId m))]) with 1. change (zlen [u8 (zlen (ch_comp m))]) with 1.
    assert (zlen (copy32 (ch_random m)) = 32) by (unfold copy32, zlen, zeros; rewrite app_length, firstn_length, repeat_length; lia). lia.
  - change (2 ^ 45) with 35184372088832 in Ln. change (2 ^ 50) with 1125899906842624. lia.
Qed.

Lemma trim_dots_out name : bytes name -> bytes (trim_dots name) /\ zlen (trim_dots name) <= zlen name.
Proof.
  intros B. unfold trim_dots. assert (X : forall l, bytes l -> bytes (trim_dots_rev l) /\ zlen (trim_dots_rev l) <= zlen l).
  { induction l as [|c l IH]; intros Bl; cbn [trim_dots_rev]; [split; [exact Bl|lia]|]. destruct (c =? dot); [|split; [exact Bl|lia]]. apply bytes_cons in Bl as [_ Bl]. destruct (IH Bl) as [H1 H2]. split; [exact H1|]. rewrite zlen_cons. lia. }
  destruct (X (rev name)) as [H1 H2]; [now apply bytes_rev|]. split; [now apply bytes_rev|]. unfold zlen in *. rewrite !rev_length in *. lia.
Qed.

(** ** The client *)
Lemma std_verify_total {T} (E : senv T) st h pub digest sig : st <> signatureSM2 -> exists b, std_verify E st h pub digest sig = Ok b.
Proof. intros N. unfold std_verify. destruct (st =? signatureECDSA); [eauto|]. destruct (_ || _); [eauto|]. apply Z.eqb_neq in N. rewrite N. eauto. Qed.
(** a certificate that can be presented: the chain fits into a Certificate message, and Sign returns *)
Definition presentable {T} (ce : scertificate T) : Prop :=
  P_TLS_hs_safe.chain_fine (sc_chain ce) /\
  forall sign ty h rnd d, k_sign (sc_key ce) = Some sign -> match sign ty h rnd d with Ok sig => bytes sig /\ zlen sig < 2 ^ 16 | Err _ => True | Panic => False end.
Record std_client_sane {T} (E : senv T) (cfg : sconfig T) (cache : option (option (csession T))) (rn : rnds) (pr : option (prior T)) : Prop := {
  ta_versions : cf_max (s_cfg cfg) <= 0x0303;
  ta_suites : (forall id, In id (cfg_cipherSuites (cf_suites (s_cfg cfg))) -> In id (map fst suite_table) -> ecdhe_suite id = true) /\ zlen (cfg_cipherSuites (cf_suites (s_cfg cfg))) < 2 ^ 40;
  ta_hello : forall b, r_hello rn = Some b -> bytes b /\ length b = 32%nat;
  ta_sid : forall b, r_sid rn = Some b -> bytes b /\ zlen b <= 32;
  ta_name : bytes (cf_serverName (s_cfg cfg)) /\ zlen (cf_serverName (s_cfg cfg)) < 2 ^ 40;
  ta_curves : zlen (s_curves cfg) < 2 ^ 40;
  ta_protos : Forall bytes (cf_protos (s_cfg cfg));
  ta_groups : groups_ok E /\ forall k rnd, k = se_x25519 E \/ (exists id, k = se_nist E id) -> kx_gen k rnd <> Panic;
  ta_certs : forall ce, In ce (s_certs cfg) -> presentable ce;
  ta_getcert : forall f cas schemes, s_getClientCert cfg = Some f -> match f cas schemes with Ok (Some ce) => presentable ce | Err _ => True | _ => False end;
  ta_session : forall s, cache = Some (Some s) -> bytes (cs_ticket s) /\ zlen (cs_ticket s) < 2 ^ 40 /\ small (cs_master s);
  ta_prior : forall p, pr = Some p -> bytes (pr_clientFinished p) /\ zlen (pr_clientFinished p) < 2 ^ 40 /\ exists c0 rest, pr_peer p = c0 :: rest /\ (is_rsa (g_pub c0) || is_ecdsa (g_pub c0) = true) }.

Section Client.
Context {T : Type} (E : senv T) (C : chan) (HC : chan_ok C (fun _ => True)) (Hs : hashes) (H512 : list Z -> list Z) (HW : std_world_ok E Hs H512).
Context (cfg : sconfig T) (cache : option (option (csession T))) (rn : rnds) (pr : option (prior T)) (SA : std_client_sane E cfg cache rn pr).
Notation safe := (safe C).
Notation hg := (hgS Hs).
Let HL : std_impl (e_std (se E)) Hs := proj1 HW.
Let HG : good_hashes Hs := proj1 (proj2 HW).

Lemma group_gen id k : (if id =? X25519 then Some (se_x25519 E) else curveForCurveID E id) = Some k -> (forall rnd, kx_gen k rnd <> Panic) /\ kex_bytes k.
Proof.
  destruct (ta_groups _ _ _ _ _ SA) as [[G1 G2] G3]. intros H. destruct (id =? X25519); [injection H as <-; split; [intros; apply G3; now left|exact G1]|].
  unfold curveForCurveID in H. destruct (_ || _); [injection H as <-; split; [intros; apply G3; right; eauto|apply G2]|discriminate].
Qed.
Lemma processSKX_safe vers su ch sr pub key : bytes (ch_random ch) -> length (ch_random ch) = 32%nat -> bytes sr -> length sr = 32%nat -> bytes key -> zlen key < 2 ^ 25 -> is_rsa pub || is_ecdsa pub = true -> (forall a, In a (ch_sigalgs ch) -> In a supportedSignatureAlgorithms) ->
  match std_processSKX E vers su ch sr pub key with Ok ka => fst ka = 0 \/ exists k, (if fst ka =? X25519 then Some (se_x25519 E) else curveForCurveID E (fst ka)) = Some k | Err _ => True | Panic => False end.
Proof.
  intros B1 L1 B2 L2 BK LK PU SG. unfold std_processSKX. destruct (negb _); [exact I|]. destruct key as [|k0 [|k1 [|k2 [|k3 rest]]]]; try exact I. set (key := k0 :: k1 :: k2 :: k3 :: rest) in *.
  destruct (negb _); [exact I|]. destruct (zlen key <? k3 + 4); [exact I|]. cbv zeta. set (params := firstn _ key). set (sig := skipn _ key). assert (BP : bytes params) by (now apply bytes_firstn). assert (LP : zlen params <= zlen key) by (unfold params, zlen; rewrite firstn_length; lia). clearbody params sig.
  destruct (Z.ltb_spec (zlen sig) 2) as [|LS]; [exact I|]. set (pk := skipn 4 params). clearbody pk.
  match goal with |- context [rbind ?x _] => destruct x as [u|e|] eqn:EG end; cbn [rbind]; [|exact I|].
  2:{ destruct (_ =? X25519); [destruct (negb _); discriminate|]. destruct (curveForCurveID _ _); [destruct (kx_point _ _); discriminate|discriminate]. }
  assert (GK : exists k, (if 256 * k1 + k2 =? X25519 then Some (se_x25519 E) else curveForCurveID E (256 * k1 + k2)) = Some k).
  { destruct (_ =? X25519); [eauto|]. destruct (curveForCurveID _ _); [eauto|discriminate]. }
  clear EG.
  match goal with |- context [rbind ?x _] => destruct x as [[alg sig2]|e|] eqn:EA end; cbn [rbind]; [|exact I|].
  2:{ destruct (VersionTLS12 <=? vers); [|discriminate]. destruct sig as [|a0 [|a1 sg]]; try (unfold zlen in LS; cbn [length] in LS; lia). destruct (_ <? 2); discriminate. }
  assert (LS2 : 2 <= zlen sig2). { destruct (VersionTLS12 <=? vers); [|injection EA as _ <-; exact LS]. destruct sig as [|a0 [|a1 sg]]; try discriminate. destruct (Z.ltb_spec (zlen sg) 2) as [|LZ]; [discriminate|]. injection EA as _ <-. exact LZ. }
  pose proof (pick_np pub [alg] (ch_sigalgs ch) vers SG) as NP. destruct (pickSignatureAlgorithm pub [alg] (ch_sigalgs ch) vers) as [[[a st] h]|e|] eqn:EP; cbn [rbind]; [|exact I|congruence].
  assert (NS : forall q, pub <> PkSM2 q) by (intros q ->; discriminate). destruct (pick_type _ _ _ _ _ EP NS) as [PT PS]. cbn [fst snd] in PT, PS.
  destruct (negb _); [exact I|]. destruct sig2 as [|s0 [|s1 sg]]; try (unfold zlen in LS2; cbn [length] in LS2; lia). destruct (negb _); [exact I|].
  rewrite (SKX_hash_ok E Hs H512 st h vers (ch_random ch) sr params HW B1 B2 BP); [| |exact PT].
  - cbn [rbind]. destruct (std_verify_total E st h pub (signed_params Hs vers (is_rsa_sig st) (hash_fn Hs H512 h) (ch_random ch) sr params) sg PS) as [ok ->]. cbn [rbind]. destruct ok; [right; exact GK|exact I].
  - rewrite !zlen_app. unfold zlen at 1 2. rewrite L1, L2. change (2 ^ 25) with 33554432 in LK. change (2 ^ 61) with 2305843009213693952. lia.
Qed.
Lemma generateCKX_safe su ka hv pub : has_flag su suiteECDHE = true -> (fst ka = 0 \/ exists k, (if fst ka =? X25519 then Some (se_x25519 E) else curveForCurveID E (fst ka)) = Some k) ->
  match std_generateCKX E rn su ka hv pub with Ok k => small (fst k) /\ bytes (snd k) /\ zlen (snd k) < 2 ^ 20 | Err _ => True | Panic => False end.
Proof.
  intros HE HK. unfold std_generateCKX. rewrite HE. cbn [negb]. destruct (Z.eqb_spec (fst ka) 0); [exact I|]. destruct HK as [HK|[k HK]]; [congruence|]. rewrite HK. destruct (group_gen _ _ HK) as [G1 [G2 G3]].
  specialize (G1 (r_pms rn)). destruct (kx_gen k (r_pms rn)) as [[priv ser]| |] eqn:EG; cbn [rbind]; [|exact I|congruence]. destruct (G3 _ _ _ EG) as [Bs Ls]. cbn [fst snd]. split; [apply G2|]. split; [byt|]. rewrite zlen_app. change (zlen [_]) with 1. unfold zlen. change (2 ^ 20) with 1048576. lia.
Qed.
Lemma chain_matches_np ra ea cas ders : forall leaf j, std_chain_matches E ra ea leaf j cas ders <> Panic.
Proof.
  induction ders as [|d ders IH]; intros leaf j; cbn [std_chain_matches]; [discriminate|].
  match goal with |- match ?x with _ => _ end <> _ => destruct x as [y|] end; [|discriminate]. destruct (negb _); [discriminate|]. destruct cas as [|c0 cas0]; [discriminate|]. destruct (existsb _ _); [discriminate|apply IH].
Qed.
Lemma empty_presentable : presentable (mkSC [] (mkKey (@PkOther T) None None) None [] []).
Proof. split; [split; [constructor|cbn; lia]|intros; discriminate]. Qed.
Lemma find_chain_fine ra ea cas certs : (forall ce, In ce certs -> presentable ce) -> match std_find_chain E ra ea cas certs with Ok ce => presentable ce | Err _ => True | Panic => False end.
Proof.
  induction certs as [|ce certs IH]; intros HF; cbn [std_find_chain]; [apply empty_presentable|].
  assert (IH' := IH (fun c Hc => HF c (or_intror Hc))). pose proof (HF ce (or_introl eq_refl)) as HP.
  destruct (negb ra && negb ea); cbn [rbind]; [exact IH'|].
  pose proof (chain_matches_np ra ea cas (sc_chain ce) (sc_leaf ce) 0). destruct (std_chain_matches E ra ea (sc_leaf ce) 0 cas (sc_chain ce)) as [[|]| |]; cbn [rbind]; [exact HP|exact IH'|exact I|congruence].
Qed.
Lemma getCertificate_safe vers cr : safe (std_getCertificate E (C := C) cfg vers cr) (fun o => exists ce, o = Some ce /\ presentable ce /\ (sc_chain ce <> [] -> no_client_certs cfg = false)).
Proof.
  unfold std_getCertificate. cbv zeta. destruct (s_getClientCert cfg) as [f|] eqn:EF.
  - apply safe_orfail. match goal with |- context [f ?c ?s] => pose proof (ta_getcert _ _ _ _ _ SA f c s EF) as X; destruct (f c s) as [[ce|]| |] end; cbn [of_res]; [exists ce; split; [reflexivity|split; [exact X|]]|destruct X|exact I|exact X].
    intros _. unfold no_client_certs. rewrite EF. destruct (s_certs cfg); reflexivity.
  - pose proof (find_chain_fine (existsb (Z.eqb 1) (cr_types cr)) (existsb (Z.eqb 64) (cr_types cr)) (cr_cas cr) _ (ta_certs _ _ _ _ _ SA)) as X.
    destruct (std_find_chain E _ _ _ _) as [ce| |] eqn:EX; [|intros s; exact I|destruct X]. apply safe_ret. exists ce. split; [reflexivity|]. split; [exact X|]. intros NE.
    apply std_find_chain_in in EX as [EX|EX]; [|congruence]. unfold no_client_certs. rewrite EF. destruct (s_certs cfg); [destruct EX|reflexivity].
Qed.
Definition leaf_fine (certs : list (gcert T)) : Prop := exists c0 rest, certs = c0 :: rest /\ is_rsa (g_pub c0) || is_ecdsa (g_pub c0) = true.
Lemma parse_all_len ders : forall cs, parse_all (se E) ders = Some cs -> length cs = length ders.
Proof. induction ders as [|d ders IH]; cbn [parse_all]; intros cs H; [now injection H as <-|]. destruct (e_parse (se E) d); [|discriminate]. destruct (parse_all (se E) ders); [|discriminate]. injection H as <-. cbn. now rewrite (IH _ eq_refl). Qed.
Lemma server_certs_safe ders : ders <> [] -> safe (std_server_certs E (C := C) cfg pr ders) (fun cc => leaf_fine (fst cc)).
Proof.
  intros ND. unfold std_server_certs. cbv zeta. destruct pr as [p|] eqn:EPR.
  - destruct (ta_prior _ _ _ _ _ SA p eq_refl) as (_ & _ & c0 & rest & EP & PK). rewrite EP. destruct ders as [|d0 ds]; [congruence|]. destruct (beqb _ _); [|apply safe_fail]. apply safe_ret. exists c0, rest. auto.
  - destruct (parse_all (se E) ders) as [certs|] eqn:PA; [|apply safe_fail]. apply parse_all_len in PA. destruct certs as [|c0 rest]; [destruct ders; [congruence|discriminate]|].
    eapply safe_bind with (P := fun _ => True).
    { destruct (cf_skip (s_cfg cfg)); [now apply safe_ret|]. match goal with |- safe (match ?x with _ => _ end) _ => destruct x end; [|apply safe_fail]. match goal with |- safe (match ?x with _ => _ end) _ => destruct x end; [now apply safe_ret|apply safe_fail]. }
    intros chains _. match goal with |- safe (match ?x with _ => _ end) _ => destruct x end; [apply safe_fail|]. destruct (g_pub c0) eqn:GP; try apply safe_fail; apply safe_ret; exists c0, rest; (split; [reflexivity|rewrite GP; reflexivity]).
Qed.

Lemma skx_bytes v m k : parse_std v m = Ok (MServerKeyExchange k) -> bytes m -> zlen m < 2 ^ 25 -> bytes k /\ zlen k < 2 ^ 25.
Proof.
  intros P B Lm. apply parse_std_msg in P; [|discriminate]. apply up_skx in P. unfold u_serverKeyExchange in P. apply fails_ok in P as [_ P]. apply sl_from_ok in P as [_ ->]. split; [now apply bytes_skipn|]. unfold zlen in *. rewrite skipn_length. lia.
Qed.
Lemma spend_tls ver : ver <> SSL30 -> spend ver false = false. Proof. destruct ver; auto; congruence. Qed.
(** the full handshake *)
Lemma std_client_full_safe vers ver hello sh su h : version_of vers (su_sha384 su) = Some ver -> ver <> SSL30 -> has_flag su suiteECDHE = true ->
  bytes (ch_random hello) -> length (ch_random hello) = 32%nat -> bytes (sh_random sh) -> length (sh_random sh) = 32%nat -> (forall a, In a (ch_sigalgs hello) -> In a supportedSignatureAlgorithms) ->
  hg ver (no_client_certs cfg) false false 2 h ->
  safe (std_client_full E (C := C) cfg rn pr vers hello sh su h) (fun f => small (cf_master f) /\ hg ver true false false 12 (cf_h f)).
Proof.
  intros EV NS HE B1 L1 B2 L2 SG G. set (d := no_client_certs cfg) in G. pose proof (proj1 (proj2 (version_of_inv _ _ _ EV))) as NG. unfold std_client_full. cbv zeta.
  eapply safe_bind; [apply safe_readS, HC|]. intros mr1 GM1. destruct (fst mr1) as [| | | |ders| | | | | | | |] eqn:F1; try apply safe_unexpected.
  destruct (Z.eqb_spec (zlen ders) 0) as [|ND]; [apply safe_unexpected|].
  eapply safe_bind; [eapply safe_wr_read; [exact G|exact GM1]|]. intros h1 G1.
  eapply safe_bind; [apply server_certs_safe; intros ->; apply ND; reflexivity|]. intros [certs chains] (c0 & rest & EC & PK). cbn [fst] in EC. subst certs. cbv iota beta.
  eapply safe_bind; [apply safe_readS, HC|]. intros mr2 GM2.
  eapply safe_bind with (P := fun r => hg ver d false false 4 (fst r) /\ gotS vers (snd r)).
  { assert (K : safe (ret (h1, mr2)) (fun r => hg ver d false false 4 (fst r) /\ gotS vers (snd r))) by (apply safe_ret; cbn [fst snd]; split; [eapply hgS_mono; [exact G1|lia]|exact GM2]).
    destruct (fst mr2) eqn:F2; try exact K. clear K. destruct (negb _); [apply safe_fail|]. eapply safe_bind; [eapply safe_wr_read; [exact G1|exact GM2]|]. intros h2 G2.
    eapply safe_bind; [apply safe_readS, HC|]. intros mr3 GM3. apply safe_ret. cbn [fst snd]. split; [eapply hgS_mono; [exact G2|lia]|exact GM3]. }
  intros [h2 mr3] [G2 GM3]. cbn [fst snd] in G2, GM3.
  eapply safe_bind with (P := fun r => hg ver d false false 5 (fst (fst r)) /\ gotS vers (snd r) /\ (fst (snd (fst r)) = 0 \/ exists k, (if fst (snd (fst r)) =? X25519 then Some (se_x25519 E) else curveForCurveID E (fst (snd (fst r)))) = Some k)).
  { assert (K : safe (ret (h2, (0, @nil Z), mr3)) (fun r => hg ver d false false 5 (fst (fst r)) /\ gotS vers (snd r) /\ (fst (snd (fst r)) = 0 \/ exists k, (if fst (snd (fst r)) =? X25519 then Some (se_x25519 E) else curveForCurveID E (fst (snd (fst r)))) = Some k))).
    { apply safe_ret; cbn [fst snd]; split; [eapply hgS_mono; [exact G2|lia]|split; [exact GM3|now left]]. }
    destruct (fst mr3) as [| | | | | | |k| | | | |] eqn:F3; try exact K. clear K. eapply safe_bind; [eapply safe_wr_read; [exact G2|exact GM3]|]. intros h3 G3.
    destruct GM3 as (P3 & Bm3 & Lm3). rewrite F3 in P3. destruct (skx_bytes _ _ _ P3 Bm3 Lm3) as [Bk Lk].
    eapply safe_bind; [apply safe_orfail with (P := fun ka => fst ka = 0 \/ exists k, (if fst ka =? X25519 then Some (se_x25519 E) else curveForCurveID E (fst ka)) = Some k)|].
    - pose proof (processSKX_safe vers su hello (sh_random sh) (g_pub c0) k B1 L1 B2 L2 Bk Lk PK SG) as X. destruct (std_processSKX _ _ _ _ _ _ _); cbn [of_res]; exact X.
    - intros ka HK. eapply safe_bind; [apply safe_readS, HC|]. intros mr4 GM4. apply safe_ret. cbn [fst snd]. split; [eapply hgS_mono; [exact G3|lia]|]. split; [exact GM4|exact HK]. }
  intros [[h3 ka] mr4] (G3 & GM4 & HKA). cbn [fst snd] in G3, GM4, HKA. cbv iota beta.
  eapply safe_bind with (P := fun r => let '(h, requested, chain, mr) := r in hg ver d false false 6 h /\ gotS vers mr /\
     match requested with None => chain = None | Some _ => exists ce, chain = Some ce /\ presentable ce /\ (sc_chain ce <> [] -> d = false) end).
  { assert (K : safe (ret (h3, @None certRequest, @None (scertificate T), mr4)) (fun r => let '(h, requested, chain, mr) := r in hg ver d false false 6 h /\ gotS vers mr /\
     match requested with None => chain = None | Some _ => exists ce, chain = Some ce /\ presentable ce /\ (sc_chain ce <> [] -> d = false) end)).
    { apply safe_ret. split; [eapply hgS_mono; [exact G3|lia]|]. split; [exact GM4|reflexivity]. }
    destruct (fst mr4) eqn:F4; try exact K. clear K.
    eapply safe_bind; [eapply safe_wr_read; [exact G3|exact GM4]|]. intros h4 G4. eapply safe_bind; [apply getCertificate_safe|]. intros chain HCh.
    eapply safe_bind; [apply safe_readS, HC|]. intros mr5 GM5. apply safe_ret. split; [eapply hgS_mono; [exact G4|lia]|]. split; [exact GM5|exact HCh]. }
  intros [[[h4 requested] chain] mr5] (G4 & GM5 & HR). destruct (fst mr5) eqn:F5; try apply safe_unexpected.
  eapply safe_bind; [eapply safe_wr_read; [exact G4|exact GM5]|]. intros h5 G5.
  eapply safe_bind with (P := hg ver d false false 8).
  { destruct requested as [cr|]; [|apply safe_ret; eapply hgS_mono; [exact G5|lia]]. destruct HR as (ce & -> & [[CF1 CF2] _] & _). eapply safe_weak; [eapply safe_emitS; [exact HC|exact G5|now apply fineB_cert]|]. intros hx Gx. eapply hgS_mono; [exact Gx|lia]. }
  intros h6 G6.
  eapply safe_bind with (P := fun k => small (fst k) /\ bytes (snd k) /\ zlen (snd k) < 2 ^ 20).
  { apply safe_orfail. pose proof (generateCKX_safe su ka (ch_vers hello) (g_pub c0) HE HKA) as X. destruct (std_generateCKX _ _ _ _ _ _); cbn [of_res]; exact X. }
  intros [pms ct] (SP & Bct & Lct). cbn [fst snd] in SP, Bct, Lct. cbv iota beta.
  eapply safe_bind; [eapply safe_emitS; [exact HC|exact G6|now apply fineB_ckx]|]. intros h7 G7.
  eapply safe_bind with (P := hg ver d false false 11).
  { destruct chain as [ce|]; [|apply safe_ret; eapply hgS_mono; [exact G7|lia]]. destruct requested as [cr|]; [|discriminate]. destruct HR as (ce' & [= <-] & [_ PS] & HD).
    destruct (sc_chain ce) as [|d0 ds] eqn:ECh; [apply safe_ret; eapply hgS_mono; [exact G7|lia]|]. specialize (HD ltac:(discriminate)). clearbody d. subst d.
    destruct (k_sign (sc_key ce)) as [sign|] eqn:EK; [|apply safe_fail].
    eapply safe_bind with (P := fun _ => True). { apply safe_orfail. pose proof (pick_np (k_pub (sc_key ce)) (cr_sigs cr) (ch_sigalgs hello) vers SG) as NP. destruct (pickSignatureAlgorithm _ _ _ _); cbn [of_res]; [exact I|exact I|congruence]. }
    intros [[alg st] hf] _. eapply safe_bind with (P := fun r => hg ver false false false 9 (snd r)).
    { apply safe_orfail. pose proof (hash_cc_np Hs HG (e_std (se E)) HL ver _ h7 st (hash_ctor E hf) _ [] NG G7 ltac:(lia) (hash_ctor_ok E Hs H512 hf HW) small_nil) as X. destruct (hashForClientCertificate _ _ _ _ _); cbn [of_res]; exact X. }
    intros [digest h8] G8. cbn [snd] in G8. cbv iota beta.
    eapply safe_bind with (P := fun sig => bytes sig /\ zlen sig < 2 ^ 16). { apply safe_orfail. specialize (PS sign st hf (r_sign rn) digest eq_refl). destruct (sign st hf (r_sign rn) digest); cbn [of_res]; exact PS. }
    intros sig [S1 S2]. eapply safe_weak; [eapply safe_emitS; [exact HC|exact G8|apply fineB_cv; [exact S1|change (2 ^ 16) with 65536 in S2; change (2 ^ 40) with 1099511627776; lia]]|]. intros hx Gx. eapply hgS_mono; [exact Gx|lia]. }
  intros h8 G8. pose proof (masterS Hs HG (e_std (se E)) HL vers (su_sha384 su) ver pms (ch_random hello) (sh_random sh) EV SP B1 B2 L1 L2) as MS.
  eapply safe_bind with (P := small); [apply safe_res; destruct (masterFromPreMasterSecret _ _ _ _ _ _); auto; apply MS|]. intros master SM.
  destruct (cf_keylog (s_cfg cfg) (ch_random hello) master); [apply safe_fail|]. apply safe_ret. split; [exact SM|]. cbn [cf_h]. eapply hgS_mono; [eapply hgS_discard; exact G8|lia].
Qed.
Lemma mutual_proto_in pref protos s : mutual_proto pref protos = Some s -> In s protos.
Proof.
  induction pref as [|x pref IH]; cbn [mutual_proto]; [discriminate|]. destruct (existsb (beqb x) protos) eqn:EX; [|exact IH]. intros [= <-]. apply existsb_exists in EX as (y & Hy & ->%beqb_eq). exact Hy.
Qed.
Lemma sendFinishedS ver d n sh h master : ver <> GMSSL -> ver <> SSL30 -> (sh_npn sh = true -> cf_protos (s_cfg cfg) <> []) -> forall s, hg ver d false s n h -> n < 60 -> small master ->
  safe (client_sendFinished (T := T) C (s_cfg cfg) sh h master) (fun r => hg ver d false s (n + 2) (fst (fst r))).
Proof.
  intros NG NS Np s G Hn SM. unfold client_sendFinished. eapply safe_bind; [apply (safe_sendccs C (fun _ => True)), HC|]. intros _ _.
  eapply safe_bind with (P := fun x => hg ver d false s (n + 1) (fst x)).
  { destruct (sh_npn sh); [|apply safe_ret; cbn [fst]; eapply hgS_mono; [exact G|lia]]. specialize (Np eq_refl).
    eapply safe_bind with (P := fun sf => In (fst sf) (cf_protos (s_cfg cfg))).
    { apply safe_res. unfold mutualProtocol. destruct (mutual_proto (sh_protos sh) (cf_protos (s_cfg cfg))) eqn:EM; [cbn [fst]; eapply mutual_proto_in; exact EM|]. destruct (cf_protos (s_cfg cfg)); [congruence|now left]. }
    intros sf Hin. pose proof (ta_protos _ _ _ _ _ SA) as BP. rewrite Forall_forall in BP. eapply safe_bind; [eapply safe_emitS; [exact HC|exact G|apply fineB_np; auto]|]. intros h' G'. apply safe_ret. exact G'. }
  intros [h1 proto] G1. cbn [fst] in G1. cbv iota beta.
  eapply safe_bind; [apply (safe_clientSumS C Hs HG ver d s (n + 1)); [exact NG|exact G1|lia|exact SM]|]. intros [vd h2] [[V1 V2] G2]. cbn [fst snd] in V1, V2, G2. rewrite spend_tls in G2 by exact NS. cbv iota.
  eapply safe_bind; [eapply safe_emitS; [exact HC|exact G2|now apply fineB_fin]|]. intros h3 G3. apply safe_ret. cbn [fst]. eapply hgS_mono; [exact G3|lia].
Qed.
Lemma readFinishedS vers ver d n h master : ver <> GMSSL -> ver <> SSL30 -> hg ver d false false n h -> n < 60 -> small master -> safe (std_client_readFinished (C := C) vers h master) (fun r => hg ver d false false (n + 1) (fst r)).
Proof.
  intros NG NS G Hn SM. unfold std_client_readFinished. eapply safe_bind; [apply (safe_ccs C (fun _ => True)), HC|]. intros _ _. eapply safe_bind; [apply safe_readS, HC|]. intros mr GM.
  destruct (fst mr); try apply safe_unexpected. eapply safe_bind; [apply (safe_serverSumS C Hs HG ver d false n); [exact NG|exact G|reflexivity|lia|exact SM]|]. intros [v h1] [V G1]. cbn [fst snd] in V, G1. rewrite spend_tls in G1 by exact NS. cbv iota. destruct (beqb v vd); [|apply safe_fail].
  eapply safe_bind; [eapply safe_wr_read; [exact G1|exact GM]|]. intros h2 G2. apply safe_ret. exact G2.
Qed.
Lemma ticketS vers ver d s n sh su master peer chains h : hg ver d false s n h -> safe (std_readSessionTicket (T := T) (C := C) vers sh su master peer chains h) (fun r => hg ver d false s (n + 1) (fst r)).
Proof.
  intros G. unfold std_readSessionTicket. destruct (negb _); [apply safe_ret; eapply hgS_mono; [exact G|lia]|]. eapply safe_bind; [apply safe_readS, HC|]. intros mr GM.
  destruct (fst mr); try apply safe_unexpected. eapply safe_bind; [eapply safe_wr_read; [exact G|exact GM]|]. intros h2 G2. apply safe_ret. exact G2.
Qed.

Lemma keys_stepS vers ver su master cr sr : In su cipherSuites -> version_of vers (su_sha384 su) = Some ver -> small master -> bytes cr -> bytes sr -> length cr = 32%nat -> length sr = 32%nat -> safe (std_client_keys E (C := C) vers su master cr sr) (fun _ => True).
Proof.
  intros SI EV SM B1 B2 L1 L2. unfold std_client_keys. destruct (keysS Hs HG (e_std (se E)) HL vers ver su master cr sr SI EV SM B1 B2 L1 L2) as [kb ->]. eapply safe_bind; [apply safe_lift with (P := fun _ => True); exact I|]. intros k _. apply safe_setkeys.
Qed.
Lemma makeClientHello_protos hello0 : makeClientHello E cfg rn = Ok hello0 -> existsb bad_alpn (cf_protos (s_cfg cfg)) = false /\ zlen (alpn_strings (cf_protos (s_cfg cfg))) <= 0xffff.
Proof.
  unfold makeClientHello. cbv zeta. destruct (_ && _); [discriminate|]. change (existsb (fun p => (zlen p =? 0) || (255 <? zlen p)) (cf_protos (s_cfg cfg))) with (existsb bad_alpn (cf_protos (s_cfg cfg))).
  destruct (existsb bad_alpn _); [discriminate|]. match goal with |- (if 0xffff <? ?x then _ else _) = _ -> _ => destruct (Z.ltb_spec 0xffff x) as [|Hx]; [discriminate|] end. intros _. split; [reflexivity|]. rewrite alpn_strings_len.
  assert (X : forall l a, fold_left (fun a (p : list Z) => a + (1 + zlen p)) l a = a + zlen l + sum_len l). { induction l as [|c cs IH]; intros a; cbn [fold_left]; [change (sum_len []) with 0; unfold zlen; cbn [length]; lia|]. rewrite IH, sum_len_cons, zlen_cons. lia. }
  rewrite X in Hx. lia.
Qed.
Lemma filter_len {A} (f : A -> bool) l : zlen (filter f l) <= zlen l.
Proof. unfold zlen. induction l as [|x l IH]; cbn [filter length]; [lia|]. destruct (f x); cbn [length]; lia. Qed.
Lemma std_client_safe addr : safe (std_clientHandshake E C cfg addr cache rn pr) (fun _ => True).
Proof.
  unfold std_clientHandshake. cbv zeta. eapply safe_bind with (P := fun hello0 => makeClientHello E cfg rn = Ok hello0).
  { apply safe_res. destruct (makeClientHello E cfg rn) as [x| |] eqn:EM; [reflexivity|exact I|]. revert EM. unfold makeClientHello. cbv zeta. destruct (_ && _); [discriminate|]. destruct (existsb _ _); [discriminate|]. destruct (_ <? _); [discriminate|]. destruct (r_hello rn); discriminate. }
  intros hello0 EM. fold (std_hello1 pr hello0). set (ca := match pr, cache with Some _, Some _ => Some None | _, c => c end).
  eapply safe_bind with (P := fun hs => complete_hello (s_cfg cfg) ca rn (std_hello1 pr hello0) = Ok hs).
  { apply safe_res. destruct (complete_hello (s_cfg cfg) ca rn (std_hello1 pr hello0)) as [x| |] eqn:EC; [reflexivity|exact I|]. revert EC. unfold complete_hello. cbv zeta. destruct (offered_session _ _ _); [destruct (r_sid rn)|]; discriminate. }
  intros [hello session] EC. cbv iota beta. subst ca. pose proof (makeClientHello_protos _ EM) as [PB PL].
  destruct (std_hello_fields E cfg cache rn pr hello0 hello session EM EC) as (F1 & F2 & F3 & F4 & F5 & F6 & F7 & F8 & F9 & F10 & F11 & F12 & F13 & F14 & F15 & F16 & F17 & F18 & F19 & _). clear EM EC hello0.
  destruct (ta_hello _ _ _ _ _ SA _ F2) as [B1 L1].
  assert (SG : forall a, In a (ch_sigalgs hello) -> In a supportedSignatureAlgorithms) by (rewrite F15; destruct (_ <=? _); [auto|intros a []]).
  assert (HSes : forall s, session = Some s -> bytes (cs_ticket s) /\ zlen (cs_ticket s) < 2 ^ 40 /\ small (cs_master s)). { intros s Es. destruct (F19 s Es) as (_ & Ec & _). exact (ta_session _ _ _ _ _ SA s Ec). }
  assert (FI : fineB (m_clientHello hello)).
  { destruct (ta_suites _ _ _ _ _ SA) as [_ LS]. destruct (ta_name _ _ _ _ _ SA) as [BN LN].
    assert (TN : bytes (ch_sni hello) /\ zlen (ch_sni hello) <= zlen (cf_serverName (s_cfg cfg))). { rewrite F3. unfold hostnameInSNI. cbv zeta. destruct (se_isIP E _); [split; [constructor|apply zlen_nonneg]|now apply trim_dots_out]. }
    assert (TR : bytes (ch_reneg hello) /\ zlen (ch_reneg hello) < 2 ^ 40). { rewrite F7. destruct pr as [p|] eqn:EPR; [|split; [constructor|reflexivity]]. destruct (ta_prior _ _ _ _ _ SA p eq_refl) as (X1 & X2 & _). auto. }
    assert (TT : bytes (ch_ticket hello) /\ zlen (ch_ticket hello) < 2 ^ 40). { rewrite F16. destruct session as [s|]; [|split; [constructor|reflexivity]]. destruct (HSes s eq_refl) as (X1 & X2 & _). auto. }
    assert (TS : bytes (ch_sessionId hello) /\ zlen (ch_sessionId hello) <= 32). { destruct session as [s|]; [|rewrite F17 by reflexivity; split; [constructor|cbn; lia]]. apply (ta_sid _ _ _ _ _ SA). apply F18. discriminate. }
    assert (TC : zlen (ch_curves hello) < 2 ^ 40). { rewrite F13. pose proof (ta_curves _ _ _ _ _ SA). unfold curvePreferences. destruct (s_curves cfg); [reflexivity|assumption]. }
    assert (TSu : zlen (ch_suites hello) < 2 ^ 40). { rewrite F9. eapply Z.le_lt_trans; [apply filter_len|exact LS]. }
    assert (TSg : zlen (ch_sigalgs hello) <= 100) by (rewrite F15; destruct (_ <=? _); cbn; lia).
    destruct TN, TR, TT, TS. apply ch_fineB; auto; rewrite ?F4, ?F6, ?F14; auto; try (apply bytesb_spec; reflexivity).
    - exact (ta_protos _ _ _ _ _ SA).
    - change (2 ^ 40) with 1099511627776 in *. change (2 ^ 45) with 35184372088832. change (zlen [0]) with 1. lia. }
  eapply safe_bind with (P := fun m => bytes m /\ zlen m < 2 ^ 50). { unfold enc. apply safe_res. destruct (m_clientHello hello); exact FI. }
  intros chraw [B0 L0]. eapply safe_bind; [apply (safe_send C (fun _ => True)), HC|]. intros _ _.
  eapply safe_bind; [apply safe_readS, HC|]. intros mr GM. destruct (fst mr) as [| |sh| | | | | | | | | | ] eqn:EMsg; try apply safe_unexpected.
  assert (SR : bytes (sh_random sh) /\ length (sh_random sh) = 32%nat). { destruct GM as (P & B & _). rewrite EMsg in P. apply parse_std_msg in P; [|discriminate]. apply up_serverHello in P. exact (sh_random_ok _ _ _ P B). } destruct SR as [B3 L3].
  destruct (pickTLSVersion _ _ (sh_vers sh)) as [vers|] eqn:PV; [|apply safe_fail].
  assert (VR : 0x0301 <= vers <= 0x0303).
  { revert PV. pose proof (ta_versions _ _ _ _ _ SA) as MX. unfold pickTLSVersion, mutualVersion. cbv zeta. destruct (_ <? minVersion _); [discriminate|]. unfold maxVersion, VersionTLS10. 
    destruct (Z.eqb_spec (cf_max (s_cfg cfg)) 0) as [e|ne]; [change maxVersionConst with 0x0303|]; match goal with |- context [if ?a <? sh_vers sh then _ else _] => destruct (Z.ltb_spec a (sh_vers sh)) end;
      match goal with |- (if ?a <? 769 then _ else _) = _ -> _ => destruct (Z.ltb_spec a 769) end; try discriminate; intros [= <-]; lia. }
  clear PV. eapply safe_bind; [apply safe_setvers|]. intros _ _. destruct (mutualCipherSuite _ (sh_suite sh)) as [su|] eqn:MU; [|apply safe_fail].
  apply P_TLS_neg.C66_mutual_suite in MU as (S1 & S2 & S3). destruct (suite_facts _ S2) as (_ & S4 & S5 & _).
  assert (HE : has_flag su suiteECDHE = true). { rewrite S5. apply (proj1 (ta_suites _ _ _ _ _ SA)); [|now apply (in_map fst) in S4]. rewrite F9 in S1. apply filter_In in S1 as [S1 _]. rewrite S3. exact S1. }
  destruct (version_total vers (su_sha384 su) ltac:(lia)) as [ver EV]. destruct (version_of_inv _ _ _ EV) as (Ver & NG & _). assert (NS : ver <> SSL30) by (intros ->; cbn in Ver; lia).
  eapply safe_bind with (P := fun r => (sh_npn sh = true -> cf_protos (s_cfg cfg) <> []) /\ forall s, snd r = Some s -> session = Some s).
  { unfold std_processServerHello. cbv zeta. destruct (negb (sh_comp sh =? 0)); [apply safe_fail|]. match goal with |- safe (if ?b then _ else _) _ => destruct b end; [apply safe_fail|]. match goal with |- safe (if ?b then _ else _) _ => destruct b end; [apply safe_fail|].
    rewrite F5. assert (NP : negb (nonempty (cf_protos (s_cfg cfg))) && sh_npn sh = false -> sh_npn sh = true -> cf_protos (s_cfg cfg) <> []) by (intros X Y; rewrite Y in X; destruct (cf_protos (s_cfg cfg)); [discriminate|discriminate]).
    destruct (negb (nonempty _) && sh_npn sh); [apply safe_fail|]. specialize (NP eq_refl). match goal with |- safe (if ?b then _ else _) _ => destruct b end; [apply safe_fail|]. match goal with |- safe (if ?b then _ else _) _ => destruct b end; [apply safe_fail|].
    destruct session as [s|]; [|apply safe_ret; split; [exact NP|discriminate]].
    destruct (negb _); [apply safe_ret; split; [exact NP|discriminate]|]. destruct (negb _); [apply safe_fail|]. destruct (negb _); [apply safe_fail|]. apply safe_ret. split; [exact NP|auto]. }
  intros [secure resumed] [Np HR]. cbn [snd] in HR. cbv iota beta.
  eapply safe_bind; [apply safe_res with (P := hg ver false false false 0); pose proof (hgS_new Hs HG (e_std (se E)) HL ver vers (su_sha384 su) EV) as X; destruct (newFinishedHash _ _ _); [exact X|exact I|exact X]|]. intros h0 G0.
  fold (no_client_certs cfg).
  match goal with |- context [if ?b || no_client_certs cfg then discardHandshakeBuffer h0 else h0] => set (rs := b) end.
  set (h1 := if rs || no_client_certs cfg then discardHandshakeBuffer h0 else h0). assert (G1 : hg ver (rs || no_client_certs cfg) false false 0 h1) by (unfold h1; destruct (rs || no_client_certs cfg); [eapply hgS_discard; exact G0|exact G0]).
  clearbody h1. eapply safe_bind; [eapply safe_wrS; [exact G1|exact B0|exact L0]|]. intros h2 G2. eapply safe_bind; [eapply safe_wr_read; [exact G2|exact GM]|]. intros h3 G3.
  destruct resumed as [s|].
  - specialize (HR s eq_refl). destruct (HSes s HR) as (_ & _ & SM).
    eapply safe_bind; [eapply keys_stepS; eassumption|]. intros _ _. eapply safe_bind; [eapply ticketS; exact G3|]. intros [h4 ns] G4. cbn [fst] in G4. cbv iota beta.
    eapply safe_bind; [eapply readFinishedS; [exact NG|exact NS|exact G4|lia|exact SM]|]. intros [h5 sf] G5. cbn [fst] in G5. cbv iota beta.
    eapply safe_bind; [eapply sendFinishedS; [exact NG|exact NS|exact Np|exact G5|lia|exact SM]|]. intros [[h6 cf] pp] G6. now apply safe_ret.
  - subst rs. cbn [orb] in G3.
    eapply safe_bind; [eapply std_client_full_safe; eauto|]. intros f [SM G4].
    eapply safe_bind; [eapply keys_stepS; eassumption|]. intros _ _. eapply safe_bind; [eapply sendFinishedS; [exact NG|exact NS|exact Np|exact G4|lia|exact SM]|]. intros [[h6 cf] pp] G6. cbn [fst] in G6. cbv iota beta.
    eapply safe_bind; [eapply ticketS; exact G6|]. intros [h7 ns] G7. cbn [fst] in G7. cbv iota beta.
    eapply safe_bind; [eapply readFinishedS; [exact NG|exact NS|exact G7|lia|exact SM]|]. intros [h8 sf] G8. now apply safe_ret.
Qed.
End Client.
(** C134: whatever the server sends, on the first handshake or on a renegotiation, a client that only offers ECDHE suites does not panic: Handshake returns a result or an error (or blocks). *)
Theorem C134_no_server_crashes_the_client {T} (E : senv T) C Hs H512 cfg addr cache rn pr c :
  std_world_ok E Hs H512 -> chan_ok C (fun _ => True) -> std_client_sane E cfg cache rn pr -> fst (std_clientHandshake E C cfg addr cache rn pr (c, [])) <> HPanic.
Proof.
  intros HW HC SA HX. pose proof (std_client_safe E C HC Hs H512 HW cfg cache rn pr SA addr (c, [])) as X. rewrite HX in X. exact X.
Qed.

(** C133: no client can crash an ordinary TLS server whose versions are SSL 3.0 to TLS 1.2. *)
From Verif Require Import GoBase GoLemmas BigBytes HMAC Asn1_model X509_spec SM2_model SM2_proofs TLS_record_model TLS_prf_model TLS_prf_spec TLS_prf_proofs
  TLS_gmka_model TLS_ticket_model TLS_msg_model TLS_msg_proofs TLS_neg_model TLS_hs_model TLS_hs_proofs TLS_hs_bytes TLS_hs_server TLS_hs_client TLS_hs_spec TLS_hs_run P_TLS_hs_server P_TLS_hs_client P_TLS_hs_agree P_TLS_hs_run TLS_hs_safe
  TLS_std_model TLS_std_spec TLS_std_proofs TLS_std_server TLS_std_client P_TLS_std_server P_TLS_std_server2 P_TLS_std_client TLS_std_safe TLS_std_safe2 P_TLS_std_safe.
From Verif Require X509_model P_TLS_msg P_TLS_prf P_TLS_neg P_TLS_ticket P_TLS_hs_safe.
Open Scope Z_scope.
#[local] Opaque PRF be_bytes fh_Write discardHandshakeBuffer clientSum serverSum newFinishedHash hashForClientCertificate parse_msg parse_std masterFromPreMasterSecret std_keys
  m_certificate m_clientKeyExchange m_certificateVerify m_finished m_clientHello m_nextProto m_serverHello m_certificateRequest m_certificateStatus m_newSessionTicket m_serverKeyExchange.

(** ** The server's hello *)
Lemma sct_sum l : zlen (concat (map (fun c => b2 (zlen c) ++ c) l)) = 2 * zlen l + sum_len l.
Proof. induction l as [|c cs IH]; [reflexivity|]. cbn [map concat]. rewrite !zlen_app, IH, sum_len_cons, zlen_b2, zlen_cons. lia. Qed.
Lemma sh_ext_bound m : Forall short_name (sh_protos m) -> zlen (sh_extensions m) <= 100 + zlen (sh_protos m) + sum_len (sh_protos m) + zlen (sh_reneg m) + zlen (sh_alpn m) + 2 * zlen (sh_scts m) + sum_len (sh_scts m).
Proof.
  intros HF. unfold sh_extensions. rewrite P_TLS_msg.proto_enc_short by exact HF. rewrite !zlen_app.
  repeat match goal with |- context [zlen (if ?c then ?e else @nil Z)] => let H := fresh in pose proof (piece_len c e) as H; generalize dependent (zlen (if c then e else @nil Z)); intros end.
  rewrite ?zlen_app, ?zlen_b2, ?sct_sum, ?alpn_strings_len in *. unfold zlen in *. cbn [length] in *. lia.
Qed.
Lemma sh_ext_bytes m : Forall bytes (sh_protos m) -> bytes (sh_reneg m) -> bytes (sh_alpn m) -> Forall bytes (sh_scts m) -> bytes (sh_extensions m).
Proof.
  intros B1 B2 B3 B4. unfold sh_extensions. rewrite Forall_forall in B1, B4.
  assert (BA : bytes (concat (map proto_enc (sh_protos m)))) by (apply bytes_concat_map; intros x Hx; unfold proto_enc; cbv zeta; apply bytes_cons; split; [apply u8_byte|apply bytes_firstn; auto]).
  assert (BS : bytes (concat (map (fun s => b2 (zlen s) ++ s) (sh_scts m)))) by (apply bytes_concat_map; intros x Hx; byt; auto).
  repeat (apply bytes_app; split); match goal with |- bytes (if ?c then _ else _) => destruct c; [|constructor] end; byt.
Qed.
Lemma sh_fineB m : zlen (sh_alpn m) <= 255 -> bytes (sh_random m) -> bytes (sh_sessionId m) -> zlen (sh_sessionId m) <= 32 -> is_byte (sh_comp m) -> Forall bytes (sh_protos m) -> Forall short_name (sh_protos m) -> bytes (sh_reneg m) -> zlen (sh_reneg m) < 2 ^ 40 -> bytes (sh_alpn m) -> Forall bytes (sh_scts m) ->
  zlen (sh_protos m) + sum_len (sh_protos m) < 2 ^ 40 -> 2 * zlen (sh_scts m) + sum_len (sh_scts m) < 2 ^ 40 -> fineB (m_serverHello m).
Proof.
  intros HA B0 B1 L1 B2 B3 S3 B4 L4 B5 B6 L3 L6. pose proof (sh_ext_bytes m B3 B4 B5 B6) as BX. pose proof (sh_ext_bound m S3) as LX. pose proof (P_TLS_msg.sh_ext_len m S3) as EL. pose proof (P_TLS_msg.sh_none m) as EN.
  with_strategy transparent [m_serverHello] unfold m_serverHello. replace ((0 <? zlen (sh_alpn m)) && (256 <=? zlen (sh_alpn m))) with false by (symmetry; apply andb_false_iff; right; apply Z.leb_gt; lia). cbv zeta.
  pose proof (zlen_nonneg (sh_sessionId m)). assert (L32 : zlen (copy32 (sh_random m)) = 32) by (unfold copy32, zlen, zeros; rewrite app_length, firstn_length, repeat_length; lia).
  change (2 ^ 40) with 1099511627776 in *. change (2 ^ 50) with 1125899906842624.
  destruct (Z.ltb_spec 0 (sh_numExt m)) as [NE|NE].
  - apply fill_fine; [byt| |change (2 ^ 50) with 1125899906842624; lia]. rewrite !zlen_app, !zlen_b2. change (zlen (b3 _)) with 3. change (zlen [2]) with 1. change (zlen [_]) with 1. change (zlen [sh_comp m]) with 1. lia.
  - rewrite (EN NE). apply fill_fine; [byt| |change (2 ^ 50) with 1125899906842624; lia]. rewrite !zlen_app, !zlen_b2. change (zlen (b3 _)) with 3. change (zlen [2]) with 1. change (zlen [_]) with 1. change (zlen [sh_comp m]) with 1. rewrite !(@zlen_nil Z). lia.
Qed.
Lemma fineB_skx k : bytes k -> zlen k < 2 ^ 20 -> fineB (m_serverKeyExchange k).
Proof. intros. apply fine_big, fine_skx; assumption. Qed.
Lemma getCert_total {A} lower (cb : option (option A * option Z)) certs byName name : getCertificate lower cb certs byName name <> (None, None).
Proof.
  unfold getCertificate. cbv zeta.
  assert (R : forall X : option A * option Z, X = match certs with [] => (None, Some 1) | c0 :: more => match more, byName with [], _ => (Some c0, None) | _, None => (Some c0, None)
        | _, Some m => match m (trim_dots (lower name)) with Some c => (Some c, None) | None => match wildcard_loop m (length (split_dots [] (trim_dots (lower name)))) 0 (split_dots [] (trim_dots (lower name))) with Some c => (Some c, None) | None => (Some c0, None) end end end end -> X <> (None, None)).
  { intros X ->. destruct certs as [|c0 [|c1 more]]; try discriminate. destruct byName as [m|]; [|discriminate]. destruct (m _); [discriminate|]. destruct (wildcard_loop _ _ _ _); discriminate. }
  specialize (R _ eq_refl). destruct cb as [[c e]|]; [|exact R]. destruct (_ || _); [|exact R]. destruct c, e; try discriminate. exact R.
Qed.

(** what the server's own side must provide, for every configuration and certificate it may use *)
Record std_server_sane {T} (E : senv T) (cfg : sconfig T) (getcfg : option (clientHello -> res (option (sconfig T)))) (rn : rnds) : Prop := {
  va_hello : forall b, r_hello rn = Some b -> bytes b /\ length b = 32%nat;
  va_iv : forall b, r_iv rn = Some b -> bytes b /\ zlen b < 2 ^ 20;
  va_groups : groups_ok E /\ forall k rnd, k = se_x25519 E \/ (exists id, k = se_nist E id) -> kx_gen k rnd <> Panic;
  va_aes : forall k, P_TLS_ticket.block_ok (e_aes (se E) k);
  va_sha256 : good_hash (e_sha256 (se E)) 32;
  va_getcfg : forall f ch, getcfg = Some f -> f ch <> Panic;
  va_versions : forall ch cfg', scfg_for cfg getcfg ch cfg' -> 0x0300 <= lo cfg' /\ 0x0300 <= hi cfg' <= 0x0303;
  va_protos : forall ch cfg', scfg_for cfg getcfg ch cfg' -> Forall bytes (cf_protos (s_cfg cfg')) /\ Forall short_name (cf_protos (s_cfg cfg')) /\ zlen (cf_protos (s_cfg cfg')) + sum_len (cf_protos (s_cfg cfg')) < 2 ^ 40;
  va_cas : forall ch cfg' p, scfg_for cfg getcfg ch cfg' -> cf_clientCAs (s_cfg cfg') = Some p -> Forall bytes (X509_model.Subjects p) /\ 2 * zlen (X509_model.Subjects p) + sum_len (X509_model.Subjects p) < 2 ^ 40;
  va_tickets : forall ch cfg', scfg_for cfg getcfg ch cfg' -> cf_noTickets (s_cfg cfg') = false ->
    cf_keys (s_cfg cfg') <> [] /\ Forall (fun k => bytes (k_name k) /\ bytes (k_hmac k) /\ zlen (k_name k) < 2 ^ 20) (cf_keys (s_cfg cfg'));
  va_certs : forall ch cfg' ce, scfg_for cfg getcfg ch cfg' -> certificate_for E cfg' ch ce -> presentable ce /\ (bytes (sc_ocsp ce) /\ zlen (sc_ocsp ce) < 2 ^ 24 - 4) /\
    (Forall bytes (sc_scts ce) /\ 2 * zlen (sc_scts ce) + sum_len (sc_scts ce) < 2 ^ 40) /\ key_bytes ce /\ forall dec ct, k_dec (sc_key ce) = Some dec -> dec ct <> Panic }.

Section Server.
Context {T : Type} (E : senv T) (C : chan) (HC : chan_ok C (fun _ => True)) (Hs : hashes) (H512 : list Z -> list Z) (HW : std_world_ok E Hs H512).
Context (cfg : sconfig T) (getcfg : option (clientHello -> res (option (sconfig T)))) (rn : rnds) (SA : std_server_sane E cfg getcfg rn).
Notation safe := (safe C).
Notation hg := (hgS Hs).
Let HL : std_impl (e_std (se E)) Hs := proj1 HW.
Let HG : good_hashes Hs := proj1 (proj2 HW).
Definition group_of (id : Z) : option kex := if id =? X25519 then Some (se_x25519 E) else curveForCurveID E id.
Lemma sgroup_gen id k : group_of id = Some k -> (forall rnd, kx_gen k rnd <> Panic) /\ kex_bytes k.
Proof.
  destruct (va_groups _ _ _ _ SA) as [[G1 G2] G3]. unfold group_of. intros H. destruct (id =? X25519); [injection H as <-; split; [intros; apply G3; now left|exact G1]|].
  unfold curveForCurveID in H. destruct (_ || _); [injection H as <-; split; [intros; apply G3; right; eauto|apply G2]|discriminate].
Qed.
Lemma generateSKX_safe cfg' ce vers su ch sr : presentable ce -> bytes (ch_random ch) -> length (ch_random ch) = 32%nat -> bytes sr -> length sr = 32%nat ->
  match std_generateSKX E cfg' ce rn vers su ch sr with
  | Ok (skx, ka) => (forall key, skx = Some key -> bytes key /\ zlen key < 2 ^ 20) /\ (has_flag su suiteECDHE = true -> exists k, group_of (fst ka) = Some k)
  | Err _ => True | Panic => False end.
Proof.
  intros [_ PS] B1 L1 B2 L2. unfold std_generateSKX. destruct (has_flag su suiteECDHE); cbn [negb]; [|split; [discriminate|discriminate]]. cbv zeta. set (curveid := pick_curve _ _). clearbody curveid.
  destruct (curveid =? 0); [exact I|]. match goal with |- context [rbind ?x _] => destruct x as [[priv pub]|e|] eqn:EG end; cbn [rbind]; [|exact I|].
  2:{ destruct (curveid =? X25519) eqn:EX; [revert EG; apply (sgroup_gen curveid); unfold group_of; now rewrite EX|]. destruct (curveForCurveID E curveid) as [k|] eqn:EK; [|discriminate]. revert EG. apply (sgroup_gen curveid). unfold group_of. now rewrite EX. }
  assert (GK : exists k, group_of curveid = Some k /\ kx_gen k (r_pms rn) = Ok (priv, pub)). { unfold group_of. destruct (curveid =? X25519); [eauto|]. destruct (curveForCurveID E curveid); [eauto|discriminate]. }
  destruct GK as (k & GK & GG). destruct (sgroup_gen _ _ GK) as [_ [_ K2]]. destruct (K2 _ _ _ GG) as [Bp Lp]. clear EG.
  destruct (k_sign (sc_key ce)) as [sign|] eqn:EK; [|exact I]. set (params := [3; _; _; _] ++ pub). assert (BP : bytes params) by (unfold params; byt). assert (LP : zlen params = 4 + zlen pub) by (unfold params; rewrite zlen_app; reflexivity). clearbody params.
  pose proof (pick_np (k_pub (sc_key ce)) (ch_sigalgs ch) supportedSignatureAlgorithms vers (fun a H => H)) as NP. destruct (pickSignatureAlgorithm _ _ _ _) as [[[alg st] h]|e|] eqn:EP; cbn [rbind]; [|exact I|congruence].
  destruct (Bool.eqb (is_rsa_sig st) (negb (has_flag su suiteECDSA))); cbn [negb]; [|exact I].
  assert (HH : exists dg, hashForServerKeyExchange E st h vers [ch_random ch; sr; params] = Ok dg).
  { unfold hashForServerKeyExchange. assert (F : Forall bytes [ch_random ch; sr; params]) by (repeat (apply Forall_cons; [assumption|]); apply Forall_nil).
    assert (LC : zlen (concat [ch_random ch; sr; params]) < 2 ^ 61). { cbn [concat]. rewrite app_nil_r, !zlen_app. unfold zlen in *. rewrite L1, L2. change (2 ^ 61) with 2305843009213693952. lia. }
    destruct (_ <=? vers); [rewrite (hash_slices_ok _ _ _ (hash_ctor_ok E Hs H512 h HW) F LC); eauto|]. pose proof HW as ((I0 & I1 & _) & _).
    destruct (st =? signatureECDSA); [rewrite (hash_slices_ok _ _ _ I1 F LC); eauto|]. rewrite (hash_slices_ok _ _ _ I0 F LC), (hash_slices_ok _ _ _ I1 F LC). cbn [rbind]. eauto. }
  destruct HH as [dg ->]. cbn [rbind]. specialize (PS sign st h (r_sign rn) dg eq_refl). destruct (sign st h (r_sign rn) dg) as [sig|e|]; cbn [rbind]; [|exact I|exact PS]. destruct PS as [Bs Ls].
  split; [|intros _; exists k; exact GK]. intros key [= <-]. split; [destruct (_ <=? vers); byt|]. rewrite !zlen_app, LP. change (zlen [_; _]) with 2. unfold zlen in *. change (2 ^ 16) with 65536 in Ls. change (2 ^ 20) with 1048576. destruct (_ <=? vers); cbn [length]; lia.
Qed.
Lemma processCKX_safe ce vers su ka ct : key_bytes ce -> (forall dec c, k_dec (sc_key ce) = Some dec -> dec c <> Panic) -> (has_flag su suiteECDHE = true -> exists k, group_of (fst ka) = Some k) ->
  match std_processCKX E ce vers su ka ct with Ok pms => small pms | Err _ => True | Panic => False end.
Proof.
  intros KB ND HK. unfold std_processCKX. destruct (has_flag su suiteECDHE); cbn [negb].
  - destruct (HK eq_refl) as [k EK]. destruct (sgroup_gen _ _ EK) as [_ [K1 _]]. destruct ct as [|b0 point]; [exact I|]. destruct (negb _); [exact I|]. unfold group_of in EK. destruct (fst ka =? X25519).
    + destruct (negb _); [exact I|]. injection EK as <-. apply K1.
    + rewrite EK. destruct (kx_point k point); [apply K1|exact I].
  - destruct ct as [|b0 [|b1 rest]]; try exact I. destruct (_ && _); [exact I|]. destruct (k_dec (sc_key ce)) as [dec|] eqn:ED; [|exact I].
    match goal with |- match dec ?x with _ => _ end => pose proof (ND dec x eq_refl) as N; destruct (dec x) eqn:EX end; [eapply KB; eauto|exact I|congruence].
Qed.
Lemma processCerts_safe c ders : safe (std_processCerts E (C := C) c ders) (fun p => (forall q, fst (fst p) <> Some (PkSM2 q)) /\ length (snd (fst p)) = length ders).
Proof.
  unfold std_processCerts. eapply safe_bind with (P := fun p => length (snd (fst p)) = length ders).
  - unfold processCertsFromClient. destruct (parse_all (se E) ders) as [certs|] eqn:PA; [|apply safe_fail]. apply (parse_all_len E) in PA.
    eapply safe_bind with (P := fun _ => True).
    { destruct certs as [|c0 rest]; [now apply safe_ret|]. destruct (_ <=? _); [|now apply safe_ret]. match goal with |- safe (match ?x with _ => _ end) _ => destruct x end; [|apply safe_fail]. match goal with |- safe (match ?x with _ => _ end) _ => destruct x end; [now apply safe_ret|apply safe_fail]. }
    intros chains _. match goal with |- safe (match ?x with _ => _ end) _ => destruct x end; [apply safe_fail|]. destruct certs as [|c0 rest]; [apply safe_ret; exact PA|]. destruct (g_pub c0); try apply safe_fail; apply safe_ret; exact PA.
  - intros [[pub certs] chains] LP. cbn [fst snd] in *. destruct pub as [[q|b|n|]|]; try apply safe_fail; apply safe_ret; (split; [discriminate|exact LP]).
Qed.

(** *** The hello *)
Lemma mutual_proto_pref pref protos s : mutual_proto pref protos = Some s -> In s pref.
Proof. induction pref as [|a l IH]; cbn [mutual_proto]; [discriminate|]. destruct (existsb _ _); [intros [= ->]; now left|intros H; right; auto]. Qed.
Record hello_good (hs : sths (T := T)) : Prop := {
  hg_cfg : scfg_for cfg getcfg (st_ch hs) (st_cfg hs);
  hg_vers : 0x0300 <= st_v hs <= 0x0303;
  hg_cert : certificate_for E (st_cfg hs) (st_ch hs) (st_cert hs);
  hg_raw : bytes (st_chraw hs) /\ zlen (st_chraw hs) < 2 ^ 25;
  hg_cr : bytes (ch_random (st_ch hs)) /\ length (ch_random (st_ch hs)) = 32%nat;
  hg_ch : hello_fine (2 ^ 25) (st_ch hs);
  hg_sr : bytes (sh_random (st_sh hs)) /\ length (sh_random (st_sh hs)) = 32%nat;
  hg_sh : forall m, sh_random m = sh_random (st_sh hs) -> sh_comp m = sh_comp (st_sh hs) -> sh_protos m = sh_protos (st_sh hs) -> sh_reneg m = sh_reneg (st_sh hs) -> sh_alpn m = sh_alpn (st_sh hs) -> sh_scts m = sh_scts (st_sh hs) ->
            bytes (sh_sessionId m) -> zlen (sh_sessionId m) <= 32 -> fineB (m_serverHello m);
  hg_sid : sh_sessionId (st_sh hs) = [] }.
Lemma server_hello_safe : safe (std_server_hello E (C := C) cfg getcfg rn) hello_good.
Proof.
  unfold std_server_hello. eapply safe_bind; [apply safe_readS, HC|]. intros [msg raw] (P & B & L). cbn [fst snd] in P, B, L. destruct msg as [|ch| | | | | | | | | | | ]; try apply safe_unexpected.
  apply parse_std_msg in P; [|discriminate]. apply up_clientHello in P. pose proof (ch_random_ok _ _ _ P B) as [R1 R2]. pose proof (ch_fine _ _ P B) as HF.
  eapply safe_bind with (P := fun cfg' => scfg_for cfg getcfg ch cfg').
  { unfold scfg_for. destruct getcfg as [f|] eqn:EG; [|now apply safe_ret]. eapply safe_bind with (P := fun r => f ch = Ok r); [|intros r Er; apply safe_ret; eauto].
    apply safe_orfail. pose proof (va_getcfg _ _ _ _ SA f ch eq_refl) as NP. destruct (f ch); cbn; auto. }
  intros cfg' Cf. destruct (mutualVersion _ _ (ch_vers ch)) as [v|] eqn:EV; [|apply safe_fail].
  assert (VR : 0x0300 <= v <= 0x0303).
  { destruct (va_versions _ _ _ _ SA ch cfg' Cf) as [V1 V2]. unfold lo, hi in V1, V2. revert EV. unfold mutualVersion. cbv zeta. unfold minVersion, maxVersion. change minVersionConst with 0x0101. change maxVersionConst with 0x0303.
    destruct (Z.eq_dec (cf_min (s_cfg cfg')) 0) as [e1|n1]; [lia|]. rewrite (proj2 (Z.eqb_neq _ _) n1). destruct (Z.eq_dec (cf_max (s_cfg cfg')) 0) as [e2|n2]; [rewrite (proj2 (Z.eqb_eq _ _) e2)|rewrite (proj2 (Z.eqb_neq _ _) n2)];
      destruct (Z.ltb_spec (ch_vers ch) (cf_min (s_cfg cfg'))); try discriminate; match goal with |- context [if ?a <? ch_vers ch then _ else _] => destruct (Z.ltb_spec a (ch_vers ch)) end; intros [= <-]; lia. }
  eapply safe_bind; [apply safe_setvers|]. intros _ _. cbv zeta. destruct (negb (existsb _ _)); [apply safe_fail|]. destruct (r_hello rn) as [random|] eqn:ER; [|apply safe_fail]. destruct (negb _); [apply safe_fail|].
  destruct (va_protos _ _ _ _ SA ch cfg' Cf) as (PB & PS & PL).
  eapply safe_bind with (P := fun alpn => bytes alpn /\ zlen alpn <= 255).
  { destruct (Z.ltb_spec 0 (zlen (ch_alpn ch))) as [NA|]; [|apply safe_ret; split; [constructor|cbn; lia]].
    eapply safe_bind with (P := fun sf => snd sf = false -> In (fst sf) (cf_protos (s_cfg cfg'))).
    - apply safe_res. unfold mutualProtocol. destruct (mutual_proto _ _) as [s|] eqn:EM; [intros _; now apply mutual_proto_pref in EM|]. destruct (ch_alpn ch); [cbn in NA; lia|]. discriminate.
    - intros [s f] Hs0. cbn [fst snd] in *. apply safe_ret. destruct f; [split; [constructor|cbn; lia]|]. specialize (Hs0 eq_refl). rewrite Forall_forall in PS. destruct (PS _ Hs0) as [X1 X2]. split; [exact X1|lia]. }
  intros alpn [BA LA]. pose proof (getCert_total (se_lower E) (option_map (fun f => f ch) (s_getCert cfg')) (s_certs cfg') (s_byName cfg') (ch_sni ch)) as GT.
  destruct (getCertificate _ _ _ _ _) as [[ce|] [e|]] eqn:EC; try apply safe_fail; [|congruence]. clear GT.
  destruct (_ || _); [apply safe_fail|]. apply safe_ret. destruct (va_hello _ _ _ _ SA _ ER) as [Br Lr]. destruct (va_certs _ _ _ _ SA ch cfg' ce Cf EC) as (_ & _ & (SB & SL) & _).
  set (npn := negb _ && _ && _). clearbody npn.
  split; cbn [st_cfg st_v st_ch st_chraw st_sh st_proto st_cert sh_random sh_comp sh_protos sh_reneg sh_alpn sh_scts sh_sessionId]; auto.
  - destruct HF as (H1 & H2 & H3 & H4). split; [exact H1|]. split; [exact H2|]. split; [exact H3|]. change (2 ^ 25) with 33554432 in *. lia.
  - intros m E1 E2 E3 E4 E5 E6 Bs Ls. apply sh_fineB; rewrite ?E1, ?E2, ?E3, ?E4, ?E5, ?E6; auto.
    + unfold is_byte. lia.
    + destruct npn; [exact PB|constructor].
    + destruct npn; [exact PS|constructor].
    + constructor.
    + reflexivity.
    + destruct (ch_scts ch); [exact SB|constructor].
    + destruct npn; [exact PL|reflexivity].
    + destruct (ch_scts ch); [exact SL|reflexivity].
Qed.
Lemma resumption_facts hs st su : hello_good hs -> std_checkForResumption E hs = Some (st, su) -> In su cipherSuites /\ cf_noTickets (s_cfg (st_cfg hs)) = false /\ small (ss_masterSecret st) /\ zlen (ss_masterSecret st) < 2 ^ 40 /\ ders_fine (ss_certificates st).
Proof.
  intros G. unfold std_checkForResumption. cbv zeta. destruct (cf_noTickets _) eqn:NT; [discriminate|]. destruct (decryptTicket _ _ _ _ _) as [st0|] eqn:ED; [|discriminate].
  destruct (negb _); [discriminate|]. destruct (negb _); [discriminate|]. destruct (set_suite _ _ _ _) as [su0|] eqn:ES; [|discriminate]. destruct (_ && _); [discriminate|]. destruct (_ && _); [discriminate|]. intros [= <- <-].
  apply P_TLS_neg.set_suite_iff in ES as (_ & FS & _). apply P_TLS_neg.find_suite_spec in FS as [IS _]. split; [exact IS|]. split; [reflexivity|].
  destruct (hg_ch _ G) as (_ & _ & T1 & T2). eapply decrypt_fine; [..|exact ED]; first [exact (va_aes _ _ _ _ SA)|exact (va_sha256 _ _ _ _ SA)|exact T1|exact T2].
Qed.
Lemma std_suite_safe hs : safe (std_suite (T := T) (C := C) hs) (fun su => In su cipherSuites).
Proof.
  unfold std_suite. destruct (negotiate_suite _ _ _ _ _) as [su|] eqn:EN; [|apply safe_fail]. apply (P_TLS_neg.C66_server_selection false) in EN as (? & ? & ? & _ & (_ & IS & _) & _). destruct (bad_fallback _ _ _); [apply safe_fail|]. apply safe_ret. exact IS.
Qed.
Lemma server_keysS vers ver su master cr sr : In su cipherSuites -> version_of vers (su_sha384 su) = Some ver -> small master -> bytes cr -> bytes sr -> length cr = 32%nat -> length sr = 32%nat -> safe (std_server_keys E (C := C) vers su master cr sr) (fun _ => True).
Proof.
  intros. unfold std_server_keys. destruct (keysS Hs HG (e_std (se E)) HL vers ver su master cr sr) as [kb EK]; auto. rewrite EK. eapply safe_bind; [apply safe_lift with (P := fun _ => True); exact I|]. intros k _. apply safe_setkeys.
Qed.
Lemma server_readFinishedS vers ver d s n npn h master : ver <> GMSSL -> hg ver d false s n h -> n < 60 -> small master ->
  safe (std_server_readFinished (C := C) vers npn h master) (fun r => hg ver d (spend ver false) s (n + 2) (fst (fst r))).
Proof.
  intros NG G Hn SM. unfold std_server_readFinished. eapply safe_bind; [apply (safe_ccs C (fun _ => True)), HC|]. intros _ _.
  eapply safe_bind with (P := fun hp => hg ver d false s (n + 1) (fst hp)).
  { destruct npn; [|apply safe_ret; eapply hgS_mono; [exact G|lia]]. eapply safe_bind; [apply safe_readS, HC|]. intros mr GM. destruct (fst mr); try apply safe_unexpected. eapply safe_bind; [eapply safe_wr_read; [exact G|exact GM]|]. intros h1 G1. apply safe_ret. exact G1. }
  intros [h1 proto] G1. cbn [fst] in G1. eapply safe_bind; [apply safe_readS, HC|]. intros mr GM. destruct (fst mr); try apply safe_unexpected.
  eapply safe_bind; [eapply (safe_clientSumS C Hs HG); [exact NG|exact G1|lia|exact SM]|]. intros [verify h2] [_ G2]. cbn [fst snd] in G2. destruct (beqb _ _); [|apply safe_fail].
  eapply safe_bind; [eapply safe_wr_read; [exact G2|exact GM]|]. intros h3 G3. apply safe_ret. cbn [fst]. eapply hgS_mono; [exact G3|lia].
Qed.
Lemma server_ticketS hs ver d c s n on vers id master ders h : hello_good hs -> (on = true -> cf_noTickets (s_cfg (st_cfg hs)) = false) -> hg ver d c s n h -> small master -> zlen master < 2 ^ 40 -> ders_fine ders ->
  safe (sendSessionTicket (se E) C (s_cfg (st_cfg hs)) rn on vers id master ders h) (hg ver d c s (n + 1)).
Proof.
  intros G HO Gh SM LM DF. unfold sendSessionTicket. destruct on; cbn [negb]; [|apply safe_ret; eapply hgS_mono; [exact Gh|lia]].
  destruct (va_tickets _ _ _ _ SA _ _ (hg_cfg _ G) (HO eq_refl)) as [K1 K2].
  eapply safe_bind with (P := fun t => bytes t /\ zlen t < 2 ^ 42). { apply safe_res. apply encrypt_fine; auto. all: first [exact (va_aes _ _ _ _ SA)|exact (va_sha256 _ _ _ _ SA)|exact (va_iv _ _ _ _ SA)]. }
  intros t [Bt Lt]. eapply safe_emitS; [exact HC|exact Gh|apply fineB_ticket; auto].
Qed.
Lemma server_sendFinishedS ver d c n h master : ver <> GMSSL -> hg ver d c false n h -> (ver <> SSL30 -> c = false) -> n < 60 -> small master -> safe (server_sendFinished C h master) (fun r => hg ver d c (spend ver false) (n + 1) (fst r)).
Proof.
  intros NG G Hc Hn SM. unfold server_sendFinished. eapply safe_bind; [apply (safe_sendccs C (fun _ => True)), HC|]. intros _ _. eapply safe_bind; [eapply (safe_serverSumS C Hs HG); [exact NG|exact G|exact Hc|lia|exact SM]|].
  intros [vd h1] [[F1 F2] G1]. cbn [fst snd] in *. eapply safe_bind; [eapply safe_emitS; [exact HC|exact G1|apply fineB_fin; auto]|]. intros h2 G2. apply safe_ret. exact G2.
Qed.

Lemma new_hashS vers ver sha : version_of vers sha = Some ver -> safe (lift (of_res (newFinishedHash (e_std (se E)) vers sha))) (hg ver false false false 0).
Proof. intros EV. apply safe_res. pose proof (hgS_new Hs HG (e_std (se E)) HL ver vers sha EV) as X. destruct (newFinishedHash _ _ _); [exact X|exact I|exact X]. Qed.
Lemma raw_small (m : list Z) : zlen m < 2 ^ 25 -> zlen m < 2 ^ 50.
Proof. change (2 ^ 25) with 33554432. change (2 ^ 50) with 1125899906842624. lia. Qed.
Lemma server_resumeS hs st su ver : hello_good hs -> version_of (st_v hs) (su_sha384 su) = Some ver ->
  safe (std_server_resume E (C := C) hs st su) (fun r => let '(sh, h, _, _) := r in sh_random sh = sh_random (st_sh hs) /\ hg ver true false false 2 h).
Proof.
  intros G EV. unfold std_server_resume. cbv zeta. set (sh := set_sh_suite _ _). assert (RS : sh_random sh = sh_random (st_sh hs)) by reflexivity.
  assert (FS : fineB (m_serverHello sh)). { destruct (hg_ch _ G) as (S1 & S2 & _). apply (hg_sh _ G); try reflexivity; [exact S1|exact S2]. } clearbody sh.
  eapply safe_bind; [eapply new_hashS; exact EV|]. intros h0 G0. apply hgS_discard in G0. destruct (hg_raw _ G) as [Br Lr].
  eapply safe_bind; [eapply safe_wrS; [exact G0|exact Br|apply raw_small, Lr]|]. intros h1 G1. eapply safe_bind; [eapply safe_emitS; [exact HC|exact G1|exact FS]|]. intros h2 G2.
  destruct (0 <? _); [|apply safe_ret; split; [exact RS|exact G2]]. eapply safe_bind; [eapply processCerts_safe|]. intros [[pub certs] chains] _. apply safe_ret. split; [exact RS|exact G2].
Qed.
Lemma emitM ver d c s n n' h r : hg ver d c s n h -> n + 1 <= n' -> fineB r -> safe (emit h r) (hg ver d c s n').
Proof. intros G Hn F. eapply safe_weak; [eapply safe_emitS; [exact HC|exact G|exact F]|]. intros x Gx. eapply hgS_mono; [exact Gx|exact Hn]. Qed.
Lemma server_fullS hs su ver : hello_good hs -> In su cipherSuites -> version_of (st_v hs) (su_sha384 su) = Some ver ->
  safe (std_server_full E (C := C) hs su rn) (fun f => sh_random (sf_sh f) = sh_random (st_sh hs) /\ (sh_ticketOn (sf_sh f) = true -> cf_noTickets (s_cfg (st_cfg hs)) = false) /\ hg ver true false false 12 (sf_h f) /\ small (sf_master f) /\ zlen (sf_master f) < 2 ^ 40 /\ ders_fine (sf_ders f)).
Proof.
  intros G SI EV. destruct (version_of_inv _ _ _ EV) as (Ver & NG & _). destruct (va_certs _ _ _ _ SA _ _ _ (hg_cfg _ G) (hg_cert _ G)) as (PR & [OB OL] & _ & KB & KD). destruct (hg_cr _ G) as [R1 R2]. destruct (hg_sr _ G) as [R3 R4].
  unfold std_server_full. cbv zeta. set (ocsp := ch_ocsp _ && _). clearbody ocsp. set (sh := set_sh_suite _ _). assert (RS : sh_random sh = sh_random (st_sh hs)) by reflexivity.
  assert (TO : sh_ticketOn sh = true -> cf_noTickets (s_cfg (st_cfg hs)) = false). { change (sh_ticketOn sh) with (ch_ticketOn (st_ch hs) && negb (cf_noTickets (s_cfg (st_cfg hs)))). intros X. apply andb_prop in X as [_ X]. now apply negb_true_iff in X. }
  assert (FS : fineB (m_serverHello sh)). { apply (hg_sh _ G); try reflexivity; change (sh_sessionId sh) with (sh_sessionId (st_sh hs)); rewrite (hg_sid _ G); [constructor|cbn; lia]. } clearbody sh.
  eapply safe_bind; [eapply new_hashS; exact EV|]. intros h0 G0. set (d := cf_auth (s_cfg (st_cfg hs)) =? NoClientCert). set (h0' := if d then _ else _).
  assert (G0' : hg ver d false false 0 h0') by (unfold h0'; destruct d; [eapply hgS_discard; exact G0|exact G0]). clearbody h0'. clear G0 h0. destruct (hg_raw _ G) as [Br Lr].
  eapply safe_bind; [eapply safe_wrS; [exact G0'|exact Br|apply raw_small, Lr]|]. intros h1 G1. eapply safe_bind; [eapply safe_emitS; [exact HC|exact G1|exact FS]|]. intros h2 G2.
  eapply safe_bind; [eapply safe_emitS; [exact HC|exact G2|]|]. { destruct PR as [[P1 P2] _]. apply fineB_cert; [exact P1|exact P2]. } intros h3 G3.
  eapply safe_bind with (P := hg ver d false false 4). { destruct ocsp; [|apply safe_ret; eapply hgS_mono; [exact G3|lia]]. eapply emitM; [exact G3|lia|apply fineB_status; [exact OB|exact OL]]. } intros h4 G4.
  eapply safe_bind with (P := fun p => (forall key, fst p = Some key -> bytes key /\ zlen key < 2 ^ 20) /\ (has_flag su suiteECDHE = true -> exists k, group_of (fst (snd p)) = Some k)).
  { apply safe_orfail. pose proof (generateSKX_safe (st_cfg hs) (st_cert hs) (st_v hs) su (st_ch hs) (sh_random sh) PR R1 R2 ltac:(now rewrite RS) ltac:(now rewrite RS)) as X. destruct (std_generateSKX _ _ _ _ _ _ _ _) as [[x y]|e|]; [exact X|exact I|exact X]. }
  intros [skx ka] [K1 K2]. cbn [fst snd] in K1, K2.
  eapply safe_bind with (P := hg ver d false false 5). { destruct skx as [key|]; [|apply safe_ret; eapply hgS_mono; [exact G4|lia]]. destruct (K1 key eq_refl) as [Bk Lk]. eapply emitM; [exact G4|lia|apply fineB_skx; [exact Bk|exact Lk]]. } intros h5 G5. clear K1.
  eapply safe_bind with (P := hg ver d false false 6).
  { destruct (RequestClientCert <=? _); [|apply safe_ret; eapply hgS_mono; [exact G5|lia]]. eapply emitM; [exact G5|lia|]. destruct (cf_clientCAs (s_cfg (st_cfg hs))) as [p|] eqn:EP.
    - destruct (va_cas _ _ _ _ SA _ _ p (hg_cfg _ G) EP) as [C1 C2]. apply fineB_creq; [apply bytesb_spec; reflexivity|reflexivity|destruct (_ <=? _); reflexivity|exact C1|exact C2].
    - apply fineB_creq; [apply bytesb_spec; reflexivity|reflexivity|destruct (_ <=? _); reflexivity|constructor|reflexivity]. }
  intros h6 G6. eapply safe_bind; [eapply safe_emitS; [exact HC|exact G6|split; [apply bytesb_spec; reflexivity|reflexivity]]|]. intros h7 G7.
  eapply safe_bind; [apply safe_readS, HC|]. intros mr GM.
  eapply safe_bind with (P := fun r => let '(h, mr, ders, (pub, certs, chains)) := r in hg ver d false false 8 h /\ gotS (st_v hs) mr /\ ders_fine ders /\ (forall q, pub <> Some (PkSM2 q)) /\ (certs <> [] -> d = false)).
  { destruct (Z.leb_spec RequestClientCert (cf_auth (s_cfg (st_cfg hs)))) as [RA|RA].
    - destruct (fst mr) as [| | | |ders| | | | | | | | ] eqn:EM; try apply safe_unexpected. eapply safe_bind; [eapply safe_wr_read; [exact G7|exact GM]|]. intros h8 G8. destruct (_ && _); [apply safe_fail|].
      eapply safe_bind; [eapply processCerts_safe|]. intros [[pub certs] chains] [NS _]. cbn [fst snd] in NS. eapply safe_bind; [apply safe_readS, HC|]. intros mr2 GM2. apply safe_ret.
      assert (DF : ders_fine ders). { destruct GM as (PM & BM & LM). rewrite EM in PM. apply parse_std_msg in PM; [|discriminate]. apply up_certificate in PM. eapply cert_msg_fine; eauto. }
      split; [exact G8|]. split; [exact GM2|]. split; [exact DF|]. split; [exact NS|]. intros _. unfold d. apply Z.eqb_neq. unfold RequestClientCert, NoClientCert in *. lia.
    - apply safe_ret. split; [eapply hgS_mono; [exact G7|lia]|]. split; [exact GM|]. split; [split; [constructor|cbn; lia]|]. split; [discriminate|congruence]. }
  intros [[[h8 mr2] ders] [[pub certs] chains]] (G8 & GM2 & DF & NS & ND). destruct (fst mr2) as [| | | | | | | | |ct| | | ] eqn:EM2; try apply safe_unexpected.
  eapply safe_bind; [eapply safe_wr_read; [exact G8|exact GM2]|]. intros h9 G9.
  eapply safe_bind with (P := small). { apply safe_orfail. pose proof (processCKX_safe (st_cert hs) (st_v hs) su ka ct KB KD K2) as X. destruct (std_processCKX _ _ _ _ _ _); [exact X|exact I|exact X]. }
  intros pms SP. eapply safe_bind with (P := fun m => small m /\ zlen m = 48). { apply safe_res. pose proof (masterS Hs HG (e_std (se E)) HL (st_v hs) (su_sha384 su) ver pms (ch_random (st_ch hs)) (sh_random sh) EV SP R1 ltac:(now rewrite RS) R2 ltac:(now rewrite RS)) as X. destruct (masterFromPreMasterSecret _ _ _ _ _ _); [exact X|exact I|exact X]. }
  intros master [SM LM]. destruct (cf_keylog _ _ _); [apply safe_fail|].
  eapply safe_bind with (P := hg ver d false false 12).
  { destruct certs as [|c0 certs]; [apply safe_ret; eapply hgS_mono; [exact G9|lia]|]. specialize (ND ltac:(discriminate)). rewrite ND in G9 |- *.
    eapply safe_bind; [apply safe_readS, HC|]. intros mr3 GM3. destruct (fst mr3) as [| | | | | | | | | |alg sig| | ]; try apply safe_unexpected. set (pb := match pub with Some p => p | None => PkOther end).
    assert (NB : forall q, pb <> PkSM2 q) by (unfold pb; intros q; destruct pub; [intros ->; now apply (NS q)|discriminate]). clearbody pb.
    eapply safe_bind with (P := fun p => snd (fst p) <> signatureSM2). { apply safe_orfail. pose proof (pick_np pb [alg] supportedSignatureAlgorithms (st_v hs) (fun a H => H)) as NP. destruct (pickSignatureAlgorithm _ _ _ _) as [p|e|] eqn:EP; [|exact I|congruence]. apply pick_type in EP as [_ EP]; [exact EP|exact NB]. }
    intros [[a0 st] hh] NSt. cbn [fst snd] in NSt.
    pose proof (hash_cc_np Hs HG (e_std (se E)) HL ver _ h9 st (hash_ctor E hh) _ master NG G9 ltac:(lia) (hash_ctor_ok E Hs H512 hh HW) SM) as X.
    destruct (hashForClientCertificate _ _ _ _ _) as [[dg h10]|e|]; [|apply safe_fail|destruct X]. cbn [snd] in X. destruct (std_verify_total E st hh pb dg sig NSt) as [b EB].
    eapply safe_bind with (P := fun _ => True); [apply safe_res; rewrite EB; exact I|]. intros ok _. destruct ok; [|apply safe_fail]. eapply safe_weak; [eapply safe_wr_read; [exact X|exact GM3]|]. intros h Gh. eapply hgS_mono; [exact Gh|lia]. }
  intros h10 G10. apply safe_ret. cbn [sf_sh sf_h sf_master sf_ders]. split; [exact RS|]. split; [exact TO|]. split; [eapply hgS_discard; exact G10|]. split; [exact SM|]. split; [rewrite LM; reflexivity|exact DF].
Qed.
Lemma std_server_safe : safe (std_serverHandshake E C cfg getcfg rn) (fun _ => True).
Proof.
  unfold std_serverHandshake. eapply safe_bind; [apply server_hello_safe|]. intros hs G. cbv zeta. destruct (hg_cr _ G) as [R1 R2]. destruct (hg_sr _ G) as [R3 R4].
  destruct (std_checkForResumption E hs) as [[st su]|] eqn:ER.
  - destruct (resumption_facts _ _ _ G ER) as (SI & NT & SM & LM & DF). destruct (version_total (st_v hs) (su_sha384 su) (hg_vers _ G)) as [ver EV]. destruct (version_of_inv _ _ _ EV) as (_ & NG & _).
    eapply safe_bind; [eapply server_resumeS; [exact G|exact EV]|]. intros [[[sh h] certs] chains] [RS Gh].
    eapply safe_bind; [eapply server_keysS; [exact SI|exact EV|exact SM|exact R1|now rewrite RS|exact R2|now rewrite RS]|]. intros _ _.
    eapply safe_bind; [eapply server_ticketS; [exact G|intros _; exact NT|exact Gh|exact SM|exact LM|exact DF]|]. intros h1 G1.
    eapply safe_bind; [eapply server_sendFinishedS; [exact NG|exact G1|reflexivity|lia|exact SM]|]. intros [h2 sfin] G2. cbn [fst] in G2.
    eapply safe_bind; [eapply server_readFinishedS; [exact NG|exact G2|lia|exact SM]|]. intros [[h3 v] proto] _. now apply safe_ret.
  - eapply safe_bind; [eapply std_suite_safe|]. intros su SI. destruct (version_total (st_v hs) (su_sha384 su) (hg_vers _ G)) as [ver EV]. destruct (version_of_inv _ _ _ EV) as (_ & NG & _).
    eapply safe_bind; [eapply server_fullS; [exact G|exact SI|exact EV]|]. intros f (RS & TO & Gh & SM & LM & DF).
    eapply safe_bind; [eapply server_keysS; [exact SI|exact EV|exact SM|exact R1|now rewrite RS|exact R2|now rewrite RS]|]. intros _ _.
    eapply safe_bind; [eapply server_readFinishedS; [exact NG|exact Gh|lia|exact SM]|]. intros [[h1 cfin] proto] G1. cbn [fst] in G1.
    eapply safe_bind; [eapply server_ticketS; [exact G|exact TO|exact G1|exact SM|exact LM|exact DF]|]. intros h2 G2.
    eapply safe_bind; [eapply server_sendFinishedS; [exact NG|exact G2|apply spend_tls|lia|exact SM]|]. intros [h3 sfin] _. now apply safe_ret.
Qed.
End Server.
Theorem C133_no_client_crashes_the_server {T} (E : senv T) C Hs H512 cfg getcfg rn c :
  std_world_ok E Hs H512 -> chan_ok C (fun _ => True) -> std_server_sane E cfg getcfg rn -> fst (std_serverHandshake E C cfg getcfg rn (c, [])) <> HPanic.
Proof.
  intros HW HC SA HX. pose proof (std_server_safe E C HC Hs H512 HW cfg getcfg rn SA (c, [])) as X. rewrite HX in X. exact X.
Qed.

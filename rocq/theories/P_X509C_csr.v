(** Properties of certificate requests and revocation lists (x509/x509.go:1985-2450). *)
From Verif Require Import GoBase GoLemmas BigBytes Asn1_model Asn1_go SM3_model NT Prime_cert SM2_curve_spec SM2_group SM2_jac SM2_order SM2_spec SM2_model SM2_proofs P_SM2
  Keys_model Keys_proofs X509C_model X509C_ext_proofs X509C_spec X509C_proofs P_X509C.
Open Scope Z_scope.
#[local] Opaque der_tlv Sign Verify SumSM3 sig_ints.
Notation small := Asn1_go.small (only parsing).

Lemma key_on_curve {T} (priv : privkey T) : key_ok priv -> on_curve (Pt (pX (sPub priv)) (pY (sPub priv))).
Proof.
  intros (Hd & HP & _). assert (Ho : on_curve (smul (sD priv) pG)) by (apply on_smul; exact G_on).
  destruct (smul (sD priv) pG) as [|x y] eqn:E.
  - exfalso. assert (K : smul (sD priv) pG = smul 0 pG) by (rewrite E; reflexivity). apply kG_inj in K. generalize dependent (sD priv). intros d Hd _ K.
    pose proof n_gt3. rewrite Z.sub_0_r, Z.mod_small in K by lia. lia.
  - cbn [aff] in HP. injection HP as -> ->. exact Ho.
Qed.

Section P.
Variables (nm tm : Type) (enc_name : nm -> res (list Z)) (dec_name : list Z -> res nm) (enc_time : tm -> res (bool * list Z)) (dec_time : bool -> list Z -> res tm).
Variables (zero_time : tm -> bool) (hashf : Z -> list Z -> list Z) (rsa_verify : bool -> Z -> Z -> Z -> list Z -> list Z -> bool) (dsa_verify : Z -> Z -> Z -> Z -> list Z -> Z -> Z -> bool)
  (ecdsa_verify : ncurve -> Z -> Z -> list Z -> Z -> Z -> bool) (nist_unm : nat -> list Z -> option (Z * Z)) (nist_mar : nat -> Z -> Z -> list Z)
  (T : Type) (cv : curve T) (sm2_verify_nist : nat -> Z -> Z -> list Z -> Z -> Z -> res bool).
Notation CreateCertificateRequest := (CreateCertificateRequest nm enc_name hashf nist_mar).
Notation ParseCertificateRequest := (ParseCertificateRequest nm dec_name nist_unm).
Notation CheckCSRSignature := (CheckCSRSignature nm hashf rsa_verify dsa_verify ecdsa_verify T cv sm2_verify_nist).
Notation CreateCRL := (CreateCRL nm tm enc_name enc_time zero_time hashf).
Notation ParseDERCRL := (ParseDERCRL nm tm dec_name dec_time).
Notation CheckCRLSignature := (CheckCRLSignature nm tm hashf rsa_verify dsa_verify ecdsa_verify T cv sm2_verify_nist).

(** ** Requests *)
Definition san_id : list Z := [85;29;17].
Definition uncritical (e : ext) : ext := mkExt (ex_id e) false (ex_val e).
Lemma atv_der e : atv e = der_ext (uncritical e).
Proof. unfold atv, der_ext, uncritical. cbn [ex_id ex_crit ex_val app]. exact eq_refl. Qed.
Lemma atvs_der l : concat (map atv l) = concat (map der_ext (map uncritical l)).
Proof. rewrite map_map. exact eq_refl. Qed.
(** the subject of a request survives the encoder *)
Definition csr_name_ok (q : csr nm) (sb : list Z) (n : nm) : Prop :=
  exists content, sb = der_tlv 48 content /\ dec_name content = Ok n /\
    match q_rawSubject q with [] => enc_name (q_subject q) = Ok content | r => r = sb end.
(** the attributes *)
Lemma parse_attrs l : l <> [] -> Forall (fun e => oid_ok (ex_id e) = true) l ->
  small (der_tlv 48 (der_tlv 6 oidExtensionRequest ++ der_tlv 49 (der_tlv 48 (concat (map atv l))))) ->
  exists a, seq_of any (der_tlv 48 (der_tlv 6 oidExtensionRequest ++ der_tlv 49 (der_tlv 48 (concat (map atv l))))) = Ok a /\
    parseCSRExtensions a = Ok (map uncritical l).
Proof.
  intros Hl HO HS. set (body := der_tlv 6 oidExtensionRequest ++ der_tlv 49 (der_tlv 48 (concat (map atv l)))) in *.
  pose proof (small_tlv _ _ HS) as HB.
  exists [mkRaw 32 16 body (der_tlv 48 body)]. split.
  - replace (der_tlv 48 body) with (concat (map (fun r => der_tlv 48 (r_bytes r)) [mkRaw 32 16 body (der_tlv 48 body)])) at 1 by (cbn [map concat r_bytes]; now rewrite app_nil_r).
    apply seq_of_map. intros x rest [<- |[]]. cbn [r_bytes]. split; [apply (any_tlv 48); [lt|exact HB]|apply tlv_not_nil].
  - cbn [parseCSRExtensions r_full].
    assert (E : whole (req 48 p_attr) (der_tlv 48 body) = Ok (oidExtensionRequest, [mkRaw 32 16 (concat (map atv l)) (der_tlv 48 (concat (map atv l)))])).
    { apply whole_tlv; [lt|exact HB|]. unfold p_attr, p_two, body. unfold body in HB. rewrite p_oid_req by (exact eq_refl || exact (small_app_l _ _ HB)). cbn [rbind fst snd].
      apply small_app_r in HB. apply small_tlv in HB. rewrite <- (app_nil_r (der_tlv 49 _)).
      rewrite (req_tlv 49 _ _ [mkRaw 32 16 (concat (map atv l)) (der_tlv 48 (concat (map atv l)))]); [exact eq_refl|lt|exact HB|].
      replace (der_tlv 48 (concat (map atv l))) with (concat (map (fun r => der_tlv 48 (r_bytes r)) [mkRaw 32 16 (concat (map atv l)) (der_tlv 48 (concat (map atv l)))])) at 1
        by (cbn [map concat r_bytes]; now rewrite app_nil_r).
      apply seq_of_map. intros x rest [<- |[]]. cbn [r_bytes]. split; [apply (any_tlv 48); [lt|exact (small_tlv _ _ HB)]|apply tlv_not_nil]. }
    rewrite E. rewrite beqb_refl. cbn [r_full].
    rewrite <- (app_nil_r (der_tlv 48 (concat (map atv l)))). rewrite (req_tlv 48 p_exts _ (map uncritical l)).
    + cbn [rbind fst snd]. now rewrite app_nil_r.
    + lt.
    + unfold body in HB. apply small_app_r in HB. now do 2 apply small_tlv in HB.
    + rewrite atvs_der. apply p_exts_der.
      * apply Forall_map. revert HO. apply Forall_impl. intros e H. exact H.
      * rewrite <- atvs_der. unfold body in HB. apply small_app_r in HB. now do 2 apply small_tlv in HB.
Qed.
Lemma csr_sans_none l : Forall (fun e => ex_id e <> san_id) l -> forall s, csr_sans s (map uncritical l) = Ok s.
Proof.
  induction 1 as [|e l He Hl IH]; intros s; [exact eq_refl|]. cbn [map csr_sans uncritical ex_id].
  apply beqb_neq in He. change oidExtensionSubjectAltName with san_id. rewrite He. apply IH.
Qed.
(** a request the package can express *)
Record csr_ok (q : csr nm) : Prop := {
  csr_ip : Forall (fun i => length i = 4%nat \/ length i = 16%nat) (q_ip q);
  csr_extra : Forall (fun e => oid_ok (ex_id e) = true /\ ex_id e <> [85;29;17]) (q_extra q) }.
(** the request before it is signed *)
Lemma csr_create q key der sb sname : CreateCertificateRequest q key = Ok der -> bytes der -> small der -> csr_ok q -> csr_name_ok q sb sname -> pub_ok nist_unm nist_mar (sg_pub key) ->
  exists m sp sig spki attrs exts kk,
    signingParamsForPublicKey (sg_pub key) (q_sigAlg q) = Ok sp /\ der = der_signed m (snd sp) sig /\
    match sg_pub key with
    | XSM2 _ _ _ => sg_sign key m (fst sp) false = Ok sig
    | XEC _ _ _ => exists d, digest_of hashf (fst sp) m = Ok d /\ sg_sign key d (fst sp) false = Ok sig
    | _ => sig = []
    end /\ bytes m /\ small m /\ bytes sig /\
    whole (with_full (req 48 p_csr_content)) der = Ok (0, sb, spki, attrs, m, snd sp, (0, sig), der) /\
    parseCSRExtensions attrs = Ok exts /\ csr_sans ([], [], []) exts = Ok (q_dns q, q_email q, map ip_bytes (q_ip q)) /\
    (exists san, exts = san ++ map uncritical (q_extra q) /\ Forall (fun e => ex_id e = san_id) san) /\
    marshalPublicKey nist_mar (sg_pub key) = Ok kk /\ spki = mkSpki (der_spki kk) (snd kk) (0, fst kk) /\ bytes (fst kk) /\ small (fst kk) /\ whole (req 48 dec_name) sb = Ok sname.
Proof.
  intros HC HB HS [Hip Hextra] (sc & Esb & Hsn & HN) HP. unfold X509C_model.CreateCertificateRequest in HC.
  apply bind_ok in HC as ([h [oid p]] & Hsp & HC). apply bind_ok in HC as ([k [koid kp]] & Hpk & HC). cbv zeta in HC.
  apply bind_ok in HC as (subject & Hsub & HC).
  assert (Es : subject = sb).
  { destruct (q_rawSubject q) as [|z l]; [|apply Ok_inj in Hsub; congruence]. rewrite HN in Hsub. cbn [rbind] in Hsub. apply Ok_inj in Hsub. congruence. }
  subst subject. clear Hsub HN.
  replace (negb (oidInExtensions oidExtensionSubjectAltName (q_extra q))) with true in HC.
  2:{ symmetry. apply negb_true_iff, not_true_iff_false. unfold oidInExtensions. rewrite existsb_exists. intros (e & He & Hb). apply beqb_eq in Hb. rewrite Forall_forall in Hextra. exact (proj2 (Hextra e He) Hb). }
  rewrite andb_true_r in HC. cbn [fst snd] in HC.
  set (sans := optl _ _) in HC. set (exts := sans ++ q_extra q) in HC.
  set (attributes := match exts with [] => [] | _ => _ end) in HC. set (m := der_tlv 48 (der_int 0 ++ sb ++ der_spki (k, (koid, kp)) ++ der_tlv 160 attributes)) in HC.
  apply bind_ok in HC as (sig & Hsig & HC). apply Ok_inj in HC. subst der.
  destruct (signing_params _ _ _ _ _ Hsp) as (HO & HPr & _).
  pose proof HB as HB'. unfold der_signed in HB'. apply bytes_tlv, bytes_app_inv in HB' as [HBm HB']. apply bytes_app_inv in HB' as [_ HBs].
  unfold der_bits in HBs. apply bytes_tlv in HBs. apply Forall_inv_tail in HBs.
  pose proof HS as HS'. unfold der_signed in HS'. apply small_tlv in HS'. pose proof (small_app_l _ _ HS') as HSm. apply small_app_r in HS'.
  assert (Hk : bytes k /\ small k).
  { split.
    - pose proof HBm as H. unfold m in H. apply bytes_tlv in H. do 2 apply bytes_app_inv, proj2 in H. apply bytes_app_inv, proj1 in H. unfold der_spki in H. apply bytes_tlv in H. apply bytes_app_inv, proj2 in H.
      cbn [fst] in H. unfold der_bits in H. apply bytes_tlv in H. now apply Forall_inv_tail in H.
    - pose proof HSm as H. unfold m in H. apply small_tlv in H. do 2 apply small_app_r in H. apply small_app_l in H. unfold der_spki in H. apply small_tlv, small_app_r in H.
      cbn [fst] in H. unfold der_bits in H. now apply small_tlv, small_cons in H. }
  destruct Hk as [HBk HSk].
  destruct (key_roundtrip _ _ _ _ _ _ (der_spki (k, (koid, kp))) Hpk HP HBk HSk) as (HKO & HKP & HKA & HKR).
  pose proof HSm as HSt. unfold m in HSt. apply small_tlv in HSt. pose proof (small_app_l _ _ HSt) as S1. pose proof (small_app_r _ _ HSt) as S2.
  pose proof (small_app_l _ _ S2) as S3. apply small_app_r in S2. pose proof (small_app_l _ _ S2) as S4. apply small_app_r in S2. apply small_tlv in S2.
  assert (HEo : Forall (fun e => oid_ok (ex_id e) = true) exts).
  { unfold exts. apply Forall_app. split; [unfold sans; match goal with |- Forall _ (optl ?b _) => destruct b; repeat constructor end|]. revert Hextra. apply Forall_impl. tauto. }
  assert (HA : exists attrs, seq_of any attributes = Ok attrs /\ parseCSRExtensions attrs = Ok (map uncritical exts)).
  { destruct exts as [|e0 l0] eqn:Ee; [exists []; split; exact eq_refl|]. unfold attributes in *. apply parse_attrs; [discriminate|exact HEo|exact S2]. }
  destruct HA as (attrs & HA1 & HA2).
  exists m, (h, (oid, p)), sig, (mkSpki (der_spki (k, (koid, kp))) (koid, kp) (0, k)), attrs, (map uncritical exts), (k, (koid, kp)). cbn [fst snd].
  split; [exact Hsp|]. split; [exact eq_refl|].
  split. { destruct (sg_pub key); try exact Hsig; try (apply Ok_inj in Hsig; symmetry; exact Hsig). apply bind_ok in Hsig as (d & Hd & Hsig). exists d. now split. }
  split; [exact HBm|]. split; [exact HSm|]. split; [exact HBs|].
  split.
  { apply whole_ok. apply with_full_tlv. unfold der_signed. apply req_tlv; [lt|unfold der_signed in HS; exact (small_tlv _ _ HS)|]. unfold p_csr_content.
    rewrite (with_full_tlv _ m (0, sb, mkSpki (der_spki (k, (koid, kp))) (koid, kp) (0, k), attrs)).
    - cbn [rbind fst snd]. rewrite req_alg by (assumption || exact (small_app_l _ _ HS')). cbn [rbind fst snd].
      rewrite <- (app_nil_r (der_bits sig)). rewrite req_bits by exact (small_app_r _ _ HS'). exact eq_refl.
    - unfold m. apply req_tlv; [lt|exact HSt|]. unfold p_tbscsr. unfold der_int. rewrite (req_tlv 2 p_int64 _ 0) by (lt || exact (small_tlv _ _ S1) || exact eq_refl). cbn [rbind fst snd].
      rewrite Esb. rewrite Esb in S3. rewrite any_tlv by (lt || exact (small_tlv _ _ S3)). cbn [rbind fst snd r_full]. rewrite p_spki_der by assumption. cbn [rbind fst snd].
      rewrite <- (app_nil_r (der_tlv 160 _)). rewrite (req_tlv 160 _ _ attrs) by (lt || exact S2 || exact HA1). exact eq_refl. }
  split; [exact HA2|]. split.
  { unfold exts. rewrite map_app. unfold sans.
    destruct (nonempty (q_dns q) || nonempty (q_email q) || nonempty (q_ip q)) eqn:En; cbn [optl map app].
    - cbn [csr_sans uncritical ex_id ex_val]. rewrite beqb_refl. rewrite san_roundtrip.
      + cbn [rbind]. apply csr_sans_none. revert Hextra. apply Forall_impl. tauto.
      + exact Hip.
      + unfold attributes, exts, sans in S2. cbn [optl app] in S2. apply small_tlv, small_app_r, small_tlv, small_tlv in S2. cbn [map concat] in S2. apply small_app_l in S2. unfold atv in S2. cbn [ex_val] in S2.
        apply small_tlv, small_app_r, small_tlv in S2. exact S2.
    - destruct (q_dns q); [|discriminate]. destruct (q_email q); [|discriminate]. destruct (q_ip q); [|discriminate]. cbn [map]. apply csr_sans_none. revert Hextra. apply Forall_impl. tauto. }
  split. { exists (map uncritical sans). split; [unfold exts; apply map_app|]. unfold sans. match goal with |- Forall _ (map _ (optl ?b _)) => destruct b; repeat constructor end. }
  split; [exact Hpk|]. split; [exact eq_refl|]. split; [exact HBk|]. split; [exact HSk|]. rewrite Esb. rewrite Esb in S3. apply whole_tlv; [lt|exact (small_tlv _ _ S3)|exact Hsn].
Qed.

Notation parsePublicKey := (parsePublicKey nist_unm).
(** C105: a request made with an SM2 key reads back with everything the template asked for, and its signature checks, with the
    key inside it, exactly when neither half of the signature is zero.  Extensions lose their criticality. *)
Theorem C105_request_roundtrip : forall (q : csr nm) priv b der sb sname,
  good_curve cv -> key_ok priv -> In (q_sigAlg q) [0; SM2WithSM3] ->
  CreateCertificateRequest q (sm2_signer cv b priv) = Ok der -> bytes der -> small der -> csr_ok q -> csr_name_ok q sb sname ->
  exists q' r s, ParseCertificateRequest der = Ok q' /\
    q_raw q' = der /\ q_version q' = 0 /\ q_subject q' = sname /\ q_rawSubject q' = sb /\ q_pub q' = sm2_pub priv /\ q_pubAlg q' = SM2 /\
    MarshalPKIXPublicKeyX nist_mar (sm2_pub priv) = Ok (q_rawSPKI q') /\ q_sigAlg q' = SM2WithSM3 /\
    q_dns q' = q_dns q /\ q_email q' = q_email q /\ q_ip q' = map ip_bytes (q_ip q) /\
    (exists san, q_exts q' = san ++ map (fun e => mkExt (ex_id e) false (ex_val e)) (q_extra q) /\ Forall (fun e => ex_id e = [85;29;17]) san) /\
    Sign cv (Some b) priv (q_rawTBS q') = Ok (r, s) /\ (CheckCSRSignature q' = Ok tt <-> r <> 0 /\ s <> 0).
Proof.
  intros q priv b der sb sname GC HK HA HC HB HS HQ HN.
  assert (HP : pub_ok nist_unm nist_mar (sg_pub (sm2_signer cv b priv))) by exact (key_on_curve priv HK).
  destruct (csr_create q _ der sb sname HC HB HS HQ HN HP) as (m & sp & sig & spki & attrs & exts & kk & Hsp & Hder & Hsig & HBm & HSm & HBs & HW & HE & HSan & HX & HM & Hspki & HBk & HSk & HSub).
  cbn [sm2_signer sg_pub sm2_pub sg_sign] in Hsp, Hsig, HM, HP.
  destruct sp as [h [oid p]]. cbn [fst snd] in *.
  destruct (signing_params _ _ _ _ _ Hsp) as (_ & _ & Hai).
  assert (Hai' : getSignatureAlgorithmFromAI (oid, p) = SM2WithSM3).
  { rewrite Hai. unfold signature_algorithm. destruct HA as [<- | [<- | []]]; exact eq_refl. }
  destruct kk as [k [koid kp]]. cbn [fst] in HBk, HSk.
  destruct (key_roundtrip _ _ _ _ _ _ (der_spki (k, (koid, kp))) HM HP HBk HSk) as (_ & _ & HKA & HKR). cbn [fst snd] in Hspki.
  assert (Hl : zlen m < 2 ^ 60) by (unfold Asn1_go.small in HSm; lia).
  destruct (sm2_check hashf rsa_verify dsa_verify ecdsa_verify T cv sm2_verify_nist SM2WithSM3 priv b m sig GC HK HBm Hl (or_introl eq_refl) Hsig) as (r & s & HSg & _ & _ & _ & HV).
  unfold X509C_model.ParseCertificateRequest. rewrite HW. cbn [rbind]. rewrite Hai'. change (SM2WithSM3 =? SM2WithSM3) with true. cbv iota zeta.
  rewrite HKA in HKR. change (key_algorithm (sm2_pub priv)) with SM2 in HKR. rewrite Hspki, HKR. cbn [rbind]. rewrite HSub. cbn [rbind]. rewrite HE. cbn [rbind]. rewrite HSan. cbn [rbind].
  eexists _, r, s. split; [exact eq_refl|]. cbn [q_raw q_version q_subject q_rawSubject q_pub q_pubAlg q_rawSPKI q_sigAlg q_dns q_email q_ip q_exts q_rawTBS k_raw].
  do 6 (split; [exact eq_refl|]). split; [unfold MarshalPKIXPublicKeyX; rewrite HM; exact eq_refl|].
  do 4 (split; [exact eq_refl|]). split; [exact HX|]. split; [exact HSg|].
  unfold X509C_model.CheckCSRSignature. cbn [q_sigAlg q_rawTBS q_sig q_pub]. rewrite RightAlign_0 by exact HBs. exact HV.
Qed.
(** C106 (refuted): with an RSA key the request comes back unsigned, with no error; *)
Theorem C106_rsa_request_unsigned_refuted : forall (q : csr nm) key der n e, sg_pub key = XRSA n e ->
  CreateCertificateRequest q key = Ok der -> exists m alg, der = der_signed m alg [].
Proof.
  intros q key der n e HK H. unfold X509C_model.CreateCertificateRequest in H. rewrite HK in H.
  apply bind_ok in H as (sp & _ & H). apply bind_ok in H as (pk & _ & H). cbv zeta in H. apply bind_ok in H as (sb & _ & H). cbn [rbind] in H. apply Ok_inj in H. eauto.
Qed.
(** and with an SM2 key and one of the other two SM2 signature algorithms, the parsed request holds an ECDSA key. *)
Theorem C106_request_key_type_refuted : forall (q : csr nm) priv b der sb sname,
  key_ok priv -> In (q_sigAlg q) [SM2WithSHA1; SM2WithSHA256] ->
  CreateCertificateRequest q (sm2_signer cv b priv) = Ok der -> bytes der -> small der -> csr_ok q -> csr_name_ok q sb sname ->
  exists q', ParseCertificateRequest der = Ok q' /\ q_pub q' = XEC SM2C (pX (sPub priv)) (pY (sPub priv)).
Proof.
  intros q priv b der sb sname HK HA HC HB HS HQ HN.
  assert (HP : pub_ok nist_unm nist_mar (sg_pub (sm2_signer cv b priv))) by exact (key_on_curve priv HK).
  destruct (csr_create q _ der sb sname HC HB HS HQ HN HP) as (m & sp & sig & spki & attrs & exts & kk & Hsp & Hder & Hsig & HBm & HSm & HBs & HW & HE & HSan & HX & HM & Hspki & HBk & HSk & HSub).
  cbn [sm2_signer sg_pub sm2_pub sg_sign] in Hsp, Hsig, HM, HP.
  destruct sp as [h [oid p]]. cbn [fst snd] in *.
  destruct (signing_params _ _ _ _ _ Hsp) as (_ & _ & Hai).
  assert (Hai' : (getSignatureAlgorithmFromAI (oid, p) =? SM2WithSM3) = false).
  { rewrite Hai. unfold signature_algorithm. destruct HA as [<- | [<- | []]]; exact eq_refl. }
  destruct kk as [k [koid kp]]. cbn [fst] in HBk, HSk.
  destruct (key_roundtrip _ _ _ _ _ _ (der_spki (k, (koid, kp))) HM HP HBk HSk) as (_ & _ & HKA & HKR). cbn [fst snd] in Hspki.
  assert (Ek : koid = oidPublicKeyECDSA).
  { cbn [marshalPublicKey oidFromNamedCurve] in HM. apply Ok_inj in HM. congruence. }
  unfold X509C_model.ParseCertificateRequest. rewrite HW. cbn [rbind]. rewrite Hai'. cbv iota zeta.
  rewrite HKA in HKR. change (key_algorithm (sm2_pub priv)) with SM2 in HKR. rewrite Hspki. cbn [k_alg fst]. rewrite Ek in *.
  change (getPublicKeyAlgorithmFromOID oidPublicKeyECDSA) with ECDSA.
  unfold X509C_model.parsePublicKey in *. cbn [k_bits k_alg snd] in *. change (SM2 =? SM2) with true in HKR. change (ECDSA =? SM2) with false. change (ECDSA =? RSA) with false. change (ECDSA =? DSA) with false.
  change (ECDSA =? ECDSA) with true. cbv iota zeta in *.
  apply bind_ok in HKR as (pr & HPr & HKR). rewrite HPr. cbn [rbind]. rewrite HSub. cbn [rbind]. rewrite HE. cbn [rbind]. rewrite HSan. cbn [rbind].
  eexists. split; [exact eq_refl|]. cbn [q_pub]. apply Ok_inj in HKR. injection HKR as E1 E2 E3. rewrite E1, E2, E3. exact eq_refl.
Qed.
End P.

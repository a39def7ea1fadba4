(** Properties of revocation lists (x509/x509.go:963-967, 1985-2068). *)
From Verif Require Import GoBase GoLemmas BigBytes Asn1_model Asn1_go SM3_model NT Prime_cert SM2_curve_spec SM2_group SM2_jac SM2_order SM2_spec SM2_model SM2_proofs P_SM2
  Keys_model Keys_proofs X509C_model X509C_ext_proofs X509C_spec X509C_proofs P_X509C.
Open Scope Z_scope.
#[local] Opaque der_tlv Sign Verify SumSM3 sig_ints.
Notation small := Asn1_go.small (only parsing).

Section P.
Variables (nm tm : Type) (enc_name : nm -> res (list Z)) (dec_name : list Z -> res nm) (enc_time : tm -> res (bool * list Z)) (dec_time : bool -> list Z -> res tm).
Variables (zero_time : tm -> bool) (hashf : Z -> list Z -> list Z) (rsa_verify : bool -> Z -> Z -> Z -> list Z -> list Z -> bool) (dsa_verify : Z -> Z -> Z -> Z -> list Z -> Z -> Z -> bool)
  (ecdsa_verify : ncurve -> Z -> Z -> list Z -> Z -> Z -> bool) (nist_unm : nat -> list Z -> option (Z * Z)) (nist_mar : nat -> Z -> Z -> list Z)
  (T : Type) (cv : curve T) (sm2_verify_nist : nat -> Z -> Z -> list Z -> Z -> Z -> res bool).
Notation CreateCRL := (CreateCRL nm tm enc_name enc_time zero_time hashf).
Notation ParseDERCRL := (ParseDERCRL nm tm dec_name dec_time).
Notation CheckCRLSignature := (CheckCRLSignature nm tm hashf rsa_verify dsa_verify ecdsa_verify T cv sm2_verify_nist).
Notation p_revoked := (p_revoked tm dec_time).
Notation time_ok := (time_ok enc_time dec_time).

(** a revocation entry that can be read back as [r'] *)
Definition revoked_ok (r r' : revoked tm) : Prop :=
  rv_serial r' = rv_serial r /\ time_ok (rv_time r) (rv_time r') /\ rv_exts r' = rv_exts r /\ Forall (fun e => oid_ok (ex_id e) = true) (rv_exts r).
(** the expiry: a zero time.Time is left out *)
Definition expiry_ok (t : tm) (o : option tm) : Prop :=
  if zero_time t then o = None else exists t', o = Some t' /\ time_ok t t'.

Lemma revoked_item r r' d : der_time tm enc_time (rv_time r) = Ok d -> revoked_ok r r' ->
  let e := der_tlv 48 (der_int (rv_serial r) ++ d ++ (match rv_exts r with [] => [] | _ => der_exts (rv_exts r) end)) in
  small e -> forall rest, req 48 p_revoked (e ++ rest) = Ok (r', rest).
Proof.
  intros Hd (H1 & H2 & H3 & H4) e HS rest. unfold e in *. apply small_tlv in HS. apply req_tlv; [lt|exact HS|]. unfold X509C_model.p_revoked.
  rewrite req_int by exact (small_app_l _ _ HS). apply small_app_r in HS. cbn [rbind fst snd]. rewrite (p_time_der _ _ _ _ _ _ _ Hd H2) by exact (small_app_l _ _ HS). cbn [rbind fst snd].
  apply small_app_r in HS. destruct r' as [sr tr er]. cbn [rv_serial rv_time rv_exts] in *. subst sr er. destruct (rv_exts r) as [|x l] eqn:E.
  - cbn [opt rbind fst snd]. exact eq_refl.
  - rewrite <- E in *. unfold der_exts in *. apply small_tlv in HS. rewrite <- (app_nil_r (der_tlv 48 _)). rewrite (opt_tlv 48 p_exts _ (rv_exts r)) by (lt || exact HS || apply p_exts_der; assumption). exact eq_refl.
Qed.
Lemma revoked_items l : forall l' d, Forall2 revoked_ok l l' -> der_revokeds tm enc_time l = Ok d -> small d ->
  exists items : list (list Z * revoked tm), d = concat (map fst items) /\ l' = map snd items /\
    forall i rest, In i items -> req 48 p_revoked (fst i ++ rest) = Ok (snd i, rest) /\ fst i <> [].
Proof.
  induction l as [|r l IH]; intros l' d HF HD HS.
  - inversion HF. cbn [der_revokeds] in HD. apply Ok_inj in HD. subst. exists []. repeat split; cbn; contradiction.
  - inversion HF as [|? r' ? l2 Hr Hl]; subst. cbn [der_revokeds] in HD. apply bind_ok in HD as (dt & Hdt & HD). apply bind_ok in HD as (rest & Hrest & HD). apply Ok_inj in HD. subst d.
    destruct (IH _ _ Hl Hrest (small_app_r _ _ HS)) as (items & E1 & E2 & HI). apply small_app_l in HS.
    exists ((der_tlv 48 (der_int (rv_serial r) ++ dt ++ match rv_exts r with [] => [] | _ => der_exts (rv_exts r) end), r') :: items).
    cbn [map concat fst snd]. split; [now rewrite E1|]. split; [now rewrite E2|]. intros i rest' [<- | Hi].
    + cbn [fst snd]. split; [apply revoked_item; assumption|apply tlv_not_nil].
    + now apply HI.
Qed.

Lemma crl_create (c : xcert nm tm) key revs revs' now now' expiry nxt der ic iname :
  CreateCRL c key revs now expiry = Ok der -> bytes der -> small der ->
  enc_name (c_subject c) = Ok ic -> dec_name ic = Ok iname -> time_ok now now' -> expiry_ok expiry nxt -> Forall2 revoked_ok revs revs' ->
  exists m sp sig, signingParamsForPublicKey (sg_pub key) 0 = Ok sp /\ der = der_signed m (snd sp) sig /\ bytes m /\ small m /\ bytes sig /\
    sign_with hashf key (sg_sm2priv key) (fst sp) false m = Ok sig /\
    ParseDERCRL der = Ok (mkCrl m 1 (snd sp) iname now' nxt revs' (match x_ski (c_x c) with [] => [] | k => [mkExt [85;29;35] false (der_tlv 48 (der_tlv 128 k))] end) (snd sp) (0, sig)).
Proof.
  intros HC HB HS Hic Hin Hnow Hexp HR. unfold X509C_model.CreateCRL in HC.
  apply bind_ok in HC as ([h [oid p]] & Hsp & HC). rewrite Hic in HC. cbn [rbind] in HC. apply bind_ok in HC as (th & Hth & HC). apply bind_ok in HC as (nx & Hnx & HC).
  apply bind_ok in HC as (rv & Hrv & HC). cbv zeta in HC. cbn [fst snd] in HC. set (aki := match x_ski (c_x c) with [] => [] | _ => _ end) in HC. set (m := der_tlv 48 _) in HC.
  apply bind_ok in HC as (sig & Hsig & HC). apply Ok_inj in HC. subst der.
  destruct (signing_params _ _ _ _ _ Hsp) as (HO & HPr & _).
  pose proof HB as HB'. unfold der_signed in HB'. apply bytes_tlv, bytes_app_inv in HB' as [HBm HB']. apply bytes_app_inv in HB' as [_ HBs].
  unfold der_bits in HBs. apply bytes_tlv in HBs. apply Forall_inv_tail in HBs.
  pose proof HS as HS'. unfold der_signed in HS'. apply small_tlv in HS'. pose proof (small_app_l _ _ HS') as HSm. apply small_app_r in HS'.
  exists m, (h, (oid, p)), sig. cbn [fst snd]. split; [exact Hsp|]. split; [exact eq_refl|]. split; [exact HBm|]. split; [exact HSm|]. split; [exact HBs|]. split; [exact Hsig|].
  pose proof HSm as HSt. unfold m in HSt. apply small_tlv in HSt. pose proof (small_app_l _ _ HSt) as S1. pose proof (small_app_r _ _ HSt) as S2.
  pose proof (small_app_l _ _ S2) as S3. apply small_app_r in S2. pose proof (small_app_l _ _ S2) as S4. apply small_app_r in S2. pose proof (small_app_l _ _ S2) as S5. apply small_app_r in S2.
  pose proof (small_app_l _ _ S2) as S6. apply small_app_r in S2. pose proof (small_app_l _ _ S2) as S7. apply small_app_r in S2. apply small_tlv in S7.
  unfold X509C_model.ParseDERCRL. unfold der_signed. apply whole_tlv; [lt|unfold der_signed in HS; exact (small_tlv _ _ HS)|]. unfold p_crl_content.
  rewrite (with_full_tlv _ m (1, (oid, p), iname, now', nxt, revs', match x_ski (c_x c) with [] => [] | k => [mkExt [85;29;35] false (der_tlv 48 (der_tlv 128 k))] end)).
  - cbn [rbind fst snd]. rewrite req_alg by (assumption || exact (small_app_l _ _ HS')). cbn [rbind fst snd].
    rewrite <- (app_nil_r (der_bits sig)). rewrite req_bits by exact (small_app_r _ _ HS'). exact eq_refl.
  - unfold m. apply req_tlv; [lt|exact HSt|]. unfold p_tbslist. unfold der_int. rewrite (opt_tlv 2 p_int64 _ 1) by (lt || exact (small_tlv _ _ S1) || exact eq_refl). cbn [rbind fst snd].
    rewrite req_alg by (assumption || exact S3). cbn [rbind fst snd]. rewrite (req_tlv 48 dec_name _ iname) by (lt || exact (small_tlv _ _ S4) || exact Hin). cbn [rbind fst snd].
    rewrite (p_time_der _ _ _ _ _ _ _ Hth Hnow) by exact S5. cbn [rbind fst snd].
    assert (EN : opt_time tm dec_time (nx ++ der_tlv 48 rv ++ aki) = Ok (nxt, der_tlv 48 rv ++ aki)).
    { unfold expiry_ok in Hexp. destruct (zero_time expiry).
      - subst nxt. apply Ok_inj in Hnx. subst nx. cbn [app]. unfold opt_time. destruct (tlv_cons 48 rv aki) as (b & E). rewrite E, <- E. apply opt_skip; [lt|exact S7|exact eq_refl].
      - destruct Hexp as (t' & -> & (g & cc & Hg & Hc)). unfold der_time in Hnx. rewrite Hg in Hnx. cbn [rbind fst snd] in Hnx. apply Ok_inj in Hnx. subst nx. unfold opt_time.
        destruct g.
        + destruct (tlv_cons 24 cc (der_tlv 48 rv ++ aki)) as (b & E). rewrite E, <- E. apply opt_tlv; [lt|exact (small_tlv _ _ S6)|exact Hc].
        + destruct (tlv_cons 23 cc (der_tlv 48 rv ++ aki)) as (b & E). rewrite E, <- E. apply opt_tlv; [lt|exact (small_tlv _ _ S6)|exact Hc]. }
    rewrite EN. cbn [rbind fst snd]. destruct (revoked_items _ _ _ HR Hrv S7) as (items & E1 & E2 & HI).
    rewrite (opt_tlv 48 _ rv revs') by (lt || exact S7 || (rewrite E1, E2; apply seq_of_map2; exact HI)). cbn [rbind fst snd].
    unfold aki in *. destruct (x_ski (c_x c)) as [|k0 kl].
    + cbn [explicit rbind fst snd]. exact eq_refl.
    + unfold der_exts in S2. apply small_tlv in S2. unfold der_exts. rewrite <- (app_nil_r (der_tlv 160 _)). change 160 with (160 + 0).
      rewrite (explicit_tlv 0 48 p_exts _ [mkExt oidExtensionAuthorityKeyId false (der_tlv 48 (der_tlv 128 (k0 :: kl)))]); [exact eq_refl|lia|lt|exact S2|].
      apply p_exts_der; [repeat constructor|exact (small_tlv _ _ S2)].
Qed.

(** C107: a revocation list made with an SM2 key reads back with everything it was made from, and its signature checks under the
    signer's public key exactly when neither half of the signature is zero. *)
Theorem C107_crl_roundtrip : forall (c : xcert nm tm) priv b revs revs' now now' expiry nxt der ic iname,
  good_curve cv -> key_ok priv ->
  CreateCRL c (sm2_signer cv b priv) revs now expiry = Ok der -> bytes der -> small der ->
  enc_name (c_subject c) = Ok ic -> dec_name ic = Ok iname -> time_ok now now' -> expiry_ok expiry nxt -> Forall2 revoked_ok revs revs' ->
  exists l r s, ParseDERCRL der = Ok l /\ l_version l = 1 /\ l_issuer l = iname /\ l_this l = now' /\ l_next l = nxt /\ l_revoked l = revs' /\
    l_exts l = (match x_ski (c_x c) with [] => [] | k => [mkExt [85;29;35] false (der_tlv 48 (der_tlv 128 k))] end) /\ l_alg l = l_outer l /\
    Sign cv (Some b) priv (l_raw l) = Ok (r, s) /\
    (forall issuer : xcert nm tm, c_pub issuer = sm2_pub priv -> (CheckCRLSignature issuer l = Ok tt <-> r <> 0 /\ s <> 0)).
Proof.
  intros c priv b revs revs' now now' expiry nxt der ic iname GC HK HC HB HS Hic Hin Hnow Hexp HR.
  destruct (crl_create c _ revs revs' now now' expiry nxt der ic iname HC HB HS Hic Hin Hnow Hexp HR) as (m & [h [oid p]] & sig & Hsp & Hder & HBm & HSm & HBs & Hsig & HP).
  cbn [fst snd sm2_signer sg_pub sg_sm2priv sg_sign] in *. unfold sign_with in Hsig. apply bind_ok in Hsig as (dg & _ & Hsig). cbn [sm2_signer sg_sign] in Hsig.
  destruct (signing_params _ _ _ _ _ Hsp) as (_ & _ & Hai). change (signature_algorithm (sm2_pub priv) 0) with SM2WithSM3 in Hai.
  assert (Hl : zlen m < 2 ^ 60) by (unfold Asn1_go.small in HSm; lia).
  destruct (sm2_check hashf rsa_verify dsa_verify ecdsa_verify T cv sm2_verify_nist SM2WithSM3 priv b m sig GC HK HBm Hl (or_introl eq_refl) Hsig) as (r & s & HSg & _ & _ & _ & HV).
  eexists _, r, s. split; [exact HP|]. cbn [l_version l_issuer l_this l_next l_revoked l_exts l_alg l_outer l_raw]. do 7 (split; [exact eq_refl|]). split; [exact HSg|].
  intros issuer Hpub. unfold X509C_model.CheckCRLSignature, X509C_model.CheckSignature. cbn [l_outer l_raw l_sig]. rewrite Hai, Hpub, RightAlign_0 by exact HBs. exact HV.
Qed.
(** C107 (refuted for other signers): a crypto.Signer that is not *sm2.PrivateKey but holds an SM2 key (a hardware key, say) is given
    the SM3 digest, so what it signs is the digest and not the list.  CreateCertificate looks at the public key instead and gives the
    message.  Both return without error. *)
Theorem C107_opaque_signer_refuted : forall (c : xcert nm tm) x y sgn revs now expiry der,
  CreateCRL c (mkSigner (XSM2 SM2C x y) false sgn) revs now expiry = Ok der ->
  exists m d alg sig, der = der_signed m alg sig /\ SumSM3 m = Ok d /\ sgn d hSM3 false = Ok sig.
Proof.
  intros c x y sgn revs now expiry der HC. unfold X509C_model.CreateCRL in HC. cbn [sg_pub signingParamsForPublicKey rbind Z.eqb fst snd sg_sm2priv] in HC.
  apply bind_ok in HC as (ic & _ & HC). apply bind_ok in HC as (th & _ & HC). apply bind_ok in HC as (nx & _ & HC). apply bind_ok in HC as (rv & _ & HC). cbv zeta in HC.
  apply bind_ok in HC as (sig & Hsig & HC). apply Ok_inj in HC. unfold sign_with in Hsig. apply bind_ok in Hsig as (d & Hd & Hsig). cbn [sg_sign] in Hsig.
  eexists _, d, _, sig. split; [symmetry; exact HC|]. split; [exact Hd|exact Hsig].
Qed.
End P.

(** Property theorems for package sm2 (C12-C28) over an arbitrary curve implementation [cv].
    Theorems whose conclusion depends on scalar multiplication assume the implementation right on the calls made
    ([base_ok], [mult_ok], [pre_ok], [verify_ok]: the call returns the affine coordinates of the group element);
    [good_curve cv] gives all of them, and [cv_std] (the arm64 build, i.e. the standard library's generic curve) is
    good, see the corollaries [_arm64].  For the amd64 assembly build see P_P256.v. *)
From Coq Require Import Znumtheory.
From Verif Require Import GoBase GoLemmas BigBytes Asn1_model SM3_spec SM3_model SM3_proofs NT Prime_cert
  SM2_curve_spec SM2_group SM2_jac SM2_order SM2_spec SM2_model SM2_proofs.
Open Scope Z_scope.
Ltac Zify.zify_post_hook ::= Z.div_mod_to_equations.
#[local] Opaque sm3 SumSM3 smul padd zinv Bytes be_bytes sm2_a sm2_b sm2_gx sm2_gy sm2_p sm2_n.
Local Notation n := sm2_n.

(** C12 *)
Theorem C12_keygen : forall T (cv : curve T) b, base_ok cv (k_of_bytes b) ->
  exists priv, GenerateKey cv (Some b) = Ok priv /\
    1 <= sD priv <= n - 1 /\
    Pt (pX (sPub priv)) (pY (sPub priv)) = smul (sD priv) pG /\
    on_curve (Pt (pX (sPub priv)) (pY (sPub priv))).
Proof.
  intros T cv b HB. pose proof (k_range b) as Hk. unfold GenerateKey. cbn [randFieldElement rbind].
  unfold base_ok in HB. rewrite HB.
  destruct (smul (k_of_bytes b) pG) as [|x y] eqn:ES.
  { exfalso. apply kG_zero in ES. revert ES. now apply n_ndiv. }
  cbn [aff]. eexists. split; [reflexivity|]. cbn [sD sPub pX pY]. split; [exact Hk|].
  split; [now rewrite ES|]. rewrite <- ES. apply on_smul, G_on.
Qed.
Theorem C12_reader_failure : forall T (cv : curve T), GenerateKey cv None = Err err_rand.
Proof. reflexivity. Qed.
Theorem C12_keygen_arm64 : forall b, exists priv, GenerateKey cv_std (Some b) = Ok priv /\
    1 <= sD priv <= n - 1 /\
    Pt (pX (sPub priv)) (pY (sPub priv)) = smul (sD priv) pG /\
    on_curve (Pt (pX (sPub priv)) (pY (sPub priv))).
Proof. intros b. apply C12_keygen. apply good_base; [exact cv_std_good|]. pose proof (k_range b); lia. Qed.
(** every private key in range is generated by some 40-byte draw *)
Theorem C12_all_keys_reachable : forall d, 1 <= d <= n - 1 -> exists b priv, bytes b /\ length b = 40%nat /\
  GenerateKey cv_std (Some b) = Ok priv /\ sD priv = d.
Proof.
  intros d Hd. destruct (k_reachable d Hd) as (b & H1 & H2 & H3). exists b.
  unfold GenerateKey. cbn [randFieldElement rbind]. destruct (cv_base cv_std _) as [x y]. eexists. repeat split; auto.
Qed.

(** GenerateKey's keys satisfy [key_ok] except for D = n-1 *)
Lemma keygen_key_ok T (cv : curve T) b priv : base_ok cv (k_of_bytes b) -> GenerateKey cv (Some b) = Ok priv -> sD priv <> n - 1 ->
  key_ok priv /\ tab_ok cv (sPub priv).
Proof.
  intros HB. pose proof (k_range b) as Hk. unfold GenerateKey. cbn [randFieldElement rbind].
  unfold base_ok in HB. destruct (cv_base cv (Bytes (k_of_bytes b))) as [x y]. intros [= <-]. cbn [sD]. intros Hd.
  split.
  - unfold key_ok. cbn [sD sPub pX pY sDInv]. split; [lia|]. split; [exact HB|].
    destruct (ModInverse_ok (k_of_bytes b + 1) ltac:(lia)) as (i & -> & _ & E). rewrite (Z.add_comm 1). exact E.
  - unfold tab_ok. cbn [sPub pTab pX pY]. destruct (cv_opt cv) as [o|]; [right; eauto|now left].
Qed.

(** C13: Sign's output is determined by the nonce, verifies exactly when r and s are nonzero, and is the standard's
    signature whenever the standard accepts the nonce. *)
Lemma s2_unique d i : 1 <= d <= n - 2 -> (i * (1 + d)) mod n = 1 -> forall z, (z * i) mod n = (zinv n (1 + d) * z) mod n.
Proof.
  intros Hd Hi z. pose proof n_gt3. pose proof (zinv_mul n (1 + d) sm2_n_prime ltac:(lia) (n_ndiv (1 + d) ltac:(lia))) as Hz.
  assert (E : i mod n = zinv n (1 + d) mod n).
  { transitivity ((i * ((1 + d) * zinv n (1 + d))) mod n).
    - rewrite <- Zmult_mod_idemp_r, Hz, Z.mul_1_r. reflexivity.
    - rewrite Z.mul_assoc, <- Zmult_mod_idemp_l, Hi, Z.mul_1_l. reflexivity. }
  rewrite Z.mul_comm, <- Zmult_mod_idemp_l, E, Zmult_mod_idemp_l. reflexivity.
Qed.
Lemma core_result d e k i : 1 <= d <= n - 2 -> (i * (1 + d)) mod n = 1 ->
  let r := (e + xcoord (smul k pG)) mod n in let s := ((k - r * d) * i) mod n in
  0 <= r < n /\ 0 <= s < n /\ (forall r' s', sm2_sign d e k = Some (r', s') -> r' = r /\ s' = s /\ r <> 0 /\ s <> 0).
Proof.
  intros Hd Hi r s. split; [apply mod_n_range|]. split; [apply mod_n_range|]. intros r' s'. unfold sm2_sign.
  fold r. rewrite <- (s2_unique d i Hd Hi). fold s.
  destruct ((r =? 0) || (r + k =? n) || (s =? 0)) eqn:E; [discriminate|]. intros [= <- <-]. clearbody s. clearbody r. clear Hi. lia.
Qed.
Theorem C13_sign_verify : forall T (cv : curve T) priv b msg, key_ok priv -> bytes msg -> zlen msg < 2^60 ->
  let k := k_of_bytes b in
  base_ok cv k ->
  (forall r s, Sign cv (Some b) priv msg = Ok (r, s) -> verify_ok cv (sPub priv) (smul (sD priv) pG) r s) ->
  exists r s, Sign cv (Some b) priv msg = Ok (r, s) /\ 0 <= r < n /\ 0 <= s < n /\
    (Verify cv (sPub priv) msg r s = Ok true <-> r <> 0 /\ s <> 0) /\
    (forall r' s', sm2_sign (sD priv) (e_of default_id (smul (sD priv) pG) msg) k = Some (r', s') ->
       r' = r /\ s' = s /\ Verify cv (sPub priv) msg r s = Ok true).
Proof.
  intros T cv priv b msg HK Hm Hl k HB HV.
  destruct HK as (HD & HP & HI). assert (HK : key_ok priv) by (repeat split; tauto || lia).
  pose proof (hash_msg_spec T (sPub priv) _ msg Hm Hl (on_smul (sD priv) pG G_on) HP) as He.
  set (e := e_of default_id (smul (sD priv) pG) msg) in *. clearbody e.
  pose proof (sign_msg_result T cv b priv msg e HB He) as HS. cbn zeta in HS. fold k in HS.
  pose proof (core_result (sD priv) e k (s2_of priv) HD (s2_ok T priv HK)) as (Hr & Hs & Hstd).
  pose proof (fun H => sign_tail_verifies T cv b priv e HK H) as HT. cbn zeta in HT. fold k in HT.
  set (r := (e + xcoord (smul k pG)) mod n) in *. set (s := ((k - r * sD priv) * s2_of priv) mod n) in *.
  clearbody s. clearbody r. exists r, s.
  assert (HVT : Verify cv (sPub priv) msg r s = Ok true <-> r <> 0 /\ s <> 0).
  { destruct (verify_range T cv (sPub priv) msg r s Hm) as (e' & He' & [[HR E] | [HR E]]); rewrite He in He'; injection He' as <-.
    - rewrite E, HT. + split; [intros _; destruct HR; lia|reflexivity]. + now apply HV.
    - rewrite E. unfold in_range in HR. split; [discriminate|]. intros. exfalso. apply HR. lia. }
  split; [exact HS|]. split; [exact Hr|]. split; [exact Hs|]. split; [exact HVT|].
  intros r' s' E. destruct (Hstd r' s' E) as (-> & -> & H1 & H2). tauto.
Qed.
Print Assumptions C13_sign_verify.
(** with or without table, with or without cached inverse: any good implementation *)
Theorem C13_sign_verify_good : forall T (cv : curve T) priv b msg, good_curve cv -> key_ok priv -> tab_ok cv (sPub priv) ->
  bytes msg -> zlen msg < 2^60 ->
  exists r s, Sign cv (Some b) priv msg = Ok (r, s) /\ 0 <= r < n /\ 0 <= s < n /\
    (Verify cv (sPub priv) msg r s = Ok true <-> r <> 0 /\ s <> 0) /\
    (forall r' s', sm2_sign (sD priv) (e_of default_id (smul (sD priv) pG) msg) (k_of_bytes b) = Some (r', s') ->
       r' = r /\ s' = s /\ Verify cv (sPub priv) msg r s = Ok true).
Proof.
  intros T cv priv b msg GC HK HT Hm Hl. pose proof (k_range b).
  assert (HB : base_ok cv (k_of_bytes b)) by (apply good_base; auto; lia).
  apply C13_sign_verify; auto. intros r s E.
  destruct (hash_msg_total T (sPub priv) msg Hm) as (e & He & _).
  pose proof (sign_msg_result T cv b priv msg e HB He) as ES. cbn zeta in ES. rewrite E in ES. injection ES as Er Es.
  apply good_verify; auto.
  - apply on_smul, G_on.
  - apply HK.
  - rewrite Er. apply mod_n_range.
  - rewrite Es. apply mod_n_range.
Qed.
(** the hypotheses are met: the arm64 curve is good and key_ok holds of D = 1 *)
Theorem C13_hyps : good_curve cv_std /\ key_ok (mkPriv (mkPub (T := unit) sm2_gx sm2_gy None) 1 None).
Proof.
  split; [exact cv_std_good|]. unfold key_ok. cbn [sD sPub pX pY sDInv]. pose proof n_gt3. rewrite smul_1. repeat split; lia.
Qed.
(** the nonces the standard rejects but the code does not check for *)
Theorem C13_degenerate_nonces : forall d e k, 1 <= d <= n - 2 ->
  let r := (e + xcoord (smul k pG)) mod n in let s := (zinv n (1 + d) * (k - r * d)) mod n in
  (sm2_sign d e k = None <-> r = 0 \/ s = 0 \/ r + k = n) /\
  (1 <= k <= n - 1 -> r <> 0 -> (r + k = n <-> (r + s) mod n = 0)).
Proof.
  intros d e k Hd r s. split.
  - unfold sm2_sign. fold r. fold s. clearbody s. clearbody r.
    destruct ((r =? 0) || (r + k =? n) || (s =? 0)) eqn:E.
    + split; [intros _; lia|reflexivity].
    + split; [discriminate|intros H; exfalso; lia].
  - intros Hk Hr0. pose proof (mod_n_range (e + xcoord (smul k pG))) as Hr. fold r in Hr.
    pose proof n_gt3.
    pose proof (zinv_mul n (1 + d) sm2_n_prime ltac:(lia) (n_ndiv (1 + d) ltac:(lia))) as Hz.
    assert (E1 : ((r + s) * (1 + d)) mod n = (r + k) mod n).
    { replace ((r + s) * (1 + d)) with (r * (1 + d) + s * (1 + d)) by ring.
      rewrite <- Zplus_mod_idemp_r. unfold s. rewrite Zmult_mod_idemp_l.
      replace (zinv n (1 + d) * (k - r * d) * (1 + d)) with ((k - r * d) * ((1 + d) * zinv n (1 + d))) by ring.
      rewrite <- Zmult_mod_idemp_r, Hz, Z.mul_1_r, Zplus_mod_idemp_r. f_equal. ring. }
    clearbody s. clearbody r. split.
    + intros E. rewrite E, Z_mod_same_full in E1. apply Z.mod_divide in E1; [|lia]. apply prime_mult in E1; [|exact sm2_n_prime].
      destruct E1 as [D|D]; [apply Z.mod_divide; auto; lia|]. exfalso. revert D. apply n_ndiv. lia.
    + intros E. assert (E2 : (r + k) mod n = 0) by (rewrite <- E1, <- Zmult_mod_idemp_l, E; reflexivity).
      apply Z.mod_divide in E2; [|lia]. destruct E2 as [c Ec]. clear - Ec Hk Hr Hr0.
      assert (H0 : 0 < c) by (apply Z.mul_pos_cancel_r with n; lia).
      assert (H2 : c < 2) by (apply Z.mul_lt_mono_pos_r with n; lia).
      replace c with 1 in Ec by lia. lia.
Qed.
Print Assumptions C13_degenerate_nonces.

(** C14: digest API; digests of any length *)
Theorem C14_digest_sign_verify : forall T (cv : curve T) priv b digest, key_ok priv ->
  let k := k_of_bytes b in
  base_ok cv k ->
  (forall r s, SignWithDigest cv (Some b) priv digest = Ok (r, s) -> verify_ok cv (sPub priv) (smul (sD priv) pG) r s) ->
  exists r s, SignWithDigest cv (Some b) priv digest = Ok (r, s) /\ 0 <= r < n /\ 0 <= s < n /\
    (VerifyWithDigest cv (sPub priv) digest r s = true <-> r <> 0 /\ s <> 0) /\
    (forall r' s', sm2_sign (sD priv) (be_val digest) k = Some (r', s') ->
       r' = r /\ s' = s /\ VerifyWithDigest cv (sPub priv) digest r s = true).
Proof.
  intros T cv priv b digest HK k HB HV. assert (HD : 1 <= sD priv <= n - 2) by apply HK.
  pose proof (sign_result T cv b priv digest HB) as HS. cbn zeta in HS. fold k in HS.
  pose proof (core_result (sD priv) (be_val digest) k (s2_of priv) HD (s2_ok T priv HK)) as (Hr & Hs & Hstd).
  pose proof (fun H => sign_tail_verifies T cv b priv (be_val digest) HK H) as HT. cbn zeta in HT. fold k in HT.
  set (r := (be_val digest + xcoord (smul k pG)) mod n) in *. set (s := ((k - r * sD priv) * s2_of priv) mod n) in *.
  clearbody s. clearbody r. exists r, s.
  assert (HVT : VerifyWithDigest cv (sPub priv) digest r s = true <-> r <> 0 /\ s <> 0).
  { rewrite range_checks, HT by now apply HV. unfold in_range. lia. }
  split; [exact HS|]. split; [exact Hr|]. split; [exact Hs|]. split; [exact HVT|].
  intros r' s' E. destruct (Hstd r' s' E) as (-> & -> & H1 & H2). tauto.
Qed.
Print Assumptions C14_digest_sign_verify.
Theorem C14_digest_sign_verify_good : forall T (cv : curve T) priv b digest, good_curve cv -> key_ok priv -> tab_ok cv (sPub priv) ->
  exists r s, SignWithDigest cv (Some b) priv digest = Ok (r, s) /\ 0 <= r < n /\ 0 <= s < n /\
    (VerifyWithDigest cv (sPub priv) digest r s = true <-> r <> 0 /\ s <> 0) /\
    (forall r' s', sm2_sign (sD priv) (be_val digest) (k_of_bytes b) = Some (r', s') ->
       r' = r /\ s' = s /\ VerifyWithDigest cv (sPub priv) digest r s = true).
Proof.
  intros T cv priv b digest GC HK HT. pose proof (k_range b).
  assert (HB : base_ok cv (k_of_bytes b)) by (apply good_base; auto; lia).
  apply C14_digest_sign_verify; auto. intros r s E.
  pose proof (sign_result T cv b priv digest HB) as ES. cbn zeta in ES. rewrite E in ES. injection ES as Er Es.
  apply good_verify; auto.
  - apply on_smul, G_on.
  - apply HK.
  - rewrite Er. apply mod_n_range.
  - rewrite Es. apply mod_n_range.
Qed.
(** Sign/Verify are the digest functions on SM3(Z||msg), for every public key with coordinates below 2^256 and every nonce *)
Theorem C14_message_is_digest : forall T (cv : curve T) priv draw msg r s, bytes msg -> zlen msg < 2^60 ->
  0 <= pX (sPub priv) < 2^256 -> 0 <= pY (sPub priv) < 2^256 ->
  let h := sm3 (z_id default_id (pX (sPub priv)) (pY (sPub priv)) ++ msg) in
  Sign cv draw priv msg = SignWithDigest cv draw priv h /\
  Verify cv (sPub priv) msg r s = Ok (VerifyWithDigest cv (sPub priv) h r s).
Proof.
  intros T cv priv draw msg r s Hm Hl Hx Hy h.
  assert (He : hash_msg (sPub priv) msg = Ok (be_val h)).
  { unfold hash_msg. destruct default_id_ok as [Hd1 Hd2].
    change (getZ (sPub priv)) with (getZById (sPub priv) default_id). rewrite getZById_spec by auto. cbn [rbind].
    destruct (z_id_length default_id (pX (sPub priv)) (pY (sPub priv)) Hd1 Hd2) as [Hz1 Hz2].
    rewrite copy_seq by auto. rewrite SumSM3_spec; [reflexivity|apply bytes_app; auto|].
    rewrite zlen_app. unfold zlen at 1. rewrite Hz1. lia. }
  split.
  - unfold Sign, SignWithDigest. rewrite He. cbn [rbind]. destruct (generateRandK draw); [|reflexivity].
    destruct (cv_base cv (Bytes z)) as [x1 y1]. now rewrite <- sign_s_eq.
  - unfold Verify, VerifyWithDigest. destruct (_ || _); [reflexivity|]. destruct (_ || _); [reflexivity|]. rewrite He. reflexivity.
Qed.
Print Assumptions C14_message_is_digest.

(** C15 is false of the code: the draw giving D = n-1 yields a key none of whose signatures verifies, on any platform *)
Theorem C15_every_key_signs_refuted : forall T (cv : curve T), exists b, bytes b /\ length b = 40%nat /\
  exists priv, GenerateKey cv (Some b) = Ok priv /\
    forall b' msg, bytes msg -> exists r, Sign cv (Some b') priv msg = Ok (r, 0) /\
      Verify cv (sPub priv) msg r 0 = Ok false.
Proof.
  intros T cv. pose proof n_gt3. destruct (k_reachable (n - 1) ltac:(lia)) as (b & H1 & H2 & H3).
  exists b. split; [exact H1|]. split; [exact H2|].
  unfold GenerateKey. cbn [randFieldElement rbind]. rewrite H3. replace (n - 1 + 1) with n by lia. rewrite ModInverse_n.
  destruct (cv_base cv (Bytes (n - 1))) as [x y]. eexists. split; [reflexivity|]. intros b' msg Hm.
  match goal with |- context [sPub ?p] => set (priv := p) end.
  destruct (hash_msg_total T (sPub priv) msg Hm) as (e & He & _).
  unfold Sign. rewrite He. cbn [rbind generateRandK option_map]. destruct (cv_base cv (Bytes (k_of_bytes b'))) as [x1 y1].
  exists ((e + x1) mod n). split.
  - unfold s2_of, priv at 2. cbn [sDInv]. now rewrite Z_mod_mult.
  - unfold Verify. replace (0 <=? 0) with true by reflexivity. now rewrite orb_true_r.
Qed.
Print Assumptions C15_every_key_signs_refuted.
(** all other generated keys sign; what is missing from C15 is exactly D = n-1 and the nonces giving r = 0 or s = 0 *)
Theorem C15_other_keys_sign_partial : forall T (cv : curve T) b priv b' msg, good_curve cv ->
  GenerateKey cv (Some b) = Ok priv -> sD priv <> n - 1 -> bytes msg -> zlen msg < 2^60 ->
  exists r s, Sign cv (Some b') priv msg = Ok (r, s) /\
    (Verify cv (sPub priv) msg r s = Ok true <-> r <> 0 /\ s <> 0).
Proof.
  intros T cv b priv b' msg GC HG Hd Hm Hl. pose proof (k_range b).
  destruct (keygen_key_ok T cv b priv ltac:(apply good_base; auto; lia) HG Hd) as [HK HT].
  destruct (C13_sign_verify_good T cv priv b' msg GC HK HT Hm Hl) as (r & s & H1 & _ & _ & H2 & _). eauto.
Qed.

(** C16 *)
Theorem C16_out_of_range_rejected : forall T (cv : curve T) pub msg digest r s,
  ~ (1 <= r <= n - 1 /\ 1 <= s <= n - 1) ->
  Verify cv pub msg r s = Ok false /\ VerifyWithDigest cv pub digest r s = false.
Proof.
  intros T cv pub msg digest r s H. unfold Verify, VerifyWithDigest.
  destruct ((r <=? 0) || (s <=? 0)) eqn:E1; [auto|]. destruct ((n <=? r) || (n <=? s)) eqn:E2; [auto|]. exfalso. apply H. lia.
Qed.
Print Assumptions C16_out_of_range_rejected.

(** C17: exact characterisation of acceptance (the standard's checks minus "t <> 0" and "sum <> O") *)
Definition accepts_like_code (P : pt) (e r s : Z) : Prop :=
  1 <= r < n /\ 1 <= s < n /\ (e + xcoord (padd (smul s pG) (smul ((r + s) mod n) P))) mod n = r.
Lemma accept_eq P e r s : on_curve P ->
  (in_range r s /\ ((e + xcoord (padd (smul s pG) (smul (r + s) P))) mod n =? r) = true) <-> accepts_like_code P e r s.
Proof. intros HP. unfold accepts_like_code, in_range. rewrite (smul_mod (r + s) P HP), Z.eqb_eq. tauto. Qed.
Theorem C17_exact_acceptance : forall T (cv : curve T) pub P msg digest r s, on_curve P -> (pX pub, pY pub) = aff P ->
  verify_ok cv pub P r s -> bytes msg -> zlen msg < 2^60 ->
  (Verify cv pub msg r s = Ok true <-> accepts_like_code P (e_of default_id P msg) r s) /\
  (VerifyWithDigest cv pub digest r s = true <-> accepts_like_code P (be_val digest) r s).
Proof.
  intros T cv pub P msg digest r s HP E HV Hm Hl. rewrite <- !accept_eq by auto. split.
  - pose proof (hash_msg_spec T pub P msg Hm Hl HP E) as He. remember (e_of default_id P msg) as e eqn:Ee. clear Ee.
    destruct (verify_range T cv pub msg r s Hm) as (e' & He' & [[HR EV] | [HR EV]]); rewrite He in He'; injection He' as <-; rewrite EV.
    + rewrite (verify_tail_ok _ _ _ _ _ _ _ HV). split; [intros [= H]; auto|intros [_ ->]; reflexivity].
    + split; [discriminate|tauto].
  - rewrite range_checks, (verify_tail_ok _ _ _ _ _ _ _ HV). tauto.
Qed.
Print Assumptions C17_exact_acceptance.
(** sound and complete except for the two missing checks *)
Theorem C17_standard_partial : forall T (cv : curve T) pub P msg r s, good_curve cv -> on_curve P -> (pX pub, pY pub) = aff P ->
  tab_ok cv pub -> bytes msg -> zlen msg < 2^60 ->
  (sm2_verify P (e_of default_id P msg) r s -> Verify cv pub msg r s = Ok true) /\
  (Verify cv pub msg r s = Ok true -> (r + s) mod n <> 0 -> padd (smul s pG) (smul ((r + s) mod n) P) <> Oinf ->
   sm2_verify P (e_of default_id P msg) r s).
Proof.
  intros T cv pub P msg r s GC HP E HT Hm Hl.
  assert (HH : (1 <= r < n /\ 1 <= s < n) \/ ~ (1 <= r <= n - 1 /\ 1 <= s <= n - 1)) by lia.
  destruct HH as [HR|HR].
  - assert (HV : verify_ok cv pub P r s) by (apply good_verify; auto; lia).
    destruct (C17_exact_acceptance T cv pub P msg [] r s HP E HV Hm Hl) as [H1 _]. rewrite H1. unfold sm2_verify, accepts_like_code. tauto.
  - rewrite (proj1 (C16_out_of_range_rejected T cv pub msg [] r s HR)). split; [|discriminate].
    unfold sm2_verify. intros H. exfalso. apply HR. lia.
Qed.
(** C17 is false: for every public key there is a digest and a pair (r,s) with t = r+s = 0 mod n that the code accepts
    and the standard rejects *)
Theorem C17_standard_acceptance_refuted : forall T (cv : curve T) pub P, good_curve cv -> on_curve P -> (pX pub, pY pub) = aff P -> tab_ok cv pub ->
  exists digest r s, bytes digest /\ length digest = 32%nat /\
    VerifyWithDigest cv pub digest r s = true /\ ~ sm2_verify P (be_val digest) r s.
Proof.
  intros T cv pub P GC HP E HT. pose proof n_gt3. pose proof n_lt256.
  set (e := (n - 1 - sm2_gx) mod n).
  assert (He : 0 <= e < n) by apply mod_n_range.
  exists (be_bytes 32 e), (n - 1), 1. split; [apply be_bytes_bytes|]. split; [apply be_bytes_length|].
  assert (Ee : be_val (be_bytes 32 e) = e). { apply be_val_be_bytes_small. change (256 ^ Z.of_nat 32) with (2^256). lia. }
  assert (Et : (n - 1 + 1) mod n = 0) by (replace (n - 1 + 1) with n by lia; apply Z_mod_same_full).
  split.
  - assert (HV : verify_ok cv pub P (n - 1) 1) by (apply good_verify; auto; lia).
    apply (C17_exact_acceptance T cv pub P [] (be_bytes 32 e) (n - 1) 1 HP E HV); [constructor|reflexivity|].
    unfold accepts_like_code. rewrite Ee, Et, smul_0, padd_Oinf_r, smul_1. split; [lia|]. split; [lia|].
    unfold xcoord, pG. cbn [aff fst]. unfold e. rewrite Zplus_mod_idemp_l.
    replace (n - 1 - sm2_gx + sm2_gx) with (n - 1) by lia. apply Z.mod_small. lia.
  - unfold sm2_verify. rewrite Et. tauto.
Qed.
Print Assumptions C17_standard_acceptance_refuted.

(** C18 is false: a failing random source makes the four operations panic instead of returning an error *)
Theorem C18_reader_failure_refuted : forall T (cv : curve T) priv pub msg digest fuel, bytes msg ->
  Sign cv None priv msg = Panic /\ SignWithDigest cv None priv digest = Panic /\
  Encrypt cv fuel None pub msg = Some Panic /\ EncryptAsn1 cv fuel None pub msg = Some Panic.
Proof.
  intros T cv priv pub msg digest fuel Hm. destruct (hash_msg_total T (sPub priv) msg Hm) as (e & He & _).
  unfold Sign. rewrite He. repeat split.
Qed.
Print Assumptions C18_reader_failure_refuted.
(** what does hold: key generation reports the error, and no operation returns a result computed without randomness *)
Theorem C18_reader_failure_partial : forall T (cv : curve T) priv pub msg digest fuel, bytes msg ->
  GenerateKey cv None = Err err_rand /\ Sm2KeyGen cv None = Panic /\
  (forall rs, Sign cv None priv msg <> Ok rs) /\ (forall rs, SignWithDigest cv None priv digest <> Ok rs) /\
  (forall c, Encrypt cv fuel None pub msg <> Some (Ok c)) /\ (forall c, EncryptAsn1 cv fuel None pub msg <> Some (Ok c)).
Proof.
  intros T cv priv pub msg digest fuel Hm. destruct (C18_reader_failure_refuted T cv priv pub msg digest fuel Hm) as (-> & -> & -> & ->).
  repeat split; discriminate.
Qed.

(** C19: Encrypt's result, when it returns, is the standard ciphertext 04||x||y||C3||C2, and Decrypt inverts it.
    It returns (after one pass) exactly for the nonces whose key stream is not all zero. *)
Theorem C19_encrypt_result : forall T (cv : curve T) pub P b msg fuel, on_curve P ->
  base_ok cv (k_of_bytes b) -> pre_ok cv pub P (k_of_bytes b) -> bytes msg -> zlen msg < 2^57 ->
  let k := k_of_bytes b in
  (kdf_usable (smul k P) (length msg) ->
     Encrypt cv (S fuel) (Some b) pub msg = Some (Ok (sm2_cipher P k msg)) /\
     EncryptAsn1 cv (S fuel) (Some b) pub msg =
       Some (Ok (der_seq [der_int (fst (aff (smul k pG))); der_int (snd (aff (smul k pG)));
                          der_octets (c3_of (smul k P) msg); der_octets (c2_of (smul k P) msg)]))) /\
  (~ kdf_usable (smul k P) (length msg) -> Encrypt cv fuel (Some b) pub msg = None /\ EncryptAsn1 cv fuel (Some b) pub msg = None).
Proof.
  intros T cv pub P b msg fuel HP HB HR Hm Hl k. fold k in HB, HR.
  pose proof (enc_pass_spec T cv pub P k msg HP HB HR Hm Hl) as HE. rewrite <- usableb_spec.
  pose proof (on_small _ (on_smul k pG G_on)) as [Hx Hy].
  unfold Encrypt, EncryptAsn1, doEncrypt. cbn [generateRandK option_map]. fold k.
  destruct (usableb (smul k P) (length msg)) eqn:EU; (split; intros HU; [|]); try discriminate; try (now contradiction HU).
  - rewrite (enc_loop_done _ _ _ _ _ _ fuel HE). cbn [option_map rbind]. split; [|reflexivity].
    rewrite (pointToBytes_eq _ _ Hx Hy). unfold sm2_cipher. now rewrite <- !app_assoc.
  - rewrite (enc_loop_again _ _ _ _ _ HE). split; reflexivity.
Qed.
Print Assumptions C19_encrypt_result.
Lemma cipher_length P k msg : bytes msg -> zlen msg < 2^60 -> length (sm2_cipher P k msg) = (97 + length msg)%nat.
Proof.
  intros Hm Hl. unfold sm2_cipher. rewrite !app_length, !be_bytes_length, c2_length.
  destruct (c3_length (smul k P) msg Hm Hl) as [-> _]. cbn [length]. lia.
Qed.
Lemma cipher_split P k msg : bytes msg -> zlen msg < 2^60 -> let c := sm2_cipher P k msg in
  firstn 65 c = [4] ++ be_bytes 32 (fst (aff (smul k pG))) ++ be_bytes 32 (snd (aff (smul k pG))) /\
  firstn 32 (skipn 65 c) = c3_of (smul k P) msg /\ skipn 97 c = c2_of (smul k P) msg.
Proof.
  intros Hm Hl c. set (h := [4] ++ be_bytes 32 (fst (aff (smul k pG))) ++ be_bytes 32 (snd (aff (smul k pG)))).
  assert (Hh : length h = 65%nat) by (unfold h; rewrite !app_length, !be_bytes_length; reflexivity).
  assert (Ec : c = h ++ c3_of (smul k P) msg ++ c2_of (smul k P) msg) by (unfold c, sm2_cipher, h; now rewrite <- !app_assoc).
  clearbody c h. subst c. destruct (c3_length (smul k P) msg Hm Hl) as [H3 _]. repeat split.
  - now apply firstn_app_l.
  - rewrite skipn_app_l by auto. now apply firstn_app_l.
  - rewrite app_assoc. apply skipn_app_l. rewrite app_length. lia.
Qed.
Lemma Decrypt_unfold T (cv : curve T) c priv : (97 <= length c)%nat -> nth 0 c 0 = 4 ->
  Decrypt cv c priv = dec_tail cv priv (be_val (firstn 32 (skipn 1 (firstn 65 c)))) (be_val (skipn 33 (firstn 65 c)))
                               (firstn 32 (skipn 65 c)) (skipn 97 c) (8 * zlen (skipn 97 c)).
Proof.
  intros Hl H4. unfold Decrypt. replace (length c <? 65)%nat with false by lia. replace (length c <? 97)%nat with false by lia.
  rewrite pointFromBytes_some.
  - f_equal. unfold zlen. rewrite skipn_length. lia.
  - rewrite firstn_length. lia.
  - destruct c; [cbn in Hl; lia|exact H4].
Qed.
Theorem C19_decrypt_inverts_encrypt : forall T (cv : curve T) priv D b msg fuel c,
  sD priv = D -> 1 <= D <= n - 1 -> (pX (sPub priv), pY (sPub priv)) = aff (smul D pG) ->
  let k := k_of_bytes b in
  base_ok cv k -> pre_ok cv (sPub priv) (smul D pG) k -> mult_ok cv (smul k pG) D ->
  bytes msg -> zlen msg < 2^57 ->
  Encrypt cv fuel (Some b) (sPub priv) msg = Some (Ok c) ->
  c = sm2_cipher (smul D pG) k msg /\ length c = (97 + length msg)%nat /\ Decrypt cv c priv = Ok msg.
Proof.
  intros T cv priv D b msg fuel c HD HDr Hpub k HB HR HM Hm Hl HE.
  assert (HP := on_smul D pG G_on). set (P := smul D pG) in *.
  destruct (C19_encrypt_result T cv (sPub priv) P b msg (fuel - 1) HP HB HR Hm Hl) as [H1 _].
  destruct (C19_encrypt_result T cv (sPub priv) P b msg fuel HP HB HR Hm Hl) as [_ H2].
  cbn zeta in H1, H2. fold k in H1, H2.
  destruct (usableb (smul k P) (length msg)) eqn:EU.
  2:{ rewrite <- usableb_spec, EU in H2. destruct (H2 ltac:(discriminate)) as [H3 _]. rewrite HE in H3. discriminate. }
  destruct fuel as [|fuel]; [discriminate HE|]. cbn [Nat.sub] in H1. rewrite Nat.sub_0_r in H1.
  apply usableb_spec in EU. destruct (H1 EU) as [H3 _]. rewrite HE in H3.
  assert (Ec : c = sm2_cipher P k msg) by congruence. clear H1 H2 H3 HE.
  assert (HL : length c = (97 + length msg)%nat) by (rewrite Ec; apply cipher_length; [exact Hm|lia]).
  split; [exact Ec|]. split; [exact HL|].
  destruct (cipher_split P k msg Hm ltac:(lia)) as (S1 & S2 & S3). cbn zeta in S1, S2, S3. rewrite <- Ec in S1, S2, S3.
  rewrite Decrypt_unfold; [|lia|rewrite Ec; reflexivity].
  rewrite S1, S2, S3. pose proof (on_small _ (on_smul k pG G_on)) as [Hx Hy].
  pose proof (pointFromTo _ _ Hx Hy) as PF. rewrite (pointToBytes_eq _ _ Hx Hy) in PF.
  rewrite pointFromBytes_some in PF; [|rewrite !app_length, !be_bytes_length; reflexivity|reflexivity].
  assert (E1 : forall (a b c d : Z), Some (a, b) = Some (c, d) -> a = c /\ b = d) by (intros * [= -> ->]; auto).
  apply E1 in PF as [-> ->].
  assert (ES : smul D (smul k pG) = smul k P).
  { unfold P. rewrite <- !smul_mul by exact G_on. f_equal. ring. }
  unfold mult_ok in HM. rewrite ES in HM.
  apply (dec_tail_ok_iff T cv priv _ _ (smul k P)); auto.
  - now rewrite HD.
  - apply on_small, on_smul, HP.
  - now apply c2_bytes.
  - unfold zlen in *. rewrite c2_length. lia.
  - rewrite c2_length. auto.
Qed.
Print Assumptions C19_decrypt_inverts_encrypt.
Theorem C19_good : forall T (cv : curve T) priv b msg fuel c, good_curve cv -> tab_ok cv (sPub priv) ->
  1 <= sD priv <= n - 1 -> (pX (sPub priv), pY (sPub priv)) = aff (smul (sD priv) pG) -> bytes msg -> zlen msg < 2^57 ->
  Encrypt cv fuel (Some b) (sPub priv) msg = Some (Ok c) ->
  c = sm2_cipher (smul (sD priv) pG) (k_of_bytes b) msg /\ length c = (97 + length msg)%nat /\ Decrypt cv c priv = Ok msg.
Proof.
  intros T cv priv b msg fuel c GC HT HD Hpub Hm Hl HE. pose proof (k_range b).
  apply (C19_decrypt_inverts_encrypt T cv priv (sD priv) b msg fuel c); auto.
  - apply good_base; auto; lia.
  - apply good_pre; auto; [apply on_smul, G_on|lia].
  - apply good_mult; auto; [apply on_smul, G_on|lia].
Qed.

(** C20: for any private scalar, C1 and curve implementation whose output coordinates fit 32 bytes *)
Theorem C20_only_authenticated : forall T (cv : curve T) c priv m, bytes c -> zlen c < 2^57 -> (97 <= length c)%nat -> nth 0 c 0 = 4 ->
  let x1 := be_val (firstn 32 (skipn 1 c)) in let y1 := be_val (firstn 32 (skipn 33 c)) in
  forall x2 y2, cv_mult cv x1 y1 (Bytes (sD priv)) = (x2, y2) -> 0 <= x2 < 2^256 -> 0 <= y2 < 2^256 ->
  let c3 := firstn 32 (skipn 65 c) in let c2 := skipn 97 c in
  let Zs := be_bytes 32 x2 ++ be_bytes 32 y2 in
  (Decrypt cv c priv = Ok m <->
     (c2 = [] \/ kdf Zs (length c2) <> zeros (length c2)) /\
     c2 = xorl (kdf Zs (length m)) m /\ c3 = sm3 (be_bytes 32 x2 ++ m ++ be_bytes 32 y2)) /\
  ((exists m', Decrypt cv c priv = Ok m') \/ Decrypt cv c priv = Err DecryptionErr).
Proof.
  intros T cv c priv m Hb Hl H97 H4 x1 y1 x2 y2 HM Hx Hy c3 c2 Zs.
  assert (E1 : firstn 32 (skipn 1 (firstn 65 c)) = firstn 32 (skipn 1 c)).
  { rewrite firstn_skipn_comm', firstn_firstn, (firstn_skipn_comm' 32 1 c). reflexivity. }
  assert (E2 : skipn 33 (firstn 65 c) = firstn 32 (skipn 33 c)).
  { now rewrite (firstn_skipn_comm' 32 33 c). }
  rewrite Decrypt_unfold by auto. rewrite E1, E2. fold x1 y1 c3 c2.
  assert (HC2 : bytes c2) by (apply bytes_skipn; exact Hb).
  assert (HL2 : zlen c2 < 2^57) by (unfold c2, zlen in *; rewrite skipn_length; lia).
  assert (HS : small (Pt x2 y2)) by (split; assumption).
  pose proof (dec_tail_ok_iff T cv priv x1 y1 (Pt x2 y2) c3 c2 (8 * zlen c2) m HM HS HC2 HL2 eq_refl) as HI.
  pose proof (dec_tail_err T cv priv x1 y1 (Pt x2 y2) c3 c2 (8 * zlen c2) HM HS HC2 HL2 eq_refl) as HO.
  split; [|tauto]. rewrite HI. unfold kdf_usable. rewrite length_zero_iff_nil. reflexivity.
Qed.
Print Assumptions C20_only_authenticated.
(** consequences: changing only the hash part is always detected; changing only C2 is detected unless SM3 collides *)
Theorem C20_tampering : forall T (cv : curve T) h c3 c3' c2 c2' priv m, bytes (h ++ c3 ++ c2) -> bytes (h ++ c3' ++ c2') -> zlen c2 < 2^56 -> zlen c2' < 2^56 ->
  length h = 65%nat -> nth 0 h 0 = 4 -> length c3 = 32%nat -> length c3' = 32%nat ->
  mult_range cv ->
  Decrypt cv (h ++ c3 ++ c2) priv = Ok m ->
  (c3' <> c3 -> Decrypt cv (h ++ c3' ++ c2) priv = Err DecryptionErr) /\
  (c2' <> c2 -> forall m', Decrypt cv (h ++ c3 ++ c2') priv = Ok m' ->
     exists a a', a <> a' /\ sm3 a = sm3 a').
Proof.
  intros T cv h c3 c3' c2 c2' priv m Hb Hb' Hl Hl' Hh H4 H3 H3' HR HD.
  set (x1 := be_val (firstn 32 (skipn 1 h))). set (y1 := be_val (firstn 32 (skipn 33 h))).
  destruct (cv_mult cv x1 y1 (Bytes (sD priv))) as [x2 y2] eqn:EM.
  apply bytes_app in Hb as [Hbh Hb].
  pose proof (HR x1 y1 (Bytes (sD priv)) (be_val_32 _ (bytes_skipn 1 _ Hbh)) (be_val_32 _ (bytes_skipn 33 _ Hbh)) (Bytes_bytes _)) as [Hx Hy]. rewrite EM in Hx, Hy. cbn [fst snd] in Hx, Hy.
  apply bytes_app in Hb as [Hb3 Hb2].
  apply bytes_app in Hb' as [_ Hb']. apply bytes_app in Hb' as [Hb3' Hb2'].
  assert (K : forall d3 d2 m0, bytes d3 -> bytes d2 -> length d3 = 32%nat -> zlen d2 < 2^56 ->
    (Decrypt cv (h ++ d3 ++ d2) priv = Ok m0 <-> kdf_usable (Pt x2 y2) (length d2) /\ d2 = c2_of (Pt x2 y2) m0 /\ d3 = c3_of (Pt x2 y2) m0) /\
    ((exists m0, Decrypt cv (h ++ d3 ++ d2) priv = Ok m0) \/ Decrypt cv (h ++ d3 ++ d2) priv = Err DecryptionErr)).
  { intros d3 d2 m0 B3 B2 L3 L2.
    rewrite Decrypt_unfold by (rewrite ?app_length; lia || (destruct h; [discriminate Hh|exact H4])).
    rewrite (firstn_app_l 65 h) by exact Hh. rewrite (skipn_app_l 65 h) by exact Hh.
    rewrite (firstn_app_l 32 d3) by exact L3.
    replace (skipn 97 (h ++ d3 ++ d2)) with d2.
    2:{ rewrite app_assoc. symmetry. apply skipn_app_l. rewrite app_length. lia. }
    replace (skipn 33 h) with (firstn 32 (skipn 33 h)).
    2:{ apply firstn_all2. rewrite skipn_length. lia. }
    fold x1 y1. split.
    - apply (dec_tail_ok_iff T cv priv x1 y1 (Pt x2 y2)); auto; [split; assumption|lia].
    - apply (dec_tail_err T cv priv x1 y1 (Pt x2 y2)); auto; [split; assumption|lia]. }
  destruct (K c3 c2 m Hb3 Hb2 H3 Hl) as [K1 _]. apply K1 in HD as (HU & E2 & E3). split.
  - intros N3. destruct (K c3' c2 m Hb3' Hb2 H3' Hl) as [_ [[m0 HO]|HO]]; [|exact HO].
    apply (K c3' c2 m0 Hb3' Hb2 H3' Hl) in HO as (_ & F2 & F3). exfalso. apply N3. rewrite F3, E3.
    rewrite <- (c2_c2 (Pt x2 y2) m), <- E2, F2, c2_c2. reflexivity.
  - intros N2 m' HO. apply (K c3 c2' m' Hb3 Hb2' H3 Hl') in HO as (_ & F2 & F3).
    exists (be_bytes 32 x2 ++ m ++ be_bytes 32 y2), (be_bytes 32 x2 ++ m' ++ be_bytes 32 y2). split.
    + intros E. apply app_inv_head in E. apply app_inv_tail in E. apply N2. rewrite F2, E2. now rewrite E.
    + unfold c3_of in E3, F3. cbn [aff fst snd] in E3, F3. now rewrite <- E3, <- F3.
Qed.
Print Assumptions C20_tampering.

(** C21 is false: with D = 351 and nonce 1 the one-byte key stream is zero, and Encrypt never returns because
    "goto regen" reuses the same nonce. *)
Definition chain351 : list step :=
 [Ds 0xd6a6796a27dc312621ee1d7807d53f6f50deb90e13e36666ba6451403bb1c3b0;
  Ds 0x17e021789ef1ed9ec506f9ba33bba229384f476f5c75b6707bb4d0c32e74636b;
  As 0x8624294042f0f1d4baf8b1dac311e5659c69c6fb4c925774d08a4b9ddf68ad63;
  Ds 0x062968644a8ad34813204540309158edcfde37a2a09baa917e9d8a75db2a4a9f;
  As 0x604433815c7b83b461b1824e7384a9ec9466c3130411b7c7fa1a1e409200d688;
  Ds 0x41f1e44c8344b2e91158e0548f4e18a1f5ab1be0119b8ebfff38e34d0437ce43;
  Ds 0xde9487a238c4f6ee40e06a0057594c443d77ba361722c08b8d43982fa117559d;
  Ds 0x3fad3a8bd70a0772ffbf3323cf8d9fbfe0ad5df06a5db94588745590c9e96a59;
  Ds 0x09a127066da4062f2ddd2c65ad73fad5b1d945671b535cf165066e6107cf05b9;
  Ds 0x98020b4bc6543b4faa9ff2985b6e43150d78ce0b783f978a128392a2ebc2f4a2;
  Bs 0xa728aa1463acf45809b94f4466ce190e41cd2ec31fca3c1ec60fa6897e705947].
Definition x351 : Z := 0x316fe3dd6255801cc977e25de41e72c4bd74712f9d307a72e13305e1e4a8f4d0.
Definition y351 : Z := 0x6606511ca364d9502307c881aae55216c611693b2d686fe674e33038deecf15e.
Lemma chain351_eval : match cchain chain351 sm2_gx sm2_gy with Some (x, y) => (x =? x351) && (y =? y351) | None => false end = true.
Proof. vm_compute. reflexivity. Qed.
Lemma xy351_canon : canon (Pt x351 y351). Proof. vm_compute. repeat split; discriminate || reflexivity. Qed.
Lemma P351 : smul 351 pG = Pt x351 y351.
Proof.
  pose proof chain351_eval as H. destruct (cchain chain351 sm2_gx sm2_gy) as [[x y]|] eqn:E; [|discriminate].
  apply andb_true_iff in H as [H1 H2]. apply Z.eqb_eq in H1, H2. rewrite H1, H2 in E.
  apply (cchain_ok _ _ _ _ _ 1) in E; [|rewrite smul_1; reflexivity].
  change (fold_left (fun k s => sval s k) chain351 1) with 351 in E. symmetry.
  apply ptF_inj; [exact xy351_canon|apply on_curve_canon, on_smul, G_on|exact E].
Qed.
Lemma kdf351 : kdf (shared_bytes (Pt x351 y351)) 1 = zeros 1.
Proof. vm_compute. reflexivity. Qed.
#[local] Opaque x351 y351 kdf.
Theorem C21_encrypt_terminates_refuted : forall T (cv : curve T), good_curve cv ->
  exists b d pub msg, bytes b /\ length b = 40%nat /\ 1 <= d <= n - 2 /\ (pX pub, pY pub) = aff (smul d pG) /\ bytes msg /\
    forall fuel, Encrypt cv fuel (Some b) pub msg = None /\ EncryptAsn1 cv fuel (Some b) pub msg = None.
Proof.
  intros T cv GC. assert (Hn : 400 < n) by reflexivity.
  destruct (k_reachable 1 ltac:(lia)) as (b & H1 & H2 & H3).
  exists b, 351, (mkPub x351 y351 None), [65]. split; [exact H1|]. split; [exact H2|]. split; [lia|].
  split; [rewrite P351; reflexivity|]. split; [apply bytesb_spec; reflexivity|]. intros fuel.
  refine (proj2 (C19_encrypt_result T cv (mkPub x351 y351 None) (smul 351 pG) b [65] fuel (on_smul _ _ G_on) _ _ _ _) _).
  - rewrite H3. apply good_base; [exact GC|lia].
  - rewrite H3. apply good_pre; [exact GC|apply on_smul, G_on|rewrite P351; reflexivity|now left|lia].
  - apply bytesb_spec; reflexivity.
  - reflexivity.
  - cbn zeta. rewrite H3, smul_1, P351. unfold kdf_usable. cbn [length]. rewrite kdf351. intros [E|E]; [discriminate|now apply E].
Qed.
Print Assumptions C21_encrypt_terminates_refuted.
(** it returns exactly when the key stream is usable, always in one pass, and never with an error *)
Theorem C21_termination_condition_partial : forall T (cv : curve T) pub P b msg, good_curve cv -> on_curve P -> (pX pub, pY pub) = aff P ->
  tab_ok cv pub -> bytes msg -> zlen msg < 2^57 ->
  ((exists fuel r, Encrypt cv fuel (Some b) pub msg = Some r) <-> kdf_usable (smul (k_of_bytes b) P) (length msg)) /\
  (forall fuel r, Encrypt cv fuel (Some b) pub msg = Some r -> r = Ok (sm2_cipher P (k_of_bytes b) msg)) /\
  (msg = [] -> exists c, Encrypt cv 1 (Some b) pub msg = Some (Ok c)).
Proof.
  intros T cv pub P b msg GC HP E HT Hm Hl. pose proof (k_range b).
  assert (HB : base_ok cv (k_of_bytes b)) by (apply good_base; auto; lia).
  assert (HR : pre_ok cv pub P (k_of_bytes b)) by (apply good_pre; auto; lia).
  pose proof (fun f => C19_encrypt_result T cv pub P b msg f HP HB HR Hm Hl) as K. cbn zeta in K.
  assert (DU : {kdf_usable (smul (k_of_bytes b) P) (length msg)} + {~ kdf_usable (smul (k_of_bytes b) P) (length msg)}).
  { destruct (usableb (smul (k_of_bytes b) P) (length msg)) eqn:EU; [left|right]; rewrite <- usableb_spec, EU; congruence. }
  split; [split|split].
  - intros (f & r & HE). destruct DU as [HU|HU]; [exact HU|]. destruct (K f) as [_ K2]. destruct (K2 HU) as [K3 _]. congruence.
  - intros HU. destruct (K 0%nat) as [K1 _]. destruct (K1 HU) as [K3 _]. eauto.
  - intros f r HE. destruct DU as [HU|HU].
    + destruct f as [|f]; [discriminate HE|]. destruct (K f) as [K1 _]. destruct (K1 HU) as [K3 _]. congruence.
    + destruct (K f) as [_ K2]. destruct (K2 HU) as [K3 _]. congruence.
  - intros ->. destruct (K 0%nat) as [K1 _]. destruct (K1 (or_introl eq_refl)) as [K3 _]. eauto.
Qed.

(** C22 is false: short ciphertexts and wrong leading bytes crash, and C1 off the curve is used without a check. *)
Theorem C22_malformed_refuted : forall T (cv : curve T) priv c, bytes c -> zlen c < 2^57 ->
  mult_range cv ->
  (Decrypt cv c priv = Panic <-> (length c < 97)%nat \/ nth 0 c 0 <> 4).
Proof.
  intros T cv priv c Hb Hl HR.
  destruct (Nat.lt_ge_cases (length c) 97) as [H97|H97].
  - split; [auto|]. intros _. unfold Decrypt. destruct (length c <? 65)%nat eqn:E65; [reflexivity|].
    destruct (pointFromBytes (firstn 65 c)) as [[x y]|]; [|reflexivity]. now replace (length c <? 97)%nat with true by lia.
  - destruct (Z.eq_dec (nth 0 c 0) 4) as [H4|H4].
    + split; [|lia]. intros E. exfalso.
      set (x1 := be_val (firstn 32 (skipn 1 c))) in *. set (y1 := be_val (firstn 32 (skipn 33 c))) in *.
      pose proof (HR x1 y1 (Bytes (sD priv)) (be_val_32 _ (bytes_skipn 1 _ Hb)) (be_val_32 _ (bytes_skipn 33 _ Hb)) (Bytes_bytes _)) as [Hx Hy].
      destruct (C20_only_authenticated T cv c priv [] Hb Hl H97 H4 _ _ (surjective_pairing _) Hx Hy) as [_ K].
      destruct K as [[m K]|K]; rewrite E in K; discriminate.
    + split; [auto|]. intros _. unfold Decrypt. destruct (length c <? 65)%nat; [reflexivity|].
      rewrite pointFromBytes_none; [reflexivity|rewrite firstn_length; lia|]. destruct c; [cbn in H97; lia|exact H4].
Qed.
Print Assumptions C22_malformed_refuted.
Theorem C22_off_curve_accepted_refuted : forall T (cv : curve T) priv x1 y1 m, 0 <= x1 < 2^256 -> 0 <= y1 < 2^256 ->
  mult_range cv ->
  bytes m -> zlen m < 2^56 ->
  let '(x2, y2) := cv_mult cv x1 y1 (Bytes (sD priv)) in
  kdf_usable (Pt x2 y2) (length m) ->
  Decrypt cv ([4] ++ be_bytes 32 x1 ++ be_bytes 32 y1 ++ c3_of (Pt x2 y2) m ++ c2_of (Pt x2 y2) m) priv = Ok m.
Proof.
  intros T cv priv x1 y1 m Hx1 Hy1 HR Hm Hl. destruct (cv_mult cv x1 y1 (Bytes (sD priv))) as [x2 y2] eqn:EM. intros HU.
  pose proof (HR x1 y1 (Bytes (sD priv)) Hx1 Hy1 (Bytes_bytes _)) as [Hx Hy]. rewrite EM in Hx, Hy. cbn [fst snd] in Hx, Hy.
  destruct (c3_length (Pt x2 y2) m Hm ltac:(lia)) as [L3 B3].
  set (c3 := c3_of (Pt x2 y2) m) in *. set (c2 := c2_of (Pt x2 y2) m) in *.
  set (h := [4] ++ be_bytes 32 x1 ++ be_bytes 32 y1).
  replace ([4] ++ be_bytes 32 x1 ++ be_bytes 32 y1 ++ c3 ++ c2) with (h ++ c3 ++ c2) by (unfold h; now rewrite <- !app_assoc).
  assert (Hh : length h = 65%nat) by (unfold h; rewrite !app_length, !be_bytes_length; reflexivity).
  assert (Lc : length c2 = length m) by apply c2_length.
  rewrite Decrypt_unfold; [|rewrite !app_length; lia|reflexivity].
  rewrite (firstn_app_l 65 h) by exact Hh. rewrite (skipn_app_l 65 h) by exact Hh. rewrite (firstn_app_l 32 c3) by exact L3.
  replace (skipn 97 (h ++ c3 ++ c2)) with c2.
  2:{ rewrite app_assoc. symmetry. apply skipn_app_l. rewrite app_length. lia. }
  pose proof (pointFromTo _ _ Hx1 Hy1) as PF. rewrite (pointToBytes_eq _ _ Hx1 Hy1) in PF. fold h in PF.
  rewrite pointFromBytes_some in PF by (exact Hh || reflexivity).
  assert (E1 : forall (a b c d : Z), Some (a, b) = Some (c, d) -> a = c /\ b = d) by (intros * [= -> ->]; auto).
  apply E1 in PF as [-> ->].
  apply (dec_tail_ok_iff T cv priv x1 y1 (Pt x2 y2)); auto.
  - split; assumption.
  - apply c2_bytes; exact Hm.
  - unfold zlen in *. lia.
  - rewrite Lc. auto.
Qed.
Print Assumptions C22_off_curve_accepted_refuted.
(** (1,1) is off the curve, so for every key a ciphertext with C1 = (1,1) is accepted *)
Lemma off_curve_11 : ~ on_curve (Pt 1 1).
Proof. intros (_ & _ & H). revert H. vm_compute. discriminate. Qed.
Theorem C22_off_curve_example_refuted : forall T (cv : curve T) priv,
  mult_range cv ->
  ~ on_curve (Pt 1 1) /\ exists c, firstn 65 c = [4] ++ be_bytes 32 1 ++ be_bytes 32 1 /\ Decrypt cv c priv = Ok [].
Proof.
  intros T cv priv HR. split; [exact off_curve_11|].
  pose proof (C22_off_curve_accepted_refuted T cv priv 1 1 [] ltac:(split; reflexivity || discriminate) ltac:(split; reflexivity || discriminate) HR ltac:(constructor) ltac:(reflexivity)) as K.
  destruct (cv_mult cv 1 1 (Bytes (sD priv))) as [x2 y2]. eexists. split; [|apply K; now left].
  rewrite app_assoc, (app_assoc (_ ++ _)). apply firstn_app_l. rewrite !app_length, !be_bytes_length. reflexivity.
Qed.
(** what holds: every ciphertext of length >= 97 with leading byte 4 gives a plaintext or an error *)
Theorem C22_no_crash_partial : forall T (cv : curve T) priv c, bytes c -> zlen c < 2^57 -> (97 <= length c)%nat -> nth 0 c 0 = 4 ->
  mult_range cv ->
  (exists m, Decrypt cv c priv = Ok m) \/ Decrypt cv c priv = Err DecryptionErr.
Proof.
  intros T cv priv c Hb Hl H97 H4 HR. pose proof (HR _ _ (Bytes (sD priv)) (be_val_32 _ (bytes_skipn 1 _ Hb)) (be_val_32 _ (bytes_skipn 33 _ Hb)) (Bytes_bytes _)) as [Hx Hy].
  exact (proj2 (C20_only_authenticated T cv c priv [] Hb Hl H97 H4 _ _ (surjective_pairing _) Hx Hy)).
Qed.
(** the hypotheses of C20 and C22 are met by the arm64 curve *)
Theorem C22_hyps : let c := 4 :: zeros 100 in mult_range cv_std /\ bytes c /\ zlen c < 2^57 /\ (97 <= length c)%nat.
Proof. cbv zeta. split; [exact cv_std_mult_range|]. split; [apply bytes_cons; split; [split; reflexivity || discriminate|apply bytes_zeros]|]. split; [reflexivity|]. cbn [length]. unfold zeros. rewrite repeat_length. lia. Qed.

(** C23 *)
Theorem C23_point_round_trip : forall x y, 0 <= x < 2^256 -> 0 <= y < 2^256 ->
  pointFromBytes (pointToBytes x y) = Some (x, y) /\ length (pointToBytes x y) = 65%nat /\
  pointToBytes x y = [4] ++ be_bytes 32 x ++ be_bytes 32 y.
Proof. intros x y Hx Hy. split; [now apply pointFromTo|]. split; [now apply pointToBytes_length|now apply pointToBytes_eq]. Qed.
Theorem C23_decode_encode : forall b x y, bytes b -> pointFromBytes b = Some (x, y) -> pointToBytes x y = b /\ 0 <= x < 2^256 /\ 0 <= y < 2^256.
Proof.
  intros b x y Hb. unfold pointFromBytes. destruct (negb (length b =? 65)%nat || negb (nth 0 b 0 =? 4)) eqn:E; [discriminate|].
  assert (H1 : length b = 65%nat) by lia. assert (H2 : nth 0 b 0 = 4) by lia.
  destruct b as [|b0 b]; [discriminate|]. cbn [nth] in H2. subst b0. cbn [length] in H1. apply bytes_cons in Hb as [_ Hb].
  change (skipn 1 (4 :: b)) with b. change (skipn 33 (4 :: b)) with (skipn 32 b).
  assert (E1 : forall (a b c d : Z), Some (a, b) = Some (c, d) -> a = c /\ b = d) by (intros * [= -> ->]; auto).
  intros E2. apply E1 in E2 as [<- <-]. clear E1.
  assert (L1 : length (firstn 32 b) = 32%nat) by (rewrite firstn_length; lia).
  assert (L2 : length (skipn 32 b) = 32%nat) by (rewrite skipn_length; lia).
  pose proof (be_val_bound _ (bytes_firstn 32 _ Hb)) as R1. pose proof (be_val_bound _ (bytes_skipn 32 _ Hb)) as R2.
  unfold zlen in R1, R2. rewrite L1 in R1. rewrite L2 in R2. change (256 ^ Z.of_nat 32) with (2^256) in R1, R2.
  split; [|split; [exact R1|exact R2]]. rewrite pointToBytes_eq by assumption.
  pose proof (be_bytes_be_val _ (bytes_firstn 32 _ Hb)) as Q1. pose proof (be_bytes_be_val _ (bytes_skipn 32 _ Hb)) as Q2.
  rewrite L1 in Q1. rewrite L2 in Q2. rewrite Q1, Q2, firstn_skipn. reflexivity.
Qed.
Print Assumptions C23_point_round_trip.

(** C24 *)
Theorem C24_kdf : forall Zs, bytes Zs -> zlen Zs < 2^60 ->
  (forall k, keyDerivation Zs (8 * Z.of_nat k) =
     Ok (Some (firstn k (concat (map (fun i => sm3 (Zs ++ be_bytes 4 (Z.of_nat i))) (seq 1 ((k + 31) / 32))))))) /\
  (forall L, keyDerivation Zs L = Ok None <-> L mod 8 <> 0) /\
  (forall k j K K', (k <= j)%nat -> keyDerivation Zs (8 * Z.of_nat k) = Ok (Some K) -> keyDerivation Zs (8 * Z.of_nat j) = Ok (Some K') ->
     K = firstn k K' /\ length K = k).
Proof.
  Transparent kdf.
  intros Zs Hb Hl. split; [|split].
  - intros k. exact (keyDerivation_spec Zs k Hb Hl).
  - intros L. destruct (Z.eq_dec (L mod 8) 0) as [E|E].
    + split; [|tauto]. destruct (Z.lt_ge_cases L 0) as [HL|HL].
      * unfold keyDerivation. rewrite E. replace (L <? 0) with true by lia. discriminate.
      * replace L with (8 * Z.of_nat (Z.to_nat (L / 8))) by lia. rewrite keyDerivation_spec by auto. discriminate.
    + split; [auto|]. intros _. unfold keyDerivation. apply Z.eqb_neq in E. now rewrite E.
  - intros k j K K' Hkj. rewrite !keyDerivation_spec by auto. intros [= <-] [= <-].
    split; [apply kdf_prefix; auto|apply kdf_length; auto].
Qed.
Print Assumptions C24_kdf.

(** C25 *)
Theorem C25_identity_hash : forall T (pub : pubkey T) id, bytes id -> zlen id < 8192 -> 0 <= pX pub < 2^256 -> 0 <= pY pub < 2^256 ->
  exists entl, length entl = 2%nat /\ be_val entl = 8 * zlen id /\
  getZById pub id = Ok (sm3 (entl ++ id ++ be_bytes 32 sm2_a ++ be_bytes 32 sm2_b ++ be_bytes 32 sm2_gx ++ be_bytes 32 sm2_gy ++
                             be_bytes 32 (pX pub) ++ be_bytes 32 (pY pub))).
Proof.
  intros T pub id Hb Hl Hx Hy. exists (be_bytes 2 (8 * zlen id)). split; [apply be_bytes_length|]. split.
  - apply be_val_be_bytes_small. pose proof (zlen_nonneg id). change (256 ^ Z.of_nat 2) with 65536. lia.
  - apply getZById_spec; auto. lia.
Qed.
Print Assumptions C25_identity_hash.
Theorem C25_getZ_default_id : forall T (pub : pubkey T), getZ pub = getZById pub default_id.
Proof. reflexivity. Qed.
(** ids of 8192 bytes or more: the length field wraps, so ids whose lengths agree mod 8192 share it *)
Theorem C25_long_id_wraps : forall T (pub : pubkey T) id, bytes id -> zlen id < 2^60 -> 0 <= pX pub < 2^256 -> 0 <= pY pub < 2^256 ->
  exists entl, length entl = 2%nat /\ be_val entl = 8 * (zlen id mod 8192) /\
  getZById pub id = Ok (sm3 (entl ++ id ++ be_bytes 32 sm2_a ++ be_bytes 32 sm2_b ++ be_bytes 32 sm2_gx ++ be_bytes 32 sm2_gy ++
                             be_bytes 32 (pX pub) ++ be_bytes 32 (pY pub))).
Proof.
  intros T pub id Hb Hl Hx Hy. exists (be_bytes 2 (8 * zlen id)). split; [apply be_bytes_length|]. split.
  - rewrite be_val_be_bytes. change (256 ^ Z.of_nat 2) with 65536. pose proof (zlen_nonneg id). lia.
  - now apply getZById_spec.
Qed.

(** C26: DER wrappers *)
Theorem C26_der_signature : forall T (cv : curve T) priv draw msg r s, Sign cv draw priv msg = Ok (r, s) ->
  exists sig, PrivSign cv draw priv msg = Ok sig /\
    (forall pub rest, PubVerify cv pub msg (sig ++ rest) = Verify cv pub msg r s).
Proof.
  intros T cv priv draw msg r s HS. exists (der_seq [der_int r; der_int s]). unfold PrivSign. rewrite HS. split; [reflexivity|].
  intros pub rest. assert (Hrs : 0 <= r < 2^256 /\ 0 <= s < 2^256).
  { unfold Sign in HS. destruct (hash_msg (sPub priv) msg) as [e| |]; try discriminate. cbn [rbind] in HS.
    destruct (generateRandK draw) as [k|]; [|discriminate]. destruct (cv_base cv (Bytes k)) as [x y].
    injection HS as <- <-. pose proof n_lt256. pose proof (mod_n_range (e + x)).
    pose proof (mod_n_range ((k - (e + x) mod n * sD priv) * s2_of priv)). lia. }
  unfold PubVerify. rewrite der_ints2_roundtrip by tauto. reflexivity.
Qed.
Print Assumptions C26_der_signature.
(** Sm2KeyGen / Sm2Sign / Sm2Verify *)
Theorem C26_string_api : forall T (cv : curve T) b b' msg, good_curve cv -> bytes msg -> zlen msg < 2^60 -> k_of_bytes b <> n - 1 ->
  exists sk pk sig r s, Sm2KeyGen cv (Some b) = Ok (sk, pk) /\ Sm2Sign cv (Some b') sk pk msg = Ok sig /\
    parse_ints2 sig = Ok (r, s) /\ 0 <= r < n /\ 0 <= s < n /\
    (Sm2Verify cv sig pk msg = Ok true <-> r <> 0 /\ s <> 0).
Proof.
  intros T cv b b' msg GC Hm Hl Hk. pose proof (k_range b) as Hkr. pose proof n_lt256.
  destruct (C12_keygen T cv b ltac:(apply good_base; auto; lia)) as (priv & HG & HD & HP & HO).
  assert (HDk : sD priv = k_of_bytes b).
  { unfold GenerateKey in HG. cbn [randFieldElement rbind] in HG. destruct (cv_base cv (Bytes (k_of_bytes b))). injection HG as <-. reflexivity. }
  destruct (on_small _ HO) as [Hx Hy]. cbn [aff fst snd] in Hx, Hy.
  set (X := pX (sPub priv)) in *. set (Y := pY (sPub priv)) in *.
  set (priv' := mkPriv (mkPub (T := T) X Y None) (sD priv) None).
  assert (HK : key_ok priv').
  { unfold key_ok, priv'. cbn [sD sPub pX pY sDInv]. split; [lia|]. split; [|exact I]. rewrite <- HP. reflexivity. }
  destruct (C13_sign_verify_good T cv priv' b' msg GC HK ltac:(now left) Hm Hl) as (r & s & HS & Hr & Hs & HV & _).
  exists (der_seq [der_int (sD priv)]), (der_seq [der_int X; der_int Y]), (der_seq [der_int r; der_int s]), r, s.
  assert (R1 : forall a, 0 <= a < 2^256 -> parse_ints1 (der_seq [der_int a]) = Ok a).
  { intros a Ha. rewrite <- (app_nil_r (der_seq _)). now apply der_ints1_roundtrip. }
  assert (R2 : forall a c, 0 <= a < 2^256 -> 0 <= c < 2^256 -> parse_ints2 (der_seq [der_int a; der_int c]) = Ok (a, c)).
  { intros a c Ha Hc. rewrite <- (app_nil_r (der_seq _)). now apply der_ints2_roundtrip. }
  split; [unfold Sm2KeyGen; now rewrite HG|].
  split; [unfold Sm2Sign; rewrite (R1 (sD priv)) by lia; cbn [rbind]; rewrite R2 by auto; cbn [rbind]; fold priv'; rewrite HS; reflexivity|].
  split; [apply R2; lia|]. split; [exact Hr|]. split; [exact Hs|].
  unfold Sm2Verify. rewrite (R2 r s) by lia. rewrite (R2 X Y) by auto. unfold PubVerify. rewrite (R2 r s) by lia. exact HV.
Qed.
Print Assumptions C26_string_api.
(** only DER-encoded pairs of integers that Verify accepts are accepted *)
Theorem C26_accepts_only_der : forall T (cv : curve T) pub msg sig, PubVerify cv pub msg sig = Ok true <->
  exists r s, parse_ints2 sig = Ok (r, s) /\ Verify cv pub msg r s = Ok true.
Proof.
  intros T cv pub msg sig. unfold PubVerify. destruct (parse_ints2 sig) as [[r s]|e|].
  - split; [intros H; exists r, s; auto|intros (r' & s' & E & H)]. injection E as -> ->. exact H.
  - split; [discriminate|intros (r' & s' & E & _); discriminate].
  - split; [discriminate|intros (r' & s' & E & _); discriminate].
Qed.
Theorem C26_string_accepts_only : forall T (cv : curve T) sig pk msg, Sm2Verify cv sig pk msg = Ok true <->
  exists r s x y, parse_ints2 sig = Ok (r, s) /\ parse_ints2 pk = Ok (x, y) /\ Verify cv (mkPub x y None) msg r s = Ok true.
Proof.
  intros T cv sig pk msg. unfold Sm2Verify, PubVerify. destruct (parse_ints2 sig) as [[r s]|e|]; [destruct (parse_ints2 pk) as [[x y]|e|]|..];
    (split; [try discriminate; intros H; exists r, s, x, y; auto|intros (r' & s' & x' & y' & E1 & E2 & H); try discriminate]).
  injection E1 as -> ->. injection E2 as -> ->. exact H.
Qed.
Print Assumptions C26_accepts_only_der. Print Assumptions C26_string_accepts_only.

(** C27 *)
Theorem C27_asn1_round_trip : forall T (cv : curve T) priv D b msg fuel c,
  sD priv = D -> 1 <= D <= n - 1 -> (pX (sPub priv), pY (sPub priv)) = aff (smul D pG) ->
  let k := k_of_bytes b in
  base_ok cv k -> pre_ok cv (sPub priv) (smul D pG) k -> mult_ok cv (smul k pG) D ->
  bytes msg -> zlen msg < 2^30 ->
  EncryptAsn1 cv fuel (Some b) (sPub priv) msg = Some (Ok c) ->
  DecryptAsn1 cv priv c = Ok msg /\ forall rest, DecryptAsn1 cv priv (c ++ rest) = Ok msg.
Proof.
  intros T cv priv D b msg fuel c HD HDr Hpub k HB HR HM Hm Hl HE.
  assert (HP := on_smul D pG G_on). set (P := smul D pG) in *.
  destruct (C19_encrypt_result T cv (sPub priv) P b msg (fuel - 1) HP HB HR Hm ltac:(lia)) as [H1 _].
  destruct (C19_encrypt_result T cv (sPub priv) P b msg fuel HP HB HR Hm ltac:(lia)) as [_ H2].
  cbn zeta in H1, H2. fold k in H1, H2.
  destruct (usableb (smul k P) (length msg)) eqn:EU.
  2:{ rewrite <- usableb_spec, EU in H2. destruct (H2 ltac:(discriminate)) as [_ H3]. rewrite HE in H3. discriminate. }
  destruct fuel as [|fuel]; [discriminate HE|]. cbn [Nat.sub] in H1. rewrite Nat.sub_0_r in H1.
  apply usableb_spec in EU. destruct (H1 EU) as [_ H3]. rewrite HE in H3.
  assert (Ec : forall (a b : list Z), Some (Ok a) = Some (Ok b) -> a = b) by (intros * [= ->]; auto).
  apply Ec in H3. subst c. clear H1 H2 HE.
  pose proof (on_small _ (on_smul k pG G_on)) as [Hx Hy].
  assert (ES : smul D (smul k pG) = smul k P).
  { unfold P. rewrite <- !smul_mul by exact G_on. f_equal. ring. }
  unfold mult_ok in HM. rewrite ES in HM.
  destruct (c3_length (smul k P) msg Hm ltac:(lia)) as [L3 B3].
  assert (K : forall rest, DecryptAsn1 cv priv (der_seq [der_int (fst (aff (smul k pG))); der_int (snd (aff (smul k pG)));
                          der_octets (c3_of (smul k P) msg); der_octets (c2_of (smul k P) msg)] ++ rest) = Ok msg).
  { intros rest. unfold DecryptAsn1. rewrite der_cipher_roundtrip; auto; [|unfold zlen; rewrite L3; reflexivity|unfold zlen in *; rewrite c2_length; lia].
    cbn [rbind]. apply (dec_tail_ok_iff T cv priv _ _ (smul k P)); auto.
    - now rewrite HD.
    - apply on_small, on_smul, HP.
    - now apply c2_bytes.
    - unfold zlen in *. rewrite c2_length. lia.
    - lia.
    - rewrite c2_length. auto. }
  split; [|exact K]. rewrite <- (K []), app_nil_r. reflexivity.
Qed.
Print Assumptions C27_asn1_round_trip.

(** C28 *)
Theorem C28_curve_is_cyclic_group_of_prime_order :
  prime sm2_p /\ prime n /\ (4 * (sm2_a * sm2_a * sm2_a) + 27 * (sm2_b * sm2_b)) mod sm2_p <> 0 /\
  on_curve pG /\ pG <> Oinf /\ smul n pG = Oinf /\
  (forall P Q, on_curve P -> on_curve Q -> on_curve (padd P Q) /\ padd P Q = padd Q P) /\
  (forall P Q R, on_curve P -> on_curve Q -> on_curve R -> padd (padd P Q) R = padd P (padd Q R)) /\
  (forall P, on_curve P -> on_curve (pneg P) /\ padd P (pneg P) = Oinf /\ padd P Oinf = P) /\
  (forall P, on_curve P -> exists k, 0 <= k < n /\ P = smul k pG) /\
  (forall j k, smul j pG = smul k pG <-> (j - k) mod n = 0).
Proof.
  split; [exact sm2_p_prime|]. split; [exact sm2_n_prime|]. split; [exact disc_val|]. split; [exact G_on|]. split; [discriminate|].
  split; [exact nG|]. split; [intros P Q HP HQ; split; [now apply on_padd|now apply padd_comm]|].
  split; [exact padd_assoc|]. split; [intros P HP; split; [now apply on_pneg|split; [now apply padd_neg|apply padd_Oinf_r]]|].
  split; [exact curve_cyclic|exact kG_inj].
Qed.
Print Assumptions C28_curve_is_cyclic_group_of_prime_order.

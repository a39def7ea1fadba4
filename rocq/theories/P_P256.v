(** Property theorems for the amd64 curve arithmetic (C29-C31). *)
From Coq Require Import Field ZArith Lia Znumtheory List Bool.
From Verif Require Import NT Prime_cert Fp EC_group SM2_curve_spec SM2_group Jacobian SM2_jac SM2_order.
From Verif Require Import GoBase GoLemmas P256_field_model P256_model P256_rel P256_abs P256_recode P256_ideal P256_group P256_flag.
Import ListNotations.
Local Open Scope Z_scope.
Local Notation p := sm2_p.
Local Notation n := sm2_n.
Local Notation F := (Fp p).
Local Notation mk := (mkf p p_gt3).
Local Notation f0 := (F0 p p_gt3). Local Notation f1 := (F1 p p_gt3).
#[local] Opaque sm2_p sm2_n sm2_a sm2_b sm2_gx sm2_gy wN wP smul nmul padd.

Lemma getScalarZ_ok s : bytes s -> getScalarZ s = be_val s mod n /\ 0 <= getScalarZ s < n.
Proof.
  intros Hs. pose proof (be_val_bound s Hs). pose proof n_bounds. unfold getScalarZ. rewrite wN_n. destruct (Z.ltb_spec (be_val s) n) as [H1|H1].
  - rewrite (Z.mod_small _ n) by lia. lia.
  - split; [reflexivity|apply Z.mod_pos_bound; lia].
Qed.
Lemma smul_mod P k : on_curve P -> P <> Oinf -> smul (k mod n) P = smul k P.
Proof.
  intros HP NP. apply kP_eq; [exact HP|exact NP|]. pose proof n_bounds. exists (- (k / n)). pose proof (Z.div_mod k n ltac:(lia)). lia.
Qed.
Lemma coords_ne x y : on_curve (Pt x y) -> (x, y) <> (0, 0).
Proof.
  intros (_ & _ & E) H. assert (x = 0) by congruence. assert (y = 0) by congruence. subst x y. Transparent sm2_p sm2_b sm2_a. vm_compute in E. discriminate E.
Qed.
#[local] Opaque sm2_p sm2_b sm2_a.
Lemma in_repr x y : on_curve (Pt x y) -> repr (o_to I (maybeReduceModP x), o_to I (maybeReduceModP y), o_one I) (Pt x y).
Proof.
  intros (Hx & Hy & _). unfold maybeReduceModP. rewrite wP_p. destruct (Z.ltb_spec x p); [|lia]. destruct (Z.ltb_spec y p); [|lia].
  change (o_to I x) with (mk x). change (o_to I y) with (mk y). change (o_one I) with f1. cbn [repr]. rewrite (jtoaff_one F f0 f1 _ _ _ _ _ _ FT (F_dec p)). reflexivity.
Qed.
Lemma base_repr : repr (o_bx I, o_by I, o_one I) pG.
Proof.
  change (o_bx I) with (mk sm2_gx). change (o_by I) with (mk sm2_gy). change (o_one I) with f1. cbn [repr]. rewrite (jtoaff_one F f0 f1 _ _ _ _ _ _ FT (F_dec p)). reflexivity.
Qed.
Lemma G_ne : pG <> Oinf. Proof. discriminate. Qed.
Lemma premult_aff P base T s : on_curve P -> P <> Oinf -> repr base P -> T = mkTable I base -> bytes s ->
  p256PointToAffine I (p256PreMult I T (p256GetScalar s)) = aff_of (smul (be_val s) P).
Proof.
  intros HP NP HB -> Hs. destruct (getScalarZ_ok s Hs) as [E1 E2]. unfold p256GetScalar.
  pose proof (mkTable_ok P HP NP base HB) as HT.
  destruct (I_p256PreMult P HP NP (mkTable I base) (getScalarZ s) HT E2) as [[E0 E]|[N0 E]].
  - rewrite E, zero_affine. rewrite <- smul_mod by assumption. rewrite <- E1, E0. reflexivity.
  - rewrite (I_affine _ _ (on_smul _ _ HP) E). rewrite E1, (smul_mod _ _ HP NP). exact eq_refl.
Qed.

(** ** C29.  [exact_run r]: in this run of the method, every field operation the result depends on returned a word
    congruent to the exact result (P256_flag.v).  The field routines of the assembly do not always do so: they drop
    carries (see C29_ScalarMult_wrong_refuted and [sm2p256Mul]). *)
Theorem C29_ScalarMult_partial : forall x y s, on_curve (Pt x y) -> bytes s -> exact_run (ScalarMult Fl x y s) ->
  be_val s mod sm2_n <> sm2_n - 6 ->
  ScalarMult W x y s = aff_of (smul (be_val s) (Pt x y)).
Proof.
  intros x y s HP Hs HE Hk. rewrite (exact_ScalarMult x y s HE). destruct (getScalarZ_ok s Hs) as [E1 E2].
  assert (NP : Pt x y <> Oinf) by discriminate. unfold ScalarMult, p256GetScalar.
  pose proof (I_p256ScalarMult (Pt x y) HP NP _ (getScalarZ s) (in_repr x y HP) E2 ltac:(rewrite E1; exact Hk)) as HR.
  rewrite (I_affine _ _ (on_smul _ _ HP) HR). rewrite E1, (smul_mod _ _ HP NP). exact eq_refl.
Qed.
(** for the scalars congruent to n-6 the method returns (0,0), for every point, although (n-6)P is a finite point *)
Theorem C29_ScalarMult_exceptional_refuted : forall x y s, on_curve (Pt x y) -> bytes s -> exact_run (ScalarMult Fl x y s) ->
  be_val s mod sm2_n = sm2_n - 6 ->
  ScalarMult W x y s = (0, 0) /\ ScalarMult W x y s <> aff_of (smul (be_val s) (Pt x y)).
Proof.
  intros x y s HP Hs HE Hk. rewrite (exact_ScalarMult x y s HE). destruct (getScalarZ_ok s Hs) as [E1 E2].
  assert (NP : Pt x y <> Oinf) by discriminate. unfold ScalarMult, p256GetScalar. rewrite E1, Hk.
  pose proof (I_p256ScalarMult_exc (Pt x y) HP NP _ (in_repr x y HP)) as HR. rewrite (I_affine _ Oinf Logic.I HR).
  split; [reflexivity|]. rewrite <- (smul_mod _ (be_val s)) by assumption. rewrite Hk.
  pose proof (on_smul (n - 6) _ HP) as HO. destruct (smul (n - 6) (Pt x y)) as [|qx qy] eqn:EQ.
  - apply kP_O in EQ; [|assumption..]. exfalso. revert EQ. apply ndiv_small; pose proof n_bounds; lia.
  - cbn [aff_of]. intros E. exact (coords_ne qx qy HO (eq_sym E)).
Qed.
Theorem C29_ScalarBaseMult_partial : forall s, bytes s -> exact_run (ScalarBaseMult Fl s) ->
  ScalarBaseMult W s = aff_of (smul (be_val s) pG).
Proof.
  intros s Hs HE. rewrite (exact_ScalarBaseMult s HE). unfold ScalarBaseMult, p256BaseMult.
  exact (premult_aff pG _ (initTable I) s G_on G_ne base_repr eq_refl Hs).
Qed.

(** ** C30 *)
Theorem C30_PreScalarMult_partial : forall x y s, on_curve (Pt x y) -> bytes s ->
  exact_run (PreScalarMult Fl (InitPubKeyTable Fl x y) s) ->
  PreScalarMult W (InitPubKeyTable W x y) s = aff_of (smul (be_val s) (Pt x y)).
Proof.
  intros x y s HP Hs HE. rewrite (exact_PreScalarMult x y s HE). unfold PreScalarMult.
  exact (premult_aff (Pt x y) _ (InitPubKeyTable I x y) s HP ltac:(discriminate) (in_repr x y HP) eq_refl Hs).
Qed.
Theorem C30_CombinedMult_partial : forall x y s t, on_curve (Pt x y) -> bytes s -> bytes t ->
  exact_run (CombinedMult Fl (InitPubKeyTable Fl x y) s t) ->
  CombinedMult W (InitPubKeyTable W x y) s t = aff_of (padd (smul (be_val s) pG) (smul (be_val t) (Pt x y))).
Proof.
  intros x y s t HP Hs Ht HE. rewrite (exact_CombinedMult x y s t HE). unfold CombinedMult. cbv zeta. unfold p256BaseMult.
  assert (NP : Pt x y <> Oinf) by discriminate.
  destruct (getScalarZ_ok s Hs) as [S1 S2]. destruct (getScalarZ_ok t Ht) as [T1 T2]. unfold p256GetScalar.
  pose proof n_bounds as [Nb _]. rewrite !scalarIsZero_ok by lia.
  assert (ES : smul (be_val s) pG = smul (getScalarZ s) pG) by (rewrite S1; symmetry; apply smul_mod; [exact G_on|exact G_ne]).
  assert (ET : smul (be_val t) (Pt x y) = smul (getScalarZ t) (Pt x y)) by (rewrite T1; symmetry; now apply smul_mod).
  rewrite ES, ET. clear ES ET S1 T1 HE. set (j := getScalarZ s) in *. set (k := getScalarZ t) in *. clearbody j k.
  pose proof (mkTable_ok pG G_on G_ne _ base_repr) as HT1. pose proof (mkTable_ok (Pt x y) HP NP _ (in_repr x y HP)) as HT2.
  pose proof (I_p256PreMult pG G_on G_ne _ j HT1 S2) as H1. pose proof (I_p256PreMult (Pt x y) HP NP _ k HT2 T2) as H2.
  fold (initTable I) in H1. fold (InitPubKeyTable I x y) in H2. clear HT1 HT2.
  set (r1 := p256PreMult I (initTable I) (fromBig j)) in *. set (r2 := p256PreMult I (InitPubKeyTable I x y) (fromBig k)) in *. clearbody r1 r2.
  assert (OG : on_curve (smul j pG)) by (apply on_smul, G_on). assert (OP : on_curve (smul k (Pt x y))) by (now apply on_smul).
  destruct (Z.eqb_spec j 0) as [Ej|Nj].
  - change (1 =? 1) with true. cbv iota.
    assert (E0 : smul j pG = Oinf) by (rewrite Ej; reflexivity). rewrite E0, (padd_Oinf_l (smul k (Pt x y))).
    destruct (pointAdd I r1 r2) as [sm e].
    destruct H2 as [[Ek ->]|[Nk R2]]; [rewrite zero_affine, Ek; reflexivity|]. exact (I_affine _ _ OP R2).
  - change (0 =? 1) with false. cbv iota. destruct H1 as [[E _]|[_ R1]]; [contradiction|].
    destruct (Z.eqb_spec k 0) as [Ek|Nk].
    + change (1 =? 1) with true. cbv iota. assert (E0 : smul k (Pt x y) = Oinf) by (rewrite Ek; reflexivity). rewrite E0, padd_Oinf_r.
      destruct (pointAdd I r1 r2) as [sm e]. exact (I_affine _ _ OG R1).
    + change (0 =? 1) with false. cbv iota. destruct H2 as [[E _]|[_ R2]]; [contradiction|].
      assert (NG : smul j pG <> Oinf) by (rewrite kP_O by (exact G_on || exact G_ne); apply ndiv_small; lia).
      assert (NQ : smul k (Pt x y) <> Oinf) by (rewrite kP_O by assumption; apply ndiv_small; lia).
      pose proof (I_add_flag r1 r2 _ _ OG OP R1 R2 NG NQ) as HF.
      pose proof (I_add r1 r2 _ _ OG OP R1 R2 NG NQ) as HA.
      pose proof (I_dbl r1 _ OG R1) as HD.
      destruct (pointAdd I r1 r2) as [[[x3 y3] z3] e]. cbn [fst snd] in HF, HA.
      destruct (pointDouble I r1) as [[xd yd] zd]. unfold copyCond.
      change (o_csel I e) with (fun a b : F => if e then a else b). cbv beta.
      destruct e.
      * rewrite <- (proj1 HF eq_refl) at 1. exact (I_affine _ _ (on_padd _ _ OG OG) HD).
      * apply I_affine; [now apply on_padd|]. apply HA. intros E. apply HF in E. discriminate E.
Qed.

(** ** C31: inversion.  Over exact field arithmetic p256Inverse is the (p-2)-th power, which is the inverse; for words
    in Montgomery form (w = f * 2^256): if the run is exact the result is the Montgomery form of 1/f, and 0 for 0 *)
Theorem C31_inverse_words_partial : forall w, 0 <= w -> snd (p256Inverse Fl (w, true)) = true ->
  (w mod sm2_p <> 0 -> (p256Inverse W w * w) mod sm2_p = 2 ^ 512 mod sm2_p) /\
  (w mod sm2_p = 0 -> p256Inverse W w mod sm2_p = 0).
Proof.
  intros w Hw HE.
  set (u := 0xfffffffb00000005fffffffc00000002fffffffd00000006fffffff900000004).
  assert (Hu : (R256 * u) mod p = 1) by exact R_inv.
  assert (Hf : mk w = Fmul p p_gt3 (mk (w * u)) (mk R256)).
  { rewrite mkf_mul. apply mkf_eq. replace (w * u * R256) with (w * (R256 * u)) by ring. rewrite Zmult_mod, Hu, Z.mul_1_r. symmetry. apply Zmod_mod. }
  pose proof (exact_inverse w _ HE Hf) as E. rewrite mkf_inv, mkf_mul in E. apply mkf_inj in E.
  pose proof p_gt3 as P3. assert (P0 : p <> 0) by lia.
  assert (Du : ~ (p | u)). { intros D. rewrite (proj2 (Z.mod_divide _ p P0) (Z.divide_mul_r _ _ _ D)) in Hu. clear -Hu. discriminate Hu. }
  assert (ER : 2 ^ 512 = R256 * R256) by (unfold R256; rewrite <- Z.pow_add_r by lia; reflexivity).
  clearbody u. split.
  - intros N0. rewrite Zmult_mod, E, <- Zmult_mod, ER.
    assert (N : ~ (p | w * u)).
    { intros D. apply prime_mult in D; [|exact sm2_p_prime]. destruct D as [D|D]; [|exact (Du D)]. apply N0. now apply Z.mod_divide. }
    pose proof (zinv_mul p (w * u) sm2_p_prime ltac:(lia) N) as Z1. set (zi := zinv p (w * u)) in *. clearbody zi.
    (* zi * R * w = zi * (w u) * R * R * ... *)
    assert (Ew : w mod p = (w * u * R256) mod p).
    { replace (w * u * R256) with (w * (R256 * u)) by ring. rewrite (Zmult_mod w), Hu, Z.mul_1_r. symmetry. apply Zmod_mod. }
    rewrite (Zmult_mod (zi * R256) w), Ew, <- Zmult_mod.
    replace (zi * R256 * (w * u * R256)) with ((w * u * zi) * (R256 * R256)) by ring. rewrite (Zmult_mod (w * u * zi)), Z1, Z.mul_1_l. apply Zmod_mod.
  - intros E0. rewrite E. assert (D : (p | w * u)) by (apply Z.divide_mul_l; now apply Z.mod_divide).
    pose proof (zinv_0 p (w * u) ltac:(lia) D) as Z0. rewrite Zmult_mod, Z0, Z.mul_0_l. apply Zmod_0_l.
Qed.
Theorem C31_inverse_chain : forall f : Fp sm2_p,
  p256Inverse I f = mk (fval sm2_p f ^ (sm2_p - 2)) /\
  (f <> f0 -> Fmul sm2_p p_gt3 (p256Inverse I f) f = f1) /\ (f = f0 -> p256Inverse I f = f0).
Proof.
  intros f. split; [exact (I_inverse_pow f)|]. rewrite I_inverse. split.
  - intros Nf. exact (Field_theory.Finv_l FT f Nf).
  - intros ->. exact finv_0.
Qed.
Print Assumptions C29_ScalarMult_partial. Print Assumptions C29_ScalarMult_exceptional_refuted. Print Assumptions C29_ScalarBaseMult_partial.
Print Assumptions C30_PreScalarMult_partial. Print Assumptions C30_CombinedMult_partial. Print Assumptions C31_inverse_words_partial. Print Assumptions C31_inverse_chain.


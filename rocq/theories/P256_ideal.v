(** P256_model over exact field arithmetic: the instance [I] works with elements of GF(p) themselves.  Under it the
    window algorithms compute scalar multiples (with one exceptional scalar for p256ScalarMult). *)
From Coq Require Import ZArith Lia Znumtheory List Field Bool.
From Verif Require Import NT Prime_cert Fp EC_group SM2_curve_spec SM2_group Jacobian SM2_jac SM2_order.
From Verif Require Import GoBase P256_field_model P256_model P256_abs P256_recode.
Import ListNotations.
Local Open Scope Z_scope.
Local Notation p := sm2_p.
Local Notation n := sm2_n.
Local Notation F := (Fp p).
Local Notation mk := (mkf p p_gt3).
Local Notation f0 := (F0 p p_gt3). Local Notation f1 := (F1 p p_gt3).
Local Notation fadd := (Fadd p p_gt3). Local Notation fmul := (Fmul p p_gt3). Local Notation fsub := (Fsub p p_gt3).
Local Notation fopp := (Fopp p p_gt3). Local Notation fdiv := (Fdiv p p_gt3). Local Notation finv := (Finv p p_gt3).
Local Notation eadd := (add F f1 fadd fmul fsub fopp fdiv (F_dec p) fa).
Local Notation eon := (on F fadd fmul fa fb).
Local Notation jta := (jtoaff F f0 fmul fdiv (F_dec p)).

Definition I : fops F bool Z :=
  fieldops F f0 f1 fadd fmul fsub fopp fdiv (F_dec p) (mk sm2_gx) (mk sm2_gy) mk (fval p).

Definition repr (t : @pnt F) (P : pt) : Prop := let '(x, y, z) := t in jta x y z = ptF P.
(** the affine coordinates the exported methods return for a point *)
Definition aff_of (P : pt) : Z * Z := match P with Oinf => (0, 0) | Pt x y => (x, y) end.

(** ** Inversion *)
Definition fpw (x : F) (e : Z) : F := mk (fval p x ^ e).
Lemma fpw_add x a b : 0 <= a -> 0 <= b -> fmul (fpw x a) (fpw x b) = fpw x (a + b).
Proof. intros Ha Hb. unfold fpw. rewrite mkf_mul. now rewrite Z.pow_add_r. Qed.
Lemma fpw_sqr x a : 0 <= a -> fmul (fpw x a) (fpw x a) = fpw x (2 * a).
Proof. intros Ha. rewrite fpw_add by lia. f_equal. ring. Qed.
Lemma fpw_1 x : fpw x 1 = x.
Proof. unfold fpw. rewrite Z.pow_1_r. apply mkf_fval. Qed.
Lemma fpw_iter x k : forall a, 0 <= a -> iter_sqr I k (fpw x a) = fpw x (2 ^ Z.of_nat k * a).
Proof.
  intros a Ha. unfold iter_sqr. induction k as [|k IH]; [change (fpw x a = fpw x (1 * a)); now rewrite Z.mul_1_l|].
  change (Nat.iter (Datatypes.S k) (o_sqrx I) (fpw x a)) with (o_sqrx I (Nat.iter k (o_sqrx I) (fpw x a))). rewrite IH. transitivity (fpw x (2 * (2 ^ Z.of_nat k * a))); [apply fpw_sqr; nia|]. f_equal. rewrite Nat2Z.inj_succ, Z.pow_succ_r by lia. ring.
Qed.
#[local] Opaque fpw.
Lemma p_minus_2 : p - 2 = 0xFFFFFFFEFFFFFFFFFFFFFFFFFFFFFFFFFFFFFFFF00000000FFFFFFFFFFFFFFFD.
Proof. Transparent sm2_p. reflexivity. Qed.
#[local] Opaque sm2_p.
Lemma I_mulx x a b : 0 <= a -> 0 <= b -> o_mulx I (fpw x a) (fpw x b) = fpw x (a + b).
Proof. exact (fpw_add x a b). Qed.
Lemma I_sqrx x a : 0 <= a -> o_sqrx I (fpw x a) = fpw x (2 * a).
Proof. exact (fpw_sqr x a). Qed.
Lemma let_eq {A B} (f : A -> B) (t t' : A) r : t = t' -> f t' = r -> f t = r.
Proof. now intros ->. Qed.
Ltac fpw_norm :=
  repeat match goal with
  | |- context [iter_sqr I ?k (fpw ?x ?a)] => rewrite (fpw_iter x k a) by lia
  | |- context [o_sqrx I (fpw ?x ?a)] => rewrite (I_sqrx x a) by lia
  | |- context [o_mulx I (fpw ?x ?a) (fpw ?x ?b)] => rewrite (I_mulx x a b) by lia
  end.
Lemma I_inverse_pow x : p256Inverse I x = fpw x (p - 2).
Proof.
  rewrite p_minus_2. transitivity (p256Inverse I (fpw x 1)); [now rewrite fpw_1|].
  unfold p256Inverse. 
  repeat match goal with |- (let a := ?t in @?f a) = ?r =>
    simple refine (let_eq f t _ r _ _);
    [ shelve | fpw_norm; match goal with |- fpw ?x ?e = _ => let e' := eval vm_compute in e in exact (eq_refl (fpw x e')) end | cbv beta ] end.
  fpw_norm. reflexivity.
Qed.
#[local] Transparent fpw.
(** p256Inverse over exact arithmetic: the (p-2)-th power, i.e. the inverse (0 for 0) *)
Lemma I_inverse x : p256Inverse I x = finv x.
Proof.
  rewrite I_inverse_pow. unfold fpw, Finv. apply mkf_eq. rewrite zinv_pow by (pose proof p_gt3; lia). symmetry. apply Zmod_mod.
Qed.
#[local] Opaque fpw.
Lemma finv_0 : finv f0 = f0.
Proof.
  unfold F0. rewrite mkf_inv. apply mkf_eq. rewrite (zinv_0 p 0 ltac:(pose proof p_gt3; lia) (Z.divide_0_r p)). exact eq_refl.
Qed.

(** ** Point operations *)
Lemma jta_inf x y z P : jta x y z = ptF P -> z = f0 <-> P = Oinf.
Proof.
  unfold jtoaff. destruct (F_dec p z f0) as [E|N]; destruct P; cbn [ptF]; intros E'; try discriminate; split; congruence.
Qed.
Lemma I_dbl t P : on_curve P -> repr t P -> repr (pointDouble I t) (padd P P).
Proof.
  destruct t as [[x y] z]. intros HP HR. cbn [repr] in HR. unfold I. rewrite (dbl_formula F f0 f1 fadd fmul fsub fopp fdiv finv FT (F_dec p)); [|exact Ftwo].
  cbn [repr]. rewrite (jdbl_ok F f0 f1 fadd fmul fsub fopp fdiv finv FT (F_dec p) fa Ftwo fa_m3), HR.
  now rewrite ptF_add by auto using on_curve_canon.
Qed.
Lemma ja_add x1 y1 z1 x2 y2 z2 P Q : on_curve P -> on_curve Q -> jta x1 y1 z1 = ptF P -> jta x2 y2 z2 = ptF Q ->
  P <> Oinf -> Q <> Oinf -> P <> Q ->
  jta (jaX F f1 fadd fmul fsub x1 y1 z1 x2 y2 z2) (jaY F f1 fadd fmul fsub x1 y1 z1 x2 y2 z2) (jaZ F fmul fsub x1 z1 x2 z2) = ptF (padd P Q).
Proof.
  intros HP HQ RP RQ NP NQ NE.
  rewrite ptF_add by auto using on_curve_canon. rewrite <- RP, <- RQ.
  assert (Z1 : z1 <> f0) by (rewrite (jta_inf _ _ _ _ RP); exact NP).
  assert (Z2 : z2 <> f0) by (rewrite (jta_inf _ _ _ _ RQ); exact NQ).
  destruct (F_dec p (jH F fmul fsub x1 z1 x2 z2) f0) as [E|N].
  - apply (jadd_opp F f0 f1 fadd fmul fsub fopp fdiv finv FT (F_dec p) fa); try assumption.
    destruct (jHzero F f0 f1 fadd fmul fsub fopp fdiv finv FT (F_dec p) _ y1 _ _ y2 _ Z1 Z2 E) as (x & u & v & E1 & E2).
    assert (O1 : eon (Aff F x u)) by (rewrite <- E1, RP; apply on_curve_F; assumption).
    assert (O2 : eon (Aff F x v)) by (rewrite <- E2, RQ; apply on_curve_F; assumption).
    destruct (same_x F f0 f1 fadd fmul fsub fopp fdiv finv FT (F_dec p) fa fb x u v O1 O2) as [Ee|Ee].
    + exfalso. apply NE. apply ptF_inj; [now apply on_curve_canon..|]. rewrite <- RP, <- RQ, E1, E2. congruence.
    + rewrite E1, E2, Ee. cbn [opp]. now rewrite (fopp_fopp F f0 f1 fadd fmul fsub fopp fdiv finv FT).
  - apply (jadd_ok F f0 f1 fadd fmul fsub fopp fdiv finv FT (F_dec p) fa); assumption.
Qed.
Lemma I_add t u P Q : on_curve P -> on_curve Q -> repr t P -> repr u Q -> P <> Oinf -> Q <> Oinf -> P <> Q ->
  repr (fst (pointAdd I t u)) (padd P Q).
Proof.
  destruct t as [[x1 y1] z1], u as [[x2 y2] z2]. intros. unfold I. rewrite (add_formula F f0 f1 fadd fmul fsub fopp fdiv finv FT).
  cbn [repr] in *. now apply ja_add.
Qed.
Lemma I_add_flag t u P Q : on_curve P -> on_curve Q -> repr t P -> repr u Q -> P <> Oinf -> Q <> Oinf ->
  snd (pointAdd I t u) = true <-> P = Q.
Proof.
  destruct t as [[x1 y1] z1], u as [[x2 y2] z2]. intros HP HQ RP RQ NP NQ. cbn [repr] in *.
  assert (Z1 : z1 <> f0) by (rewrite (jta_inf _ _ _ _ RP); exact NP).
  assert (Z2 : z2 <> f0) by (rewrite (jta_inf _ _ _ _ RQ); exact NQ).
  pose proof (jeq F f0 f1 fadd fmul fsub fopp fdiv finv FT (F_dec p) x1 y1 z1 x2 y2 z2 Z1 Z2) as J.
  unfold I. rewrite (flag_formula F f0 f1 fadd fmul fsub fopp fdiv finv FT). rewrite RP, RQ in J.
  split.
  - intros HB. apply ptF_inj; [now apply on_curve_canon..|]. apply J. apply andb_prop in HB as [H1 H2].
    destruct (F_dec p (jH F fmul fsub x1 z1 x2 z2) f0); [|discriminate]. destruct (F_dec p (jR F fmul fsub y1 z1 y2 z2) f0); [|discriminate]. split; assumption.
  - intros ->. destruct (proj1 J eq_refl) as [J1 J2].
    destruct (F_dec p (jH F fmul fsub x1 z1 x2 z2) f0); [|contradiction]. destruct (F_dec p (jR F fmul fsub y1 z1 y2 z2) f0); [reflexivity|contradiction].
Qed.
(** adding a point to itself with the addition formula gives z = 0 *)
Lemma I_add_same t u P : repr t P -> repr u P -> P <> Oinf -> repr (fst (pointAdd I t u)) Oinf.
Proof.
  destruct t as [[x1 y1] z1], u as [[x2 y2] z2]. intros RP RQ NP. unfold I. rewrite (add_formula F f0 f1 fadd fmul fsub fopp fdiv finv FT). cbn [repr] in *.
  assert (Z1 : z1 <> f0) by (rewrite (jta_inf _ _ _ _ RP); exact NP).
  assert (Z2 : z2 <> f0) by (rewrite (jta_inf _ _ _ _ RQ); exact NP).
  assert (J : jH F fmul fsub x1 z1 x2 z2 = f0).
  { apply (jeq F f0 f1 fadd fmul fsub fopp fdiv finv FT (F_dec p) x1 y1 z1 x2 y2 z2 Z1 Z2). congruence. }
  unfold jtoaff. rewrite (jaZ_H0 F f0 f1 fadd fmul fsub fopp fdiv finv FT _ _ _ _ J). cbn [ptF]. destruct (F_dec p f0 f0) as [|N]; [reflexivity|congruence].
Qed.
Lemma I_neg x y z P : repr (x, y, z) P -> repr (x, fopp y, z) (pneg P).
Proof.
  cbn [repr]. intros HR. rewrite ptF_neg, <- HR. apply (jtoaff_neg F f0 f1 fadd fmul fsub fopp fdiv finv FT (F_dec p)).
Qed.
Lemma repr_one_ninf x y Q : repr (x, y, f1) Q -> Q <> Oinf.
Proof. cbn [repr]. intros HR E. apply (jta_inf _ _ _ _ HR) in E. exact (F_1_neq_0 FT E). Qed.
Lemma I_adda t x y sign sel zero P Q : on_curve P -> on_curve Q -> P <> Oinf -> repr t P -> repr (x, y, f1) Q ->
  P <> (if sign =? 0 then Q else pneg Q) -> sel <> 0 -> zero <> 0 ->
  repr (pointAddAffine I t x y sign sel zero) (padd P (if sign =? 0 then Q else pneg Q)).
Proof.
  destruct t as [[x1 y1] z1]. intros HP HQ NP RP RQ NE Hs Hz. unfold I.
  rewrite (adda_formula F f0 f1 fadd fmul fsub fopp fdiv finv FT) by assumption. cbv zeta. cbn [repr] in RP |- *.
  assert (RQ' : repr (x, (if sign =? 0 then y else fopp y), f1) (if sign =? 0 then Q else pneg Q)).
  { destruct (sign =? 0); [exact RQ|]. exact (I_neg _ _ _ _ RQ). }
  assert (HQ' : on_curve (if sign =? 0 then Q else pneg Q)) by (destruct (sign =? 0); [assumption|now apply on_pneg]).
  apply ja_add; try assumption. exact (repr_one_ninf _ _ _ RQ').
Qed.
Lemma I_affine t P : on_curve P -> repr t P -> p256PointToAffine I t = aff_of P.
Proof.
  destruct t as [[x y] z]. intros HP HR. unfold p256PointToAffine. rewrite I_inverse. cbn [repr] in HR.
  change (o_mulx I) with fmul. change (o_from I) with (fval p). change (o_sqrx I (finv z)) with (fmul (finv z) (finv z)). cbv zeta.
  destruct P as [|qx qy].
  - assert (Ez' : z = f0) by (apply (jta_inf _ _ _ _ HR); reflexivity). clear HR. rewrite Ez', finv_0.
    rewrite (zero_mul F f0 f1 fadd fmul fsub fopp fdiv finv FT), (zero_mul3 F f0 f1 fadd fmul fsub fopp fdiv finv FT).
    cbn [aff_of]. unfold F0. rewrite fval_mkf. now rewrite Zmod_0_l.
  - assert (Nz : z <> f0) by (rewrite (jta_inf _ _ _ _ HR); discriminate).
    rewrite <- (jtoaff_inv F f0 f1 fadd fmul fsub fopp fdiv finv FT (F_dec p) x y z Nz) in HR. cbn [ptF] in HR.
    assert (E1 : fmul x (fmul (finv z) (finv z)) = mk qx) by congruence.
    assert (E2 : fmul y (fmul (fmul (finv z) (finv z)) (finv z)) = mk qy) by congruence.
    apply on_curve_canon in HP as [Hx Hy]. cbn [aff_of].
    rewrite (mul3_assoc F f0 f1 fadd fmul fsub fopp fdiv finv FT), E1, E2, !fval_mkf. now rewrite !Z.mod_small.
Qed.
Lemma I_normalize t P : repr t P -> P <> Oinf -> exists x y, normalize I t = (x, y, f1) /\ repr (x, y, f1) P.
Proof.
  destruct t as [[x y] z]. intros HR NP. unfold normalize. rewrite I_inverse. cbn [repr] in HR.
  change (o_mulx I) with fmul. change (o_one I) with f1. change (o_sqrx I (finv z)) with (fmul (finv z) (finv z)). cbv zeta.
  assert (Nz : z <> f0) by (rewrite (jta_inf _ _ _ _ HR); exact NP).
  eexists. eexists. split; [reflexivity|]. cbn [repr].
  rewrite (jtoaff_one F f0 f1 fadd fmul fsub fopp fdiv finv FT (F_dec p)), <- HR.
  rewrite <- (jtoaff_inv F f0 f1 fadd fmul fsub fopp fdiv finv FT (F_dec p) x y z Nz).
  now rewrite (mul3_assoc F f0 f1 fadd fmul fsub fopp fdiv finv FT).
Qed.

(** Jacobian-coordinate formulas for y^2 = x^3 - 3 x + b over an arbitrary field, against the affine group law of
    EC_group.  Pure mathematics; SM2_p256_model.v states which assembly routine computes which formula. *)
From Coq Require Import Field Ring.
From Verif Require Import EC_group.

Section JAC.
Variable F : Type.
Variables (f0 f1 : F) (fadd fmul fsub : F -> F -> F) (fopp : F -> F) (fdiv : F -> F -> F) (finv : F -> F).
Hypothesis FT : field_theory f0 f1 fadd fmul fsub fopp fdiv finv eq.
Hypothesis F_dec : forall x y : F, {x = y} + {x <> y}.
Add Field Ffj : FT.
Local Notation "0" := f0. Local Notation "1" := f1.
Local Infix "+" := fadd. Local Infix "*" := fmul. Local Infix "-" := fsub. Local Notation "- x" := (fopp x).
Local Infix "/" := fdiv.
Local Notation "2" := (1 + 1). Local Notation "3" := (1 + 1 + 1).
Variable a : F.
Hypothesis two_ne_0 : 2 <> 0.
Hypothesis a_m3 : a = - (3).
Local Notation eadd := (add F f1 fadd fmul fsub fopp fdiv F_dec a).

Definition jtoaff (X Y Z : F) : point F := if F_dec Z 0 then Inf F else Aff F (X / (Z * Z)) (Y / (Z * Z * Z)).
(** doubling *)
Definition jdX X Y Z := let M := 3 * ((X - Z * Z) * (X + Z * Z)) in let S := (2 * 2) * (X * (Y * Y)) in M * M - 2 * S.
Definition jdY X Y Z := let M := 3 * ((X - Z * Z) * (X + Z * Z)) in let S := (2 * 2) * (X * (Y * Y)) in
  M * (S - jdX X Y Z) - (2 * 2 * 2) * ((Y * Y) * (Y * Y)).
Definition jdZ (X Y Z : F) := 2 * (Y * Z).
(** addition *)
Definition jH (X1 Z1 X2 Z2 : F) := X2 * (Z1 * Z1) - X1 * (Z2 * Z2).
Definition jR (Y1 Z1 Y2 Z2 : F) := Y2 * (Z1 * Z1 * Z1) - Y1 * (Z2 * Z2 * Z2).
Definition jaX X1 Y1 Z1 X2 Y2 Z2 := let H := jH X1 Z1 X2 Z2 in let R := jR Y1 Z1 Y2 Z2 in
  R * R - H * H * H - 2 * (X1 * (Z2 * Z2) * (H * H)).
Definition jaY X1 Y1 Z1 X2 Y2 Z2 := let H := jH X1 Z1 X2 Z2 in let R := jR Y1 Z1 Y2 Z2 in
  R * (X1 * (Z2 * Z2) * (H * H) - jaX X1 Y1 Z1 X2 Y2 Z2) - Y1 * (Z2 * Z2 * Z2) * (H * H * H).
Definition jaZ X1 Z1 X2 Z2 := jH X1 Z1 X2 Z2 * (Z1 * Z2).

Let mul0 := fmul_eq0 F f0 f1 fadd fmul fsub fopp fdiv finv FT F_dec.
Let mulne := fmul_ne0 F f0 f1 fadd fmul fsub fopp fdiv finv FT F_dec.
Let sub0 := fsub_eq0 F f0 f1 fadd fmul fsub fopp fdiv finv FT.
Let sub1 := fsub_ne0 F f0 f1 fadd fmul fsub fopp fdiv finv FT.
Let selfopp := self_opp F f0 f1 fadd fmul fsub fopp fdiv finv FT F_dec two_ne_0.

Lemma frac_eq x y z w : y <> 0 -> w <> 0 -> x / y = z / w <-> x * w = z * y.
Proof.
  intros Hy Hw. split; intros E.
  - replace (x * w) with (x / y * (y * w)) by (field; auto). rewrite E. field; auto.
  - replace (x / y) with (x * w / (y * w)) by (field; auto). rewrite E. field; auto.
Qed.
Lemma div_mul_cancel l b : b <> 0 -> (l * b) / b = l.
Proof. intros Hb. field. exact Hb. Qed.
Lemma jtoaff_one X Y : jtoaff X Y 1 = Aff F X Y.
Proof. unfold jtoaff. destruct (F_dec 1 0) as [E|N]; [elim (F_1_neq_0 FT E)|]. f_equal; field; exact (F_1_neq_0 FT). Qed.
Lemma jtoaff_inv X Y Z : Z <> 0 -> Aff F (X * (finv Z * finv Z)) (Y * ((finv Z * finv Z) * finv Z)) = jtoaff X Y Z.
Proof. intros HZ. unfold jtoaff. destruct (F_dec Z 0); [contradiction|]. f_equal; field; exact HZ. Qed.
(** a square discriminant: a cubic with one root has a second one *)
Lemma second_root b r s : r * r * r + a * r + b = 0 -> s * s = - ((2 + 2) * (a * a * a) + (3 * 3 * 3) * (b * b)) ->
  (2 + 2) * (a * a * a) + (3 * 3 * 3) * (b * b) <> 0 ->
  exists r2, r2 * r2 * r2 + a * r2 + b = 0 /\ r2 <> r.
Proof.
  intros Hr Hs Hn. assert (Hb : b = - (r * r * r + a * r)).
  { apply sub0. replace (b - - (r * r * r + a * r)) with (r * r * r + a * r + b) by ring. exact Hr. }
  set (D := 3 * (r * r) + a).
  assert (HD : D <> 0).
  { intros E. apply Hn. rewrite Hb. transitivity ((3 * (r * r) + (2 + 2) * a) * D * D); [unfold D; ring|]. rewrite E. ring. }
  assert (Hw : (s / D) * (s / D) = - (3 * (r * r) + (2 + 2) * a)).
  { transitivity ((s * s) / (D * D)); [field; exact HD|]. rewrite Hs, Hb. unfold D. field. intros E. apply HD. unfold D. rewrite <- E. ring. }
  set (w := s / D) in *. exists ((w - r) / 2). split.
  - transitivity (((w - r) / 2 - r) * ((w * w + (3 * (r * r) + (2 + 2) * a)) / (2 * 2))).
    + rewrite Hb. field. split; [apply mulne; exact two_ne_0|exact two_ne_0].
    + rewrite Hw. field. try split; try (apply mulne; exact two_ne_0); exact two_ne_0.
  - intros E. assert (Ew : w = 3 * r). { replace w with (2 * ((w - r) / 2) + r) by (field; exact two_ne_0). rewrite E. ring. }
    apply HD. assert (E4 : (2 * 2) * D = 0).
    { unfold D. transitivity (w * w + (3 * (r * r) + (2 + 2) * a)); [rewrite Ew; ring|]. rewrite Hw. ring. }
    apply mul0 in E4 as [E4|E4]; auto. apply mul0 in E4 as [E4|E4]; contradiction.
Qed.
Theorem jdbl_ok X Y Z : jtoaff (jdX X Y Z) (jdY X Y Z) (jdZ X Y Z) = eadd (jtoaff X Y Z) (jtoaff X Y Z).
Proof.
  unfold jtoaff. destruct (F_dec Z 0) as [HZ|HZ].
  - subst Z. unfold jdZ. destruct (F_dec (2 * (Y * 0)) 0) as [|N]; [reflexivity|]. elim N. ring.
  - cbn [add]. destruct (F_dec (X / (Z * Z)) (X / (Z * Z))) as [_|N]; [|congruence].
    destruct (F_dec Y 0) as [HY|HY].
    + subst Y. unfold jdZ. destruct (F_dec (2 * (0 * Z)) 0) as [_|N]; [|elim N; ring].
      destruct (F_dec (0 / (Z * Z * Z)) (- (0 / (Z * Z * Z)))) as [_|N]; [reflexivity|]. elim N. field. exact HZ.
    + destruct (F_dec (jdZ X Y Z) 0) as [E|HN].
      { unfold jdZ in E. apply mul0 in E as [E|E]; [contradiction|]. apply mul0 in E as [E|E]; contradiction. }
      assert (HY3 : Y / (Z * Z * Z) <> 0).
      { intros E. apply HY. replace Y with (Y / (Z * Z * Z) * (Z * Z * Z)) by (field; exact HZ). rewrite E. ring. }
      destruct (F_dec (Y / (Z * Z * Z)) (- (Y / (Z * Z * Z)))) as [E|_]; [elim HY3; now apply selfopp|].
      unfold chord, jdX, jdY, jdZ. rewrite a_m3. unfold jdX. f_equal; field; auto.
Qed.
Theorem jadd_ok X1 Y1 Z1 X2 Y2 Z2 : Z1 <> 0 -> Z2 <> 0 -> jH X1 Z1 X2 Z2 <> 0 ->
  jtoaff (jaX X1 Y1 Z1 X2 Y2 Z2) (jaY X1 Y1 Z1 X2 Y2 Z2) (jaZ X1 Z1 X2 Z2) = eadd (jtoaff X1 Y1 Z1) (jtoaff X2 Y2 Z2).
Proof.
  intros H1 H2 HH. unfold jtoaff at 2 3. destruct (F_dec Z1 0); [contradiction|]. destruct (F_dec Z2 0); [contradiction|].
  cbn [add]. destruct (F_dec (X1 / (Z1 * Z1)) (X2 / (Z2 * Z2))) as [E|N].
  { exfalso. apply HH. unfold jH. apply frac_eq in E; [|apply mulne; auto|apply mulne; auto]. rewrite E. ring. }
  unfold jtoaff. destruct (F_dec (jaZ X1 Z1 X2 Z2) 0) as [E|HN].
  { exfalso. unfold jaZ in E. apply mul0 in E as [E|E]; [contradiction|]. apply mul0 in E as [E|E]; contradiction. }
  unfold chord, jaX, jaY, jaZ, jaX, jR. unfold jH in *.
  assert (HH' : X2 * (Z1 * Z1) - X1 * (Z2 * Z2) <> 0) by exact HH.
  f_equal; field; repeat split; auto; intros E; apply HH'.
Qed.
(** equal abscissas: opposite points give Z3 = 0 (infinity), as they should ... *)
Theorem jadd_opp X1 Y1 Z1 X2 Y2 Z2 : Z1 <> 0 -> Z2 <> 0 -> jH X1 Z1 X2 Z2 = 0 ->
  jtoaff X2 Y2 Z2 = opp F fopp (jtoaff X1 Y1 Z1) ->
  jtoaff (jaX X1 Y1 Z1 X2 Y2 Z2) (jaY X1 Y1 Z1 X2 Y2 Z2) (jaZ X1 Z1 X2 Z2) = eadd (jtoaff X1 Y1 Z1) (jtoaff X2 Y2 Z2).
Proof.
  intros H1 H2 HH E. rewrite E. rewrite (add_opp_r F f0 f1 fadd fmul fsub fopp fdiv finv FT F_dec a).
  unfold jtoaff, jaZ. rewrite HH. destruct (F_dec (0 * (Z1 * Z2)) 0) as [|N]; [reflexivity|elim N; ring].
Qed.
(** ... and H = 0, R = 0 means the two points are equal *)
Lemma jeq X1 Y1 Z1 X2 Y2 Z2 : Z1 <> 0 -> Z2 <> 0 ->
  (jtoaff X1 Y1 Z1 = jtoaff X2 Y2 Z2 <-> jH X1 Z1 X2 Z2 = 0 /\ jR Y1 Z1 Y2 Z2 = 0).
Proof.
  intros H1 H2. unfold jtoaff. destruct (F_dec Z1 0); [contradiction|]. destruct (F_dec Z2 0); [contradiction|].
  unfold jH, jR. split.
  - intros E. injection E as EX EY. apply frac_eq in EX; [|apply mulne; auto|apply mulne; auto].
    apply frac_eq in EY; [|apply mulne; [apply mulne|]; auto|apply mulne; [apply mulne|]; auto]. rewrite EX, EY. split; ring.
  - intros [EX EY]. apply sub0 in EX. apply sub0 in EY. f_equal; apply frac_eq; auto; try (apply mulne; [apply mulne|]; auto).
Qed.
Lemma jHzero X1 Y1 Z1 X2 Y2 Z2 : Z1 <> 0 -> Z2 <> 0 -> jH X1 Z1 X2 Z2 = 0 ->
  exists x y1 y2, jtoaff X1 Y1 Z1 = Aff F x y1 /\ jtoaff X2 Y2 Z2 = Aff F x y2.
Proof.
  intros H1 H2 E. unfold jtoaff. destruct (F_dec Z1 0); [contradiction|]. destruct (F_dec Z2 0); [contradiction|].
  exists (X1 / (Z1 * Z1)), (Y1 / (Z1 * Z1 * Z1)), (Y2 / (Z2 * Z2 * Z2)). split; auto. f_equal.
  apply frac_eq; try (apply mulne; auto). unfold jH in E. now apply sub0 in E.
Qed.
End JAC.

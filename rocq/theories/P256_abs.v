(** The point formulas of P256_model over an abstract field are those of Jacobian.v. *)
From Coq Require Import Field Ring ZArith Bool.
From Verif Require Import EC_group Jacobian P256_model.

Section ABS.
Variable F : Type.
Variables (f0 f1 : F) (fadd fmul fsub : F -> F -> F) (fopp : F -> F) (fdiv : F -> F -> F) (finv : F -> F).
Hypothesis FT : field_theory f0 f1 fadd fmul fsub fopp fdiv finv eq.
Variable F_dec : forall x y : F, {x = y} + {x <> y}.
Add Field Ffabs : FT.
Variables (gx gy : F) (tof : Z -> F) (fromf : F -> Z).
(** the exact arithmetic of the field *)
Definition fieldops : fops F bool Z :=
  mkFops F bool Z fmul (fun x => fmul x x) fmul (fun x => fmul x x) fsub fadd (fun x => fadd x x)
    (fun x => fdiv x (fadd f1 f1)) fopp fopp (fun x => if F_dec x f0 then true else false) andb
    (fun (v : bool) a b => if v then a else b) f0 f1 gx gy tof fromf.
Hypothesis two_ne_0 : fadd f1 f1 <> f0.
Lemma dbl_formula x y z : pointDouble fieldops (x, y, z) =
  (jdX F f1 fadd fmul fsub x y z, jdY F f1 fadd fmul fsub x y z, jdZ F f1 fadd fmul x y z).
Proof.
  unfold pointDouble, jdX, jdY, jdZ. unfold jdX. cbn [o_mulx o_sqrx o_mul o_sqr o_sub o_add o_dbl o_half fieldops].
  apply (f_equal2 pair); [apply (f_equal2 pair)|]; field; exact two_ne_0.
Qed.
Lemma add_formula x1 y1 z1 x2 y2 z2 :
  fst (pointAdd fieldops (x1, y1, z1) (x2, y2, z2)) =
  (jaX F f1 fadd fmul fsub x1 y1 z1 x2 y2 z2, jaY F f1 fadd fmul fsub x1 y1 z1 x2 y2 z2, jaZ F fmul fsub x1 z1 x2 z2).
Proof.
  unfold pointAdd, jaX, jaY, jaZ. unfold jaX, jH, jR. cbn [fst o_mulx o_sqrx o_mul o_sqr o_sub o_add o_dbl o_half fieldops].
  apply (f_equal2 pair); [apply (f_equal2 pair)|]; ring.
Qed.
Lemma flag_formula x1 y1 z1 x2 y2 z2 : snd (pointAdd fieldops (x1, y1, z1) (x2, y2, z2)) =
  ((if F_dec (jH F fmul fsub x1 z1 x2 z2) f0 then true else false) &&
   (if F_dec (jR F fmul fsub y1 z1 y2 z2) f0 then true else false))%bool.
Proof.
  unfold pointAdd. cbn [snd o_and o_isz o_mulx o_sqrx o_mul o_sqr o_sub o_add o_dbl o_half fieldops].
  replace (fsub (fmul (fmul z1 z1) x2) (fmul (fmul z2 z2) x1)) with (jH F fmul fsub x1 z1 x2 z2) by (unfold jH; ring).
  replace (fsub (fmul (fmul (fmul z1 z1) z1) y2) (fmul (fmul (fmul z2 z2) z2) y1)) with (jR F fmul fsub y1 z1 y2 z2) by (unfold jR; ring).
  reflexivity.
Qed.
Lemma adda_formula x1 y1 z1 x y sign sel zero : sel <> 0%Z -> zero <> 0%Z ->
  pointAddAffine fieldops (x1, y1, z1) x y sign sel zero =
  let y' := if Z.eqb sign 0 then y else fopp y in
  (jaX F f1 fadd fmul fsub x1 y1 z1 x y' f1, jaY F f1 fadd fmul fsub x1 y1 z1 x y' f1, jaZ F fmul fsub x1 z1 x f1).
Proof.
  intros Hs Hz. unfold pointAddAffine. destruct (Z.eqb_spec sel 0); [contradiction|]. destruct (Z.eqb_spec zero 0); [contradiction|].
  cbn [o_nega fieldops]. set (y' := if Z.eqb sign 0 then y else fopp y). clearbody y'. cbv zeta.
  unfold jaX, jaY, jaZ. unfold jaX, jH, jR. cbn [fst o_mulx o_sqrx o_mul o_sqr o_sub o_add o_dbl o_half fieldops].
  apply (f_equal2 pair); [apply (f_equal2 pair)|]; ring.
Qed.
Lemma jtoaff_neg x y z : jtoaff F f0 fmul fdiv F_dec x (fopp y) z = opp F fopp (jtoaff F f0 fmul fdiv F_dec x y z).
Proof. unfold jtoaff. destruct (F_dec z f0) as [|N]; [reflexivity|]. cbn [opp]. apply (f_equal2 (Aff F)); field; exact N. Qed.
Lemma zero_mul x : fmul x (fmul f0 f0) = f0. Proof. ring. Qed.
Lemma zero_mul3 x : fmul x (fmul f0 (fmul f0 f0)) = f0. Proof. ring. Qed.
Lemma mul3_assoc y z : fmul y (fmul z (fmul z z)) = fmul y (fmul (fmul z z) z). Proof. ring. Qed.
Lemma f1_neq_0 : f1 <> f0. Proof. exact (F_1_neq_0 FT). Qed.
Lemma jaZ_H0 x1 z1 x2 z2 : jH F fmul fsub x1 z1 x2 z2 = f0 -> jaZ F fmul fsub x1 z1 x2 z2 = f0.
Proof. intros E. unfold jaZ. rewrite E. ring. Qed.
Lemma fopp_fopp y : fopp (fopp y) = y. Proof. ring. Qed.
Lemma fopp_0 : fopp f0 = f0. Proof. ring. Qed.
End ABS.

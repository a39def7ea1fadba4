(** The prime field Z/p as a type with Leibniz equality, so that Coq's [field] tactic and EC_group apply. *)
From Coq Require Import ZArith Zpow_facts Znumtheory Lia Field Eqdep_dec Bool.
From Verif Require Import NT.
Local Open Scope Z_scope.

Section FP.
Variable p : Z.
Hypothesis p_prime : prime p.
Hypothesis p_gt3 : 3 < p.

Definition Fp : Type := { z : Z | (0 <=? z) && (z <? p) = true }.
Definition fval (x : Fp) : Z := proj1_sig x.
Lemma fval_range x : 0 <= fval x < p.
Proof. destruct x as [z H]. cbn. apply andb_true_iff in H. rewrite Z.leb_le, Z.ltb_lt in H. exact H. Qed.
Lemma mkf_ok z : (0 <=? z mod p) && (z mod p <? p) = true.
Proof. rewrite andb_true_iff, Z.leb_le, Z.ltb_lt. apply Z.mod_pos_bound. lia. Qed.
Definition mkf (z : Z) : Fp := exist _ (z mod p) (mkf_ok z).
Lemma Fp_ext x y : fval x = fval y -> x = y.
Proof. destruct x as [x Hx], y as [y Hy]. cbn. intros ->. f_equal. apply UIP_dec, bool_dec. Qed.
Lemma fval_mkf z : fval (mkf z) = z mod p. Proof. reflexivity. Qed.
Lemma mkf_fval x : mkf (fval x) = x.
Proof. apply Fp_ext. rewrite fval_mkf. apply Z.mod_small, fval_range. Qed.
Lemma mkf_eq z w : z mod p = w mod p -> mkf z = mkf w.
Proof. intros H. apply Fp_ext. exact H. Qed.
Lemma mkf_inj z w : mkf z = mkf w -> z mod p = w mod p.
Proof. intros H. apply (f_equal fval) in H. exact H. Qed.

Definition F0 : Fp := mkf 0.
Definition F1 : Fp := mkf 1.
Definition Fadd x y := mkf (fval x + fval y).
Definition Fmul x y := mkf (fval x * fval y).
Definition Fsub x y := mkf (fval x - fval y).
Definition Fopp x := mkf (- fval x).
Definition Finv x := mkf (zinv p (fval x)).
Definition Fdiv x y := Fmul x (Finv y).
Definition F_dec (x y : Fp) : {x = y} + {x <> y}.
Proof. destruct (Z.eq_dec (fval x) (fval y)) as [E|N]; [left; now apply Fp_ext|right; congruence]. Defined.

Lemma mkf_add z w : Fadd (mkf z) (mkf w) = mkf (z + w).
Proof. apply mkf_eq. rewrite !fval_mkf. symmetry. apply Zplus_mod. Qed.
Lemma mkf_mul z w : Fmul (mkf z) (mkf w) = mkf (z * w).
Proof. apply mkf_eq. rewrite !fval_mkf. symmetry. apply Zmult_mod. Qed.
Lemma mkf_sub z w : Fsub (mkf z) (mkf w) = mkf (z - w).
Proof. apply mkf_eq. rewrite !fval_mkf. symmetry. apply Zminus_mod. Qed.
Lemma mkf_opp z : Fopp (mkf z) = mkf (- z).
Proof. apply mkf_eq. rewrite !fval_mkf. rewrite <- !Z.sub_0_l. apply Zminus_mod_idemp_r. Qed.
Lemma mkf_inv z : Finv (mkf z) = mkf (zinv p z).
Proof. unfold Finv. f_equal. rewrite fval_mkf, !zinv_pow by lia. symmetry. apply Zpower_mod. lia. Qed.
Lemma mkf_div z w : Fdiv (mkf z) (mkf w) = mkf (z * zinv p w).
Proof. unfold Fdiv. now rewrite mkf_inv, mkf_mul. Qed.
Lemma mkf_mod z : mkf (z mod p) = mkf z.
Proof. apply mkf_eq. apply Zmod_mod. Qed.
Lemma mkf_surj x : exists z, x = mkf z /\ 0 <= z < p.
Proof. exists (fval x). split; [symmetry; apply mkf_fval|apply fval_range]. Qed.

Ltac fp_ring := repeat match goal with x : Fp |- _ => let z := fresh "z" in destruct (mkf_surj x) as (z & -> & _) end;
  unfold F0, F1; rewrite ?mkf_opp, ?mkf_add, ?mkf_mul, ?mkf_sub; repeat (rewrite ?mkf_opp, ?mkf_add, ?mkf_mul, ?mkf_sub); f_equal; ring.
Lemma Fp_ring_theory : ring_theory F0 F1 Fadd Fmul Fsub Fopp eq.
Proof. constructor; intros; fp_ring. Qed.
Lemma Fp_field_theory : field_theory F0 F1 Fadd Fmul Fsub Fopp Fdiv Finv eq.
Proof.
  constructor.
  - exact Fp_ring_theory.
  - intros E. apply mkf_inj in E. rewrite !Z.mod_small in E by lia. discriminate.
  - reflexivity.
  - intros x Hx. destruct (mkf_surj x) as (z & -> & Hz). rewrite mkf_inv, mkf_mul. apply mkf_eq.
    rewrite Z.mul_comm, zinv_mul; auto; [|lia|].
    + symmetry. apply Z.mod_small. lia.
    + intros [c ->]. apply Hx. apply mkf_eq. rewrite Z.mod_mul by lia. symmetry. apply Zmod_0_l.
Qed.
Lemma Fp_two : Fadd F1 F1 <> F0.
Proof. unfold F1, F0. rewrite mkf_add. intros E. apply mkf_inj in E. rewrite !Z.mod_small in E by lia. discriminate. Qed.
End FP.

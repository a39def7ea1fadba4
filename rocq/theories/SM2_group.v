(** The curve of SM2_curve_spec is an abelian group (transported from EC_group), scalar multiplication is linear. *)
From Coq Require Import ZArith Lia Znumtheory List Field.
From Verif Require Import NT Prime_cert Fp EC_group SM2_curve_spec.
Local Open Scope Z_scope.

#[global] Opaque sm2_p sm2_n.
Lemma p_gt3 : 3 < sm2_p. Proof. Transparent sm2_p. reflexivity. Qed.
#[global] Opaque sm2_p.
Local Notation p := sm2_p.
Local Notation F := (Fp p).
Local Notation mk := (mkf p p_gt3).
Local Notation f0 := (F0 p p_gt3). Local Notation f1 := (F1 p p_gt3).
Local Notation fadd := (Fadd p p_gt3). Local Notation fmul := (Fmul p p_gt3). Local Notation fsub := (Fsub p p_gt3).
Local Notation fopp := (Fopp p p_gt3). Local Notation fdiv := (Fdiv p p_gt3). Local Notation finv := (Finv p p_gt3).
Definition FT := Fp_field_theory p sm2_p_prime p_gt3.
Definition Ftwo := Fp_two p p_gt3.
Definition fa : F := mk sm2_a.
Definition fb : F := mk sm2_b.
Lemma sm2_a_val : sm2_a = p - 3. Proof. Transparent sm2_p. reflexivity. Qed.
#[global] Opaque sm2_p.

Local Notation epoint := (point F).
Local Notation eadd := (add F f1 fadd fmul fsub fopp fdiv (F_dec p) fa).
Local Notation eon := (on F fadd fmul fa fb).
Local Notation eopp := (opp F fopp).

Lemma disc_val : (4 * (sm2_a * sm2_a * sm2_a) + 27 * (sm2_b * sm2_b)) mod p <> 0.
Proof. Transparent sm2_p. vm_compute. discriminate. Qed.
#[global] Opaque sm2_p.
Lemma nonsing : fadd (fmul (fadd (fadd f1 f1) (fadd f1 f1)) (fmul (fmul fa fa) fa))
     (fmul (fmul (fmul (fadd (fadd f1 f1) f1) (fadd (fadd f1 f1) f1)) (fadd (fadd f1 f1) f1)) (fmul fb fb)) <> f0.
Proof.
  unfold fa, fb, F1, F0. repeat rewrite ?mkf_add, ?mkf_mul. intros E. apply mkf_inj in E. apply disc_val.
  rewrite Zmod_0_l in E. rewrite <- E. f_equal.
Qed.

Definition ptF (P : pt) : epoint := match P with Oinf => Inf F | Pt x y => Aff F (mk x) (mk y) end.
Definition canon (P : pt) : Prop := match P with Oinf => True | Pt x y => 0 <= x < p /\ 0 <= y < p end.
Lemma mk_inj x y : 0 <= x < p -> 0 <= y < p -> mk x = mk y -> x = y.
Proof. intros Hx Hy E. apply mkf_inj in E. rewrite !Z.mod_small in E by lia. exact E. Qed.
Lemma ptF_inj P Q : canon P -> canon Q -> ptF P = ptF Q -> P = Q.
Proof.
  destruct P as [|x y], Q as [|x' y']; cbn; intros HP HQ E; try discriminate; auto.
  injection E as E1 E2. f_equal; apply mk_inj; try tauto; apply Fp_ext; assumption.
Qed.
Lemma on_curve_canon P : on_curve P -> canon P.
Proof. destruct P; cbn; tauto. Qed.
Lemma on_curve_F P : on_curve P <-> canon P /\ eon (ptF P).
Proof.
  destruct P as [|x y]; cbn; [tauto|].
  unfold fa, fb. repeat rewrite ?mkf_add, ?mkf_mul. split.
  - intros (A & B & C). repeat split; try lia. apply mkf_eq. exact C.
  - intros ((A & B) & C). repeat split; try lia. apply mkf_inj in C. exact C.
Qed.
Lemma mod_range x : 0 <= x mod p < p. Proof. apply Z.mod_pos_bound. pose proof p_gt3; lia. Qed.
Lemma canon_add P Q : canon P -> canon Q -> canon (padd P Q).
Proof.
  destruct P as [|x y], Q as [|x' y']; cbn; auto. intros HP HQ.
  repeat match goal with |- context[if ?b then _ else _] => destruct b end; cbn; auto; split; apply mod_range.
Qed.
Lemma canon_neg P : canon P -> canon (pneg P).
Proof. destruct P as [|x y]; cbn; auto. intros. split; [tauto|apply mod_range]. Qed.
Lemma ptF_neg P : ptF (pneg P) = eopp (ptF P).
Proof. destruct P as [|x y]; cbn; auto. f_equal. rewrite mkf_opp. apply mkf_mod. Qed.
Lemma y3_mod l x A y : (l * (x - A mod p) - y) mod p = (l * (x - A) - y) mod p.
Proof.
  pose proof p_gt3. rewrite (Z.mod_eq A) by lia.
  replace (l * (x - (A - p * (A / p))) - y) with (l * (x - A) - y + l * (A / p) * p) by ring. apply Z_mod_plus_full.
Qed.
Lemma ptF_add P Q : canon P -> canon Q -> ptF (padd P Q) = eadd (ptF P) (ptF Q).
Proof.
  destruct P as [|x y], Q as [|x' y']; auto. cbn [canon]. intros HP HQ. unfold padd, add. cbn [ptF].
  destruct (Z.eqb_spec x x') as [->|Nx].
  - destruct (F_dec p (mk x') (mk x')) as [_|N]; [|congruence].
    destruct (Z.eqb_spec ((y + y') mod p) 0) as [Ey|Ny].
    + destruct (F_dec p (mk y) (fopp (mk y'))) as [_|N]; [reflexivity|]. exfalso. apply N. rewrite mkf_opp. apply mkf_eq.
      replace y with ((y + y') - y') by ring. rewrite Zminus_mod, Ey. rewrite Z.sub_0_l. rewrite <- Z.sub_0_l, Zminus_mod_idemp_r. f_equal.
    + destruct (F_dec p (mk y) (fopp (mk y'))) as [E|_].
      * exfalso. apply Ny. rewrite mkf_opp in E. apply mkf_inj in E.
        rewrite Zplus_mod, E, <- Zplus_mod. replace (- y' + y') with 0 by ring. apply Zmod_0_l.
      * unfold line_third, chord. cbn [ptF]. unfold F1, fa. repeat rewrite ?mkf_add, ?mkf_mul, ?mkf_div, ?mkf_sub, ?mkf_mod.
        change (1 + 1 + 1) with 3. change (1 + 1) with 2.
        f_equal; apply mkf_eq.
        -- f_equal. ring.
        -- rewrite ?y3_mod. f_equal. ring.
  - destruct (F_dec p (mk x) (mk x')) as [E|_]; [exfalso; apply Nx; apply mk_inj; tauto|].
    unfold line_third, chord. cbn [ptF]. repeat rewrite ?mkf_add, ?mkf_mul, ?mkf_div, ?mkf_sub, ?mkf_mod.
    f_equal; apply mkf_eq.
    rewrite y3_mod. reflexivity.
Qed.

Section Laws.
Let on_addF := on_add F f0 f1 fadd fmul fsub fopp fdiv finv FT (F_dec p) fa fb Ftwo.
Let commF := add_comm F f0 f1 fadd fmul fsub fopp fdiv finv FT (F_dec p) fa fb Ftwo.
Let assocF := add_assoc F f0 f1 fadd fmul fsub fopp fdiv finv FT (F_dec p) fa fb Ftwo nonsing.
Let oppF := add_opp_r F f0 f1 fadd fmul fsub fopp fdiv finv FT (F_dec p) fa.
Let on_oppF := on_opp F f0 f1 fadd fmul fsub fopp fdiv finv FT fa fb.

Theorem on_padd P Q : on_curve P -> on_curve Q -> on_curve (padd P Q).
Proof.
  rewrite !on_curve_F. intros [cP oP] [cQ oQ]. split; [now apply canon_add|].
  rewrite ptF_add by auto. apply on_addF; auto.
Qed.
Theorem on_pneg P : on_curve P -> on_curve (pneg P).
Proof. rewrite !on_curve_F. intros [cP oP]. split; [now apply canon_neg|]. rewrite ptF_neg. now apply on_oppF. Qed.
Theorem padd_comm P Q : on_curve P -> on_curve Q -> padd P Q = padd Q P.
Proof.
  rewrite !on_curve_F. intros [cP oP] [cQ oQ]. apply ptF_inj; try now apply canon_add.
  rewrite !ptF_add by auto. apply commF; auto.
Qed.
Theorem padd_assoc P Q R : on_curve P -> on_curve Q -> on_curve R -> padd (padd P Q) R = padd P (padd Q R).
Proof.
  rewrite !on_curve_F. intros [cP oP] [cQ oQ] [cR oR]. apply ptF_inj; try (repeat apply canon_add; auto).
  rewrite !ptF_add by (repeat apply canon_add; auto). apply assocF; auto.
Qed.
Theorem padd_neg P : on_curve P -> padd P (pneg P) = Oinf.
Proof.
  intros H. pose proof (proj1 (on_curve_F P) H) as [cP oP]. apply ptF_inj; [now apply canon_add, canon_neg|exact I|].
  rewrite ptF_add, ptF_neg by (auto using canon_neg). apply oppF.
Qed.
Lemma pneg_pneg P : on_curve P -> pneg (pneg P) = P.
Proof.
  intros H%on_curve_canon. apply ptF_inj; auto using canon_neg. rewrite !ptF_neg.
  apply (opp_opp F f0 f1 fadd fmul fsub fopp fdiv finv FT).
Qed.
End Laws.
Theorem padd_Oinf_l P : padd Oinf P = P. Proof. reflexivity. Qed.
Theorem padd_Oinf_r P : padd P Oinf = P. Proof. destruct P; reflexivity. Qed.

Lemma padd_cancel P Q R : on_curve P -> on_curve Q -> on_curve R -> padd P R = padd Q R -> P = Q.
Proof.
  intros HP HQ HR E. rewrite <- (padd_Oinf_r P), <- (padd_Oinf_r Q), <- (padd_neg R HR).
  rewrite <- !padd_assoc by auto using on_pneg. now rewrite E.
Qed.
Lemma padd_cancel_l P Q R : on_curve P -> on_curve Q -> on_curve R -> padd R P = padd R Q -> P = Q.
Proof. intros HP HQ HR E. apply (padd_cancel P Q R); auto. rewrite (padd_comm P R), (padd_comm Q R) by auto. exact E. Qed.
Lemma pneg_unique P Q : on_curve P -> on_curve Q -> padd P Q = Oinf -> Q = pneg P.
Proof. intros HP HQ E. apply (padd_cancel_l _ _ P); auto using on_pneg. now rewrite padd_neg. Qed.
Lemma pneg_padd P Q : on_curve P -> on_curve Q -> pneg (padd P Q) = padd (pneg P) (pneg Q).
Proof.
  intros HP HQ. symmetry. apply pneg_unique; auto using on_padd, on_pneg.
  rewrite (padd_comm (pneg P)) by auto using on_pneg.
  rewrite padd_assoc by auto using on_padd, on_pneg. rewrite <- (padd_assoc Q) by auto using on_pneg.
  rewrite padd_neg by auto. cbn [padd]. rewrite padd_neg; auto.
Qed.

Lemma on_nmul k P : on_curve P -> on_curve (nmul k P).
Proof. intros HP. induction k; [exact I|]. cbn. apply on_padd; auto. Qed.
Lemma nmul_S k P : nmul (S k) P = padd P (nmul k P). Proof. reflexivity. Qed.
Lemma nmul_add i j P : on_curve P -> nmul (i + j) P = padd (nmul i P) (nmul j P).
Proof.
  intros HP. induction i; [reflexivity|]. rewrite Nat.add_succ_l, !nmul_S, IHi. symmetry. apply padd_assoc; auto using on_nmul.
Qed.
Lemma on_smul k P : on_curve P -> on_curve (smul k P).
Proof. intros HP. destruct k; cbn; auto using on_nmul, on_pneg. Qed.
Lemma smul_nat k P : smul (Z.of_nat k) P = nmul k P.
Proof. destruct k; [reflexivity|]. cbn [Z.of_nat smul]. now rewrite SuccNat2Pos.id_succ. Qed.
Lemma smul_0 P : smul 0 P = Oinf. Proof. reflexivity. Qed.
Lemma smul_1 P : smul 1 P = P. Proof. cbn. apply padd_Oinf_r. Qed.
Lemma pneg_inf : pneg Oinf = Oinf. Proof. reflexivity. Qed.
Lemma smul_opp k P : on_curve P -> smul (- k) P = pneg (smul k P).
Proof. intros HP. destruct k; cbn; auto. symmetry. apply pneg_pneg. now apply on_nmul. Qed.
Lemma smul_succ k P : on_curve P -> smul (Z.succ k) P = padd P (smul k P).
Proof.
  intros HP. destruct (Z_le_gt_dec 0 k) as [H|H].
  - rewrite <- (Z2Nat.id k H). rewrite <- Nat2Z.inj_succ, !smul_nat. apply nmul_S.
  - assert (E : k = - Z.of_nat (S (Z.to_nat (- k - 1)))) by lia.
    assert (E2 : Z.succ k = - Z.of_nat (Z.to_nat (- k - 1))) by lia.
    rewrite E2, E. rewrite !smul_opp, !smul_nat by auto. rewrite nmul_S.
    replace (Z.to_nat _) with (Z.to_nat (- k - 1)) by (f_equal; lia).
    rewrite pneg_padd by auto using on_nmul. rewrite <- padd_assoc by auto using on_nmul, on_pneg. rewrite padd_neg; auto.
Qed.
Lemma smul_pred k P : on_curve P -> smul (Z.pred k) P = padd (pneg P) (smul k P).
Proof.
  intros HP. rewrite <- (Z.succ_pred k) at 2. rewrite smul_succ, <- padd_assoc by auto using on_pneg, on_smul.
  rewrite (padd_comm (pneg P)), padd_neg by auto using on_pneg. reflexivity.
Qed.
Theorem smul_add i j P : on_curve P -> smul (i + j) P = padd (smul i P) (smul j P).
Proof.
  intros HP. revert i. apply Z.peano_ind.
  - reflexivity.
  - intros i IH. rewrite Z.add_succ_l, !smul_succ, IH by auto. symmetry. apply padd_assoc; auto using on_smul.
  - intros i IH. rewrite Z.add_pred_l, !smul_pred, IH by auto. symmetry. apply padd_assoc; auto using on_smul, on_pneg.
Qed.
Theorem smul_mul i j P : on_curve P -> smul (i * j) P = smul i (smul j P).
Proof.
  intros HP. revert i. apply Z.peano_ind.
  - reflexivity.
  - intros i IH. rewrite Z.mul_succ_l, Z.add_comm, smul_add, IH by auto. symmetry. apply smul_succ. now apply on_smul.
  - intros i IH. rewrite Z.mul_pred_l. replace (i * j - j) with (- j + i * j) by ring. rewrite smul_add, IH, smul_opp by auto.
    symmetry. apply smul_pred. now apply on_smul.
Qed.
Lemma smul_padd k P Q : on_curve P -> on_curve Q -> smul k (padd P Q) = padd (smul k P) (smul k Q).
Proof.
  intros HP HQ. revert k.
  assert (G : forall A B C D, on_curve A -> on_curve B -> on_curve C -> on_curve D ->
     padd (padd A B) (padd C D) = padd (padd A C) (padd B D)).
  { intros A B C D HA HB HC HD. rewrite !padd_assoc by auto using on_padd. f_equal. rewrite <- !padd_assoc by auto. f_equal. now apply padd_comm. }
  apply Z.peano_ind.
  - reflexivity.
  - intros k IH. rewrite !smul_succ, IH by auto using on_padd. apply G; auto using on_smul.
  - intros k IH. rewrite !smul_pred, IH, pneg_padd by auto using on_padd. apply G; auto using on_smul, on_pneg.
Qed.
Lemma smul_inf k : smul k Oinf = Oinf.
Proof. assert (G : forall j, nmul j Oinf = Oinf) by (induction j; cbn; auto). destruct k; cbn; rewrite ?G; reflexivity. Qed.

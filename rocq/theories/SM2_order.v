(** The order of the SM2 base point is the prime n, and the curve has exactly n points (cofactor 1):
    every on-curve point is a multiple of G and is annihilated by n. *)
From Coq Require Import ZArith Lia Znumtheory List Field Zpow_facts.
From Verif Require Import NT Prime_cert Fp EC_group SM2_curve_spec SM2_group Jacobian SM2_jac.
Import ListNotations.
Local Open Scope Z_scope.
Local Notation p := sm2_p.
Local Notation n := sm2_n.
Local Notation F := (Fp p).
Local Notation mk := (mkf p p_gt3).
Local Notation f0 := (F0 p p_gt3). Local Notation f1 := (F1 p p_gt3).
Local Notation fadd := (Fadd p p_gt3). Local Notation fmul := (Fmul p p_gt3). Local Notation fsub := (Fsub p p_gt3).
Local Notation fopp := (Fopp p p_gt3). Local Notation fdiv := (Fdiv p p_gt3). Local Notation finv := (Finv p p_gt3).
Local Notation eadd := (add F f1 fadd fmul fsub fopp fdiv (F_dec p) fa).

Add Field Fpf2 : FT.
#[local] Opaque zrange.
(** ** The curve has at most 2p+1 points *)
Definition univ : list pt :=
  Oinf :: flat_map (fun x => match find (fun y => (y * y) mod p =? (x * x * x + sm2_a * x + sm2_b) mod p) (zrange p) with
                             | Some y => [Pt x y; Pt x ((- y) mod p)] | None => [] end) (zrange p).
Lemma univ_length : Z.of_nat (length univ) <= 2 * p + 1.
Proof.
  pose proof p_gt3. unfold univ. cbn [length]. set (f := fun x => _).
  assert (G : forall l, (length (flat_map f l) <= 2 * length l)%nat).
  { induction l as [|v l IH]; cbn [flat_map length]; [lia|]. rewrite app_length.
    unfold f at 1. destruct (find _ _); cbn [length]; lia. }
  specialize (G (zrange p)). rewrite zrange_length in G. lia.
Qed.
Lemma univ_in P : on_curve P -> In P univ.
Proof.
  destruct P as [|x y]; [left; reflexivity|]. intros (Hx & Hy & E). apply in_cons. refine (proj2 (in_flat_map _ _ _) _). exists x. split; [now apply zrange_in|].
  destruct (find _ _) as [y0|] eqn:Ef.
  - apply find_some in Ef as [Hin Ef]. apply zrange_in_inv in Hin. apply Z.eqb_eq in Ef.
    assert (Hd : (p | (y - y0) * (y + y0))).
    { apply Z.mod_divide; [lia|]. replace ((y - y0) * (y + y0)) with (y * y - y0 * y0) by ring.
      rewrite Zminus_mod, E, Ef, Z.sub_diag. apply Zmod_0_l. }
    apply prime_mult in Hd; [|exact sm2_p_prime]. destruct Hd as [[c Hc]|[c Hc]].
    + left. f_equal. assert (c = 0) by nia. subst c. lia.
    + right. left. f_equal. assert (Ec : y = - y0 + c * p) by lia. rewrite <- (Z.mod_small y p) by lia. rewrite Ec. symmetry. apply Z_mod_plus_full.
  - exfalso. assert (H := find_none _ _ Ef y (zrange_in p y Hy)). cbn beta in H. rewrite E, Z.eqb_refl in H. discriminate.
Qed.
Lemma pt_dec (P Q : pt) : {P = Q} + {P <> Q}.
Proof. decide equality; apply Z.eq_dec. Qed.

(** coset of <G> *)
Definition coset (A : pt) : list pt := map (fun k => padd A (smul k pG)) (zrange n).
Lemma coset_in A k : on_curve A -> In (padd A (smul k pG)) (coset A).
Proof.
  intros HA. pose proof n_gt3. apply in_map_iff. exists (k mod n). split; [|apply zrange_in, Z.mod_pos_bound; lia].
  f_equal. apply smul_mod_gen; [exact G_on|exact nG].
Qed.
Lemma zrange_NoDup q : NoDup (zrange q).
Proof. Transparent zrange. unfold zrange. apply FinFun.Injective_map_NoDup; [intros i j; lia|apply seq_NoDup]. Qed.
#[local] Opaque zrange.
Lemma NoDup_map_inj {A B} (f : A -> B) l : (forall x y, In x l -> In y l -> f x = f y -> x = y) -> NoDup l -> NoDup (map f l).
Proof.
  intros Hi Hn. induction Hn as [|x l Hx Hn IH]; cbn; constructor.
  - intros H. apply in_map_iff in H as (y & E & Hy). apply Hi in E; cbn; auto. subst. contradiction.
  - apply IH. intros; apply Hi; cbn; auto.
Qed.
Lemma coset_NoDup A : on_curve A -> NoDup (coset A).
Proof.
  intros HA. apply NoDup_map_inj; [|apply zrange_NoDup]. intros x y Hx%zrange_in_inv Hy%zrange_in_inv E.
  apply padd_cancel_l in E; auto using on_smul, G_on. apply kG_inj in E. apply Z.mod_divide in E; [|lia]. destruct E as [c Hc].
  assert (c = 0) by nia. subst c. lia.
Qed.
Lemma coset_length A : Z.of_nat (length (coset A)) = n.
Proof. pose proof n_gt3. unfold coset. rewrite map_length, zrange_length. lia. Qed.
Lemma coset_on A Q : on_curve A -> In Q (coset A) -> on_curve Q.
Proof. intros HA H. unfold coset in H. rewrite in_map_iff in H. destruct H as (k & <- & _). apply on_padd; [exact HA|apply on_smul, G_on]. Qed.
Lemma coset_ex A Q : In Q (coset A) -> exists k, Q = padd A (smul k pG).
Proof. intros H. unfold coset in H. rewrite in_map_iff in H. destruct H as (k & <- & _). now exists k. Qed.
Lemma n_half : 2 * ((n + 1) / 2) = n + 1. Proof. Transparent sm2_n. vm_compute. reflexivity. Qed.
#[global] Opaque sm2_n.
#[local] Opaque coset univ.
Definition in_gen (P : pt) : Prop := exists k, P = smul k pG.
Lemma in_gen_dec P : on_curve P -> {in_gen P} + {~ in_gen P}.
Proof.
  intros HP. destruct (in_dec pt_dec P (coset Oinf)) as [H|H].
  - left. apply coset_ex in H as (k & E). now exists k.
  - right. intros [k ->]. apply H. apply (coset_in Oinf k I).
Qed.
Lemma coset_disjoint A B : on_curve A -> on_curve B -> ~ in_gen (padd A (pneg B)) -> forall P, In P (coset A) -> ~ In P (coset B).
Proof.
  intros HA HB Hn P H1 H2. apply coset_ex in H1 as (i & ->). apply coset_ex in H2 as (j & E). symmetry in E. apply Hn. exists (j - i).
  apply (padd_cancel _ _ B); auto using on_smul, on_padd, on_pneg, G_on.
  rewrite padd_assoc by auto using on_pneg. rewrite (padd_comm (pneg B)), padd_neg, padd_Oinf_r by auto using on_pneg.
  apply (padd_cancel _ _ (smul i pG)); auto using on_smul, on_padd, G_on. rewrite <- E.
  rewrite (padd_comm (smul (j - i) pG) B), padd_assoc, <- smul_add by auto using on_smul, G_on.
  replace (j - i + i) with j by ring. reflexivity.
Qed.
Lemma in_gen_sub A B : in_gen A -> in_gen B -> in_gen (padd A (pneg B)).
Proof. intros [i ->] [j ->]. exists (i + - j). now rewrite smul_add, smul_opp by apply G_on. Qed.
Lemma NoDup_app_intro {A} (l m : list A) : NoDup l -> NoDup m -> (forall x, In x l -> ~ In x m) -> NoDup (l ++ m).
Proof.
  intros Hl Hm H. induction Hl as [|x l Hx Hl IH]; cbn; auto. constructor.
  - rewrite in_app_iff. intros [|]; [contradiction|]. apply (H x); cbn; auto.
  - apply IH. intros; apply H; cbn; auto.
Qed.
(** ** No point of order 2: the discriminant is a square, so one root of the cubic would bring a second one, and the
    three cosets of <G> would not fit on the curve. *)
Definition disc_root : Z := 84448183732006476255187754120482420035740127334394457991595955603021464669527.
Lemma disc_root_ok : ((disc_root * disc_root + (4 * (sm2_a * sm2_a * sm2_a) + 27 * (sm2_b * sm2_b))) mod p =? 0) = true.
Proof. Transparent sm2_p. vm_compute. reflexivity. Qed.
#[global] Opaque sm2_p. #[local] Opaque disc_root sm2_a sm2_b.
Definition fcub (x : F) : F := fadd (fadd (fmul (fmul x x) x) (fmul fa x)) fb.
Lemma second_rootF r : fcub r = f0 -> exists r2, fcub r2 = f0 /\ r2 <> r.
Proof.
  intros Hr. apply (second_root F f0 f1 fadd fmul fsub fopp fdiv finv FT (F_dec p) fa Ftwo fb r (mk disc_root)); [exact Hr| |exact nonsing].
  pose proof disc_root_ok as E. apply Z.eqb_eq in E.
  apply (fsub_eq0 F f0 f1 fadd fmul fsub fopp fdiv finv FT). transitivity (mk (disc_root * disc_root + (4 * (sm2_a * sm2_a * sm2_a) + 27 * (sm2_b * sm2_b)))).
  - repeat rewrite <- ?mkf_add, <- ?mkf_mul. replace (mk 27) with (fmul (fmul (fadd (fadd f1 f1) f1) (fadd (fadd f1 f1) f1)) (fadd (fadd f1 f1) f1)).
    + rewrite mk_const4. change (mk sm2_a) with fa. change (mk sm2_b) with fb. ring.
    + unfold F1. rewrite !mkf_add, !mkf_mul. reflexivity.
  - apply mk_zero. exact E.
Qed.
Lemma two_torsion_y x y : on_curve (Pt x y) -> padd (Pt x y) (Pt x y) = Oinf -> y = 0 /\ fcub (mk x) = f0.
Proof.
  intros HP E. pose proof (proj1 (on_curve_F _) HP) as [cP oP]. apply (f_equal ptF) in E. rewrite ptF_add in E by auto.
  cbn [ptF add] in E. destruct (F_dec p (mk x) (mk x)) as [_|]; [|congruence].
  destruct (F_dec p (mk y) (fopp (mk y))) as [Ey|_]; [|discriminate].
  apply (self_opp F f0 f1 fadd fmul fsub fopp fdiv finv FT (F_dec p) Ftwo) in Ey. split.
  - apply mk_zero in Ey. cbn [canon] in cP. rewrite Z.mod_small in Ey; tauto.
  - cbn [ptF on] in oP. unfold fcub. rewrite <- oP, Ey. ring.
Qed.
Lemma root_point r : fcub r = f0 -> on_curve (Pt (fval p r) 0) /\ padd (Pt (fval p r) 0) (Pt (fval p r) 0) = Oinf.
Proof.
  intros Hr. pose proof p_gt3. split.
  - apply on_curve_F. cbn [canon ptF on]. rewrite mkf_fval. split; [split; [apply fval_range|lia]|]. change (mk 0) with f0.
    transitivity (fcub r); [rewrite Hr; ring|reflexivity].
  - unfold padd. rewrite Z.eqb_refl. cbn [Z.add]. rewrite Zmod_0_l. reflexivity.
Qed.
Lemma two_torsion_gen T : on_curve T -> padd T T = Oinf -> in_gen T -> T = Oinf.
Proof.
  intros HT E [k ->]. rewrite <- smul_add in E by apply G_on. apply kG_zero in E. apply kG_zero.
  replace (k + k) with (2 * k) in E by ring. apply prime_mult in E as [E|E]; [|exact E|exact sm2_n_prime].
  apply Z.divide_pos_le in E; [|lia]. pose proof n_gt3. lia.
Qed.
Lemma pneg_two T : on_curve T -> padd T T = Oinf -> padd (pneg T) (pneg T) = Oinf.
Proof. intros HT E. rewrite <- pneg_padd, E by auto. reflexivity. Qed.
Lemma padd_two T U : on_curve T -> on_curve U -> padd T T = Oinf -> padd U U = Oinf -> padd (padd T U) (padd T U) = Oinf.
Proof.
  intros HT HU E1 E2. rewrite padd_assoc, (padd_comm T U), <- (padd_assoc U U T), E2 by auto using on_padd. rewrite padd_Oinf_l. exact E1.
Qed.
Theorem no_two_torsion P : on_curve P -> padd P P = Oinf -> P = Oinf.
Proof.
  intros HP E. destruct P as [|x y]; auto. exfalso.
  destruct (two_torsion_y x y HP E) as [-> Hr]. destruct (second_rootF _ Hr) as (r2 & Hr2 & Hne).
  destruct (root_point r2 Hr2) as [HQ EQ].
  assert (NPQ : Pt x 0 <> Pt (fval p r2) 0). { intros EE. injection EE as EE. apply Hne. rewrite <- (mkf_fval p p_gt3 r2), EE. reflexivity. }
  set (P := Pt x 0) in *. set (Q := Pt (fval p r2) 0) in *.
  assert (NP : P <> Oinf) by discriminate. assert (NQ : Q <> Oinf) by discriminate. clearbody P Q.
  assert (G1 : ~ in_gen (padd Oinf (pneg P))).
  { rewrite padd_Oinf_l. intros H. apply NP. apply two_torsion_gen in H; auto using on_pneg, pneg_two. rewrite <- (pneg_pneg P HP), H. reflexivity. }
  assert (G2 : ~ in_gen (padd Oinf (pneg Q))).
  { rewrite padd_Oinf_l. intros H. apply NQ. apply two_torsion_gen in H; auto using on_pneg, pneg_two. rewrite <- (pneg_pneg Q HQ), H. reflexivity. }
  assert (G3 : ~ in_gen (padd P (pneg Q))).
  { intros H. apply NPQ. apply two_torsion_gen in H; auto using on_pneg, on_padd, padd_two, pneg_two.
    apply (padd_cancel P Q (pneg Q)); auto using on_pneg. rewrite H. symmetry. now apply padd_neg. }
  assert (ND : NoDup (coset Oinf ++ (coset P ++ coset Q))).
  { apply NoDup_app_intro; [exact (coset_NoDup Oinf I)| |].
    - apply NoDup_app_intro; [exact (coset_NoDup P HP)|exact (coset_NoDup Q HQ)|]. exact (coset_disjoint P Q HP HQ G3).
    - intros R HR HR2. rewrite in_app_iff in HR2. destruct HR2 as [HR2|HR2].
      + exact (coset_disjoint Oinf P I HP G1 R HR HR2).
      + exact (coset_disjoint Oinf Q I HQ G2 R HR HR2). }
  assert (L : (length (coset Oinf ++ (coset P ++ coset Q)) <= length univ)%nat).
  { apply (NoDup_incl_length ND). intros R HR. apply univ_in. rewrite !in_app_iff in HR.
    destruct HR as [HR|[HR|HR]]; [exact (coset_on Oinf R I HR)|exact (coset_on P R HP HR)|exact (coset_on Q R HQ HR)]. }
  rewrite !app_length in L. pose proof (coset_length Oinf). pose proof (coset_length P). pose proof (coset_length Q).
  pose proof univ_length. pose proof p_lt_3n. lia.
Qed.
(** the curve group is generated by G *)
Theorem curve_cyclic P : on_curve P -> exists k, 0 <= k < n /\ P = smul k pG.
Proof.
  intros HP. pose proof n_gt3 as Hn3.
  assert (Gen : in_gen P).
  { destruct (in_gen_dec P HP) as [|HN]; auto. exfalso.
    assert (HPP : on_curve (padd P P)) by auto using on_padd.
    destruct (in_gen_dec (padd P P) HPP) as [[j Ej]|HN2].
    - (* T = P - (j/2) G has order 2 *)
      set (i := j * ((n + 1) / 2)).
      set (T := padd P (pneg (smul i pG))).
      assert (HT : on_curve T) by (unfold T; auto using on_padd, on_pneg, on_smul, G_on).
      assert (ET : padd T T = Oinf).
      { unfold T. rewrite <- smul_opp by apply G_on.
        rewrite padd_assoc, (padd_comm (smul (-i) pG)) by auto using on_smul, on_padd, G_on.
        rewrite padd_assoc, <- smul_add by auto using on_smul, on_padd, G_on.
        rewrite <- padd_assoc, Ej, <- smul_add by auto using on_smul, on_padd, G_on.
        apply kG_zero. exists (- j). unfold i.
        pose proof n_half as Hodd. remember ((n + 1) / 2) as h eqn:Hh. clear Hh.
        nia. }
      apply no_two_torsion in ET; auto. apply HN. exists i. unfold T in ET.
      apply (padd_cancel _ _ (pneg (smul i pG))); auto using on_smul, on_pneg, G_on. rewrite ET. symmetry. apply padd_neg, on_smul, G_on.
    - (* three disjoint cosets *)
      assert (ND : NoDup (coset Oinf ++ (coset P ++ coset (padd P P)))).
      { apply NoDup_app_intro; [apply coset_NoDup; exact I| |].
        - apply NoDup_app_intro; [exact (coset_NoDup P HP)|exact (coset_NoDup _ HPP)|]. refine (coset_disjoint P (padd P P) HP HPP _).
          intros H. apply HN. assert (E : padd P (pneg (padd P P)) = pneg P).
          { rewrite pneg_padd, <- padd_assoc, padd_neg by auto using on_pneg. reflexivity. }
          rewrite E in H. destruct H as [k Hk]. exists (- k). rewrite smul_opp, <- Hk by apply G_on. symmetry. now apply pneg_pneg.
        - intros Q HQ HQ2. apply in_app_iff in HQ2 as [HQ2|HQ2].
          + revert HQ2. refine (coset_disjoint Oinf P I HP _ Q HQ). rewrite padd_Oinf_l. intros [k Hk]. apply HN. exists (- k).
            rewrite smul_opp, <- Hk by apply G_on. symmetry. now apply pneg_pneg.
          + revert HQ2. refine (coset_disjoint Oinf (padd P P) I HPP _ Q HQ). rewrite padd_Oinf_l. intros [k Hk]. apply HN2. exists (- k).
            rewrite smul_opp, <- Hk by apply G_on. symmetry. now apply pneg_pneg. }
      assert (L : (length (coset Oinf ++ (coset P ++ coset (padd P P))) <= length univ)%nat).
      { apply (NoDup_incl_length ND). intros Q HQ. apply univ_in.
        rewrite !in_app_iff in HQ.
        destruct HQ as [HQ|[HQ|HQ]]; [exact (coset_on Oinf Q I HQ)|exact (coset_on P Q HP HQ)|exact (coset_on _ Q HPP HQ)]. }
      rewrite !app_length in L. pose proof (coset_length Oinf). pose proof (coset_length P). pose proof (coset_length (padd P P)).
      pose proof univ_length. pose proof p_lt_3n. lia. }
  destruct Gen as [k ->]. exists (k mod n). split; [apply Z.mod_pos_bound; lia|]. symmetry. apply smul_mod_gen; [exact G_on|exact nG].
Qed.
#[global] Opaque sm2_n.
Theorem nP P : on_curve P -> smul n P = Oinf.
Proof.
  intros HP. destruct (curve_cyclic P HP) as (k & _ & ->). rewrite <- smul_mul by apply G_on.
  rewrite Z.mul_comm, smul_mul, nG by apply G_on. apply smul_inf.
Qed.
Theorem kP_zero k P : on_curve P -> P <> Oinf -> smul k P = Oinf <-> (n | k).
Proof. intros HP HO. apply smul_zero_gen; auto. now apply nP. Qed.
Theorem smul_mod k P : on_curve P -> smul (k mod n) P = smul k P.
Proof. intros HP. apply smul_mod_gen; auto. now apply nP. Qed.

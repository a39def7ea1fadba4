(** The window algorithms of P256_model over exact field arithmetic compute scalar multiples. *)
From Coq Require Import ZArith Lia Znumtheory List Bool.
From Verif Require Import NT Prime_cert Fp EC_group SM2_curve_spec SM2_group Jacobian SM2_jac SM2_order.
From Verif Require Import GoBase P256_field_model P256_model P256_abs P256_recode P256_ideal.
Import ListNotations.
Local Open Scope Z_scope.
Local Notation p := sm2_p.
Local Notation n := sm2_n.
Local Notation F := (Fp p).
Local Notation f0 := (F0 p p_gt3). Local Notation f1 := (F1 p p_gt3).
Local Notation mk := (mkf p p_gt3).

Lemma n_bounds : 2 ^ 256 - 2 ^ 225 < n < 2 ^ 256 - 2 ^ 223 /\ n mod 32 = 3.
Proof. Transparent sm2_n. vm_compute. repeat split; reflexivity. Qed.
Lemma wN_n : wN = n. Proof. reflexivity. Qed.
Lemma wP_p : wP = p. Proof. Transparent sm2_p. reflexivity. Qed.
#[local] Opaque sm2_n sm2_p wN wP.
Lemma n_odd : exists h, n = 2 * h + 1.
Proof. destruct n_bounds as [_ Hm]. exists (n / 2). pose proof (Z.div_mod n 32 ltac:(lia)). pose proof (Z.div_mod n 2 ltac:(lia)). pose proof (Z.mod_pos_bound n 2 ltac:(lia)). lia. Qed.
Lemma n_prime' : prime n. Proof. exact sm2_n_prime. Qed.
Lemma ndiv_small z : z <> 0 -> - n < z < n -> ~ (n | z).
Proof. intros Hz Hb [q E]. assert (q = 0) by nia. subst. lia. Qed.

Section PT.
Variable P : pt.
Hypothesis HP : on_curve P.
Hypothesis NP : P <> Oinf.
Local Notation "[ k ]" := (smul k P).
Lemma kP_on k : on_curve [k]. Proof. now apply on_smul. Qed.
Lemma kP_O k : [k] = Oinf <-> (n | k). Proof. now apply kP_zero. Qed.
Lemma kP_eq j k : [j] = [k] <-> (n | j - k).
Proof.
  rewrite <- kP_O. replace (j - k) with (j + - k) by ring. rewrite smul_add, smul_opp by assumption. split; intros E.
  - rewrite E. apply padd_neg, kP_on.
  - apply pneg_unique in E; [|apply kP_on|apply on_pneg, kP_on].
    rewrite <- (pneg_pneg [k]), E by apply kP_on. now rewrite pneg_pneg by apply kP_on.
Qed.
Lemma repr_iter m : forall t k, repr t [k] -> repr (Nat.iter m (pointDouble I) t) [2 ^ Z.of_nat m * k].
Proof.
  induction m as [|m IH]; intros t k HR; [change (repr t [1 * k]); now rewrite Z.mul_1_l|].
  change (Nat.iter (Datatypes.S m) (pointDouble I) t) with (pointDouble I (Nat.iter m (pointDouble I) t)).
  specialize (IH t k HR). apply I_dbl in IH; [|apply kP_on]. rewrite <- smul_add in IH by assumption.
  rewrite Nat2Z.inj_succ, Z.pow_succ_r by lia. replace (2 * 2 ^ Z.of_nat m * k) with (2 ^ Z.of_nat m * k + 2 ^ Z.of_nat m * k) by ring. exact IH.
Qed.
Lemma repr_dbl t k : repr t [k] -> repr (pointDouble I t) [2 * k].
Proof. intros HR. exact (repr_iter 1 t k HR). Qed.
Lemma repr_add t u j k : repr t [j] -> repr u [k] -> ~ (n | j) -> ~ (n | k) -> ~ (n | j - k) -> repr (fst (pointAdd I t u)) [j + k].
Proof.
  intros Ht Hu Nj Nk Njk. rewrite smul_add by assumption. apply I_add; auto using kP_on.
  - now rewrite kP_O. - now rewrite kP_O. - now rewrite kP_eq.
Qed.
Lemma repr_pzero : repr (pzero I) [0].
Proof.
  change (jtoaff F f0 (Fmul p p_gt3) (Fdiv p p_gt3) (F_dec p) f0 f0 f0 = Inf F). unfold jtoaff. destruct (F_dec p f0 f0) as [|N]; [reflexivity|congruence].
Qed.

(** ** Width 5 *)
Definition tab5 (T : list (@pnt F)) : Prop := forall j, 1 <= j <= 16 -> repr (select I T j) [j].
Lemma precomp_ok t : repr t P -> tab5 (precomp I t).
Proof.
  intros H1. assert (H1' : repr t [1]) by (now rewrite smul_1). clear H1. rename H1' into H1.
  pose proof n_bounds as [Nb _].
  assert (S : forall z, 0 < z < 64 -> ~ (n | z)) by (intros z Hz; apply ndiv_small; lia).
  assert (A : forall u j, repr u [j] -> 2 <= j < 32 -> repr (fst (pointAdd I u t)) [j + 1]).
  { intros u j Hu Hj. apply repr_add; auto; apply S; lia. }
  unfold precomp.
  pose proof (repr_dbl t 1 H1) as R2. change (2 * 1) with 2 in R2. set (e2 := pointDouble I t) in *.
  pose proof (repr_dbl e2 2 R2) as R4. change (2 * 2) with 4 in R4. set (e4 := pointDouble I e2) in *.
  pose proof (repr_dbl e4 4 R4) as R8. change (2 * 4) with 8 in R8. set (e8 := pointDouble I e4) in *.
  pose proof (repr_dbl e8 8 R8) as R16. change (2 * 8) with 16 in R16. set (e16 := pointDouble I e8) in *.
  pose proof (A e2 2 R2 ltac:(lia)) as R3. change (2 + 1) with 3 in R3. set (e3 := fst (pointAdd I e2 t)) in *.
  pose proof (A e4 4 R4 ltac:(lia)) as R5. change (4 + 1) with 5 in R5. set (e5 := fst (pointAdd I e4 t)) in *.
  pose proof (A e8 8 R8 ltac:(lia)) as R9. change (8 + 1) with 9 in R9. set (e9 := fst (pointAdd I e8 t)) in *.
  pose proof (repr_dbl e3 3 R3) as R6. change (2 * 3) with 6 in R6. set (e6 := pointDouble I e3) in *.
  pose proof (repr_dbl e5 5 R5) as R10. change (2 * 5) with 10 in R10. set (e10 := pointDouble I e5) in *.
  pose proof (A e6 6 R6 ltac:(lia)) as R7. change (6 + 1) with 7 in R7. set (e7 := fst (pointAdd I e6 t)) in *.
  pose proof (A e10 10 R10 ltac:(lia)) as R11. change (10 + 1) with 11 in R11. set (e11 := fst (pointAdd I e10 t)) in *.
  pose proof (repr_dbl e6 6 R6) as R12. change (2 * 6) with 12 in R12. set (e12 := pointDouble I e6) in *.
  pose proof (repr_dbl e7 7 R7) as R14. change (2 * 7) with 14 in R14. set (e14 := pointDouble I e7) in *.
  pose proof (A e12 12 R12 ltac:(lia)) as R13. change (12 + 1) with 13 in R13. set (e13 := fst (pointAdd I e12 t)) in *.
  pose proof (A e14 14 R14 ltac:(lia)) as R15. change (14 + 1) with 15 in R15. set (e15 := fst (pointAdd I e14 t)) in *.
  clearbody e2 e3 e4 e5 e6 e7 e8 e9 e10 e11 e12 e13 e14 e15 e16. cbv zeta.
  intros j Hj. unfold select. destruct (Z.eqb_spec j 0); [lia|].
  assert (Hc : j = 1 \/ j = 2 \/ j = 3 \/ j = 4 \/ j = 5 \/ j = 6 \/ j = 7 \/ j = 8 \/ j = 9 \/ j = 10 \/ j = 11 \/ j = 12 \/ j = 13 \/ j = 14 \/ j = 15 \/ j = 16) by lia.
  repeat (destruct Hc as [ -> | Hc ]; [assumption|]). subst j. assumption.
Qed.
(** one window; d is the signed digit, q the prefix read so far *)
Lemma smStep_ok T e pp zero q : tab5 T -> 0 <= e < 64 -> repr pp [q] -> 0 <= q -> (zero = 0 <-> q = 0) ->
  let d := bdigit 5 e in
  (q = 0 -> 0 <= d) -> (q <> 0 -> ~ (n | 32 * q)) ->
  let r := smStep I T e pp zero in
  (snd r = 0 <-> 32 * q + d = 0) /\
  ((q <> 0 -> d <> 0 -> ~ (n | 32 * q - d)) -> repr (fst r) [32 * q + d]) /\
  (q <> 0 -> d <> 0 -> (n | 32 * q - d) -> repr (fst r) Oinf).
Proof.
  intros HT He Hp Hq Hz d Hd0 Hinf.
  destruct (booth_ok 5 e (or_introl eq_refl) He) as [Hb Hs]. change (2 ^ (5 - 1)) with 16 in Hs.
  unfold smStep. destruct (booth 5 e) as [sel sign]. cbn [fst snd] in Hb, Hs. fold d in Hb.
  pose proof (repr_iter 5 pp q Hp) as Hp5. change (2 ^ Z.of_nat 5) with 32 in Hp5.
  set (pp5 := Nat.iter 5 (pointDouble I) pp) in *. clearbody pp5.
  assert (Hsel : repr (select I T sel) [sel]).
  { destruct (Z.eq_dec sel 0) as [ -> |Ns]; [exact repr_pzero|]. apply HT. lia. }
  destruct (select I T sel) as [[x y] z].
  assert (Ht0 : repr (x, (if sign =? 0 then y else o_neg I y), z) [d]).
  { rewrite <- Hb. unfold dsig. destruct (sign =? 0); [exact Hsel|]. rewrite smul_opp by assumption. exact (I_neg _ _ _ _ Hsel). }
  set (t0 := (x, (if sign =? 0 then y else o_neg I y), z)) in *. clearbody t0.
  assert (Hds : d = 0 <-> sel = 0) by (rewrite <- Hb; unfold dsig; destruct (sign =? 0); lia).
  assert (Hdb : - 16 <= d <= 16) by (rewrite <- Hb; unfold dsig; destruct (sign =? 0); lia).
  cbv zeta. cbn [fst snd]. split; [|split].
  - rewrite Z.lor_eq_0_iff, Hz. destruct (Z.eq_dec q 0) as [ -> |Nq]; [lia|]. split; [tauto|]. intros E. exfalso. lia.
  - intros Hne. destruct (Z.eqb_spec zero 0) as [Ez|Nz].
    + assert (Eq : q = 0) by tauto. subst q. rewrite Z.mul_0_r, Z.add_0_l. exact Ht0.
    + assert (Nq : q <> 0) by tauto. destruct (Z.eqb_spec sel 0) as [Es|Ns].
      * assert (d = 0) by tauto. replace (32 * q + d) with (32 * q) by lia. exact Hp5.
      * assert (Nd : d <> 0) by tauto. apply repr_add; auto. apply ndiv_small; [exact Nd|]. pose proof n_bounds. lia.
  - intros Nq Nd Hdiv. destruct (Z.eqb_spec zero 0) as [Ez|Nz]; [tauto|]. destruct (Z.eqb_spec sel 0) as [Es|Ns]; [tauto|].
    apply (I_add_same _ _ [32 * q]).
    + exact Hp5.
    + assert (E : [32 * q] = [d]) by (apply kP_eq; exact Hdiv). rewrite E. exact Ht0.
    + rewrite kP_O. auto.
Qed.
Lemma rq5_bounds k i : 0 <= k < n -> 1 <= i -> 32 * 2 ^ (5 * (i - 1)) * rq 5 k i <= k + 16 * 2 ^ (5 * (i - 1)).
Proof.
  intros Hk Hi. pose proof (rq_round 5 k i ltac:(lia) ltac:(lia) ltac:(lia)) as Hr.
  replace (5 * i) with (5 * (i - 1) + 5) in Hr by lia. rewrite Z.pow_add_r in Hr by lia. change (2 ^ 5) with 32 in Hr.
  set (D := 2 ^ (5 * (i - 1))) in *. clearbody D. nia.
Qed.
(** before the last window no addition is exceptional *)
Lemma step5_generic k i : 0 <= k < n -> 1 <= i -> let q := rq 5 k (i + 1) in let d := bdigit 5 (win 5 k i) in
  (q = 0 -> 0 <= d) /\ (q <> 0 -> ~ (n | 32 * q)) /\ (q <> 0 -> d <> 0 -> ~ (n | 32 * q - d)).
Proof.
  intros Hk Hi q d. pose proof (rq_step 5 k i ltac:(lia) ltac:(lia)) as Hs. fold q in Hs. fold d in Hs. change (2 ^ 5) with 32 in Hs.
  pose proof (rq_nonneg 5 k i ltac:(lia) ltac:(lia) ltac:(lia)) as Hn1. pose proof (rq_nonneg 5 k (i + 1) ltac:(lia) ltac:(lia) ltac:(lia)) as Hn2. fold q in Hn2.
  assert (Hdb : - 16 <= d <= 16).
  { destruct (booth_ok 5 (win 5 k i) (or_introl eq_refl) (win_range 5 k i ltac:(lia))) as [Hb Hr]. fold d in Hb. change (2 ^ (5 - 1)) with 16 in Hr.
    unfold dsig in Hb. destruct (snd (booth 5 (win 5 k i)) =? 0); lia. }
  pose proof (rq5_bounds k (i + 1) Hk ltac:(lia)) as Hb. replace (i + 1 - 1) with i in Hb by ring. fold q in Hb.
  assert (HD : 32 <= 2 ^ (5 * i)). { change 32 with (2 ^ 5). apply Z.pow_le_mono_r; lia. }
  pose proof n_bounds as [Nb _]. set (D := 2 ^ (5 * i)) in *. clearbody D.
  assert (Hq : q <> 0 -> 32 * q < n - 64).
  { intros Nq. assert (D * (32 * q - 16) < n) by nia. nia. }
  split; [lia|]. split; intros Nq; [|intros _]; apply ndiv_small; lia.
Qed.
Lemma smLoop_ok T k : tab5 T -> 0 <= k < n -> forall m i pp zero, 1 <= i - Z.of_nat m -> i <= 51 ->
  repr pp [rq 5 k i] -> (zero = 0 <-> rq 5 k i = 0) ->
  let r := smLoop I T (fromBig k) m (5 * i - 1) pp zero in
  repr (fst r) [rq 5 k (i - Z.of_nat m)] /\ (snd r = 0 <-> rq 5 k (i - Z.of_nat m) = 0).
Proof.
  intros HT Hk. pose proof n_bounds as [Nb _]. induction m as [|m IH]; intros i pp zero Hm Hi Hp Hz.
  - cbn [smLoop]. cbv zeta. cbn [fst snd Z.of_nat]. rewrite Z.sub_0_r. auto.
  - cbn [smLoop]. replace (5 * i - 1 - 5) with (5 * (i - 1) - 1) by ring.
    change 63 with (Z.ones (5 + 1)). rewrite (wvalue_win 5 k (i - 1) (or_introl eq_refl)) by lia.
    destruct (step5_generic k (i - 1) Hk ltac:(lia)) as (G1 & G2 & G3). replace (i - 1 + 1) with i in G1, G2, G3 by ring.
    pose proof (rq_step 5 k (i - 1) ltac:(lia) ltac:(lia)) as Hs. replace (i - 1 + 1) with i in Hs by ring. change (2 ^ 5) with 32 in Hs.
    pose proof (smStep_ok T (win 5 k (i - 1)) pp zero (rq 5 k i) HT (win_range 5 k (i - 1) ltac:(lia)) Hp
      (rq_nonneg 5 k i ltac:(lia) ltac:(lia) ltac:(lia)) Hz G1 G2) as (S1 & S2 & _).
    specialize (S2 G3). rewrite <- Hs in S1, S2.
    destruct (smStep I T (win 5 k (i - 1)) pp zero) as [q z]. cbn [fst snd] in S1, S2.
    specialize (IH (i - 1) q z ltac:(lia) ltac:(lia) S2 S1).
    replace (i - Z.of_nat (Datatypes.S m)) with (i - 1 - Z.of_nat m) by lia. exact IH.
Qed.
(** the state before the last window *)
Lemma smult_prefix t k : repr t P -> 0 <= k < n ->
  let T := precomp I t in let q := rq 5 k 1 in
  exists pp zero, p256ScalarMult I t (fromBig k) = fst (smStep I T (win 5 k 0) pp zero) /\ tab5 T /\ repr pp [q] /\ (zero = 0 <-> q = 0).
Proof.
  intros Ht Hk T q. pose proof n_bounds as [Nb _]. pose proof (precomp_ok t Ht) as HT. fold T in HT.
  unfold p256ScalarMult. fold T. cbv zeta. replace 254 with (5 * 51 - 1) by reflexivity.
  change 63 with (Z.ones (5 + 1)). rewrite (wvalue_win 5 k 51 (or_introl eq_refl)) by lia.
  destruct (booth_ok 5 (win 5 k 51) (or_introl eq_refl) (win_range 5 k 51 ltac:(lia))) as [Hb Hs].
  pose proof (rq_step 5 k 51 ltac:(lia) ltac:(lia)) as Hst.
  assert (E52 : rq 5 k (51 + 1) = 0).
  { unfold rq. rewrite (Z.div_small (2 * k)) by (split; [lia|change (2 ^ (5 * (51 + 1))) with (2 ^ 260); lia]). reflexivity. }
  rewrite E52 in Hst. rewrite Z.mul_0_r, Z.add_0_l in Hst.
  assert (Hnn : 0 <= rq 5 k 51) by (apply rq_nonneg; lia).
  destruct (booth 5 (win 5 k 51)) as [sel sign]. cbn [fst snd] in Hb, Hs. change (2 ^ (5 - 1)) with 16 in Hs.
  assert (Es : sel = rq 5 k 51).
  { rewrite Hst, <- Hb. unfold dsig. destruct (sign =? 0) eqn:Esg; [reflexivity|].
    unfold dsig in Hb. rewrite Esg in Hb. lia. }
  assert (Hp0 : repr (select I T sel) [rq 5 k 51]).
  { rewrite <- Es. destruct (Z.eq_dec sel 0) as [ -> |Ns]; [exact repr_pzero|]. apply HT. lia. }
  pose proof (smLoop_ok T k HT Hk 50 51 (select I T sel) sel ltac:(lia) ltac:(lia) Hp0 ltac:(rewrite Es; tauto)) as HL.
  change (Z.ones (5 + 1)) with 63.
  destruct (smLoop I T (fromBig k) 50 (5 * 51 - 1) (select I T sel) sel) as [pp zero]. cbv zeta in HL. cbn [fst snd] in HL.
  change (51 - Z.of_nat 50) with 1 in HL. exists pp, zero. destruct HL as [H1 H2].
  split; [|split; [exact HT|split; assumption]].
  change 63 with (Z.ones (5 + 1)). now rewrite (wvalue0_win 5 k (or_introl eq_refl)) by lia.
Qed.
Lemma last5 k : 0 <= k < n -> let q := rq 5 k 1 in let d := bdigit 5 (win 5 k 0) in
  k = 32 * q + d /\ 0 <= q /\ (q = 0 -> 0 <= d) /\ (q <> 0 -> ~ (n | 32 * q)) /\
  (k <> n - 6 -> q <> 0 -> d <> 0 -> ~ (n | 32 * q - d)) /\ (k = n - 6 -> q <> 0 /\ d <> 0 /\ (n | 32 * q - d)).
Proof.
  intros Hk q d. pose proof (rq_step 5 k 0 ltac:(lia) ltac:(lia)) as Hs. rewrite rq_0 in Hs. change (0 + 1) with 1 in Hs. fold q in Hs. fold d in Hs. change (2 ^ 5) with 32 in Hs.
  pose proof (rq_nonneg 5 k 1 ltac:(lia) ltac:(lia) ltac:(lia)) as Hn2. fold q in Hn2.
  assert (Hdb : - 16 <= d <= 16).
  { destruct (booth_ok 5 (win 5 k 0) (or_introl eq_refl) (win_range 5 k 0 ltac:(lia))) as [Hb Hr]. fold d in Hb. change (2 ^ (5 - 1)) with 16 in Hr.
    unfold dsig in Hb. destruct (snd (booth 5 (win 5 k 0)) =? 0); lia. }
  pose proof n_bounds as [Nb Nm]. pose proof (Z.div_mod n 32 ltac:(lia)) as En. rewrite Nm in En. set (h := n / 32) in *. clearbody h.
  assert (Ed : k = n - 6 -> d = -3).
  { intros E. assert (He : win 5 k 0 = 58).
    { unfold win. rewrite Z.mul_0_r. change (2 ^ 0) with 1. rewrite Z.div_1_r. rewrite E, En. replace (2 * (32 * h + 3 - 6)) with (58 + (h - 1) * 2 ^ (5 + 1)) by (change (2 ^ (5 + 1)) with 64; ring).
      rewrite Z.mod_add by (cbn; lia). reflexivity. }
    unfold d. rewrite He. reflexivity. }
  split; [exact Hs|]. split; [exact Hn2|]. split; [lia|]. split.
  { intros Nq [c E]. assert (c = 1) by nia. lia. }
  split.
  - intros Nk Nq Nd [c E]. assert (c = 0 \/ c = 1) as [Hc|Hc] by nia; subst c; lia.
  - intros E. specialize (Ed E). split; [lia|]. split; [lia|]. exists 1. lia.
Qed.
Theorem I_p256ScalarMult t k : repr t P -> 0 <= k < n -> k <> n - 6 -> repr (p256ScalarMult I t (fromBig k)) [k].
Proof.
  intros Ht Hk Nk. destruct (smult_prefix t k Ht Hk) as (pp & zero & E & HT & Hp & Hz). rewrite E.
  destruct (last5 k Hk) as (Ek & Hq & G1 & G2 & G3 & _). specialize (G3 Nk).
  pose proof (smStep_ok _ (win 5 k 0) pp zero _ HT (win_range 5 k 0 ltac:(lia)) Hp Hq Hz G1 G2) as (_ & S2 & _).
  rewrite Ek at 2. exact (S2 G3).
Qed.
(** the exceptional scalar: the last addition adds a point to itself *)
Theorem I_p256ScalarMult_exc t : repr t P -> repr (p256ScalarMult I t (fromBig (n - 6))) Oinf.
Proof.
  intros Ht. assert (Hk : 0 <= n - 6 < n) by (pose proof n_bounds; lia).
  destruct (smult_prefix t _ Ht Hk) as (pp & zero & E & HT & Hp & Hz). rewrite E.
  destruct (last5 _ Hk) as (Ek & Hq & G1 & G2 & _ & G4). destruct (G4 eq_refl) as (N1 & N2 & N3).
  pose proof (smStep_ok _ (win 5 (n - 6) 0) pp zero _ HT (win_range 5 (n - 6) 0 ltac:(lia)) Hp Hq Hz G1 G2) as (_ & _ & S3).
  exact (S3 N1 N2 N3).
Qed.

(** ** Width 7: tables *)
Lemma pow2_ndiv m : ~ (n | 2 ^ Z.of_nat m).
Proof.
  induction m as [|m IH].
  - change (2 ^ Z.of_nat 0) with 1. apply ndiv_small; pose proof n_bounds; lia.
  - rewrite Nat2Z.inj_succ, Z.pow_succ_r by lia. intros Hd. apply prime_mult in Hd; [|exact n_prime'].
    destruct Hd as [Hd|Hd]; [|exact (IH Hd)]. revert Hd. apply ndiv_small; pose proof n_bounds; lia.
Qed.
Lemma pow7_step (i : nat) (k : Z) : 2 ^ (7 * Z.of_nat (Datatypes.S i)) * k = 2 ^ (7 * Z.of_nat i) * (2 ^ Z.of_nat 7 * k).
Proof.
  replace (7 * Z.of_nat (Datatypes.S i)) with (7 * Z.of_nat i + Z.of_nat 7) by lia. rewrite Z.pow_add_r by lia. now rewrite Z.mul_assoc.
Qed.
Lemma tabCol_ok m : forall t k, repr t [k] -> ~ (n | k) -> forall i, (i < m)%nat ->
  exists x y, nth i (tabCol I m t) (f0, f0) = (x, y) /\ repr (x, y, f1) [2 ^ (7 * Z.of_nat i) * k].
Proof.
  induction m as [|m IH]; intros t k Ht Nk i Hi; [lia|]. cbn [tabCol].
  assert (NO : [k] <> Oinf) by (now rewrite kP_O).
  destruct (I_normalize t _ Ht NO) as (x & y & En & Hn). rewrite En. cbn [fst]. destruct i as [|i].
  - exists x, y. split; [reflexivity|]. change (2 ^ (7 * Z.of_nat 0)) with 1. now rewrite Z.mul_1_l.
  - cbn [nth]. pose proof (repr_iter 7 _ _ Hn) as H7.
    assert (N7 : ~ (n | 2 ^ Z.of_nat 7 * k)).
    { intros Hd. apply prime_mult in Hd; [|exact n_prime']. destruct Hd as [Hd|Hd]; [exact (pow2_ndiv 7%nat Hd)|exact (Nk Hd)]. }
    destruct (IH _ _ H7 N7 i ltac:(lia)) as (x' & y' & E' & R'). exists x', y'. split; [exact E'|].
    rewrite (pow7_step i k). exact R'.
Qed.
Lemma tabCols_ok m : forall first base t2 j0, repr base P -> repr t2 [j0] -> 1 <= j0 -> (first = true <-> j0 = 1) -> j0 + Z.of_nat m <= 128 ->
  forall j, (j < m)%nat -> exists t, nth j (tabCols I m first base t2) [] = tabCol I 37 t /\ repr t [j0 + Z.of_nat j].
Proof.
  induction m as [|m IH]; intros first base t2 j0 Hb Ht Hj0 Hf Hm j Hj; [lia|]. cbn [tabCols]. destruct j as [|j].
  - exists t2. split; [reflexivity|]. now rewrite Z.add_0_r.
  - cbn [nth].
    assert (Ht' : repr (if first then pointDouble I base else fst (pointAdd I t2 base)) [j0 + 1]).
    { destruct first.
      - assert (j0 = 1) by tauto. subst j0. apply (repr_dbl base 1). now rewrite smul_1.
      - assert (j0 <> 1) by (intros E; apply Hf in E; discriminate). pose proof n_bounds as [Nb _]. apply repr_add; auto; [now rewrite smul_1|apply ndiv_small; lia..]. }
    destruct (IH false base _ (j0 + 1) Hb Ht' ltac:(lia) ltac:(split; [discriminate|lia]) ltac:(lia) j ltac:(lia)) as (t & E & R).
    exists t. split; [exact E|]. replace (j0 + Z.of_nat (Datatypes.S j)) with (j0 + 1 + Z.of_nat j) by lia. exact R.
Qed.
Definition tab7 (T : @table F) : Prop := forall (i : nat) j, (i < 37)%nat -> 1 <= j <= 64 ->
  repr (fst (selectBase I T i j), snd (selectBase I T i j), f1) [2 ^ (7 * Z.of_nat i) * j].
Lemma mkTable_ok base : repr base P -> tab7 (mkTable I base).
Proof.
  intros Hb i j Hi Hj. pose proof n_bounds as [Nb _]. unfold selectBase. destruct (Z.eqb_spec j 0); [lia|]. unfold mkTable.
  destruct (tabCols_ok 64 true base base 1 Hb ltac:(now rewrite smul_1) ltac:(lia) ltac:(tauto) ltac:(lia) (Z.to_nat (j - 1)) ltac:(lia)) as (t & E & R).
  rewrite E. replace (1 + Z.of_nat (Z.to_nat (j - 1))) with j in R by lia.
  destruct (tabCol_ok 37 t j R ltac:(apply ndiv_small; lia) i Hi) as (x & y & E' & R').
  change (o_zero I) with f0. rewrite E'. exact R'.
Qed.

(** ** Width 7: the multiplication.  The accumulator holds s = k - 128^i q_i, the part of k read so far *)
Definition part7 (k i : Z) : Z := k - 2 ^ (7 * i) * rq 7 k i.
Definition st7 (pp : @pnt F) (zero s : Z) : Prop :=
  (zero = 0 -> s = 0 /\ pp = (f0, f0, f1)) /\ (zero <> 0 -> s <> 0 /\ repr pp [s]).
Lemma part7_step k i : 0 <= i -> part7 k (i + 1) = part7 k i + 2 ^ (7 * i) * bdigit 7 (win 7 k i).
Proof.
  intros Hi. unfold part7. rewrite (rq_step 7 k i) by lia. replace (7 * (i + 1)) with (7 * i + 7) by ring. rewrite Z.pow_add_r by lia. ring.
Qed.
Lemma digit7_range k i : - 64 <= bdigit 7 (win 7 k i) <= 64.
Proof.
  destruct (booth_ok 7 (win 7 k i) (or_intror eq_refl) (win_range 7 k i ltac:(lia))) as [Hb Hr]. change (2 ^ (7 - 1)) with 64 in Hr.
  unfold dsig in Hb. destruct (snd (booth 7 (win 7 k i)) =? 0); lia.
Qed.
Lemma rq7_top k : 0 <= k < n -> rq 7 k 37 = 0.
Proof.
  intros Hk. pose proof n_bounds as [Nb _]. unfold rq. rewrite (Z.div_small (2 * k)) by (split; [lia|change (2 ^ (7 * 37)) with (2 ^ 259); lia]). reflexivity.
Qed.
Lemma generic7 k i : 0 <= k < n -> 0 <= i <= 36 -> let s := part7 k i in let d := bdigit 7 (win 7 k i) in let z := 2 ^ (7 * i) * d in
  d <> 0 -> ~ (n | z) /\ s + z <> 0 /\ ~ (n | s + z) /\ ~ (n | s - z) /\ (s <> 0 -> ~ (n | s)).
Proof.
  intros Hk Hi s d z Nd. pose proof n_bounds as [Nb _].
  assert (Hd : - 64 <= d <= 64) by apply digit7_range.
  assert (Hs : - 2 ^ (7 * i) <= 2 * s <= 2 ^ (7 * i)) by (apply rq_round; lia).
  pose proof (part7_step k i ltac:(lia)) as Hst. fold s in Hst. fold d in Hst. fold z in Hst.
  destruct (Z.eq_dec i 36) as [Ei|Ni].
  - assert (Es : s + z = k).
    { rewrite <- Hst, Ei. unfold part7. change (36 + 1) with 37. rewrite rq7_top by exact Hk. ring. }
    unfold z in *. rewrite Ei in *. change (2 ^ (7 * 36)) with (2 ^ 252) in *. clearbody d. clear z.
    assert (Hd2 : 0 <= d <= 16) by lia.
    assert (Hk0 : k <> 0) by lia.
    split; [|split; [lia|split; [|split]]].
    + intros [c E]. assert (c = 1) by nia. subst c. assert (Hdd : d <= 15 \/ d = 16) by lia. lia.
    + rewrite Es. apply ndiv_small; lia.
    + intros [c E]. assert (c = -1) by nia. subst c. assert (Hdd : d <= 15 \/ d = 16) by lia. lia.
    + intros Ns. apply ndiv_small; lia.
  - assert (HD : 2 ^ (7 * i) <= 2 ^ 245) by (apply Z.pow_le_mono_r; lia).
    assert (HD0 : 0 < 2 ^ (7 * i)) by (apply Z.pow_pos_nonneg; lia).
    assert (Hz : 2 ^ (7 * i) <= Z.abs z <= 64 * 2 ^ (7 * i)) by (unfold z; nia).
    clearbody z. set (D := 2 ^ (7 * i)) in *. clearbody D.
    split; [|split; [lia|split; [|split]]].
    + apply ndiv_small; lia.
    + apply ndiv_small; lia.
    + apply ndiv_small; lia.
    + intros Ns. apply ndiv_small; lia.
Qed.
Lemma st7_step T k (i : nat) pp zero : tab7 T -> 0 <= k < n -> (i < 37)%nat -> st7 pp zero (part7 k (Z.of_nat i)) ->
  let '(sel, sign) := booth 7 (win 7 k (Z.of_nat i)) in let '(tx, ty) := selectBase I T i sel in
  st7 (pointAddAffine I pp tx ty sign sel zero) (Z.lor zero sel) (part7 k (Z.of_nat i + 1)).
Proof.
  intros HT Hk Hi [St0 St1].
  destruct (booth_ok 7 (win 7 k (Z.of_nat i)) (or_intror eq_refl) (win_range 7 k (Z.of_nat i) ltac:(lia))) as [Hb Hr]. change (2 ^ (7 - 1)) with 64 in Hr.
  rewrite part7_step by lia. pose proof (generic7 k (Z.of_nat i) Hk ltac:(lia)) as G. cbv zeta in G.
  destruct (booth 7 (win 7 k (Z.of_nat i))) as [sel sign]. cbn [fst snd] in Hb, Hr.
  set (s := part7 k (Z.of_nat i)) in *. set (d := bdigit 7 (win 7 k (Z.of_nat i))) in *.
  assert (Hds : d = 0 <-> sel = 0) by (rewrite <- Hb; unfold dsig; destruct (sign =? 0); lia).
  destruct (Z.eq_dec sel 0) as [Es|Ns].
  - (* digit 0 *)
    assert (Ed : d = 0) by tauto. rewrite Ed, Z.mul_0_r, Z.add_0_r, Es, Z.lor_0_r. 
    change (selectBase I T i 0) with (f0, f0).
    unfold pointAddAffine. destruct pp as [[x1 y1] z1]. change (0 =? 0) with true. cbv iota.
    split.
    + intros Ez. destruct (St0 Ez) as [E1 E2]. split; [exact E1|]. rewrite Ez. change (0 =? 0) with true. cbv iota zeta.
      apply (f_equal2 pair); [apply (f_equal2 pair)|reflexivity]; [reflexivity|]. destruct (sign =? 0); [reflexivity|].
      change (o_nega I f0) with (Fopp p p_gt3 f0). apply (fopp_0 F f0 f1 _ _ _ _ _ _ FT).
    + intros Nz. destruct (Z.eqb_spec zero 0); [contradiction|]. cbv zeta. exact (St1 Nz).
  - assert (Nd : d <> 0) by tauto. destruct (G Nd) as (G1 & G2 & G3 & G4 & G5).
    pose proof (HT i sel Hi ltac:(lia)) as Hsel. destruct (selectBase I T i sel) as [tx ty]. cbn [fst snd] in Hsel.
    set (D := 2 ^ (7 * Z.of_nat i)) in *.
    assert (EQ : (if sign =? 0 then [D * sel] else pneg [D * sel]) = [D * d]).
    { rewrite <- Hb. unfold dsig. destruct (sign =? 0); [reflexivity|]. rewrite <- smul_opp by assumption. f_equal. ring. }
    split.
    + intros E. apply Z.lor_eq_0_iff in E as [_ E]. contradiction.
    + intros _. split; [exact G2|]. destruct (Z.eq_dec zero 0) as [Ez|Nz].
      * destruct (St0 Ez) as [E1 E2]. rewrite E1, Z.add_0_l. unfold pointAddAffine. destruct pp as [[x1 y1] z1]. rewrite Ez. change (0 =? 0) with true. cbv iota zeta.
        change (o_one I) with f1. rewrite <- EQ. destruct (sign =? 0); [exact Hsel|]. exact (I_neg _ _ _ _ Hsel).
      * destruct (St1 Nz) as [Ns' Rp]. rewrite smul_add by assumption. rewrite <- EQ.
        apply I_adda; auto using kP_on.
        -- rewrite kP_O. auto.
        -- rewrite EQ, kP_eq. exact G4.
Qed.
Lemma preloop_ok T k : tab7 T -> 0 <= k < n -> forall m i pp zero, (i + m = 37)%nat -> (1 <= i)%nat ->
  st7 pp zero (part7 k (Z.of_nat i)) ->
  exists zero', st7 (preMult_loop I T (fromBig k) m i (7 * Z.of_nat i - 1) pp zero) zero' k.
Proof.
  intros HT Hk. pose proof n_bounds as [Nb _]. induction m as [|m IH]; intros i pp zero Hm Hi Hst; cbn [preMult_loop].
  - replace i with 37%nat in Hst by lia. exists zero. unfold part7 in Hst. change (Z.of_nat 37) with 37 in Hst. rewrite rq7_top in Hst by exact Hk.
    now rewrite Z.mul_0_r, Z.sub_0_r in Hst.
  - change 255 with (Z.ones (7 + 1)). rewrite (wvalue_win 7 k (Z.of_nat i) (or_intror eq_refl)) by lia.
    pose proof (st7_step T k i pp zero HT Hk ltac:(lia) Hst) as Hn.
    destruct (booth 7 (win 7 k (Z.of_nat i))) as [sel sign]. destruct (selectBase I T i sel) as [tx ty].
    replace (Z.of_nat i + 1) with (Z.of_nat (i + 1)) in Hn by lia.
    destruct (IH (i + 1)%nat _ _ ltac:(lia) ltac:(lia) Hn) as (z' & Hz'). exists z'.
    replace (7 * Z.of_nat i - 1 + 7) with (7 * Z.of_nat (i + 1) - 1) by lia. exact Hz'.
Qed.
Lemma preMult_st7 T k : tab7 T -> 0 <= k < n -> exists zero, st7 (p256PreMult I T (fromBig k)) zero k.
Proof.
  intros HT Hk. pose proof n_bounds as [Nb _]. unfold p256PreMult.
  change 255 with (Z.ones (7 + 1)). rewrite (wvalue0_win 7 k (or_intror eq_refl)) by lia.
  assert (H0 : st7 (f0, f0, f1) 0 (part7 k (Z.of_nat 0))).
  { split; [|congruence]. intros _. split; [|reflexivity]. unfold part7. change (Z.of_nat 0) with 0. rewrite rq_0. change (2 ^ (7 * 0)) with 1. ring. }
  pose proof (st7_step T k 0%nat _ 0 HT Hk ltac:(lia) H0) as Hn. change (Z.of_nat 0 + 1) with (Z.of_nat 1) in Hn. change (Z.of_nat 0) with 0 in Hn.
  destruct (booth 7 (win 7 k 0)) as [sel sign]. destruct (selectBase I T 0 sel) as [tx ty].
  rewrite Z.lor_0_l in Hn. unfold pointAddAffine in Hn. change (0 =? 0) with true in Hn. cbv iota zeta in Hn.
  exact (preloop_ok T k HT Hk 36 1%nat _ sel ltac:(lia) ltac:(lia) Hn).
Qed.
(** the accumulator at the end, and its affine form *)
Theorem I_p256PreMult T k : tab7 T -> 0 <= k < n ->
  (k = 0 /\ p256PreMult I T (fromBig k) = (f0, f0, f1)) \/ (k <> 0 /\ repr (p256PreMult I T (fromBig k)) [k]).
Proof.
  intros HT Hk. destruct (preMult_st7 T k HT Hk) as (z & S0 & S1). destruct (Z.eq_dec z 0) as [E|N]; [left|right]; auto.
Qed.
End PT.

Lemma zero_affine : p256PointToAffine I (f0, f0, f1) = (0, 0).
Proof.
  assert (R : repr (f0, f0, f1) (Pt 0 0)).
  { cbn [repr]. rewrite (jtoaff_one F f0 f1 _ _ _ _ _ _ FT (F_dec p)). reflexivity. }
  unfold p256PointToAffine. rewrite I_inverse. change (o_mulx I) with (Fmul p p_gt3). change (o_from I) with (fval p). cbv zeta.
  assert (Z0 : forall x, Fmul p p_gt3 f0 x = f0).
  { intros x. unfold F0. rewrite <- (mkf_fval p p_gt3 x), mkf_mul. now rewrite Z.mul_0_l. }
  rewrite !Z0. unfold F0. rewrite fval_mkf. now rewrite Zmod_0_l.
Qed.

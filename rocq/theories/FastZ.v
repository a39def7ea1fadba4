(** Arithmetic arranged so that the plain kernel reduction machine (as used by coqchk, which has no VM) evaluates it
    reasonably fast: Karatsuba products and division-free modular reduction with unverified quotient estimates. *)
From Coq Require Import ZArith List Lia Bool Znumtheory.
From Verif Require Import NT.
Import ListNotations.
Local Open Scope Z_scope.

Fixpoint kmul (ks : list positive) (x y : Z) : Z :=
  match ks with
  | [] => x * y
  | k :: ks =>
      let x1 := Z.shiftr x (Zpos k) in let x0 := x - Z.shiftl x1 (Zpos k) in
      let y1 := Z.shiftr y (Zpos k) in let y0 := y - Z.shiftl y1 (Zpos k) in
      let z2 := kmul ks x1 y1 in let z0 := kmul ks x0 y0 in
      let z1 := kmul ks (x1 + x0) (y1 + y0) - z2 - z0 in
      Z.shiftl (Z.shiftl z2 (Zpos k) + z1) (Zpos k) + z0
  end.
Lemma kmul_ok ks : forall x y, kmul ks x y = x * y.
Proof.
  induction ks as [|k ks IH]; intros x y; cbn [kmul]; [reflexivity|]. cbv zeta. rewrite !IH, !Z.shiftl_mul_pow2 by lia. ring.
Qed.

(** Barrett reduction: any quotient estimate gives a congruent result *)
Definition kk : list positive := [128; 64]%positive.
Definition bred (N L mu z : Z) : Z := z - kmul kk (Z.shiftr (kmul kk (Z.shiftr z (L - 6)) mu) (L + 14)) N.
Lemma bred_ok N L mu z : bred N L mu z mod N = z mod N.
Proof.
  unfold bred. rewrite (kmul_ok kk (Z.shiftr _ (L + 14))). set (q := Z.shiftr _ (L + 14)).
  replace (z - q * N) with (z + (- q) * N) by ring. apply Z_mod_plus_full.
Qed.
Lemma sub_mul_mod z q N : (z - q * N) mod N = z mod N.
Proof. replace (z - q * N) with (z + (- q) * N) by ring. apply Z_mod_plus_full. Qed.
Section Fast.
Variable N : Z.
Variable red : Z -> Z.
Hypothesis red_ok : forall z, red z mod N = z mod N.
Definition mulr (x y : Z) : Z := red (kmul kk x y).
Lemma mulr_ok x y : mulr x y mod N = (x * y) mod N.
Proof. unfold mulr. now rewrite red_ok, kmul_ok. Qed.
Lemma mulr_cong x x' y y' : x mod N = x' mod N -> y mod N = y' mod N -> mulr x y mod N = (x' * y') mod N.
Proof. intros Hx Hy. rewrite mulr_ok, Zmult_mod, Hx, Hy. symmetry. apply Zmult_mod. Qed.
Fixpoint fpow (b : Z) (m : positive) : Z :=
  match m with
  | xH => b
  | xO m => let y := fpow b m in mulr y y
  | xI m => let y := fpow b m in mulr (mulr y y) b
  end.
Lemma fpow_ok b m : fpow b m mod N = b ^ Zpos m mod N.
Proof.
  induction m as [m IH|m IH|]; cbn [fpow]; cbv zeta.
  - rewrite Pos2Z.inj_xI, Z.add_1_r, Z.pow_succ_r, Z.mul_comm by lia. apply mulr_cong; auto.
    rewrite Z.pow_twice_r. now apply mulr_cong.
  - rewrite Pos2Z.inj_xO, Z.pow_twice_r. now apply mulr_cong.
  - now rewrite Z.pow_1_r.
Qed.
(** Chebyshev ladder *)
Definition tdbl (t : Z) : Z := 2 * mulr t t - 1.
Fixpoint clad (x : Z) (m : positive) : Z * Z :=
  match m with
  | xH => (x, tdbl x)
  | xO m => let '(t, t') := clad x m in (tdbl t, 2 * mulr t t' - x)
  | xI m => let '(t, t') := clad x m in (2 * mulr t t' - x, tdbl t')
  end.
Lemma lin_cong a b c d k l : a mod N = b mod N -> c mod N = d mod N -> (k * a - l * c) mod N = (k * b - l * d) mod N.
Proof. intros H1 H2. rewrite Zminus_mod, (Zmult_mod k a), (Zmult_mod l c), H1, H2, <- !Zmult_mod, <- Zminus_mod. reflexivity. Qed.
Lemma lin_cong1 a b c : a mod N = b mod N -> (2 * a - c) mod N = (2 * b - c) mod N.
Proof. intros H. pose proof (lin_cong a b c c 2 1 H eq_refl) as E. now rewrite !Z.mul_1_l in E. Qed.
Lemma cheb_double x k : cheb x (k + k) = 2 * (cheb x k * cheb x k) - 1.
Proof. pose proof (cheb_prod x k 0) as E. rewrite !Nat.add_0_r, cheb_0 in E. lia. Qed.
Lemma cheb_double1 x k : cheb x (S (k + k)) = 2 * (cheb x k * cheb x (S k)) - x.
Proof. pose proof (cheb_prod x k 1) as E. rewrite cheb_1 in E. replace (k + 1)%nat with (S k) in E by lia. replace (k + k + 1)%nat with (S (k + k)) in E by lia. lia. Qed.
Lemma tdbl_ok x t k : t mod N = cheb x k mod N -> tdbl t mod N = cheb x (k + k) mod N.
Proof. intros H. unfold tdbl. rewrite cheb_double. apply lin_cong1. now apply mulr_cong. Qed.
Lemma clad_ok x m : fst (clad x m) mod N = cheb x (Pos.to_nat m) mod N /\ snd (clad x m) mod N = cheb x (S (Pos.to_nat m)) mod N.
Proof.
  induction m as [m [H1 H2]|m [H1 H2]|]; cbn [clad].
  - destruct (clad x m) as [t t']. cbn [fst snd] in *. rewrite Pos2Nat.inj_xI. cbn [Nat.mul]. rewrite Nat.add_0_r. split.
    + rewrite cheb_double1. apply lin_cong1. now apply mulr_cong.
    + replace (S (S (Pos.to_nat m + Pos.to_nat m))) with (S (Pos.to_nat m) + S (Pos.to_nat m))%nat by lia. now apply tdbl_ok.
  - destruct (clad x m) as [t t']. cbn [fst snd] in *. rewrite Pos2Nat.inj_xO. cbn [Nat.mul]. rewrite Nat.add_0_r. split.
    + now apply tdbl_ok.
    + rewrite cheb_double1. apply lin_cong1. now apply mulr_cong.
  - change (Pos.to_nat 1) with 1%nat. cbn [fst snd]. split; [reflexivity|]. apply (tdbl_ok x x 1). reflexivity.
Qed.
Lemma cheb_cong x y k : x mod N = y mod N -> cheb x k mod N = cheb y k mod N.
Proof.
  intros H. induction k as [| |k IH1 IH2] using nat_ind2; [reflexivity|exact H|]. rewrite !cheb_SS.
  rewrite Zminus_mod, (Zmult_mod (2 * x)), (Zmult_mod 2 x), H, IH1, IH2, <- (Zmult_mod 2 y), <- (Zmult_mod (2 * y)), <- Zminus_mod. reflexivity.
Qed.
Lemma tdbl_iter x j : Nat.iter j tdbl x mod N = cheb x (Nat.pow 2 j) mod N.
Proof.
  induction j as [|j IH]; [reflexivity|]. replace (Nat.pow 2 (S j)) with (Nat.pow 2 j + Nat.pow 2 j)%nat by (cbn [Nat.pow]; lia). apply (tdbl_ok x _ (Nat.pow 2 j)). exact IH.
Qed.
End Fast.

(** N-1 certificates, fast *)
Fixpoint invs_ok (N b M L mu : Z) (fs is : list Z) : bool :=
  match fs, is with
  | [], [] => true
  | l :: fs, i :: is =>
      (match M / l with Zpos m => (mulr (bred N L mu) (fpow (bred N L mu) b m - 1) i - 1) mod N =? 0 | _ => false end)
      && invs_ok N b M L mu fs is
  | _, _ => false
  end.
Definition pm1_chk (N b M L mu : Z) (fs is : list Z) : bool :=
  (2 <? N) && (N <? M * M) && (M =? fold_right Z.mul 1 fs) && (0 <? M) &&
  (match M with Zpos m => (fpow (bred N L mu) b m - 1) mod N =? 0 | _ => false end) && invs_ok N b M L mu fs is.
Lemma mod_one N x : 2 < N -> (x - 1) mod N = 0 -> x mod N = 1.
Proof.
  intros HN H. apply Z.mod_divide in H as [c Hc]; [|lia]. replace x with (1 + c * N) by lia. rewrite Z_mod_plus_full. apply Z.mod_small. lia.
Qed.
Lemma pm1_fast N b M L mu fs is : pm1_chk N b M L mu fs is = true -> Forall prime fs -> prime N.
Proof.
  unfold pm1_chk. rewrite !andb_true_iff, !Z.ltb_lt, Z.eqb_eq. intros [[[[[H1 H2] H3] H4] H5] H6] Hp.
  pose proof (bred_ok N L mu) as Hred.
  apply (pm1_prime N b M fs); auto.
  - destruct M as [|m|]; try discriminate. apply Z.eqb_eq in H5. apply mod_one in H5; auto. now rewrite (fpow_ok N _ Hred) in H5.
  - clear Hp H3 H5. revert is H6. induction fs as [|l fs IH]; intros is H6 l' Hl; [destruct Hl|].
    destruct is as [|i is]; cbn [invs_ok] in H6; [discriminate|]. apply andb_true_iff in H6 as [H6 H7].
    destruct Hl as [<-|Hl]; [|now apply (IH is)]. exists i. destruct (M / l) as [|m|]; try discriminate. apply Z.eqb_eq in H6.
    apply mod_one in H6; auto. rewrite (mulr_ok N _ Hred) in H6. transitivity (((fpow (bred N L mu) b m - 1) * i) mod N); [|exact H6].
    rewrite Zmult_mod, Zminus_mod, <- (fpow_ok N _ Hred), <- Zminus_mod, <- Zmult_mod. reflexivity.
Qed.

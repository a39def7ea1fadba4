(** Elementary number theory used by the curve development: exponentiation in a monoid, primality certificates
    (N-1 and N+1), Fermat's little theorem, inverses modulo a prime. No code is modelled here. *)
From Coq Require Import ZArith Znumtheory Zpow_facts List Lia Bool Permutation.
Import ListNotations.
Open Scope Z_scope.

(** ** Fast exponentiation *)
Fixpoint ppow {T} (mul : T -> T -> T) (x : T) (p : positive) : T :=
  match p with
  | xH => x
  | xO q => let y := ppow mul x q in mul y y
  | xI q => let y := ppow mul x q in mul x (mul y y)
  end.

(** ** Exact periods of a translation-invariant sequence (the powers of an element) and pigeonhole *)
Section Period.
Variable T : Type.
Variable w : nat -> T.
Hypothesis shift : forall i j k, w i = w j -> w (i + k)%nat = w (j + k)%nat.
Lemma period_mul b q r : w b = w O -> w (q * b + r)%nat = w r.
Proof.
  intros Hb. induction q as [|q IH]; [reflexivity|].
  cbn [Nat.mul]. rewrite <- Nat.add_assoc. rewrite <- IH. apply (shift b O (q * b + r) Hb).
Qed.
Lemma period_mod a b : (0 < b)%nat -> w a = w O -> w b = w O -> w (a mod b)%nat = w O.
Proof.
  intros Hb Ha Hbb. rewrite <- Ha. rewrite (Nat.div_mod a b) at 2 by lia. rewrite Nat.mul_comm. symmetry. now apply period_mul.
Qed.
Lemma period_gcd : forall n b a, (b < n)%nat -> w a = w O -> w b = w O -> w (Nat.gcd b a) = w O.
Proof.
  induction n as [|n IH]; intros b a Hlt Ha Hb; [lia|]. destruct b as [|b]; [exact Ha|].
  rewrite <- Nat.gcd_mod by lia. apply IH; auto.
  - pose proof (Nat.mod_upper_bound a (S b) ltac:(lia)). lia.
  - apply period_mod; auto; lia.
Qed.
(** If w M = w 0 and w (M/l) <> w 0 for every prime l dividing M, no smaller positive index works. *)
Lemma exact_order M : (0 < M)%nat -> w M = w O ->
  (forall l c, prime (Z.of_nat l) -> M = (c * l)%nat -> w c <> w O) ->
  forall k, (0 < k < M)%nat -> w k <> w O.
Proof.
  intros HM HxM Hl k Hk Hxk.
  pose proof (period_gcd (S k) k M ltac:(lia) HxM Hxk) as Hg. set (g := Nat.gcd k M) in *.
  assert (Hgk : Nat.divide g k) by apply Nat.gcd_divide_l.
  assert (HgM : Nat.divide g M) by apply Nat.gcd_divide_r.
  assert (Hg0 : (0 < g)%nat). { destruct Hgk as [z ?]. nia. }
  assert (Hgle : (g <= k)%nat) by (apply Nat.divide_pos_le; auto; lia).
  destruct HgM as [c Hc].
  assert (Hc1 : (1 < c)%nat) by nia.
  assert (Hex : exists l, prime (Z.of_nat l) /\ Nat.divide l c).
  { clear -Hc1. revert Hc1. induction c as [c IH] using lt_wf_ind. intros Hc1.
    destruct (prime_dec (Z.of_nat c)) as [Hp|Hp]; [exists c; split; auto; apply Nat.divide_refl|].
    destruct (not_prime_divide (Z.of_nat c)) as (d & Hd & [e He]); [lia|exact Hp|].
    destruct (IH (Z.to_nat d)) as (l & Hpl & [z Hz]); [lia|lia|]. exists l. split; auto.
    exists (z * Z.to_nat e)%nat. nia. }
  destruct Hex as (l & Hpl & [z Hz]). apply (Hl l (z * g)%nat Hpl); [nia|].
  rewrite <- (Nat.add_0_r (z * g)). now apply period_mul.
Qed.
Lemma order_le_card M univ : w M = w O ->
  (forall k, (0 < k < M)%nat -> w k <> w O) ->
  (forall k, In (w k) univ) -> (M <= length univ)%nat.
Proof.
  intros HM Hk Hu. rewrite <- (seq_length M 0), <- (map_length w).
  apply NoDup_incl_length.
  - apply (NoDup_nth _ (w O)). rewrite map_length, seq_length. intros i j Hi Hj E.
    rewrite !map_nth, !seq_nth in E by auto. cbn [Nat.add] in E.
    assert (W : forall i j, (i < j < M)%nat -> w i = w j -> False).
    { clear i j Hi Hj E. intros i j Hij E. apply (Hk (j - i)%nat); [lia|].
      apply (shift i j (M - i)) in E. replace (i + (M - i))%nat with M in E by lia.
      replace (j + (M - i))%nat with (M + (j - i))%nat in E by lia.
      rewrite <- HM, E. symmetry. apply (shift M O (j - i) HM). }
    destruct (Nat.lt_trichotomy i j) as [H|[H|H]]; auto; exfalso; eapply W; eauto.
  - intros z Hz. apply in_map_iff in Hz as (k & <- & _). apply Hu.
Qed.
End Period.

(** ** Prime factor lists *)
Lemma prime_divides_list l fs : prime l -> (l | fold_right Z.mul 1 fs) -> exists f, In f fs /\ (l | f).
Proof.
  intros Hl. induction fs as [|f fs IH]; cbn [fold_right]; intros H.
  - apply Z.divide_1_r_nonneg in H; [|destruct Hl; lia]. destruct Hl; lia.
  - apply prime_mult in H as [H|H]; auto; [exists f; cbn; auto|]. destruct (IH H) as (f' & ? & ?). exists f'. cbn; auto.
Qed.
Lemma prime_divisor_in l fs : prime l -> Forall prime fs -> (l | fold_right Z.mul 1 fs) -> In l fs.
Proof.
  intros Hl Hfs H. destruct (prime_divides_list _ _ Hl H) as (f & Hf & Hd).
  assert (Hpf : prime f) by (rewrite Forall_forall in Hfs; auto).
  rewrite (prime_div_prime l f); auto.
Qed.

(** ** Modular arithmetic *)
Definition zrange (q : Z) : list Z := map Z.of_nat (seq 0 (Z.to_nat q)).
Lemma zrange_in q x : 0 <= x < q -> In x (zrange q).
Proof. intros H. apply in_map_iff. exists (Z.to_nat x). split; [lia|]. apply in_seq. lia. Qed.
Lemma zrange_in_inv q x : In x (zrange q) -> 0 <= x < q.
Proof. intros H. apply in_map_iff in H as (k & <- & H). apply in_seq in H. lia. Qed.
Lemma zrange_length q : length (zrange q) = Z.to_nat q.
Proof. unfold zrange. now rewrite map_length, seq_length. Qed.
Lemma mod_mod_divide a q N : 0 < q -> 0 < N -> (q | N) -> (a mod N) mod q = a mod q.
Proof. intros Hq HN HqN. symmetry. apply Zmod_div_mod; auto. Qed.
Lemma smallest_prime_factor N : 1 < N -> ~ prime N -> exists q, prime q /\ (q | N) /\ q * q <= N.
Proof.
  intros HN HnP.
  assert (Hex : forall M, 1 < M -> exists q, prime q /\ (q | M)).
  { intros M HM. rewrite <- (Z2Nat.id M) in HM |- * by lia. revert HM. generalize (Z.to_nat M) as c. clear. intros c.
    induction c as [c IH] using lt_wf_ind. intros Hc1.
    destruct (prime_dec (Z.of_nat c)) as [Hp|Hp]; [exists (Z.of_nat c); split; auto; apply Z.divide_refl|].
    destruct (not_prime_divide (Z.of_nat c)) as (d & Hd & Hdc); [lia|exact Hp|].
    destruct (IH (Z.to_nat d)) as (l & Hpl & Hz); [lia|lia|]. exists l. split; auto. rewrite Z2Nat.id in Hz by lia.
    eapply Z.divide_trans; eauto. }
  destruct (not_prime_divide N HN HnP) as (d & Hd & [e He]).
  assert (Hsmall : exists d', 1 < d' /\ (d' | N) /\ d' * d' <= N).
  { destruct (Z_le_gt_dec (d * d) N) as [H|H].
    - exists d. split; [lia|]. split; auto. exists e; auto.
    - exists e. assert (e * e <= N) by nia. split; [nia|]. split; auto. exists d. lia. }
  destruct Hsmall as (d' & H1 & H2 & H3). destruct (Hex d' H1) as (q & Hq & Hqd).
  exists q. split; auto. split; [eapply Z.divide_trans; eauto|].
  apply Z.divide_pos_le in Hqd; [|lia]. destruct Hq. nia.
Qed.

(** trial division *)
Fixpoint no_div (fuel : nat) (d N : Z) : bool :=
  match fuel with
  | O => false
  | S f => if N <? d * d then true else if N mod d =? 0 then false else no_div f (d + 2) N
  end.
Lemma no_div_spec fuel : forall d N, no_div fuel d N = true -> 1 < d -> Z.odd d = true -> Z.odd N = true -> 
  (forall q, 1 < q -> q < d -> (q | N) -> False) -> forall q, 1 < q -> q * q <= N -> (q | N) -> False.
Proof.
  induction fuel as [|f IH]; cbn [no_div]; intros d N H Hd Hod HoN Hs q Hq Hqq Hdiv; [discriminate|].
  destruct (Z.ltb_spec N (d * d)) as [Hlt|Hge]; [apply (Hs q); auto; nia|].
  destruct (Z.eqb_spec (N mod d) 0) as [|Hnz]; [discriminate|].
  eapply (IH (d + 2) N H); eauto; try lia.
  - now rewrite Z.odd_add, Hod.
  - intros q' H1 H2 H3. destruct (Z_lt_le_dec q' d) as [Hl|Hl]; [eapply Hs; eauto|].
    destruct (Z.eq_dec q' d) as [->|]; [apply Z.mod_divide in H3; lia|].
    assert (q' = d + 1) by lia. subst q'. destruct H3 as [e He].
    assert (Z.odd N = false). { rewrite He, Z.odd_mul, Z.odd_add, Hod. cbn. apply andb_false_r. } congruence.
Qed.
Definition prime_trial (N : Z) : bool := (2 <? N) && Z.odd N && no_div (Z.to_nat (Z.sqrt N)) 3 N.
Lemma prime_trial_ok N : prime_trial N = true -> prime N.
Proof.
  unfold prime_trial. rewrite !andb_true_iff, Z.ltb_lt. intros [[H1 H2] H3].
  destruct (prime_dec N) as [|Hn]; auto. exfalso.
  destruct (smallest_prime_factor N ltac:(lia) Hn) as (q & Hq & Hd & Hqq).
  eapply (no_div_spec _ 3 N H3); eauto; try lia; [|destruct Hq; lia].
  intros q' A1 A2 A3. assert (q' = 2) by lia. subst q'. destruct A3 as [e ->]. rewrite Z.odd_mul in H2. rewrite andb_comm in H2. discriminate.
Qed.

(** ** N-1 certificates: b has exact order M > sqrt N modulo every prime factor of N. *)
Definition zmulm (N x y : Z) : Z := (x * y) mod N.
Lemma ppow_pow N b m : 0 < N -> 0 <= b < N -> ppow (zmulm N) b m = b ^ Zpos m mod N.
Proof.
  intros HN Hb. induction m; cbn [ppow].
  - rewrite IHm. unfold zmulm. rewrite Pos2Z.inj_xI, Z.add_1_r, Z.pow_succ_r by lia.
    rewrite Z.pow_twice_r. rewrite <- Zmult_mod. apply Zmult_mod_idemp_r.
  - rewrite IHm. unfold zmulm. rewrite Pos2Z.inj_xO, Z.pow_twice_r. now rewrite <- Zmult_mod.
  - rewrite Z.pow_1_r. symmetry. now apply Z.mod_small.
Qed.

Lemma exact_order_Z {T} (w : nat -> T) M fs :
  (forall i j k, w i = w j -> w (i + k)%nat = w (j + k)%nat) ->
  0 < M -> M = fold_right Z.mul 1 fs -> Forall prime fs -> w (Z.to_nat M) = w O ->
  (forall l, In l fs -> 0 < l -> 0 < M / l -> w (Z.to_nat (M / l)) <> w O) ->
  forall univ, (forall k, In (w k) univ) -> M <= Z.of_nat (length univ).
Proof.
  intros Hsh HM Hprod Hfs HwM Hl univ Hu.
  assert (G : (Z.to_nat M <= length univ)%nat); [|lia].
  apply (order_le_card T w Hsh); auto. apply exact_order; auto; [lia|].
  intros l c Hp Hc. assert (Hl1 : 1 < Z.of_nat l) by (destruct Hp; auto).
  assert (HMZ : M = Z.of_nat c * Z.of_nat l) by nia.
  assert (Hin : In (Z.of_nat l) fs). { apply prime_divisor_in; auto. exists (Z.of_nat c). congruence. }
  assert (Ed : M / Z.of_nat l = Z.of_nat c) by (rewrite HMZ; apply Z.div_mul; lia).
  specialize (Hl _ Hin ltac:(lia)). rewrite Ed, Nat2Z.id in Hl. apply Hl. nia.
Qed.

Lemma unit_not_one x i N q : 1 < q -> (forall e, (e mod N) mod q = e mod q) -> ((x - 1) * i) mod N = 1 -> x mod q = 1 -> False.
Proof.
  intros Hq Hqp Hi E. pose proof (Hqp ((x - 1) * i)) as H. rewrite Hi in H.
  rewrite Zmult_mod, (Zminus_mod x), E, (Z.mod_small 1 q) in H by lia.
  rewrite Z.sub_diag, (Zmod_0_l q), Z.mul_0_l, (Zmod_0_l q) in H. discriminate.
Qed.
Lemma pm1_prime N b M fs : 2 < N -> N < M * M -> M = fold_right Z.mul 1 fs -> 0 < M -> Forall prime fs ->
  b ^ M mod N = 1 -> (forall l, In l fs -> exists i, ((b ^ (M / l) - 1) * i) mod N = 1) -> prime N.
Proof.
  intros H2 HMM HM HM0 Hpr HpM Hfs.
  destruct (prime_dec N) as [|Hn]; auto. exfalso.
  destruct (smallest_prime_factor N ltac:(lia) Hn) as (q & Hq & HqN & Hqq).
  assert (Hq1 : 1 < q) by (destruct Hq; auto).
  assert (Hqp : forall e, (e mod N) mod q = e mod q) by (intros; apply mod_mod_divide; auto; lia).
  assert (Hz : b ^ 0 mod q = 1) by (rewrite Z.pow_0_r; apply Z.mod_small; lia).
  assert (HLE : M <= Z.of_nat (length (zrange q))).
  { apply (exact_order_Z (fun k => b ^ Z.of_nat k mod q) M fs); auto.
    - intros i j k E. rewrite !Nat2Z.inj_add, !Z.pow_add_r by lia. now rewrite Zmult_mod, E, <- Zmult_mod.
    - rewrite Z2Nat.id by lia. rewrite <- Hqp, HpM. rewrite Z.mod_small by lia. symmetry. exact Hz.
    - intros l Hl Hl0 HMl. rewrite Z2Nat.id by lia. cbn [Z.of_nat]. rewrite Hz. intros E.
      destruct (Hfs l Hl) as [i Hi]. exact (unit_not_one _ _ _ _ Hq1 Hqp Hi E).
    - intros k. apply zrange_in. apply Z.mod_pos_bound. lia. }
  rewrite zrange_length in HLE. nia.
Qed.

(** ** N+1 certificates: an element of norm 1 of Z[sqrt d] with exact order M, 4 N < M^2. *)
Definition qmul (d N : Z) (x y : Z * Z) : Z * Z :=
  ((fst x * fst y + d * (snd x * snd y)) mod N, (fst x * snd y + snd x * fst y) mod N).
Fixpoint qpow (d : Z) (b : Z * Z) (k : nat) : Z * Z :=   (* exact powers, no reduction *)
  match k with
  | O => (1, 0)
  | S k' => let y := qpow d b k' in (fst b * fst y + d * (snd b * snd y), fst b * snd y + snd b * fst y)
  end.
Definition qred (q : Z) (x : Z * Z) : Z * Z := (fst x mod q, snd x mod q).
Definition qm (d : Z) (x y : Z * Z) : Z * Z := (fst x * fst y + d * (snd x * snd y), fst x * snd y + snd x * fst y).
Lemma qpow_add d b i j : qpow d b (i + j) = qm d (qpow d b i) (qpow d b j).
Proof.
  induction i as [|i IH]; cbn [Nat.add qpow].
  - unfold qm. cbn [fst snd]. destruct (qpow d b j). cbn [fst snd]. f_equal; ring.
  - rewrite IH. unfold qm. cbn [fst snd]. f_equal; ring.
Qed.
Lemma qred_qm d q x y : qred q (qm d x y) = qmul d q (qred q x) (qred q y).
Proof.
  unfold qred, qm, qmul. cbn [fst snd]. f_equal.
  - rewrite Zplus_mod, (Zplus_mod (_ * _)). f_equal. f_equal; [apply Zmult_mod|].
    rewrite (Zmult_mod d), (Zmult_mod d ((_ mod _) * _)). now rewrite <- (Zmult_mod (snd x)).
  - rewrite Zplus_mod, (Zplus_mod (fst x mod q * _)). now rewrite <- !Zmult_mod.
Qed.
Lemma qnorm_pow d b q k : 1 < q -> (fst b * fst b - d * (snd b * snd b)) mod q = 1 ->
  (fst (qpow d b k) * fst (qpow d b k) - d * (snd (qpow d b k) * snd (qpow d b k))) mod q = 1.
Proof.
  intros Hq Hb. induction k as [|k IH]; cbn [qpow fst snd].
  - replace (1 * 1 - d * (0 * 0)) with 1 by ring. apply Z.mod_small. lia.
  - destruct (qpow d b k) as [u v]. cbn [fst snd] in *.
    transitivity (((fst b * fst b - d * (snd b * snd b)) * (u * u - d * (v * v))) mod q); [f_equal; ring|].
    rewrite Zmult_mod, Hb, IH. apply Z.mod_small. lia.
Qed.
(** at most 2q residues of norm 1 modulo a prime q *)
Definition norm1b (d q u v : Z) : bool := (u * u - d * (v * v)) mod q =? 1.
Definition norm1_univ (d q : Z) : list (Z * Z) :=
  flat_map (fun v => match find (fun u => norm1b d q u v) (zrange q) with
                     | Some u => [(u, v); ((- u) mod q, v)] | None => [] end) (zrange q).
Lemma norm1_univ_length d q : (length (norm1_univ d q) <= 2 * Z.to_nat q)%nat.
Proof.
  unfold norm1_univ. rewrite <- (zrange_length q).
  set (f := fun v => _). assert (G : forall l, (length (flat_map f l) <= 2 * length l)%nat); [|apply G].
  induction l as [|v l IH]; cbn [flat_map length]; [lia|]. rewrite app_length.
  unfold f at 1. destruct (find _ _); cbn [length]; lia.
Qed.
Lemma norm1_univ_in d q u v : prime q -> 0 <= u < q -> 0 <= v < q -> (u * u - d * (v * v)) mod q = 1 -> In (u, v) (norm1_univ d q).
Proof.
  intros Hq Hu Hv Hn. unfold norm1_univ. apply in_flat_map. exists v. split; [now apply zrange_in|].
  destruct (find _ _) as [u0|] eqn:Ef.
  - apply find_some in Ef as [Hin Ef]. apply zrange_in_inv in Hin. apply Z.eqb_eq in Ef.
    assert (Hd : (q | (u - u0) * (u + u0))).
    { apply Z.mod_divide; [lia|]. replace ((u - u0) * (u + u0)) with ((u * u - d * (v * v)) - (u0 * u0 - d * (v * v))) by ring.
      rewrite Zminus_mod, Hn, Ef. reflexivity. }
    apply prime_mult in Hd; auto. destruct Hd as [[c Hc]|[c Hc]].
    + left. f_equal. assert (c = 0) by nia. subst c. lia.
    + right. left. f_equal. assert (Ec : u = - u0 + c * q) by lia. rewrite <- (Z.mod_small u q) by lia. rewrite Ec. symmetry. apply Z_mod_plus_full.
  - exfalso. assert (H := find_none _ _ Ef u (zrange_in q u Hu)). unfold norm1b in H. rewrite Hn in H. discriminate.
Qed.
Lemma norm_red d q u v : (u mod q * (u mod q) - d * (v mod q * (v mod q))) mod q = (u * u - d * (v * v)) mod q.
Proof.
  rewrite (Zminus_mod (u mod q * _)), (Zminus_mod (u * u)). f_equal. f_equal; [symmetry; apply Zmult_mod|].
  rewrite (Zmult_mod d (v mod q * _)), (Zmult_mod d (v * v)). now rewrite <- (Zmult_mod v v).
Qed.
(** Chebyshev polynomials: fst (b^k) = T_k (fst b) for an element b of norm 1 *)
Fixpoint cheb2 (x : Z) (k : nat) : Z * Z := (* T_k, T_(k+1) *)
  match k with O => (1, x) | S k => let '(t, t') := cheb2 x k in (t', 2 * x * t' - t) end.
Definition cheb (x : Z) (k : nat) : Z := fst (cheb2 x k).
Lemma cheb2_eq x k : cheb2 x k = (cheb x k, cheb x (S k)).
Proof. unfold cheb. cbn [cheb2]. destruct (cheb2 x k) as [t t']. reflexivity. Qed.
Lemma cheb_0 x : cheb x 0 = 1. Proof. reflexivity. Qed.
Lemma cheb_1 x : cheb x 1 = x. Proof. reflexivity. Qed.
Lemma cheb_SS x k : cheb x (S (S k)) = 2 * x * cheb x (S k) - cheb x k.
Proof. unfold cheb at 1. cbn [cheb2]. rewrite cheb2_eq. reflexivity. Qed.
Lemma nat_ind2 (Q : nat -> Prop) : Q O -> Q 1%nat -> (forall k, Q k -> Q (S k) -> Q (S (S k))) -> forall k, Q k.
Proof. intros H0 H1 H k. assert (G : Q k /\ Q (S k)); [|tauto]. induction k as [|k [A B]]; auto. Qed.
Lemma cheb_prod x i : forall j, 2 * cheb x i * cheb x (i + j) = cheb x (i + i + j) + cheb x j.
Proof.
  induction i as [| |i IH1 IH2] using nat_ind2; intros j.
  - cbn [Nat.add]. rewrite cheb_0. ring.
  - cbn [Nat.add]. rewrite cheb_SS, cheb_1. ring.
  - pose proof (IH1 (S (S j))) as A. pose proof (IH2 (S j)) as B.
    replace (S (S i) + j)%nat with (i + S (S j))%nat by lia.
    replace (S (S i) + S (S i) + j)%nat with (S (S (i + i + S (S j)))) by lia.
    replace (S i + S j)%nat with (i + S (S j))%nat in B by lia.
    replace (S i + S i + S j)%nat with (S (i + i + S (S j))) in B by lia.
    pose proof (cheb_SS x i) as C1. pose proof (cheb_SS x (i + i + S (S j))) as C2. pose proof (cheb_SS x j) as C3.
    rewrite C1, C2.
    transitivity (2 * x * (2 * cheb x (S i) * cheb x (i + S (S j))) - 2 * cheb x i * cheb x (i + S (S j))); [ring|].
    rewrite A, B, C3. ring.
Qed.
Lemma cheb_comp x b a : cheb (cheb x b) a = cheb x (a * b).
Proof.
  induction a as [| |a IH1 IH2] using nat_ind2.
  - reflexivity.
  - rewrite cheb_1. f_equal. lia.
  - rewrite cheb_SS, IH1, IH2. pose proof (cheb_prod x b (a * b)) as E.
    replace (S (S a) * b)%nat with (b + b + a * b)%nat by lia. replace (S a * b)%nat with (b + a * b)%nat by lia. lia.
Qed.
Lemma qpow_cheb d b q k : 1 < q -> (fst b * fst b - d * (snd b * snd b)) mod q = 1 ->
  fst (qpow d b k) mod q = cheb (fst b) k mod q.
Proof.
  intros Hq Hn. induction k as [| |k IH1 IH2] using nat_ind2.
  - reflexivity.
  - cbn [qpow fst snd]. rewrite cheb_1. f_equal. ring.
  - rewrite cheb_SS. rewrite Zminus_mod, (Zmult_mod (2 * fst b)), <- IH1, <- IH2, <- Zmult_mod, <- Zminus_mod.
    cbn [qpow fst snd]. set (y := qpow d b k). destruct b as [u v]. destruct y as [y z]. cbn [fst snd] in *.
    match goal with |- ?A mod q = ?B mod q => replace A with (B - ((u * u - d * (v * v)) - 1) * y) by ring end.
    assert (E : (u * u - d * (v * v) - 1) mod q = 0) by (rewrite Zminus_mod, Hn, (Z.mod_small 1 q) by lia; reflexivity).
    rewrite Zminus_mod, (Zmult_mod _ y q), E, Z.mul_0_l, (Zmod_0_l q), Z.sub_0_r. apply Zmod_mod.
Qed.
Lemma pp1_prime N d b M fs : 2 < N -> 4 * N < M * M -> M = fold_right Z.mul 1 fs -> 0 < M -> Forall prime fs ->
  (fst b * fst b - d * (snd b * snd b)) mod N = 1 -> (exists e, (d * e) mod N = 1) ->
  cheb (fst b) (Z.to_nat M) mod N = 1 ->
  (forall l, In l fs -> exists i, ((cheb (fst b) (Z.to_nat (M / l)) - 1) * i) mod N = 1) -> prime N.
Proof.
  intros H2 HMM HM HM0 Hpr Hnb [e He] HpM Hfs.
  destruct (prime_dec N) as [|Hn]; auto. exfalso.
  destruct (smallest_prime_factor N ltac:(lia) Hn) as (q & Hq & HqN & Hqq).
  assert (Hq1 : 1 < q) by (destruct Hq; auto).
  assert (Hmm : forall a, (a mod N) mod q = a mod q) by (intros; apply mod_mod_divide; auto; lia).
  assert (Hz : qred q (qpow d b 0) = (1, 0)) by (unfold qred; cbn [qpow fst snd]; rewrite Z.mod_small, Zmod_0_l by lia; reflexivity).
  assert (Hnbq : (fst b * fst b - d * (snd b * snd b)) mod q = 1) by (rewrite <- Hmm, Hnb; apply Z.mod_small; lia).
  assert (Hone : forall k, cheb (fst b) k mod q = 1 -> qred q (qpow d b k) = (1, 0)).
  { intros k E. rewrite <- (qpow_cheb d b q k Hq1 Hnbq) in E. unfold qred. f_equal; auto.
    pose proof (qnorm_pow d b q k Hq1 Hnbq) as Hk. destruct (qpow d b k) as [y z]. cbn [fst snd] in *.
    assert (Hd : (q | z * z)).
    { apply Z.mod_divide; [lia|]. 
      assert (Hdz : (d * (z * z)) mod q = 0).
      { replace (d * (z * z)) with (y * y - (y * y - d * (z * z))) by ring. rewrite Zminus_mod, Hk, Zmult_mod, E. 
        rewrite Z.mul_1_l, (Z.mod_small 1 q) by lia. rewrite Z.sub_diag. apply Zmod_0_l. }
      assert (He' : (e * d) mod q = 1) by (rewrite Z.mul_comm, <- Hmm, He; apply Z.mod_small; lia).
      transitivity ((e * (d * (z * z))) mod q).
      - rewrite Z.mul_assoc, (Zmult_mod (e * d)), He', Z.mul_1_l. symmetry. apply Zmod_mod.
      - rewrite Zmult_mod, Hdz, Z.mul_0_r. apply Zmod_0_l. }
    apply Z.mod_divide; [lia|]. apply prime_mult in Hd; tauto. }
  assert (HLE : M <= Z.of_nat (length (norm1_univ d q))).
  { apply (exact_order_Z (fun k => qred q (qpow d b k)) M fs); auto.
    - intros i j k E. now rewrite !qpow_add, !qred_qm, E.
    - rewrite Hz. apply Hone. rewrite <- Hmm, HpM. apply Z.mod_small. lia.
    - intros l Hl Hl0 HMl. rewrite Hz. intros E. unfold qred in E. injection E as E0 _.
      rewrite (qpow_cheb d b q _ Hq1 Hnbq) in E0.
      destruct (Hfs l Hl) as [i Hi]. exact (unit_not_one _ _ _ _ Hq1 Hmm Hi E0).
    - intros k. unfold qred. apply norm1_univ_in; auto; try (apply Z.mod_pos_bound; lia).
      rewrite <- (qnorm_pow d b q k Hq1 Hnbq). 
      apply norm_red. }
  pose proof (norm1_univ_length d q) as HL. nia.
Qed.

(** ** Fermat's little theorem and inverses modulo a prime *)
Definition prodm (p : Z) (l : list Z) : Z := fold_right (fun x acc => (x * acc) mod p) (1 mod p) l.
Lemma prodm_perm p l l' : Permutation l l' -> prodm p l = prodm p l'.
Proof.
  induction 1; cbn [prodm fold_right]; auto; try congruence.
  - unfold prodm in *. now rewrite IHPermutation.
  - rewrite !Zmult_mod_idemp_r. f_equal. ring.
Qed.
Lemma prodm_map p a l : 0 < p -> prodm p (map (fun x => (a * x) mod p) l) = (a ^ Z.of_nat (length l) * prodm p l) mod p.
Proof.
  intros Hp. induction l as [|x l IH]; cbn [map prodm fold_right length].
  - rewrite Z.pow_0_r, Z.mul_1_l. now rewrite Zmod_mod.
  - fold (prodm p l) in *. fold (prodm p (map (fun x => (a * x) mod p) l)). rewrite IH.
    rewrite Nat2Z.inj_succ, Z.pow_succ_r by lia. rewrite <- Zmult_mod. rewrite Zmult_mod_idemp_r. f_equal. ring.
Qed.
Lemma prodm_unit p l : prime p -> Forall (fun x => 0 < x < p) l -> ~ (p | prodm p l).
Proof.
  intros Hp. assert (H1 : 1 < p) by (destruct Hp; auto). induction l as [|x l IH]; cbn [prodm fold_right]; intros Hl Hd.
  - rewrite Z.mod_small in Hd by lia. apply Z.divide_1_r_nonneg in Hd; lia.
  - inversion Hl as [|? ? Hx Hl']; subst. fold (prodm p l) in *.
    apply Z.mod_divide in Hd; [|lia]. rewrite Zmod_mod in Hd. apply Z.mod_divide in Hd; [|lia].
    apply prime_mult in Hd as [Hd|Hd]; auto; [|now apply IH].
    apply Z.divide_pos_le in Hd; lia.
Qed.
Lemma fermat p a : prime p -> ~ (p | a) -> a ^ (p - 1) mod p = 1.
Proof.
  intros Hp Ha. assert (H1 : 1 < p) by (destruct Hp; auto).
  set (l := map (fun k => Z.of_nat k) (seq 1 (Z.to_nat (p - 1)))).
  assert (Hin : forall x, In x l <-> 0 < x < p).
  { intros x. unfold l. rewrite in_map_iff. split.
    - intros (k & <- & Hk). apply in_seq in Hk. lia.
    - intros Hx. exists (Z.to_nat x). split; [lia|]. apply in_seq. lia. }
  assert (Hnd : NoDup l). { unfold l. apply FinFun.Injective_map_NoDup; [intros i j; lia|apply seq_NoDup]. }
  assert (Hlen : Z.of_nat (length l) = p - 1) by (unfold l; rewrite map_length, seq_length; lia).
  assert (Hinj : forall x y, 0 < x < p -> 0 < y < p -> (a * x) mod p = (a * y) mod p -> x = y).
  { intros x y Hx Hy E. assert (Hd : (p | a * (x - y))).
    { apply Z.mod_divide; [lia|]. replace (a * (x - y)) with (a * x - a * y) by ring. rewrite Zminus_mod, E, Z.sub_diag. apply Zmod_0_l. }
    apply prime_mult in Hd as [Hd|[c Hc]]; auto; [contradiction|]. assert (c = 0) by nia. subst c. lia. }
  assert (Hperm : Permutation l (map (fun x => (a * x) mod p) l)).
  { symmetry. apply NoDup_Permutation_bis.
    - assert (G : forall l', (forall x, In x l' -> 0 < x < p) -> NoDup l' -> NoDup (map (fun x => (a * x) mod p) l')).
      { intros l' Hr Hn. induction Hn as [|x l' Hx Hn IH]; cbn; constructor.
        - intros Hi. apply in_map_iff in Hi as (y & E & Hy). apply Hinj in E; [subst; contradiction| |]; apply Hr; cbn; auto.
        - apply IH. intros; apply Hr; cbn; auto. }
      apply G; auto. intros x Hx. now apply Hin.
    - rewrite map_length. lia.
    - intros z Hz. apply in_map_iff in Hz as (x & <- & Hx). apply Hin. apply Hin in Hx.
      pose proof (Z.mod_pos_bound (a * x) p ltac:(lia)).
      assert ((a * x) mod p <> 0); [|lia]. intros E. apply Z.mod_divide in E; [|lia].
      apply prime_mult in E as [E|E]; auto. apply Z.divide_pos_le in E; lia. }
  apply prodm_perm with (p := p) in Hperm. rewrite prodm_map, Hlen in Hperm by lia.
  assert (Hu : ~ (p | prodm p l)). { apply prodm_unit; auto. apply Forall_forall. intros x. apply Hin. }
  assert (Hb : 0 <= prodm p l < p). { destruct l; cbn; apply Z.mod_pos_bound; lia. }
  assert (Hd : (p | (a ^ (p - 1) - 1) * prodm p l)).
  { apply Z.mod_divide; [lia|]. replace ((a ^ (p - 1) - 1) * prodm p l) with (a ^ (p - 1) * prodm p l - prodm p l) by ring.
    rewrite Zminus_mod, <- Hperm. rewrite (Z.mod_small (prodm p l)) by lia. rewrite Z.sub_diag. apply Zmod_0_l. }
  apply prime_mult in Hd as [Hd|Hd]; auto; [|contradiction].
  destruct Hd as [c Hc]. replace (a ^ (p - 1)) with (1 + c * p) by lia. rewrite Z_mod_plus_full. apply Z.mod_small; lia.
Qed.
(** ** The field Z/p *)
(** specification of the modular inverse: the unique y in [0,p) with x y = 1 (mod p), and 0 for x = 0 (mod p);
    computed as x^(p-2). *)
Definition zinv (p x : Z) : Z := match p - 2 with Zpos m => ppow (zmulm p) (x mod p) m | _ => 0 end.
Lemma zinv_pow p x : 2 < p -> zinv p x = x ^ (p - 2) mod p.
Proof.
  intros Hp. unfold zinv. destruct (p - 2) eqn:E; try lia.
  rewrite ppow_pow by (try apply Z.mod_pos_bound; lia). symmetry. apply Zpower_mod. lia.
Qed.
Lemma zinv_mul p x : prime p -> 2 < p -> ~ (p | x) -> (x * zinv p x) mod p = 1.
Proof.
  intros Hp H2 Hx. rewrite zinv_pow by auto. rewrite Zmult_mod_idemp_r.
  rewrite <- Z.pow_succ_r by lia. replace (Z.succ (p - 2)) with (p - 1) by lia. now apply fermat.
Qed.
Lemma zinv_range p x : 2 < p -> 0 <= zinv p x < p.
Proof. intros Hp. rewrite zinv_pow by auto. apply Z.mod_pos_bound. lia. Qed.
Lemma zinv_0 p x : 2 < p -> (p | x) -> zinv p x = 0.
Proof.
  intros Hp Hd. rewrite zinv_pow by auto. apply Z.mod_divide in Hd; [|lia]. rewrite Zpower_mod by lia. rewrite Hd.
  rewrite Z.pow_0_l by lia. apply Zmod_0_l.
Qed.
Lemma zinv_unique p x y : prime p -> 2 < p -> (x * y) mod p = 1 -> zinv p x = y mod p.
Proof.
  intros Hp H2 E.
  assert (Hx : ~ (p | x)). { intros [c ->]. replace (c * p * y) with (0 + c * y * p) in E by ring. rewrite Z_mod_plus_full, Zmod_0_l in E. lia. }
  pose proof (zinv_mul p x Hp H2 Hx) as E1.
  transitivity ((zinv p x * ((x * y) mod p)) mod p).
  - rewrite E, Z.mul_1_r. symmetry. apply Z.mod_small. now apply zinv_range.
  - rewrite Zmult_mod_idemp_r. replace (zinv p x * (x * y)) with ((x * zinv p x) * y) by ring.
    rewrite Zmult_mod, E1, Z.mul_1_l. apply Zmod_mod.
Qed.

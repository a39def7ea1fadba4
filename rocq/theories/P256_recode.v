(** The integer side of P256_model: windows of the scalar and their signed recoding. *)
From Verif Require Import GoBase P256_field_model P256_model.
Local Open Scope Z_scope.
Ltac Zify.zify_post_hook ::= Z.div_mod_to_equations.

(** the signed digit of a window value *)
Definition bdigit (w e : Z) : Z := (e + 1) / 2 - (if 2 ^ w <=? e then 2 ^ w else 0).
Definition dsig (sel sign : Z) : Z := if sign =? 0 then sel else - sel.
(** the scalar's prefix, rounded: q_i = 2^w q_(i+1) + digit_i and q_0 = k *)
Definition rq (w k i : Z) : Z := (2 * k / 2 ^ (w * i) + 1) / 2.
Definition win (w k i : Z) : Z := (2 * k / 2 ^ (w * i)) mod 2 ^ (w + 1).

Definition booth_chk (w e : Z) : bool :=
  let '(sel, sign) := booth w e in
  (dsig sel sign =? bdigit w e) && (0 <=? sel) && (sel <=? 2 ^ (w - 1)).
Lemma forallb_zrange f m : forallb f (map Z.of_nat (seq 0 m)) = true -> forall e, 0 <= e < Z.of_nat m -> f e = true.
Proof.
  intros HF e He. rewrite forallb_forall in HF. apply HF. apply in_map_iff. exists (Z.to_nat e).
  split; [lia|]. apply in_seq. lia.
Qed.
Lemma booth5_all e : 0 <= e < 64 -> booth_chk 5 e = true.
Proof. apply (forallb_zrange (booth_chk 5) 64). vm_compute. reflexivity. Qed.
Lemma booth7_all e : 0 <= e < 256 -> booth_chk 7 e = true.
Proof. apply (forallb_zrange (booth_chk 7) 256). vm_compute. reflexivity. Qed.
Lemma booth_ok w e : w = 5 \/ w = 7 -> 0 <= e < 2 ^ (w + 1) ->
  dsig (fst (booth w e)) (snd (booth w e)) = bdigit w e /\ 0 <= fst (booth w e) <= 2 ^ (w - 1).
Proof.
  intros Hw He. assert (HC : booth_chk w e = true).
  { destruct Hw as [ -> | -> ]; [apply booth5_all | apply booth7_all]; exact He. }
  unfold booth_chk in HC. destruct (booth w e) as [sel sign]. cbn [fst snd].
  apply andb_prop in HC as [HC H3]. apply andb_prop in HC as [H1 H2].
  apply Z.eqb_eq in H1. lia.
Qed.

Lemma wlow_mod n x : 0 <= n -> wlow n x = x mod 2 ^ n.
Proof. intros Hn. unfold wlow. now apply Z.land_ones. Qed.
Lemma limb_div i x : 0 <= i -> limb i x = (x / 2 ^ (64 * i)) mod 2 ^ 64.
Proof. intros Hi. unfold limb. rewrite wlow_mod by lia. now rewrite Z.shiftr_div_pow2 by lia. Qed.
Lemma nth_fromBig i k : (i < 4)%nat -> nth i (fromBig k) 0 = (k / 2 ^ (64 * Z.of_nat i)) mod 2 ^ 64.
Proof.
  intros Hi. unfold fromBig.
  destruct i as [|[|[|[|i]]]]; [| | | |lia]; cbn [nth]; rewrite limb_div by lia; reflexivity.
Qed.
Lemma mod_mod_pow a m n : 0 <= m <= n -> (a mod 2 ^ n) mod 2 ^ m = a mod 2 ^ m.
Proof.
  intros Hmn. symmetry. apply Znumtheory.Zmod_div_mod; [lia..|]. exists (2 ^ (n - m)). rewrite <- Z.pow_add_r by lia. f_equal; lia.
Qed.
Lemma wvalue_ok k index m : 0 <= k < 2 ^ 256 -> 0 <= index < 256 -> 0 <= m <= 8 ->
  wvalue (fromBig k) index (Z.ones m) = (k / 2 ^ index) mod 2 ^ m.
Proof.
  intros Hk Hi Hm. unfold wvalue. rewrite !Z.land_ones by lia.
  assert (Hii : 0 <= index / 64 < 4) by lia.
  set (i := index / 64) in *. set (r := index mod 64).
  assert (Hr : 0 <= r < 64) by (unfold r; lia). assert (E : index = 64 * i + r) by (unfold i, r; lia).
  clearbody i r.
  rewrite (nth_fromBig (Z.to_nat i)) by lia. rewrite Z2Nat.id by lia.
  set (q := k / 2 ^ (64 * i)).
  assert (Eq : k / 2 ^ index = q / 2 ^ r).
  { unfold q. rewrite Z.div_div by lia. rewrite <- Z.pow_add_r by lia. now rewrite E. }
  rewrite Eq. rewrite Z.shiftr_div_pow2 by lia.
  assert (E64 : 2 ^ 64 = 2 ^ r * 2 ^ (64 - r)) by (rewrite <- Z.pow_add_r by lia; f_equal; lia).
  destruct (Z.ltb_spec index 192) as [Hlt|Hge].
  - rewrite (nth_fromBig (Z.to_nat i + 1)) by lia.
    replace (64 * Z.of_nat (Z.to_nat i + 1)) with (64 * i + 64) by lia.
    rewrite Z.pow_add_r, <- Z.div_div by lia. fold q.
    rewrite !wlow_mod by lia. rewrite Z.shiftl_mul_pow2 by lia.
    set (q' := q / 2 ^ 64).
    rewrite Z.add_mod_idemp_r by lia. rewrite mod_mod_pow by lia.
    assert (Hq : q / 2 ^ r = (q mod 2 ^ 64) / 2 ^ r + q' * 2 ^ (64 - r)).
    { rewrite (Z.div_mod q (2 ^ 64)) at 1 by lia. fold q'. rewrite E64 at 1.
      replace (2 ^ r * 2 ^ (64 - r) * q' + q mod 2 ^ 64) with (q mod 2 ^ 64 + (q' * 2 ^ (64 - r)) * 2 ^ r) by ring.
      rewrite Z.div_add by lia. reflexivity. }
    rewrite Hq.
    assert (Hm0 : 2 ^ m <> 0) by (apply Z.pow_nonzero; lia). rewrite Z.add_mod, (Z.add_mod _ (q' * _)) by exact Hm0. f_equal. f_equal.
    (* q' mod 2^64 * 2^(64-r)  =  q' * 2^(64-r)  mod 2^m *)
    rewrite <- (mod_mod_pow (q' mod 2 ^ 64 * 2 ^ (64 - r)) m 64) by lia.
    rewrite Z.mul_mod_idemp_l by lia. now rewrite mod_mod_pow by lia.
  - assert (Hi3 : i = 3) by lia. rewrite (Z.mod_small q); [reflexivity|].
    unfold q. rewrite Hi3. split; [apply Z.div_pos; lia|]. apply Z.div_lt_upper_bound; [lia|]. rewrite <- Z.pow_add_r by lia. exact (proj2 Hk).
Qed.
Lemma wvalue_win w k i : w = 5 \/ w = 7 -> 0 <= k < 2 ^ 256 -> 1 <= i -> w * i <= 256 ->
  wvalue (fromBig k) (w * i - 1) (Z.ones (w + 1)) = win w k i.
Proof.
  intros Hw Hk Hi Hlt. rewrite wvalue_ok by lia. unfold win. f_equal.
  replace (w * i) with ((w * i - 1) + 1) at 2 by lia. rewrite Z.pow_add_r by lia.
  rewrite (Z.mul_comm (2 ^ (w * i - 1))), <- Z.div_div by lia. change (2 ^ 1) with 2. rewrite (Z.mul_comm 2 k), Z.div_mul by lia. reflexivity.
Qed.
Lemma wvalue0_win w k : w = 5 \/ w = 7 -> 0 <= k < 2 ^ 256 -> wvalue0 (fromBig k) (Z.ones (w + 1)) = win w k 0.
Proof.
  intros Hw Hk. unfold wvalue0. rewrite Z.land_ones by lia. change (nth 0 (fromBig k) 0) with (limb 0 k).
  rewrite limb_div, wlow_mod by lia. rewrite Z.shiftl_mul_pow2 by lia. rewrite mod_mod_pow by lia.
  unfold win. rewrite !Z.mul_0_r. change (2 ^ 0) with 1. rewrite !Z.div_1_r. change (2 ^ 1) with 2.
  rewrite <- (mod_mod_pow (k mod 2 ^ 64 * 2) (w + 1) 64) by lia. rewrite Z.mul_mod_idemp_l by lia. rewrite mod_mod_pow by lia.
  f_equal. ring.
Qed.

Lemma rq_0 w k : rq w k 0 = k.
Proof. unfold rq. rewrite Z.mul_0_r. change (2 ^ 0) with 1. rewrite Z.div_1_r. lia. Qed.
Lemma rq_step w k i : 0 < w -> 0 <= i -> rq w k i = 2 ^ w * rq w k (i + 1) + bdigit w (win w k i).
Proof.
  intros Hw Hi. unfold rq, bdigit, win.
  replace (w * (i + 1)) with (w * i + w) by ring. rewrite Z.pow_add_r, <- Z.div_div by lia.
  set (K := 2 * k / 2 ^ (w * i)). clearbody K.
  rewrite Z.pow_add_r by lia. change (2 ^ 1) with 2.
  assert (Hp : 0 < 2 ^ w) by lia. assert (He : exists h, 2 ^ w = 2 * h).
  { exists (2 ^ (w - 1)). rewrite <- (Z.pow_succ_r 2 (w - 1)) by lia. f_equal; lia. }
  destruct He as (h & Hh). rewrite Hh in *. assert (Hh' : 0 < h) by lia.
  set (e := K mod (2 * h * 2)).
  assert (HK : exists t, K = 4 * h * t + e /\ 0 <= e < 4 * h).
  { exists (K / (2 * h * 2)). unfold e. pose proof (Z.div_mod K (2 * h * 2) ltac:(lia)). pose proof (Z.mod_pos_bound K (2 * h * 2) ltac:(lia)). nia. }
  destruct HK as (t & HK & Hb). clearbody e. subst K.
  assert (E1 : (4 * h * t + e + 1) / 2 = 2 * h * t + (e + 1) / 2).
  { replace (4 * h * t + e + 1) with ((e + 1) + (2 * h * t) * 2) by ring. rewrite Z.div_add by lia. ring. }
  rewrite E1. clear E1.
  destruct (Z.leb_spec (2 * h) e) as [Hge|Hlt].
  - assert (E2 : (4 * h * t + e) / (2 * h) = 2 * t + 1).
    { symmetry. apply (Z.div_unique _ _ _ (e - 2 * h)); [lia|]. ring. }
    rewrite E2. replace ((2 * t + 1 + 1) / 2) with (t + 1) by lia. ring.
  - assert (E2 : (4 * h * t + e) / (2 * h) = 2 * t).
    { symmetry. apply (Z.div_unique _ _ _ e); [lia|]. ring. }
    rewrite E2. replace ((2 * t + 1) / 2) with t by lia. ring.
Qed.
Lemma win_range w k i : 0 < w -> 0 <= win w k i < 2 ^ (w + 1).
Proof. intros Hw. unfold win. apply Z.mod_pos_bound. lia. Qed.
Lemma rq_nonneg w k i : 0 < w -> 0 <= i -> 0 <= k -> 0 <= rq w k i.
Proof. intros Hw Hi Hk. unfold rq. apply Z.div_pos; [|lia]. pose proof (Z.div_pos (2 * k) (2 ^ (w * i)) ltac:(lia) ltac:(lia)). lia. Qed.
(** the prefix is k / 2^(w i), rounded *)
Lemma rq_round w k i : 0 < w -> 0 <= i -> 0 <= k ->
  - 2 ^ (w * i) <= 2 * (k - 2 ^ (w * i) * rq w k i) <= 2 ^ (w * i).
Proof.
  intros Hw Hi Hk. unfold rq. set (D := 2 ^ (w * i)). assert (HD : 0 < D) by (unfold D; lia). clearbody D.
  pose proof (Z.div_mod (2 * k) D ltac:(lia)) as E. pose proof (Z.mod_pos_bound (2 * k) D HD) as Hb.
  set (K := 2 * k / D) in *. clearbody K. set (r := (2 * k) mod D) in *. clearbody r.
  pose proof (Z.div_mod (K + 1) 2 ltac:(lia)) as E2. pose proof (Z.mod_pos_bound (K + 1) 2 ltac:(lia)) as Hb2.
  set (q := (K + 1) / 2) in *. clearbody q. set (v := (K + 1) mod 2) in *. clearbody v. nia.
Qed.

(** uint64IsZero and the conditional copy *)
Lemma shr_and_bit k x i : 0 <= k -> 0 <= i -> Z.testbit (shr_and k x) i = Z.testbit x i && Z.testbit x (i + k).
Proof. intros Hk Hi. unfold shr_and. now rewrite Z.land_spec, Z.shiftr_spec by lia. Qed.
Lemma shr_and_all n x : 0 <= n -> (forall i, 0 <= i < n -> Z.testbit (shr_and n x) i = true) <-> (forall i, 0 <= i < 2 * n -> Z.testbit x i = true).
Proof.
  intros Hn. split; intros HA i Hi.
  - destruct (Z.lt_ge_cases i n) as [Hlt|Hge].
    + specialize (HA i ltac:(lia)). rewrite shr_and_bit in HA by lia. now apply andb_prop in HA.
    + specialize (HA (i - n) ltac:(lia)). rewrite shr_and_bit in HA by lia. apply andb_prop in HA as [_ HA]. now replace (i - n + n) with i in HA by ring.
  - rewrite shr_and_bit by lia. rewrite !HA by lia. reflexivity.
Qed.
Lemma uint64IsZero_ok x : 0 <= x < 2 ^ 64 -> uint64IsZero x = if x =? 0 then 1 else 0.
Proof.
  intros Hx. unfold uint64IsZero. set (y := Z.lxor x (Z.ones 64)).
  assert (Hy : forall i, 0 <= i < 64 -> Z.testbit y i = negb (Z.testbit x i)).
  { intros i Hi. unfold y. rewrite Z.lxor_spec, Z.ones_spec_low by lia. now destruct (Z.testbit x i). }
  set (r := shr_and 1 _).
  assert (Hr : Z.testbit r 0 = true <-> forall i, 0 <= i < 64 -> Z.testbit y i = true).
  { rewrite <- (shr_and_all 32 y) by lia. rewrite <- (shr_and_all 16) by lia. rewrite <- (shr_and_all 8) by lia.
    rewrite <- (shr_and_all 4) by lia. rewrite <- (shr_and_all 2) by lia. rewrite <- (shr_and_all 1) by lia. fold r.
    split; [|intros HA; apply HA; lia]. intros H0 i Hi. now replace i with 0 by lia. }
  assert (El : Z.land r 1 = if Z.testbit r 0 then 1 else 0).
  { rewrite (Z.land_ones r 1 ltac:(lia) : Z.land r 1 = r mod 2). rewrite Zmod_odd, Z.bit0_odd. reflexivity. }
  rewrite El. destruct (Z.eqb_spec x 0) as [ -> |Hn].
  - replace (Z.testbit r 0) with true; [reflexivity|]. symmetry. apply Hr. intros i Hi. rewrite Hy by exact Hi. now rewrite Z.bits_0.
  - destruct (Z.testbit r 0) eqn:EF; [|reflexivity]. exfalso. apply Hn. pose proof (proj1 Hr eq_refl) as HF.
    apply Z.bits_inj'. intros i Hi. rewrite Z.bits_0. destruct (Z.lt_ge_cases i 64) as [Hlt|Hge].
    + apply negb_true_iff. rewrite <- Hy by lia. apply HF; lia.
    + rewrite <- (Z.mod_small x (2 ^ 64)) by lia. now rewrite Z.mod_pow2_bits_high by lia.
Qed.
Lemma limb_range i x : 0 <= limb i x < 2 ^ 64.
Proof. unfold limb. rewrite wlow_mod by lia. apply Z.mod_pos_bound. lia. Qed.
Lemma lor_range a b n : 0 <= n -> 0 <= a < 2 ^ n -> 0 <= b < 2 ^ n -> 0 <= Z.lor a b < 2 ^ n.
Proof.
  intros Hn Ha Hb. split; [apply Z.lor_nonneg; lia|].
  destruct (Z.eq_dec (Z.lor a b) 0) as [ -> |Hz]; [lia|].
  apply Z.log2_lt_pow2; [pose proof (proj2 (Z.lor_nonneg a b) (conj (proj1 Ha) (proj1 Hb))); lia|].
  rewrite Z.log2_lor by lia. destruct (Z.eq_dec a 0) as [ -> |Ha0].
  - rewrite Z.lor_0_l in Hz. change (Z.log2 0) with 0. pose proof (proj1 (Z.log2_lt_pow2 b n ltac:(lia)) (proj2 Hb)). pose proof (Z.log2_nonneg b). lia.
  - pose proof (proj1 (Z.log2_lt_pow2 a n ltac:(lia)) (proj2 Ha)).
    destruct (Z.eq_dec b 0) as [ -> |Hb0]; [change (Z.log2 0) with 0; pose proof (Z.log2_nonneg a); lia|].
    pose proof (proj1 (Z.log2_lt_pow2 b n ltac:(lia)) (proj2 Hb)). lia.
Qed.
Lemma limbs_sum k : 0 <= k < 2 ^ 256 -> k = limb 0 k + 2 ^ 64 * limb 1 k + 2 ^ 128 * limb 2 k + 2 ^ 192 * limb 3 k.
Proof.
  intros Hk. rewrite !limb_div by lia. change (64 * 0) with 0. change (64 * 1) with 64. change (64 * 2) with 128. change (64 * 3) with 192.
  change (2 ^ 0) with 1. rewrite Z.div_1_r.
  replace (2 ^ 128) with (2 ^ 64 * 2 ^ 64) by reflexivity. replace (2 ^ 192) with (2 ^ 64 * 2 ^ 64 * 2 ^ 64) by reflexivity.
  rewrite <- !Z.div_div by lia. set (D := 2 ^ 64) in *. assert (HD : 0 < D) by (unfold D; lia).
  assert (Hk' : 0 <= k < D * D * D * D) by exact Hk. clearbody D.
  pose proof (Z.div_mod k D ltac:(lia)). set (k1 := k / D) in *. pose proof (Z.div_mod k1 D ltac:(lia)). set (k2 := k1 / D) in *.
  pose proof (Z.div_mod k2 D ltac:(lia)). set (k3 := k2 / D) in *.
  assert (k3 mod D = k3).
  { apply Z.mod_small. unfold k3, k2, k1. rewrite !Z.div_div by lia. split; [apply Z.div_pos; nia|]. apply Z.div_lt_upper_bound; nia. }
  nia.
Qed.
Lemma scalarIsZero_ok k : 0 <= k < 2 ^ 256 -> scalarIsZero (fromBig k) = if k =? 0 then 1 else 0.
Proof.
  intros Hk. unfold scalarIsZero, fromBig. cbn [nth].
  pose proof (limb_range 0 k). pose proof (limb_range 1 k). pose proof (limb_range 2 k). pose proof (limb_range 3 k).
  rewrite uint64IsZero_ok by (repeat apply lor_range; lia).
  pose proof (limbs_sum k Hk) as E.
  destruct (Z.eqb_spec k 0) as [ -> |Hn]; [reflexivity|].
  destruct (Z.eqb_spec (Z.lor (Z.lor (Z.lor (limb 0 k) (limb 1 k)) (limb 2 k)) (limb 3 k)) 0) as [E0|]; [|reflexivity].
  exfalso. apply Z.lor_eq_0_iff in E0 as [E0 E3]. apply Z.lor_eq_0_iff in E0 as [E0 E2]. apply Z.lor_eq_0_iff in E0 as [E0 E1].
  rewrite E0, E1, E2, E3 in E. lia.
Qed.
Lemma copy_word_ok n src v : 0 <= n < 2 ^ 64 -> 0 <= src < 2 ^ 64 -> v = 0 \/ v = 1 ->
  copy_word n src v = if v =? 1 then src else n.
Proof.
  intros Hn Hs [ -> | -> ]; unfold copy_word; cbn [Z.eqb].
  - change ((0 - 1) mod 2 ^ 64) with (Z.ones 64). rewrite Z.lxor_nilpotent, Z.land_0_r, Z.lor_0_r, Z.land_ones by lia. now apply Z.mod_small.
  - change ((1 - 1) mod 2 ^ 64) with 0. rewrite Z.lxor_0_l, Z.land_0_r, Z.lor_0_l, Z.land_ones by lia. now apply Z.mod_small.
Qed.

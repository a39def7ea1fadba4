(** Lemmas on machine words: shifts, ors and masks as arithmetic; ranges. *)
From Verif Require Import GoBase GoLemmas.
Open Scope Z_scope.
Ltac Zify.zify_post_hook ::= Z.div_mod_to_equations.

Lemma land_hi_lo a b k : 0 <= k -> 0 <= b < 2^k -> Z.land (a * 2^k) b = 0.
Proof.
  intros Hk Hb. rewrite <- Z.shiftl_mul_pow2 by lia.
  apply Z.bits_inj'. intros i Hi. rewrite Z.land_spec, Z.bits_0.
  destruct (Z.lt_ge_cases i k).
  - rewrite Z.shiftl_spec_low by lia. reflexivity.
  - rewrite <- (Z.mod_small b (2^k)) by lia. rewrite Z.mod_pow2_bits_high by lia. apply andb_false_r.
Qed.
Lemma lor_hi_lo a b k : 0 <= k -> 0 <= b < 2^k -> Z.lor (a * 2^k) b = a * 2^k + b.
Proof.
  intros Hk Hb. rewrite <- Z.lxor_lor by (now apply land_hi_lo).
  symmetry. apply Z.add_nocarry_lxor. now apply land_hi_lo.
Qed.
Lemma lor_lo_hi a b k : 0 <= k -> 0 <= b < 2^k -> Z.lor b (a * 2^k) = a * 2^k + b.
Proof. intros. rewrite Z.lor_comm. now apply lor_hi_lo. Qed.

Lemma land_ones_range a b n : 0 <= n -> 0 <= b < 2^n -> 0 <= Z.land a b < 2^n.
Proof.
  intros Hn Hb. rewrite <- (Z.mod_small b (2^n)) by lia. rewrite <- Z.land_ones by lia.
  rewrite Z.land_assoc, Z.land_ones by lia. apply Z.mod_pos_bound. lia.
Qed.
Lemma lor_range a b n : 0 <= n -> 0 <= a < 2^n -> 0 <= b < 2^n -> 0 <= Z.lor a b < 2^n.
Proof.
  intros Hn Ha Hb. split; [apply Z.lor_nonneg; lia|].
  assert (E : Z.lor a b = Z.lor a b mod 2^n).
  { rewrite <- Z.land_ones by lia. rewrite Z.land_lor_distr_l, !Z.land_ones, !Z.mod_small by lia. reflexivity. }
  rewrite E. apply Z.mod_pos_bound. lia.
Qed.
Lemma u32_range x : is_u32 (u32 x).
Proof. unfold is_u32, u32. apply Z.mod_pos_bound. lia. Qed.
Lemma u32_small x : is_u32 x -> u32 x = x.
Proof. apply Z.mod_small. Qed.
Lemma lxor_u32 a b : is_u32 a -> is_u32 b -> is_u32 (Z.lxor a b).
Proof. intros. apply lxor_range; auto; lia. Qed.
Lemma lor_u32 a b : is_u32 a -> is_u32 b -> is_u32 (Z.lor a b).
Proof. intros. apply lor_range; auto; lia. Qed.
Lemma land_u32 a b : is_u32 b -> is_u32 (Z.land a b).
Proof. intros. apply land_ones_range; auto; lia. Qed.

Lemma u8_shiftr_byte x k : 0 <= k -> is_byte (u8 (Z.shiftr x k)).
Proof. intros. unfold is_byte, u8. change (2^8) with 256. lia. Qed.
Lemma u8_byte x : is_byte (u8 x).
Proof. unfold is_byte, u8. change (2^8) with 256. lia. Qed.

(** Rotation: shift-or form against arithmetic form. *)
Lemma rot_arith x k : is_u32 x -> 0 <= k < 32 ->
  Z.lor (u32 (Z.shiftl x k)) (Z.shiftr x (32 - k)) = (x * 2^k) mod 2^32 + x / 2^(32-k).
Proof.
  intros Hx Hk. unfold u32, is_u32 in *. rewrite Z.shiftl_mul_pow2, Z.shiftr_div_pow2 by lia.
  assert (E : 2^32 = 2^(32-k) * 2^k) by (rewrite <- Z.pow_add_r by lia; f_equal; lia).
  rewrite E. rewrite Zmult_mod_distr_r.
  apply lor_hi_lo; [lia|]. split; [apply Z.div_pos; lia|].
  apply Z.div_lt_upper_bound; [lia|]. lia.
Qed.
Lemma rot_range x k : is_u32 x -> 0 <= k < 32 -> is_u32 ((x * 2^k) mod 2^32 + x / 2^(32-k)).
Proof.
  intros Hx Hk. rewrite <- rot_arith by auto. apply lor_u32; [apply u32_range|].
  unfold is_u32 in *. rewrite Z.shiftr_div_pow2 by lia. split; [apply Z.div_pos; lia|].
  eapply Z.le_lt_trans; [|apply Hx]. apply Z.div_le_upper_bound; [lia|]. assert (0 < 2^(32-k)) by lia. nia.
Qed.

(** big-endian word load *)
Lemma load_be4 a b c d : is_byte a -> is_byte b -> is_byte c -> is_byte d ->
  Z.lor (Z.lor (Z.lor d (Z.shiftl c 8)) (Z.shiftl b 16)) (Z.shiftl a 24) = be_val [a;b;c;d].
Proof.
  unfold is_byte. intros. rewrite !Z.shiftl_mul_pow2 by lia.
  rewrite (lor_lo_hi c d 8) by lia.
  rewrite (lor_lo_hi b _ 16) by lia. rewrite (lor_lo_hi a _ 24) by lia.
  unfold be_val. cbn [fold_left]. lia.
Qed.
Lemma load_be4' a b c d : is_byte a -> is_byte b -> is_byte c -> is_byte d ->
  Z.lor (Z.lor (Z.lor (Z.shiftl a 24) (Z.shiftl b 16)) (Z.shiftl c 8)) d = be_val [a;b;c;d].
Proof.
  unfold is_byte. intros. rewrite !Z.shiftl_mul_pow2 by lia.
  replace (a * 2^24) with ((a * 2^8) * 2^16) by lia.
  rewrite <- (Z.lor_comm (b * 2^16)).
  replace (Z.lor (b * 2 ^ 16) (a * 2 ^ 8 * 2 ^ 16)) with ((a * 2^8 + b) * 2^16).
  2:{ rewrite <- !Z.shiftl_mul_pow2 by lia. rewrite <- Z.shiftl_lor. f_equal.
      rewrite !Z.shiftl_mul_pow2 by lia. symmetry. apply lor_lo_hi; lia. }
  rewrite (lor_hi_lo _ (c * 2^8) 16) by lia.
  replace ((a * 2 ^ 8 + b) * 2 ^ 16 + c * 2 ^ 8) with ((a * 2^16 + b * 2^8 + c) * 2^8) by lia.
  rewrite (lor_hi_lo _ _ 8) by lia.
  unfold be_val. cbn [fold_left]. lia.
Qed.
Lemma store_be4 s :
  [u8 (Z.shiftr s 24); u8 (Z.shiftr s 16); u8 (Z.shiftr s 8); u8 s] = be_bytes 4 s.
Proof.
  unfold u8. rewrite !Z.shiftr_div_pow2 by lia. cbn [be_bytes app].
  rewrite !Z.div_div by lia. reflexivity.
Qed.
Lemma be_val4_u32 l : bytes l -> length l = 4%nat -> is_u32 (be_val l).
Proof. intros H Hl. pose proof (be_val_bound l H) as B. unfold zlen in B. rewrite Hl in B. exact B. Qed.

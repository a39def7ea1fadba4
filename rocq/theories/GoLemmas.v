(** Lemmas about the vocabulary of [GoBase]. *)
From Verif Require Import GoBase.
Open Scope Z_scope.
Ltac Zify.zify_post_hook ::= Z.div_mod_to_equations.

Lemma bytesb_spec l : bytesb l = true <-> bytes l.
Proof.
  unfold bytesb, bytes. rewrite forallb_forall, Forall_forall.
  unfold is_byteb, is_byte. split; intros H x Hx; specialize (H x Hx); lia.
Qed.

Lemma bytes_nil : bytes []. Proof. constructor. Qed.
Lemma bytes_cons x l : bytes (x :: l) <-> is_byte x /\ bytes l.
Proof. unfold bytes. rewrite Forall_cons_iff. tauto. Qed.
Lemma bytes_app a b : bytes (a ++ b) <-> bytes a /\ bytes b.
Proof. unfold bytes. apply Forall_app. Qed.
Lemma bytes_firstn n l : bytes l -> bytes (firstn n l).
Proof.
  unfold bytes. rewrite !Forall_forall. intros H x Hx. apply H.
  rewrite <- (firstn_skipn n l). apply in_or_app; now left.
Qed.
Lemma bytes_skipn n l : bytes l -> bytes (skipn n l).
Proof.
  unfold bytes. rewrite !Forall_forall. intros H x Hx. apply H.
  rewrite <- (firstn_skipn n l). apply in_or_app; now right.
Qed.
Lemma bytes_repeat x n : is_byte x -> bytes (repeat x n).
Proof. intros H. induction n; cbn [repeat]; constructor; auto. Qed.
Lemma bytes_zeros n : bytes (zeros n).
Proof. apply bytes_repeat. red; lia. Qed.
Lemma bytes_rev l : bytes l -> bytes (rev l).
Proof. apply Forall_rev. Qed.

Lemma zeros_length n : length (zeros n) = n.
Proof. apply repeat_length. Qed.

(** ** be_val / be_bytes *)
Lemma be_val_app a b : be_val (a ++ b) = be_val a * 256 ^ zlen b + be_val b.
Proof.
  unfold be_val, zlen. rewrite fold_left_app.
  generalize (fold_left (fun acc b0 => acc * 256 + b0) a 0). intros acc.
  revert acc. induction b as [|x b IH] using rev_ind; intros acc.
  - cbn. lia.
  - rewrite !fold_left_app. cbn [fold_left]. rewrite IH.
    rewrite app_length. cbn [length].
    replace (Z.of_nat (length b + 1)) with (Z.of_nat (length b) + 1) by lia.
    rewrite Z.pow_add_r by lia. change (256^1) with 256. ring.
Qed.
Lemma be_val_nil : be_val [] = 0. Proof. reflexivity. Qed.
Lemma be_val_single x : be_val [x] = x. Proof. reflexivity. Qed.
Lemma be_val_snoc a x : be_val (a ++ [x]) = be_val a * 256 + x.
Proof. rewrite be_val_app. reflexivity. Qed.
Lemma be_val_cons x l : be_val (x :: l) = x * 256 ^ zlen l + be_val l.
Proof. change (x :: l) with ([x] ++ l). now rewrite be_val_app, be_val_single. Qed.

Lemma be_val_bound l : bytes l -> 0 <= be_val l < 256 ^ zlen l.
Proof.
  induction l as [|x l IH] using rev_ind; intros H.
  - cbn; lia.
  - apply bytes_app in H as [H1 H2]. apply bytes_cons in H2 as [H2 _]. red in H2.
    specialize (IH H1). rewrite be_val_snoc. unfold zlen in *. rewrite app_length. cbn [length].
    replace (Z.of_nat (length l + 1)) with (Z.of_nat (length l) + 1) by lia.
    rewrite Z.pow_add_r by lia. change (256^1) with 256. nia.
Qed.

Lemma be_bytes_length n z : length (be_bytes n z) = n.
Proof. revert z; induction n; intros z; cbn [be_bytes]; [reflexivity|]. rewrite app_length, IHn. cbn; lia. Qed.
Lemma be_bytes_bytes n z : bytes (be_bytes n z).
Proof.
  revert z; induction n; intros z; cbn [be_bytes]; [constructor|].
  apply bytes_app; split; [apply IHn|]. apply bytes_cons; split; [red; lia|constructor].
Qed.
Lemma be_val_be_bytes n z : be_val (be_bytes n z) = z mod 256 ^ Z.of_nat n.
Proof.
  revert z; induction n; intros z; cbn [be_bytes].
  - cbn. now rewrite Z.mod_1_r.
  - rewrite be_val_snoc, IHn.
    replace (Z.of_nat (S n)) with (1 + Z.of_nat n) by lia.
    rewrite Z.pow_add_r by lia. change (256^1) with 256.
    rewrite Z.rem_mul_r by lia. lia.
Qed.
Lemma be_val_be_bytes_small n z : 0 <= z < 256 ^ Z.of_nat n -> be_val (be_bytes n z) = z.
Proof. intros H. rewrite be_val_be_bytes. now apply Z.mod_small. Qed.

Lemma be_bytes_be_val l : bytes l -> be_bytes (length l) (be_val l) = l.
Proof.
  induction l as [|x l IH] using rev_ind; intros H; [reflexivity|].
  apply bytes_app in H as [H1 H2]. apply bytes_cons in H2 as [H2 _]. red in H2.
  rewrite app_length. cbn [length]. replace (length l + 1)%nat with (S (length l)) by lia.
  cbn [be_bytes]. rewrite be_val_snoc.
  replace ((be_val l * 256 + x) / 256) with (be_val l) by lia.
  replace ((be_val l * 256 + x) mod 256) with x by lia.
  now rewrite IH.
Qed.

Lemma be_val_inj a b : bytes a -> bytes b -> length a = length b -> be_val a = be_val b -> a = b.
Proof.
  intros Ha Hb Hl Hv. rewrite <- (be_bytes_be_val a Ha), <- (be_bytes_be_val b Hb). congruence.
Qed.

Lemma be_val_zeros n l : be_val (zeros n ++ l) = be_val l.
Proof.
  induction n; [reflexivity|]. cbn [zeros repeat app]. rewrite be_val_cons. exact IHn.
Qed.

(** ** beqb / xorl *)
Lemma beqb_eq a b : beqb a b = true <-> a = b.
Proof.
  revert b; induction a as [|x a IH]; intros [|y b]; cbn [beqb]; try (split; congruence).
  rewrite andb_true_iff, IH, Z.eqb_eq. split; [intros [-> ->]; reflexivity|intros E; inversion E; auto].
Qed.
Lemma beqb_refl a : beqb a a = true. Proof. now apply beqb_eq. Qed.
Lemma beqb_neq a b : beqb a b = false <-> a <> b.
Proof. rewrite <- not_true_iff_false, beqb_eq. tauto. Qed.

Lemma xorl_length a b : length (xorl a b) = Nat.min (length a) (length b).
Proof. revert b; induction a as [|x a IH]; intros [|y b]; cbn [xorl length]; auto. rewrite IH. lia. Qed.

Lemma xorl_involutive a b : (length a <= length b)%nat -> xorl (xorl a b) b = a.
Proof.
  revert b; induction a as [|x a IH]; intros [|y b]; cbn [xorl length]; intros H; auto; [lia|].
  rewrite Z.lxor_assoc, Z.lxor_nilpotent, Z.lxor_0_r, IH by lia. reflexivity.
Qed.
Lemma xorl_comm a b : xorl a b = xorl b a.
Proof. revert b; induction a as [|x a IH]; intros [|y b]; cbn [xorl]; auto. now rewrite Z.lxor_comm, IH. Qed.
Lemma xorl_assoc a b c : xorl (xorl a b) c = xorl a (xorl b c).
Proof.
  revert b c; induction a as [|x a IH]; intros [|y b] [|z c]; cbn [xorl]; auto.
  now rewrite Z.lxor_assoc, IH.
Qed.
Lemma xorl_zeros_r a : xorl a (zeros (length a)) = a.
Proof. induction a as [|x a IH]; cbn; [reflexivity|]. rewrite Z.lxor_0_r. f_equal. exact IH. Qed.

Lemma lxor_range a b n : 0 <= n -> 0 <= a < 2^n -> 0 <= b < 2^n -> 0 <= Z.lxor a b < 2^n.
Proof.
  intros Hn Ha Hb.
  assert (H0 : 0 <= Z.lxor a b) by (apply Z.lxor_nonneg; lia).
  split; [exact H0|].
  destruct (Z.eq_dec (Z.lxor a b) 0) as [E|E]; [rewrite E; lia|].
  apply Z.log2_lt_pow2; [lia|].
  eapply Z.le_lt_trans; [apply Z.log2_lxor; lia|].
  apply Z.max_lub_lt.
  - destruct (Z.eq_dec a 0) as [->|]; [|apply Z.log2_lt_pow2; lia].
    cbn. destruct (Z.eq_dec n 0) as [->|]; [|lia]. change (2^0) with 1 in *. replace b with 0 in E by lia. now cbn in E.
  - destruct (Z.eq_dec b 0) as [->|]; [|apply Z.log2_lt_pow2; lia].
    cbn. destruct (Z.eq_dec n 0) as [->|]; [|lia]. change (2^0) with 1 in *. replace a with 0 in E by lia. now cbn in E.
Qed.
Lemma lxor_byte a b : is_byte a -> is_byte b -> is_byte (Z.lxor a b).
Proof. intros. apply (lxor_range a b 8); [lia|exact H|exact H0]. Qed.
Lemma xorl_bytes a b : bytes a -> bytes b -> bytes (xorl a b).
Proof.
  revert b; induction a as [|x a IH]; intros [|y b] Ha Hb; cbn [xorl]; try constructor.
  - apply lxor_byte; [apply bytes_cons in Ha|apply bytes_cons in Hb]; tauto.
  - apply IH; [apply bytes_cons in Ha|apply bytes_cons in Hb]; tauto.
Qed.

(** ** upd *)
Lemma upd_length {A} i (v : A) l : length (upd i v l) = length l.
Proof. revert i; induction l as [|h t IH]; intros [|i]; cbn [upd length]; auto. Qed.
Lemma nth_upd_same {A} i (v d : A) l : (i < length l)%nat -> nth i (upd i v l) d = v.
Proof. revert i; induction l as [|h t IH]; intros [|i] H; cbn in *; try lia; auto. apply IH; lia. Qed.
Lemma nth_upd_other {A} i j (v d : A) l : i <> j -> nth i (upd j v l) d = nth i l d.
Proof. revert i j; induction l as [|h t IH]; intros [|i] [|j] H; cbn in *; try lia; auto; try congruence. Qed.

(** ** chunks *)
Lemma chunks_aux_enough {A} n f1 f2 (l : list A) :
  (0 < n)%nat -> (length l <= f1)%nat -> (length l <= f2)%nat -> chunks_aux f1 n l = chunks_aux f2 n l.
Proof.
  intros Hn. revert f2 l; induction f1 as [|f1 IH]; intros f2 l H1 H2.
  - destruct l; [destruct f2; reflexivity|cbn in H1; lia].
  - destruct f2 as [|f2]; [destruct l; [reflexivity|cbn in H2; lia]|].
    cbn [chunks_aux]. destruct l as [|x l]; [reflexivity|].
    f_equal. apply IH; rewrite skipn_length; cbn [length] in *; lia.
Qed.
Lemma chunks_nil {A} n : chunks n (@nil A) = [].
Proof. reflexivity. Qed.
Lemma chunks_step {A} n (l : list A) : (0 < n)%nat -> l <> [] -> chunks n l = firstn n l :: chunks n (skipn n l).
Proof.
  intros Hn Hl. unfold chunks. destruct l as [|x l]; [congruence|].
  cbn [length chunks_aux]. f_equal. apply chunks_aux_enough; auto; rewrite skipn_length; cbn [length]; lia.
Qed.
Lemma chunks_app {A} n (a b : list A) : (0 < n)%nat -> length a = n -> chunks n (a ++ b) = a :: chunks n b.
Proof.
  intros Hn Ha. rewrite chunks_step; [|assumption|destruct a; cbn in *; [lia|congruence]].
  rewrite firstn_app, skipn_app, Ha, Nat.sub_diag, firstn_all2, skipn_all2 by lia.
  cbn [firstn skipn]. now rewrite app_nil_r.
Qed.
Lemma concat_chunks {A} n (l : list A) : (0 < n)%nat -> concat (chunks n l) = l.
Proof.
  intros Hn. remember (length l) as m eqn:Hm. revert l Hm.
  induction m as [m IH] using lt_wf_ind; intros l Hm.
  destruct l as [|x l]; [reflexivity|]. rewrite chunks_step; [|auto|congruence].
  cbn [concat]. erewrite IH; [apply firstn_skipn| |reflexivity].
  rewrite skipn_length. cbn [length] in *. lia.
Qed.

(** ** firstn/skipn helpers *)
Lemma firstn_app_l {A} n (a b : list A) : length a = n -> firstn n (a ++ b) = a.
Proof. intros <-. rewrite firstn_app, Nat.sub_diag, firstn_all. cbn. apply app_nil_r. Qed.
Lemma skipn_app_l {A} n (a b : list A) : length a = n -> skipn n (a ++ b) = b.
Proof. intros <-. rewrite skipn_app, Nat.sub_diag, skipn_all. reflexivity. Qed.
Lemma skipn_skipn {A} a b (l : list A) : skipn a (skipn b l) = skipn (b + a) l.
Proof.
  revert l; induction b as [|b IH]; intros l; [reflexivity|]. destruct l as [|x l]; [cbn; now destruct a|].
  cbn [skipn Nat.add]. apply IH.
Qed.
Lemma firstn_skipn_comm' {A} a b (l : list A) : firstn a (skipn b l) = skipn b (firstn (b + a) l).
Proof.
  revert l; induction b as [|b IH]; intros l; [reflexivity|]. destruct l as [|x l]; [cbn; now destruct a|].
  cbn [skipn Nat.add firstn]. apply IH.
Qed.
Lemma zlen_app {A} (a b : list A) : zlen (a ++ b) = zlen a + zlen b.
Proof. unfold zlen. rewrite app_length. lia. Qed.
Lemma zlen_nonneg {A} (a : list A) : 0 <= zlen a.
Proof. unfold zlen. lia. Qed.

(** Solve [bytes _] goals structurally. *)
Ltac bts := repeat match goal with
  | |- bytes (_ ++ _) => apply bytes_app; split
  | |- bytes (_ :: _) => apply bytes_cons; split; [try (red; lia); try apply Z.mod_pos_bound; try reflexivity|]
  | |- bytes [] => constructor
  | |- bytes (zeros _) => apply bytes_zeros
  | |- bytes (be_bytes _ _) => apply be_bytes_bytes
  | |- bytes (firstn _ _) => apply bytes_firstn
  | |- bytes (skipn _ _) => apply bytes_skipn
  | |- bytes (xorl _ _) => apply xorl_bytes
  | |- bytes (repeat _ _) => apply bytes_repeat
  end; auto.

(** Proofs that the model of package sm3 computes GB/T 32905 SM3, for all inputs and histories. *)
From Coq Require Import Znumtheory.
From Verif Require Import GoBase GoLemmas Words SM3_spec SM3_model SM3_hist_spec.
Open Scope Z_scope.
Ltac Zify.zify_post_hook ::= Z.div_mod_to_equations.

(** ** Word functions *)
Lemma leftRotate_rotl x r : is_u32 x -> 0 <= r -> leftRotate x r = rotl x (r mod 32).
Proof. intros Hx Hr. unfold leftRotate, rotl. apply rot_arith; [exact Hx|lia]. Qed.
Lemma rotl_u32 x k : is_u32 x -> 0 <= k < 32 -> is_u32 (rotl x k).
Proof. apply rot_range. Qed.
Lemma lr_rotl x k : is_u32 x -> 0 <= k < 32 -> leftRotate x k = rotl x k.
Proof. intros. rewrite leftRotate_rotl by (auto; lia). now rewrite Z.mod_small by lia. Qed.

Lemma p0_P0 x : is_u32 x -> p0 x = P0 x.
Proof. intros. unfold p0, P0. now rewrite !lr_rotl by (auto; lia). Qed.
Lemma p1_P1 x : is_u32 x -> p1 x = P1 x.
Proof. intros. unfold p1, P1. now rewrite !lr_rotl by (auto; lia). Qed.
Lemma P0_u32 x : is_u32 x -> is_u32 (P0 x).
Proof. intros. unfold P0. repeat apply lxor_u32; auto; apply rotl_u32; auto; lia. Qed.
Lemma P1_u32 x : is_u32 x -> is_u32 (P1 x).
Proof. intros. unfold P1. repeat apply lxor_u32; auto; apply rotl_u32; auto; lia. Qed.

Ltac u32s := match goal with
  | |- is_u32 (Z.lxor _ _) => apply lxor_u32; u32s
  | |- is_u32 (Z.lor _ _) => apply lor_u32; u32s
  | |- is_u32 (Z.land _ _) => apply land_u32; u32s
  | |- is_u32 (rotl _ _) => apply rotl_u32; [u32s|lia]
  | |- is_u32 (P1 _) => apply P1_u32; u32s
  | |- is_u32 (P0 _) => apply P0_u32; u32s
  | |- is_u32 (nth _ _ _) => match goal with H : _ |- _ => apply H; lia end
  | |- _ => auto
  end.

Lemma gg1_spec X Y V : is_u32 V -> gg1 X Y V = Z.lor (Z.land X Y) (Z.land (Z.lnot X) V).
Proof.
  intros HV. unfold gg1. f_equal. apply Z.bits_inj'. intros i Hi.
  rewrite !Z.land_spec, Z.lxor_spec, Z.lnot_spec by lia.
  destruct (Z.lt_ge_cases i 32) as [H|H].
  - change 0xffffffff with (Z.ones 32). rewrite Z.ones_spec_low by lia. now rewrite xorb_true_r.
  - red in HV. rewrite <- (Z.mod_small V (2^32)) by lia. rewrite Z.mod_pow2_bits_high by lia. now rewrite !andb_false_r.
Qed.

(** ** Message expansion *)
Lemma iter_succ_r {A} n (f : A -> A) x : Nat.iter (S n) f x = Nat.iter n f (f x).
Proof. induction n as [|n IH]; [reflexivity|]. change (f (Nat.iter (S n) f x) = f (Nat.iter n f (f x))). now rewrite IH. Qed.

Lemma expand_iter n W : expand n W = Nat.iter n (fun l => l ++ [w_next l]) W.
Proof. revert W; induction n; intros W; cbn [expand]; [reflexivity|]. now rewrite IHn, iter_succ_r. Qed.

Lemma w_next_u32 W : Forall is_u32 W -> (16 <= length W)%nat -> is_u32 (w_next W).
Proof.
  intros H Hl. rewrite Forall_forall in H. unfold w_next.
  assert (Hn : forall i, (0 < i <= 16)%nat -> is_u32 (nth (length W - i) W 0))
    by (intros i Hi; apply H, nth_In; lia).
  u32s.
Qed.
Lemma expand_props n : forall W, Forall is_u32 W -> (16 <= length W)%nat ->
  Forall is_u32 (expand n W) /\ length (expand n W) = (n + length W)%nat.
Proof.
  induction n as [|n IH]; intros W H Hl; cbn [expand]; [auto|].
  destruct (IH (W ++ [w_next W])) as [A B].
  - apply Forall_app; split; [auto|]. constructor; [|constructor]. now apply w_next_u32.
  - rewrite app_length. cbn. lia.
  - split; [auto|]. rewrite B, app_length. cbn. lia.
Qed.

(** Filling an array left to right, one [upd] per index. *)
Lemma fill_fold_inv (P : list Z -> Prop) (f : nat -> list Z -> Z) (g : list Z -> Z) n : forall l,
  P l -> (forall l', P l' -> (length l' < length l + n)%nat -> P (l' ++ [g l'])) ->
  (forall l', P l' -> (length l <= length l')%nat -> (length l' < length l + n)%nat ->
     f (length l') (l' ++ zeros (length l + n - length l')) = g l') ->
  fold_left (fun w i => upd i (f i w) w) (seq (length l) n) (l ++ zeros n)
  = Nat.iter n (fun l => l ++ [g l]) l.
Proof.
  induction n as [|n IH]; intros l HP Hstep Hf.
  - cbn. now rewrite app_nil_r.
  - cbn [seq fold_left].
    pose proof (Hf l HP ltac:(lia) ltac:(lia)) as H0.
    replace (length l + S n - length l)%nat with (S n) in H0 by lia. rewrite H0.
    assert (E : upd (length l) (g l) (l ++ zeros (S n)) = (l ++ [g l]) ++ zeros n).
    { assert (G : forall z l, upd (length l) z (l ++ zeros (S n)) = (l ++ [z]) ++ zeros n).
      { clear. intros z l. unfold zeros. cbn [repeat]. induction l as [|a l IHl]; [reflexivity|]. cbn [length app upd]. now rewrite IHl. } now rewrite G. }
    rewrite E. replace (S (length l)) with (length (l ++ [g l])) by (rewrite app_length; cbn; lia).
    rewrite IH.
    + rewrite iter_succ_r. reflexivity.
    + apply Hstep; [auto|lia].
    + intros l' Hl' H2. rewrite app_length in *. cbn [length] in *. apply Hstep; [auto|lia].
    + intros l' HP' H1 H2. rewrite app_length in *. cbn [length] in *.
      replace (length l + 1 + n - length l')%nat with (length l + S n - length l')%nat by lia.
      apply Hf; auto; lia.
Qed.

Lemma map_nth_seq (l : list Z) : map (fun i => nth i l 0) (seq 0 (length l)) = l.
Proof.
  induction l as [|x l IH]; [reflexivity|]. cbn [length seq map nth]. f_equal.
  rewrite <- seq_shift, map_map. exact IH.
Qed.

Lemma nth_app_zeros l k i : nth i (l ++ zeros k) 0 = nth i l 0.
Proof.
  destruct (Nat.lt_ge_cases i (length l)).
  - apply app_nth1; lia.
  - rewrite app_nth2 by lia. rewrite (nth_overflow l) by lia.
    generalize (i - length l)%nat. induction k; intros [|m]; cbn; auto.
Qed.

Lemma msgExp_spec x : Forall is_u32 x -> length x = 16%nat ->
  msgExp x = (expand 52 x, map (fun j => Z.lxor (nth j (expand 52 x) 0) (nth (j+4) (expand 52 x) 0)) (seq 0 64)).
Proof.
  intros Hx Hl. unfold msgExp.
  assert (E1 : fold_left (fun w i => upd i (nth i x 0) w) (seq 0 16) (zeros 68) = x ++ zeros 52).
  { destruct x as [|x0 [|x1 [|x2 [|x3 [|x4 [|x5 [|x6 [|x7 [|x8 [|x9 [|x10 [|x11 [|x12 [|x13 [|x14 [|x15 [|]]]]]]]]]]]]]]]]];
      cbn in Hl; try lia. reflexivity. }
  rewrite E1.
  pose proof (fill_fold_inv (fun l => Forall is_u32 l /\ (16 <= length l)%nat)
     (fun i w => (Z.lxor (Z.lxor
               (p1 (Z.lxor (Z.lxor (nth (i-16) w 0) (nth (i-9) w 0)) (leftRotate (nth (i-3) w 0) 15)))
               (leftRotate (nth (i-13) w 0) 7))
               (nth (i-6) w 0))) w_next 52 x) as E2.
  rewrite Hl in E2. rewrite E2; clear E2.
  - rewrite <- expand_iter. f_equal.
  - split; [auto|lia].
  - intros l [H1 H2] _. split.
    + apply Forall_app; split; [auto|]. constructor; [|constructor]. now apply w_next_u32.
    + rewrite app_length. lia.
  - intros l [H1 H2] H3 H4. rewrite !nth_app_zeros. unfold w_next.
    rewrite Forall_forall in H1.
    assert (Hn : forall i, (0 < i <= 16)%nat -> is_u32 (nth (length l - i) l 0))
      by (intros i Hi; apply H1, nth_In; lia).
    rewrite !(lr_rotl _ 15), !(lr_rotl _ 7) by (try apply Hn; lia).
    rewrite p1_P1; [reflexivity|].
    u32s.
Qed.

(** ** Compression *)
Definition regs_u32 (s : regs) : Prop :=
  let '(A, B, C, D, E, F, G, H) := s in
  is_u32 A /\ is_u32 B /\ is_u32 C /\ is_u32 D /\ is_u32 E /\ is_u32 F /\ is_u32 G /\ is_u32 H.

Lemma FF_u32 j X Y U : is_u32 X -> is_u32 Y -> is_u32 U -> is_u32 (FF j X Y U).
Proof. intros. unfold FF. destruct (j <? 16)%nat; [repeat apply lxor_u32; auto|repeat apply lor_u32; apply land_u32; auto]. Qed.
Lemma GG_u32 j X Y U : is_u32 X -> is_u32 Y -> is_u32 U -> is_u32 (GG j X Y U).
Proof. intros. unfold GG. destruct (j <? 16)%nat; [repeat apply lxor_u32; auto|repeat apply lor_u32; apply land_u32; auto]. Qed.
Lemma T_u32 j : is_u32 (T j).
Proof. unfold T. destruct (j <? 16)%nat; unfold is_u32; lia. Qed.
Lemma add32_u32 a b : is_u32 (add32 a b).
Proof. apply u32_range. Qed.

Lemma round_u32 W s j : regs_u32 s -> regs_u32 (round W s j).
Proof.
  destruct s as [[[[[[[A B] C] D] E] F] G] H]. unfold regs_u32, round.
  intros (HA & HB & HC & HD & HE & HF & HG & HH).
  repeat split; try apply add32_u32; auto; try (apply rotl_u32; auto; lia); try apply HA; try apply HC; try apply HE; try apply HG.
  all: try (apply P0_u32, add32_u32); try (apply rotl_u32; [auto|lia]).
Qed.

Lemma cF_step_round first W1 s j :
  regs_u32 s -> (j < 64)%nat -> first = (j <? 16)%nat ->
  cF_step first W1 (map (fun j => Z.lxor (nth j W1 0) (nth (j+4) W1 0)) (seq 0 64)) s j = round W1 s j.
Proof.
  destruct s as [[[[[[[A B] C] D] E] F] G] H]. unfold regs_u32.
  intros (HA & HB & HC & HD & HE & HF & HG & HH) Hj ->.
  unfold cF_step, round.
  assert (HW2 : nth j (map (fun j => Z.lxor (nth j W1 0) (nth (j+4) W1 0)) (seq 0 64)) 0
              = Z.lxor (nth j W1 0) (nth (j+4) W1 0)).
  { rewrite nth_indep with (d' := Z.lxor (nth 0 W1 0) (nth (0+4) W1 0)) by (rewrite map_length, seq_length; lia).
    rewrite (map_nth (fun j => Z.lxor (nth j W1 0) (nth (j+4) W1 0)) (seq 0 64) 0%nat j).
    rewrite seq_nth by lia. reflexivity. }
  rewrite HW2.
  set (jj := if (j <? 33)%nat then Z.of_nat j else Z.of_nat j - 32).
  assert (Hjj : 0 <= jj /\ jj mod 32 = Z.of_nat j mod 32).
  { unfold jj. destruct (Nat.ltb_spec j 33); lia. }
  assert (ET : (if (j <? 16)%nat then 0x79cc4519 else 0x7a879d8a) = T j) by reflexivity.
  rewrite ET. rewrite (leftRotate_rotl (T j)) by (try apply T_u32; lia). destruct Hjj as [_ ->].
  rewrite (lr_rotl A), (lr_rotl B), (lr_rotl F) by (auto; lia).
  fold (add32 (rotl A 12) E).
  replace (u32 (rotl A 12 + E)) with (add32 (rotl A 12) E) by reflexivity.
  change (u32 (add32 (rotl A 12) E + rotl (T j) (Z.of_nat j mod 32)))
    with (add32 (add32 (rotl A 12) E) (rotl (T j) (Z.of_nat j mod 32))).
  rewrite lr_rotl by (try apply add32_u32; lia).
  rewrite p0_P0 by apply u32_range.
  replace ((if (j <? 16)%nat then ff0 else ff1) A B C) with (FF j A B C)
    by (unfold FF; destruct (j <? 16)%nat; reflexivity).
  replace ((if (j <? 16)%nat then gg0 else gg1) E F G) with (GG j E F G)
    by (unfold GG; destruct (j <? 16)%nat; [reflexivity|symmetry; now apply gg1_spec]).
  reflexivity.
Qed.

Lemma fold_rounds first W1 js : forall s, regs_u32 s ->
  (forall j, In j js -> (j < 64)%nat /\ first = (j <? 16)%nat) ->
  fold_left (cF_step first W1 (map (fun j => Z.lxor (nth j W1 0) (nth (j+4) W1 0)) (seq 0 64))) js s
  = fold_left (round W1) js s /\ regs_u32 (fold_left (round W1) js s).
Proof.
  induction js as [|j js IH]; intros s Hs Hj; [split; auto|].
  cbn [fold_left]. destruct (Hj j (or_introl eq_refl)) as [A B].
  rewrite cF_step_round by auto. apply IH; [now apply round_u32|]. intros k Hk. apply Hj. now right.
Qed.

Definition state8 (V : list Z) : Prop := length V = 8%nat /\ Forall is_u32 V.

Lemma state8_nth V i : state8 V -> is_u32 (nth i V 0).
Proof.
  intros [Hl H]. destruct (Nat.lt_ge_cases i 8).
  - rewrite Forall_forall in H. apply H, nth_In. lia.
  - rewrite nth_overflow by lia. unfold is_u32; lia.
Qed.

Definition CFw (V w : list Z) : list Z :=
  let v i := nth i V 0 in
  let '(A, B, C, D, E, F, G, H) :=
    fold_left (round (expand 52 w)) (seq 0 64)
      (v 0%nat, v 1%nat, v 2%nat, v 3%nat, v 4%nat, v 5%nat, v 6%nat, v 7%nat) in
  xorl [A; B; C; D; E; F; G; H] V.

Lemma cF_CFw V w : state8 V -> Forall is_u32 w -> length w = 16%nat ->
  cF V w = CFw V w /\ state8 (CFw V w).
Proof.
  intros HV Hw Hl. unfold cF, CFw. rewrite msgExp_spec by auto.
  set (s0 := (nth 0 V 0, nth 1 V 0, nth 2 V 0, nth 3 V 0, nth 4 V 0, nth 5 V 0, nth 6 V 0, nth 7 V 0)).
  assert (Hs0 : regs_u32 s0) by (repeat split; apply state8_nth; auto).
  destruct (fold_rounds true (expand 52 w) (seq 0 16) s0 Hs0) as [E1 R1].
  { intros j Hj. apply in_seq in Hj. split; [lia|]. symmetry. apply Nat.ltb_lt. lia. }
  rewrite E1.
  destruct (fold_rounds false (expand 52 w) (seq 16 48) _ R1) as [E2 R2].
  { intros j Hj. apply in_seq in Hj. split; [lia|]. symmetry. apply Nat.ltb_ge. lia. }
  rewrite E2. change (seq 0 64) with (seq 0 16 ++ seq 16 48). rewrite fold_left_app.
  destruct (fold_left (round (expand 52 w)) (seq 16 48) (fold_left (round (expand 52 w)) (seq 0 16) s0))
    as [[[[[[[A B] C] D] E] F] G] H] eqn:Es.
  destruct HV as [HVl HV]. destruct V as [|v0 [|v1 [|v2 [|v3 [|v4 [|v5 [|v6 [|v7 [|]]]]]]]]]; cbn in HVl; try lia.
  cbn [xorl nth]. split; [reflexivity|]. split; [reflexivity|].
  cbn in R2. destruct R2 as (?&?&?&?&?&?&?&?).
  repeat (match goal with H : Forall _ (_ :: _) |- _ => inversion H; clear H; subst end).
  repeat (apply Forall_cons; [apply lxor_u32; assumption|]). constructor.
Qed.

(** ** Word loading *)
Lemma nth_skipn_add {A} (l : list A) a i d : nth i (skipn a l) d = nth (a + i) l d.
Proof.
  revert l; induction a as [|a IH]; intros l; [reflexivity|]. destruct l as [|x l]; [destruct i; reflexivity|].
  cbn [skipn]. rewrite IH. reflexivity.
Qed.

Lemma load_words_spec p : bytes p -> length p = 64%nat -> load_words p = words p.
Proof.
  intros Hb Hl. unfold load_words, words.
  assert (G : forall n a, (4 * (a + n) = 64)%nat ->
     map (fun mi => load_word p (4 * mi)) (seq a n) = map be_val (chunks 4 (skipn (4 * a) p))).
  { induction n as [|n IH]; intros a Ha.
    - replace (skipn (4*a) p) with (@nil Z) by (symmetry; apply skipn_all2; lia). reflexivity.
    - cbn [seq map].
      assert (Hs : length (skipn (4*a) p) = (4 * S n)%nat) by (rewrite skipn_length; lia).
      assert (Hsb : bytes (skipn (4*a) p)) by now apply bytes_skipn.
      rewrite chunks_step; [|lia|destruct (skipn (4*a) p); cbn in *; [lia|congruence]].
      cbn [map]. f_equal.
      + unfold load_word.
        replace (4*a)%nat with (4*a+0)%nat at 4 by lia.
        rewrite <- !nth_skipn_add. clear IH.
        destruct (skipn (4*a) p) as [|b0 [|b1 [|b2 [|b3 t]]]]; cbn in Hs; try lia.
        cbn [nth firstn].
        repeat (match goal with H : bytes (_ :: _) |- _ => apply bytes_cons in H as [? ?] end).
        apply load_be4; assumption.
      + rewrite IH by lia. f_equal. f_equal. rewrite skipn_skipn. f_equal. lia. }
  specialize (G 16%nat 0%nat eq_refl). exact G.
Qed.

Lemma words_props p : bytes p -> length p = 64%nat -> Forall is_u32 (words p) /\ length (words p) = 16%nat.
Proof.
  intros Hb Hl. rewrite <- load_words_spec by auto. split.
  - rewrite load_words_spec by auto. unfold words.
    apply Forall_forall. intros w Hw. apply in_map_iff in Hw as (c & <- & Hc).
    assert (G : forall n l, length l = (4 * n)%nat -> bytes l -> forall c, In c (chunks 4 l) -> bytes c /\ length c = 4%nat).
    { clear. induction n as [|n IH]; intros l Hl Hb c Hc.
      - destruct l; [destruct Hc|cbn in Hl; lia].
      - rewrite chunks_step in Hc; [|lia|destruct l; cbn in *; [lia|congruence]].
        destruct Hc as [<-|Hc].
        + split; [now apply bytes_firstn|]. rewrite firstn_length. lia.
        + apply (IH (skipn 4 l)); auto; [rewrite skipn_length; lia|now apply bytes_skipn]. }
    destruct (G 16%nat p Hl Hb c Hc). now apply be_val4_u32.
  - unfold load_words. now rewrite map_length, seq_length.
Qed.

Lemma cF_CF V p : state8 V -> bytes p -> length p = 64%nat -> cF V (load_words p) = CF V p /\ state8 (CF V p).
Proof.
  intros HV Hb Hl. rewrite load_words_spec by auto. destruct (words_props p Hb Hl) as [H H0].
  assert (E : CF V p = CFw V (words p)) by (unfold CF, CFw, W68; reflexivity).
  rewrite E. now apply cF_CFw.
Qed.

#[local] Opaque CF cF load_words.

(** ** Block processing *)
Definition full (l : list Z) : list Z := firstn (64 * (length l / 64)) l.
Definition rem (l : list Z) : list Z := skipn (64 * (length l / 64)) l.
(* Generic in the compression function, so that the kernel never evaluates it symbolically. *)
Definition absorbF (cf : list Z -> list Z -> list Z) (V l : list Z) : list Z := fold_left cf (chunks 64 (full l)) V.
Definition absorb : list Z -> list Z -> list Z := absorbF CF.

Lemma full_rem l : full l ++ rem l = l.
Proof. apply firstn_skipn. Qed.
Lemma full_length l : length (full l) = (64 * (length l / 64))%nat.
Proof. unfold full. rewrite firstn_length. lia. Qed.
Lemma rem_length l : length (rem l) = (length l mod 64)%nat.
Proof. unfold rem. rewrite skipn_length. lia. Qed.

Lemma full_cons_block b l : length b = 64%nat -> full (b ++ l) = b ++ full l.
Proof.
  intros Hb. unfold full. rewrite app_length, Hb.
  replace (64 * ((64 + length l) / 64))%nat with (length b + 64 * (length l / 64))%nat by (rewrite Hb; lia).
  apply firstn_app_2.
Qed.
Lemma rem_cons_block b l : length b = 64%nat -> rem (b ++ l) = rem l.
Proof.
  intros Hb. apply (app_inv_head (b ++ full l)). rewrite <- (full_cons_block b l Hb), full_rem.
  rewrite full_cons_block by auto. rewrite <- app_assoc, full_rem. reflexivity.
Qed.
Lemma full_blocks_app n : forall a b, length a = (64 * n)%nat -> full (a ++ b) = a ++ full b /\ rem (a ++ b) = rem b.
Proof.
  induction n as [|n IH]; intros a b Ha.
  - destruct a; [split; reflexivity|cbn in Ha; lia].
  - rewrite <- (firstn_skipn 64 a). rewrite <- !app_assoc.
    assert (H1 : length (firstn 64 a) = 64%nat) by (rewrite firstn_length; lia).
    rewrite full_cons_block, rem_cons_block by auto.
    destruct (IH (skipn 64 a) b) as [E1 E2]; [rewrite skipn_length; lia|]. rewrite E1, E2. auto.
Qed.
Lemma full_app a b : full (a ++ b) = full a ++ full (rem a ++ b) /\ rem (a ++ b) = rem (rem a ++ b).
Proof.
  assert (E : a ++ b = full a ++ (rem a ++ b)) by (rewrite app_assoc, full_rem; reflexivity).
  rewrite E. apply (full_blocks_app (length a / 64)). apply full_length.
Qed.
Lemma chunks_blocks_app n : forall a b : list Z, length a = (64 * n)%nat -> chunks 64 (a ++ b) = chunks 64 a ++ chunks 64 b.
Proof.
  induction n as [|n IH]; intros a b Ha.
  - destruct a; [reflexivity|cbn in Ha; lia].
  - rewrite <- (firstn_skipn 64 a). rewrite <- !app_assoc.
    assert (H1 : length (firstn 64 a) = 64%nat) by (rewrite firstn_length; lia).
    rewrite !(chunks_app 64 (firstn 64 a)) by (auto; lia). cbn [app]. f_equal.
    apply IH. rewrite skipn_length; lia.
Qed.
Lemma absorbF_app cf V a b : absorbF cf V (a ++ b) = absorbF cf (absorbF cf V a) (rem a ++ b).
Proof.
  unfold absorbF. destruct (full_app a b) as [-> _].
  rewrite (chunks_blocks_app (length a / 64)) by apply full_length. now rewrite fold_left_app.
Qed.
Lemma absorbF_short cf V a : (length a < 64)%nat -> absorbF cf V a = V /\ full a = [] /\ rem a = a.
Proof.
  intros H. unfold absorbF, full, rem. rewrite Nat.div_small by lia. cbn. auto.
Qed.
Lemma absorbF_block cf V b l : length b = 64%nat -> absorbF cf V (b ++ l) = absorbF cf (cf V b) l.
Proof.
  intros Hb. unfold absorbF. rewrite full_cons_block by auto.
  rewrite (chunks_app 64 b); [|lia|exact Hb]. reflexivity.
Qed.
Lemma absorb_app V a b : absorb V (a ++ b) = absorb (absorb V a) (rem a ++ b).
Proof. apply absorbF_app. Qed.
Lemma absorb_short V a : (length a < 64)%nat -> absorb V a = V /\ full a = [] /\ rem a = a.
Proof. apply absorbF_short. Qed.
Lemma absorb_block V b l : length b = 64%nat -> absorb V (b ++ l) = absorb (CF V b) l.
Proof. apply absorbF_block. Qed.

Lemma block_loop_spec fuel : forall V p, (length p <= fuel)%nat -> bytes p -> state8 V ->
  block_loop fuel V p = absorb V p /\ state8 (absorb V p).
Proof.
  induction fuel as [|fuel IH]; intros V p Hf Hb HV.
  - destruct p; [|cbn in Hf; lia]. cbn. auto.
  - cbn [block_loop]. destruct (Nat.leb_spec 64 (length p)) as [H|H].
    + assert (H1 : length (firstn 64 p) = 64%nat) by (rewrite firstn_length; lia).
      destruct (cF_CF V (firstn 64 p) HV (bytes_firstn _ _ Hb) H1) as [-> HV'].
      replace (absorb V p) with (absorb (CF V (firstn 64 p)) (skipn 64 p))
        by (rewrite <- absorb_block, firstn_skipn by auto; reflexivity).
      apply IH; [rewrite skipn_length; lia|now apply bytes_skipn|auto].
    + destruct (absorb_short V p) as [-> _]; auto.
Qed.
Lemma Block_spec V p : bytes p -> state8 V -> Block V p = absorb V p /\ state8 (absorb V p).
Proof. intros. apply block_loop_spec; auto. Qed.

(** ** The digest invariant: [d] has absorbed exactly the byte string [m]. *)
Definition holds (d : digest) (m : list Z) : Prop :=
  bytes m /\ state8 (d_h d) /\ d_h d = absorb IV m /\
  length (d_x d) = 64%nat /\ d_nx d = length (rem m) /\ firstn (d_nx d) (d_x d) = rem m /\
  d_len d = u64 (zlen m).

Lemma IV_state8 : state8 IV.
Proof. split; [reflexivity|]. unfold IV. repeat (apply Forall_cons; [unfold is_u32; lia|]). constructor. Qed.

Lemma holds_Reset d : length (d_x d) = 64%nat -> holds (Reset d) [].
Proof.
  intros H. unfold holds, Reset. cbn [d_h d_x d_nx d_len].
  split; [constructor|]. split; [apply IV_state8|]. repeat split; auto.
Qed.
Lemma holds_New : holds New [].
Proof. apply holds_Reset. reflexivity. Qed.

Lemma rem_rem m : rem (rem m) = rem m.
Proof. apply absorb_short; [exact []|]. rewrite rem_length. apply Nat.mod_upper_bound. lia. Qed.

(** copy into an array at [off], seen from its prefix *)
Lemma copy_at_spec dst off src : (off <= length dst)%nat ->
  let '(x, n) := copy_at dst off src in
  n = Nat.min (length dst - off) (length src) /\ length x = length dst /\
  firstn (off + n) x = firstn off dst ++ firstn n src.
Proof.
  intros H. unfold copy_at. split; [reflexivity|].
  set (n := Nat.min (length dst - off) (length src)).
  split.
  - rewrite !app_length, !firstn_length, skipn_length. lia.
  - rewrite app_assoc. apply firstn_app_l. rewrite app_length, !firstn_length. lia.
Qed.

(** Tail of Write once the buffer is empty. *)
Definition write_tail (d : digest) (p : list Z) : digest :=
  let '(d, p) :=
    if (64 <=? length p)%nat then
      let n := (64 * (length p / 64))%nat in
      (mkDigest (Block (d_h d) p) (d_x d) (d_nx d) (d_len d), skipn n p)
    else (d, p) in
  if (0 <? length p)%nat then
      let '(x', n) := copy_at (d_x d) 0 p in mkDigest (d_h d) x' n (d_len d)
  else d.

Lemma write_tail_spec d p : bytes p -> state8 (d_h d) -> length (d_x d) = 64%nat -> d_nx d = 0%nat ->
  let d' := write_tail d p in
  state8 (d_h d') /\ d_h d' = absorb (d_h d) p /\ length (d_x d') = 64%nat /\ d_nx d' = length (rem p) /\
  firstn (d_nx d') (d_x d') = rem p /\ d_len d' = d_len d.
Proof.
  intros Hb HV Hx Hnx. unfold write_tail.
  destruct (Block_spec (d_h d) p Hb HV) as [EB HB].
  destruct (Nat.leb_spec 64 (length p)) as [H|H]; cbn [d_h d_x d_nx d_len].
  - rewrite EB. fold (rem p).
    assert (Hr : (length (rem p) < 64)%nat) by (rewrite rem_length; apply Nat.mod_upper_bound; lia).
    destruct (Nat.ltb_spec 0 (length (rem p))) as [H1|H1]; cbn [d_h d_x d_nx d_len].
    + pose proof (copy_at_spec (d_x d) 0 (rem p) ltac:(lia)) as C.
      destruct (copy_at (d_x d) 0 (rem p)) as [x' n]. destruct C as (C1 & C2 & C3).
      cbn [d_h d_x d_nx d_len]. rewrite Nat.sub_0_r, Hx, Nat.min_r in C1 by lia. subst n.
      cbn [firstn app Nat.add] in C3. rewrite firstn_all in C3.
      repeat split; auto; try congruence; apply HB.
    + destruct (rem p); [|cbn in H1; lia]. rewrite Hnx. cbn. repeat split; auto; apply HB.
  - destruct (absorb_short (d_h d) p H) as (-> & _ & ->).
    destruct (Nat.ltb_spec 0 (length p)) as [H1|H1]; cbn [d_h d_x d_nx d_len].
    + pose proof (copy_at_spec (d_x d) 0 p ltac:(lia)) as C.
      destruct (copy_at (d_x d) 0 p) as [x' n]. destruct C as (C1 & C2 & C3).
      cbn [d_h d_x d_nx d_len]. rewrite Nat.sub_0_r, Hx, Nat.min_r in C1 by lia. subst n.
      cbn [firstn app Nat.add] in C3. rewrite firstn_all in C3.
      repeat split; auto; try congruence; apply HV.
    + destruct p; [|cbn in H1; lia]. rewrite Hnx. cbn. repeat split; auto; apply HV.
Qed.

Lemma firstn_all_eq {A} n (l : list A) : length l = n -> firstn n l = l.
Proof. intros <-. apply firstn_all. Qed.

Lemma Write_nonzero_full d p : d_nx d <> 0%nat -> (length p < 64 - d_nx d)%nat -> length (d_x d) = 64%nat ->
  (d_nx d < 64)%nat ->
  let '(x', n) := copy_at (d_x d) (d_nx d) p in
  Write d p = (mkDigest (d_h d) x' (d_nx d + length p) (u64 (d_len d + zlen p)), zlen p).
Proof.
  intros H1 H2 H3 H4.
  pose proof (copy_at_spec (d_x d) (d_nx d) p ltac:(lia)) as C.
  unfold Write. destruct (Nat.ltb_spec 0 (d_nx d)) as [H|H]; [|lia].
  destruct (copy_at (d_x d) (d_nx d) p) as [x' n]. destruct C as (C1 & C2 & C3).
  rewrite Nat.min_r in C1 by lia. subst n.
  destruct (Nat.eqb_spec (d_nx d + length p) 64) as [E|E]; [lia|].
  rewrite skipn_all. cbn. reflexivity.
Qed.

Lemma Write_holds d m p : holds d m -> bytes p ->
  holds (fst (Write d p)) (m ++ p) /\ snd (Write d p) = zlen p.
Proof.
  intros (Hm & HV & Hh & Hx & Hnx & Hrem & Hlen) Hp.
  assert (Hr : (d_nx d < 64)%nat) by (rewrite Hnx, rem_length; apply Nat.mod_upper_bound; lia).
  assert (Hlen' : u64 (d_len d + zlen p) = u64 (zlen (m ++ p))).
  { rewrite Hlen. unfold u64, zlen. rewrite app_length, Nat2Z.inj_add. apply Zplus_mod_idemp_l. }
  assert (Hmp : bytes (m ++ p)) by (apply bytes_app; auto).
  assert (Habs : absorb IV (m ++ p) = absorb (d_h d) (rem m ++ p)) by (rewrite Hh; apply absorb_app).
  assert (Hremp : rem (m ++ p) = rem (rem m ++ p)) by apply full_app.
  assert (Hrb : bytes (rem m)) by (apply bytes_skipn; auto).
  destruct (Nat.eq_dec (d_nx d) 0) as [H0|H0].
  - (* empty buffer *)
    assert (Hrm : rem m = []) by (destruct (rem m); [auto|cbn in Hnx; lia]).
    unfold Write. destruct (Nat.ltb_spec 0 (d_nx d)) as [H|_]; [lia|].
    pose proof (write_tail_spec (mkDigest (d_h d) (d_x d) (d_nx d) (u64 (d_len d + zlen p))) p Hp HV Hx H0) as W.
    unfold write_tail in W. cbn [d_h d_x d_nx d_len] in W.
    destruct (if (64 <=? length p)%nat then _ else _) as [d1 p1] eqn:E1.
    cbn [fst snd]. split; [|reflexivity].
    cbn zeta in W. destruct W as (W1 & W2 & W3 & W4 & W5 & W6).
    rewrite Hrm in Habs, Hremp. cbn [app] in Habs, Hremp.
    unfold holds. rewrite Habs, Hremp. rewrite <- Hlen'. auto 10.
  - pose proof (copy_at_spec (d_x d) (d_nx d) p ltac:(lia)) as C.
    destruct (Nat.lt_ge_cases (length p) (64 - d_nx d)) as [Hlt|Hge].
    + (* stays in the buffer *)
      pose proof (Write_nonzero_full d p H0 Hlt Hx Hr) as W.
      destruct (copy_at (d_x d) (d_nx d) p) as [x' n]. destruct C as (C1 & C2 & C3).
      rewrite Nat.min_r in C1 by lia. subst n. rewrite W. cbn [fst snd]. split; [|reflexivity].
      rewrite Hrem, firstn_all in C3.
      assert (Hsh : (length (rem m ++ p) < 64)%nat) by (rewrite app_length, <- Hnx; lia).
      destruct (absorb_short (d_h d) _ Hsh) as (A1 & _ & A2).
      unfold holds. cbn [d_h d_x d_nx d_len]. rewrite Habs, Hremp, A1, A2, <- Hlen'.
      rewrite app_length, <- Hnx.
      repeat split; auto; try congruence; apply HV.
    + (* fills the buffer *)
      set (n := (64 - d_nx d)%nat) in *.
      unfold Write. destruct (Nat.ltb_spec 0 (d_nx d)) as [_|H]; [|lia].
      destruct (copy_at (d_x d) (d_nx d) p) as [x' n'] eqn:Ecp. destruct C as (C1 & C2 & C3).
      rewrite Hx in C1. rewrite Nat.min_l in C1 by lia. subst n'. fold n. fold n in C3.
      replace (d_nx d + n)%nat with 64%nat in * by lia. rewrite Nat.eqb_refl.
      rewrite firstn_all_eq in C3 by lia. rewrite Hrem in C3.
      assert (Hx'b : bytes x') by (rewrite C3; apply bytes_app; split; [auto|now apply bytes_firstn]).
      assert (Hx'l : length x' = 64%nat) by lia.
      destruct (Block_spec (d_h d) x' Hx'b HV) as [EB HB]. rewrite EB.
      assert (EA : absorb (d_h d) x' = CF (d_h d) x').
      { rewrite <- (app_nil_r x') at 1. rewrite absorb_block by auto. reflexivity. }
      rewrite EA in *.
      pose proof (write_tail_spec (mkDigest (CF (d_h d) x') x' 0 (u64 (d_len d + zlen p))) (skipn n p)
                    (bytes_skipn _ _ Hp) HB Hx'l eq_refl) as W.
      unfold write_tail in W. cbn [d_h d_x d_nx d_len] in W.
      destruct (if (64 <=? length (skipn n p))%nat then _ else _) as [d1 p1] eqn:E1.
      cbn [fst snd]. split; [|reflexivity].
      cbn zeta in W. destruct W as (W1 & W2 & W3 & W4 & W5 & W6).
      assert (Esplit : rem m ++ p = x' ++ skipn n p).
      { rewrite C3, <- app_assoc, firstn_skipn. reflexivity. }
      unfold holds. rewrite Habs, Hremp, Esplit, absorb_block, rem_cons_block by auto.
      rewrite <- Hlen'. auto 10.
Qed.

(** ** checkSum *)
Lemma checkSum_spec d m : holds d m ->
  checkSum d = Ok (concat (map (be_bytes 4) (fold_left CF (chunks 64
       (m ++ [0x80] ++ zeros (Z.to_nat ((55 - zlen m) mod 64)) ++ be_bytes 8 (u64 (8 * zlen m)))) IV))).
Proof.
  intros Hd. assert (Hd' := Hd). destruct Hd' as (Hm & HV & Hh & Hx & Hnx & Hrem & Hlen).
  unfold checkSum.
  set (k := if d_len d mod 64 <? 56 then 56 - d_len d mod 64 else 64 + 56 - d_len d mod 64).
  assert (Hmod : d_len d mod 64 = zlen m mod 64).
  { rewrite Hlen. unfold u64. rewrite <- Zmod_div_mod; [reflexivity|lia|lia|]. exists (2^58). reflexivity. }
  assert (Hk : Z.to_nat k = S (Z.to_nat ((55 - zlen m) mod 64)) /\ (Z.to_nat k <= 64)%nat).
  { unfold k. rewrite Hmod. clear. unfold zlen. destruct (Z.ltb_spec (Z.of_nat (length m) mod 64) 56); lia. }
  destruct Hk as [Hk Hk64].
  assert (Ht : firstn (Z.to_nat k) (0x80 :: zeros 63) = [0x80] ++ zeros (Z.to_nat ((55 - zlen m) mod 64))).
  { rewrite Hk. cbn [firstn app]. f_equal. unfold zeros.
    assert (G : forall a b, (a <= b)%nat -> firstn a (repeat 0 b) = repeat 0 a).
    { clear. induction a as [|a IH]; intros b Hb; [reflexivity|]. destruct b; [lia|]. cbn. f_equal. apply IH. lia. }
    apply G. lia. }
  rewrite Ht.
  assert (Hl8 : map (fun i => u8 (Z.shiftr (u64 (Z.shiftl (d_len d) 3)) (56 - 8 * Z.of_nat i))) (seq 0 8)
              = be_bytes 8 (u64 (8 * zlen m))).
  { replace (u64 (Z.shiftl (d_len d) 3)) with (u64 (8 * zlen m)).
    2:{ rewrite Z.shiftl_mul_pow2 by lia. rewrite Hlen. unfold u64. rewrite Zmult_mod_idemp_l. f_equal. lia. }
    generalize (u64 (8 * zlen m)). intros L. cbn [seq map be_bytes app].
    unfold u8. rewrite !Z.shiftr_div_pow2 by lia. rewrite !Z.div_div by lia.
    cbn [Z.of_nat Pos.of_succ_nat Pos.succ Z.mul Pos.mul Z.sub Z.opp Z.add Z.pos_sub Pos.pred_double].
    change (L / 2 ^ 0) with (L / 1). rewrite Z.div_1_r. reflexivity. }
  rewrite Hl8.
  set (z1 := [0x80] ++ zeros (Z.to_nat ((55 - zlen m) mod 64))) in *.
  assert (Hz1 : bytes z1) by (apply bytes_app; split; [apply bytes_cons; split; [red; lia|constructor]|apply bytes_zeros]).
  destruct (Write_holds d m z1 Hd Hz1) as [Hd1 _].
  destruct (Write_holds _ _ (be_bytes 8 (u64 (8 * zlen m))) Hd1 (be_bytes_bytes _ _)) as [Hd2 _].
  destruct Hd2 as (Hm2 & HV2 & Hh2 & Hx2 & Hnx2 & _).
  set (pm := (m ++ z1) ++ be_bytes 8 (u64 (8 * zlen m))) in *.
  assert (Hpl : (length pm mod 64 = 0)%nat).
  { unfold pm, z1. rewrite !app_length, be_bytes_length, zeros_length. cbn [length].
    unfold zlen. clear. lia. }
  rewrite Hnx2, rem_length, Hpl. cbn [Nat.eqb negb].
  rewrite Hh2.
  rewrite (map_ext _ (be_bytes 4)) by (intros; apply store_be4).
  unfold absorb, absorbF.
  assert (Hf : full pm = pm).
  { unfold full. apply firstn_all2. lia. }
  rewrite Hf. unfold pm, z1. rewrite <- !app_assoc. reflexivity.
Qed.

Lemma checkSum_sm3 d m : holds d m -> zlen m < 2^61 -> checkSum d = Ok (sm3 m).
Proof.
  intros Hd Hl. rewrite (checkSum_spec d m Hd). unfold sm3, pad.
  replace (u64 (8 * zlen m)) with (8 * zlen m); [reflexivity|].
  unfold u64. symmetry. apply Z.mod_small. unfold zlen in *. lia.
Qed.

Lemma fold_cf_inv (cf : list Z -> list Z -> list Z) (P : list Z -> Prop) n :
  (forall V b, P V -> bytes b -> length b = 64%nat -> P (cf V b)) ->
  forall l V, length l = (64 * n)%nat -> bytes l -> P V -> P (fold_left cf (chunks 64 l) V).
Proof.
  intros Hcf. induction n as [|n IH]; intros l V Hl Hb HV.
  - destruct l; [exact HV|cbn in Hl; lia].
  - rewrite chunks_step; [|lia|destruct l; cbn in *; [lia|congruence]]. cbn [fold_left].
    apply IH; [rewrite skipn_length; lia|now apply bytes_skipn|].
    apply Hcf; auto; [now apply bytes_firstn|rewrite firstn_length; lia].
Qed.
Lemma fold_CF_state8 n l V : length l = (64 * n)%nat -> bytes l -> state8 V -> state8 (fold_left CF (chunks 64 l) V).
Proof. apply fold_cf_inv. intros V' b H1 H2 H3. now apply cF_CF. Qed.
Lemma concat_be4_length V : length (concat (map (be_bytes 4) V)) = (4 * length V)%nat.
Proof. induction V as [|v V IH]; [reflexivity|]. cbn [map concat]. rewrite app_length, be_bytes_length, IH. cbn [length]. lia. Qed.
Lemma concat_be4_bytes V : bytes (concat (map (be_bytes 4) V)).
Proof. induction V as [|v V IH]; [constructor|]. cbn [map concat]. apply bytes_app; split; [apply be_bytes_bytes|exact IH]. Qed.

Lemma checkSum_32 d m : holds d m -> exists h, checkSum d = Ok h /\ length h = 32%nat /\ bytes h.
Proof.
  intros Hd. rewrite (checkSum_spec d m Hd). eexists; split; [reflexivity|].
  split; [|apply concat_be4_bytes].
  rewrite concat_be4_length.
  destruct Hd as (Hm & _).
  set (pm := m ++ _).
  assert (Hpl : length pm = (64 * (length pm / 64))%nat).
  { unfold pm. rewrite !app_length, be_bytes_length, zeros_length. cbn [length]. unfold zlen. lia. }
  assert (Hpb : bytes pm).
  { unfold pm. bts. }
  destruct (fold_CF_state8 _ pm IV Hpl Hpb IV_state8) as [-> _]. reflexivity.
Qed.

Lemma sm3_length m : bytes m -> length (sm3 m) = 32%nat /\ bytes (sm3 m).
Proof.
  intros Hm. unfold sm3. split; [|apply concat_be4_bytes]. rewrite concat_be4_length.
  assert (Hpl : length (pad m) = (64 * (length (pad m) / 64))%nat).
  { unfold pad. rewrite !app_length, be_bytes_length, zeros_length. cbn [length]. unfold zlen. lia. }
  assert (Hpb : bytes (pad m)).
  { unfold pad. bts. }
  destruct (fold_CF_state8 _ (pad m) IV Hpl Hpb IV_state8) as [-> _]. reflexivity.
Qed.

(** ** API-level statements *)
Lemma SumSM3_spec m : bytes m -> zlen m < 2^61 -> SumSM3 m = Ok (sm3 m).
Proof.
  intros Hm Hl. unfold SumSM3. apply checkSum_sm3; [|exact Hl].
  apply (Write_holds New [] m holds_New Hm).
Qed.

Lemma writes_holds ps : Forall bytes ps -> holds (writes ps) (concat ps).
Proof.
  unfold writes.
  assert (G : forall ps d m, Forall bytes ps -> holds d m ->
     holds (fold_left (fun d p => fst (Write d p)) ps d) (m ++ concat ps)).
  { clear. induction ps as [|p ps IH]; intros d m Hps Hd; cbn [fold_left concat].
    - now rewrite app_nil_r.
    - inversion Hps; subst. rewrite app_assoc. apply IH; auto. now apply Write_holds. }
  intros H. apply (G ps New [] H holds_New).
Qed.

Lemma total_written_nonneg os : 0 <= total_written os.
Proof. induction os as [|[p|i|] os IH]; cbn [total_written] in *; unfold zlen in *; lia. Qed.

Lemma run_ref os : forall d m, holds d m -> Forall op_bytes os -> zlen m + total_written os < 2^61 ->
  run d os = ref_run m os.
Proof.
  induction os as [|o os IH]; intros d m Hd Hos Hl; [reflexivity|].
  inversion Hos as [|? ? Ho Hos']; subst. pose proof (total_written_nonneg os).
  destruct o as [p|inp|]; cbn [run step ref_run total_written] in *.
  - destruct (Write_holds d m p Hd Ho) as [H1 H2]. destruct (Write d p) as [d' n]. cbn [fst snd] in *.
    f_equal; [congruence|]. apply IH; auto. rewrite zlen_app. lia.
  - f_equal.
    + unfold Sum. rewrite (checkSum_sm3 d m) by (auto; lia). reflexivity.
    + apply IH; auto.
  - f_equal. apply IH; auto.
    + destruct Hd as (_ & _ & _ & Hx & _). now apply holds_Reset.
    + pose proof (zlen_nonneg m). change (zlen (@nil Z)) with 0. lia.
Qed.

(** No history reaches the internal panic, whatever the amount of data. *)
Lemma run_state_holds os : forall d m, holds d m -> Forall op_bytes os -> exists m', holds (run_state d os) m'.
Proof.
  induction os as [|o os IH]; intros d m Hd Hos; [now exists m|].
  inversion Hos as [|? ? Ho Hos']; subst. cbn [run_state].
  destruct o as [p|inp|]; cbn [step].
  - destruct (Write_holds d m p Hd Ho) as [H1 H2]. destruct (Write d p) as [d' n]. cbn [fst] in *. eapply IH; eauto.
  - eapply IH; eauto.
  - cbn [fst]. eapply IH; eauto. apply holds_Reset. apply Hd.
Qed.

Lemma Sum_writes_SumSM3 ps : Forall bytes ps -> Sum (writes ps) [] = SumSM3 (concat ps).
Proof.
  intros H. unfold Sum, SumSM3.
  assert (Hc : bytes (concat ps)).
  { clear -H. induction H; cbn [concat]; [constructor|]. apply bytes_app; auto. }
  rewrite (checkSum_spec _ _ (writes_holds ps H)).
  destruct (Write_holds New [] (concat ps) holds_New Hc) as [Hw _]. cbn [app] in Hw.
  unfold New in Hw. rewrite (checkSum_spec _ _ Hw). reflexivity.
Qed.
Lemma Write_count ps p : Forall bytes ps -> bytes p -> snd (Write (writes ps) p) = zlen p.
Proof. intros H Hp. exact (proj2 (Write_holds _ _ p (writes_holds ps H) Hp)). Qed.

Lemma histories_ref os : Forall op_bytes os -> total_written os < 2^61 -> run New os = ref_run [] os.
Proof. intros. apply run_ref; auto using holds_New. Qed.

Lemma no_panic os inp : Forall op_bytes os ->
  exists h, Sum (run_state New os) inp = Ok (inp ++ h) /\ length h = 32%nat /\ bytes h.
Proof.
  intros H. destruct (run_state_holds os New [] holds_New H) as [m Hm].
  destruct (checkSum_32 _ _ Hm) as (h & E & L). exists h. unfold Sum. rewrite E. auto.
Qed.

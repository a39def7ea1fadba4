(** Invariants of the locking of tls.Conn. *)
From Verif Require Import GoBase GoLemmas TLS_sync_model TLS_close_proofs.
From Verif Require TLS_close_model.
Import TLS_sync_model.
Open Scope Z_scope.

Definition holds_hm (p : pc) : bool := match p with H1 _ | H2 _ | HS _ | HSw _ | HSo _ | HSu _ | H4 _ | HX _ _ | R5 | S1 => true | _ => false end.
Definition holds_in (p : pc) : bool :=
  match p with HS _ | HSw _ | HSo _ | HSu _ | H4 _ | R1 | R1w | R1o | R2 | R2u | R3 | R4 | R5 | RX _ => true | _ => false end.
Definition holds_out (p : pc) : bool := match p with HSo _ | R1o | W1 | W2 | N2 => true | _ => false end.
Definition running (p : pc) : nat := match p with HS _ | HSw _ | HSo _ | HSu _ | H4 _ => 1 | _ => 0 end.
Definition n_start (l : list event) : nat := length (filter (fun e => match e with EStart _ => true | _ => false end) l).
Definition n_ok (l : list event) : nat := length (filter (fun e => match e with EEnd _ None => true | _ => false end) l).
Definition limit (g : cfg) (n : nat) : Prop :=
  (reneg_ok g = false -> (n <= 1)%nat) /\ (pol g = RenegotiateOnceAsClient -> (n <= 2)%nat).
Definition ever (s : state) : Prop := s_status s = true \/ (1 <= s_count s)%nat.
Definition errbit (s : state) : nat := match s_err s with Some _ => 1 | None => 0 end.
Definition reneg_start (g : cfg) (s : state) : Prop :=
  s_err s = None /\ (1 <= s_count s)%nat /\ reneg_ok g = true /\ (pol g = RenegotiateOnceAsClient -> (s_count s <= 1)%nat).
Definition pcinv (g : cfg) (s : state) (p : pc) : Prop :=
  match p with
  | H2 _ | HS (First _) | HSw (First _) | HSo (First _) | HSu (First _) => s_err s = None /\ s_status s = false /\ s_count s = 0%nat
  | H4 (First _) => s_err s = None /\ s_status s = true /\ s_count s = 0%nat
  | HS Reneg | HSw Reneg | HSo Reneg | HSu Reneg => reneg_start g s /\ s_status s = false
  | H4 Reneg | R4 | R5 => reneg_start g s /\ s_status s = true
  | R2 | R2u | R3 => s_err s = None /\ s_status s = true /\ (1 <= s_count s)%nat /\ reneg_ok g = true
  | R0 | R1 | R1w | R1o | RX ROk | RX RErr | W0 | W1 | W2 | RDone ROk | RDone RErr | WDone WOk | WDone WErr | HDone None => (1 <= s_count s)%nat
  | WDone WInternal => (1 <= s_count s)%nat /\ reneg_ok g = true
  | HX _ None => (1 <= s_count s)%nat /\ s_err s = None /\ s_status s = true
  | N1 | N2 => ever s
  | RX (RHs _) => False
  | HX _ (Some e) | HDone (Some e) | RDone (RHs e) | WDone (WHs e) => s_err s = Some e
  | _ => True
  end.
Definition totn (f : pc -> nat) (l : list pc) : nat := fold_right (fun p a => (f p + a)%nat) 0%nat l.
Lemma totn_upd f : forall l i p q, nth_error l i = Some p -> (totn f (upd i q l) + f p = totn f l + f q)%nat.
Proof. unfold totn. induction l as [|x l IH]; intros [|i] p q H; cbn [nth_error upd fold_right] in *; try discriminate; [injection H as ->; lia|]. specialize (IH _ _ q H). lia. Qed.
Lemma totn_pos f l : (1 <= totn f l)%nat -> exists i p, nth_error l i = Some p /\ (1 <= f p)%nat.
Proof.
  unfold totn. induction l as [|x l IH]; cbn [fold_right]; [lia|]. intros H. destruct (f x) eqn:E; [|exists 0%nat, x; cbn; split; [reflexivity|lia]].
  destruct (IH ltac:(lia)) as (i & p & E1 & E2). now exists (S i), p.
Qed.
Lemma totn_in f l i p : nth_error l i = Some p -> (f p <= totn f l)%nat.
Proof. unfold totn. revert i. induction l as [|x l IH]; intros [|i] H; cbn [nth_error fold_right] in *; try discriminate; [injection H as ->; lia|]. specialize (IH _ H). lia. Qed.
Lemma totn_le1 f l : (forall p, (f p <= 1)%nat) -> (forall i j p q, nth_error l i = Some p -> nth_error l j = Some q -> (1 <= f p)%nat -> (1 <= f q)%nat -> i = j) -> (totn f l <= 1)%nat.
Proof.
  intros H1. unfold totn. induction l as [|x l IH]; cbn [fold_right]; [lia|]. intros U. specialize (H1 x) as Hx.
  assert (totn f l <= 1)%nat as Hl by (apply IH; intros i j p q E1 E2 F1 F2; specialize (U (S i) (S j) p q E1 E2 F1 F2); congruence).
  fold (totn f l). destruct (le_lt_dec 1 (f x)) as [Gx|Lx]; [|lia]. destruct (le_lt_dec 1 (totn f l)) as [Gl|Ll]; [|lia].
  apply totn_pos in Gl as (i & p & E & F). specialize (U 0%nat (S i) x p eq_refl E Gx F). discriminate.
Qed.
Definition is_h4 (p : pc) : nat := match p with H4 (First _) => 1 | _ => 0 end.
Record inv (g : cfg) (s : state) : Prop := {
  i_hm : forall i p, nth_error (s_calls s) i = Some p -> (holds_hm p = true <-> s_hm s = Some i);
  i_in : forall i p, nth_error (s_calls s) i = Some p -> (holds_in p = true <-> s_in s = Some i);
  i_out : forall i p, nth_error (s_calls s) i = Some p -> (holds_out p = true <-> s_out s = Some i);
  i_hmv : forall i, s_hm s = Some i -> exists p, nth_error (s_calls s) i = Some p;
  i_inv : forall i, s_in s = Some i -> exists p, nth_error (s_calls s) i = Some p;
  i_outv : forall i, s_out s = Some i -> exists p, nth_error (s_calls s) i = Some p;
  i_pc : forall i p, nth_error (s_calls s) i = Some p -> pcinv g s p;
  i_se : s_status s = true -> s_err s = None;
  (* the connection is established, failed, or a handshake is running *)
  i_run : (1 <= s_count s)%nat -> s_status s = true \/ s_err s <> None \/ (1 <= totn running (s_calls s))%nat;
  i_st : s_status s = true -> (1 <= s_count s + totn is_h4 (s_calls s))%nat;
  i_never : reneg_ok g = false -> (1 <= s_count s)%nat -> s_status s = true;
  i_start : n_start (s_log s) = (s_count s + errbit s + totn running (s_calls s))%nat;
  i_ok : n_ok (s_log s) = s_count s;
  i_lim : limit g (s_count s + errbit s) }.

Definition lockch (h : pc -> bool) (m m' : option nat) (p q : pc) (i : nat) : Prop :=
  (h q = h p /\ m' = m) \/ (h p = false /\ h q = true /\ m = None /\ m' = Some i) \/ (h p = true /\ h q = false /\ m' = None).
Lemma lock_keep h m m' p q i l : (forall j r, nth_error l j = Some r -> (h r = true <-> m = Some j)) -> nth_error l i = Some p -> lockch h m m' p q i ->
  forall j r, nth_error (upd i q l) j = Some r -> (h r = true <-> m' = Some j).
Proof.
  intros H E L j r Hj. destruct (Nat.eq_dec i j) as [<-|N].
  - rewrite (TLS_close_proofs.nth_upd_same _ _ _ _ E) in Hj. injection Hj as <-. specialize (H _ _ E).
    destruct L as [[E1 E2]|[(E1 & E2 & E3 & E4)|(E1 & E2 & E3)]].
    + rewrite E1, E2. exact H.
    + rewrite E2, E4. tauto.
    + rewrite E2, E3. split; discriminate.
  - rewrite TLS_close_proofs.nth_upd_other in Hj by exact N. pose proof (H _ _ Hj) as Hr. pose proof (H _ _ E) as Hp.
    destruct L as [[E1 E2]|[(E1 & E2 & E3 & E4)|(E1 & E2 & E3)]].
    + rewrite E2. exact Hr.
    + rewrite E4. rewrite Hr, E3. split; [discriminate|congruence].
    + rewrite E3. apply Hp in E1. rewrite Hr, E1. split; [congruence|discriminate].
Qed.
Lemma lock_valid h m m' p q i (l : list pc) : (forall j, m = Some j -> exists r, nth_error l j = Some r) -> nth_error l i = Some p -> lockch h m m' p q i ->
  forall j, m' = Some j -> exists r, nth_error (upd i q l) j = Some r.
Proof.
  intros H E L j Hj. destruct (Nat.eq_dec i j) as [<-|N]; [exists q; now apply (TLS_close_proofs.nth_upd_same _ _ p)|].
  rewrite TLS_close_proofs.nth_upd_other by exact N. destruct L as [[_ E2]|[(_ & _ & _ & E4)|(_ & _ & E3)]]; [apply H; congruence|congruence|congruence].
Qed.
(** the variables change only under both handshakeMutex and in *)
Definition varch (s s' : state) (p : pc) : Prop :=
  (s_status s' = s_status s /\ s_err s' = s_err s /\ s_count s' = s_count s) \/
  (holds_hm p = true /\ holds_in p = true /\ (s_count s <= s_count s')%nat /\ (s_err s = None \/ s_err s' = s_err s) /\ (ever s -> ever s')).
Lemma pcinv_same g s s' p : s_status s' = s_status s -> s_err s' = s_err s -> s_count s' = s_count s -> pcinv g s p -> pcinv g s' p.
Proof. intros E1 E2 E3. destruct p as [| | |[]|[]|[]|[]|[]|? []| | | | | | | | | |[]| | | | | | | | |[]|[]|[]| |]; cbn [pcinv]; unfold reneg_start, ever; rewrite ?E1, ?E2, ?E3; auto. Qed.
Lemma pcinv_mono g s s' p : holds_hm p = false -> holds_in p = false -> (s_count s <= s_count s')%nat -> (s_err s = None \/ s_err s' = s_err s) -> (ever s -> ever s') ->
  pcinv g s p -> pcinv g s' p.
Proof.
  intros H1 H2 H3 H4 H5. destruct p as [| | |[]|[]|[]|[]|[]|? []| | | | | | | | | |[]| | | | | | | | |[]|[]|[]| |]; cbn [holds_hm holds_in] in *; try discriminate; cbn [pcinv]; intros H; auto; try lia;
    try (destruct H as [Ha Hb]; split; [lia|exact Hb]); (destruct H4 as [E|E]; [congruence|congruence]).
Qed.
Lemma inv_upd g s s' i p q : inv g s -> nth_error (s_calls s) i = Some p -> s_calls s' = upd i q (s_calls s) ->
  lockch holds_hm (s_hm s) (s_hm s') p q i -> lockch holds_in (s_in s) (s_in s') p q i -> lockch holds_out (s_out s) (s_out s') p q i ->
  varch s s' p -> pcinv g s' q -> (s_status s' = true -> s_err s' = None) ->
  ((1 <= s_count s')%nat -> s_status s' = true \/ s_err s' <> None \/ (1 + running p <= totn running (s_calls s) + running q)%nat) ->
  (s_status s' = true -> (1 + is_h4 p <= s_count s' + totn is_h4 (s_calls s) + is_h4 q)%nat) ->
  (reneg_ok g = false -> (1 <= s_count s')%nat -> s_status s' = true) ->
  (n_start (s_log s') + running p = s_count s' + errbit s' + totn running (s_calls s) + running q)%nat ->
  n_ok (s_log s') = s_count s' -> limit g (s_count s' + errbit s') -> inv g s'.
Proof.
  intros I E EC L1 L2 L3 V Q X1 X2 X3 X4 X5 X6 X7. pose proof (totn_upd running _ _ _ q E) as T1. pose proof (totn_upd is_h4 _ _ _ q E) as T2.
  destruct I. constructor; rewrite ?EC; auto.
  - exact (lock_keep _ _ _ _ _ _ _ i_hm0 E L1).
  - exact (lock_keep _ _ _ _ _ _ _ i_in0 E L2).
  - exact (lock_keep _ _ _ _ _ _ _ i_out0 E L3).
  - exact (lock_valid _ _ _ _ _ _ _ i_hmv0 E L1).
  - exact (lock_valid _ _ _ _ _ _ _ i_inv0 E L2).
  - exact (lock_valid _ _ _ _ _ _ _ i_outv0 E L3).
  - intros j r Hj. destruct (Nat.eq_dec i j) as [<-|N]; [rewrite (TLS_close_proofs.nth_upd_same _ _ _ _ E) in Hj; injection Hj as <-; exact Q|].
    rewrite TLS_close_proofs.nth_upd_other in Hj by exact N. pose proof (i_pc0 _ _ Hj) as Hr. destruct V as [(V1 & V2 & V3)|(V1 & V2 & V3 & V4 & V5)].
    + now apply (pcinv_same g s).
    + apply (pcinv_mono g s); auto.
      * destruct (holds_hm r) eqn:B; [|reflexivity]. apply (i_hm0 _ _ Hj) in B. apply (i_hm0 _ _ E) in V1. congruence.
      * destruct (holds_in r) eqn:B; [|reflexivity]. apply (i_in0 _ _ Hj) in B. apply (i_in0 _ _ E) in V2. congruence.
  - intros HC. destruct (X2 HC) as [H|[H|H]]; auto. right. right. lia.
  - intros HC. specialize (X3 HC). lia.
  - lia.
Qed.
Lemma n_start_snoc l e : n_start (l ++ [e]) = (n_start l + match e with EStart _ => 1 | _ => 0 end)%nat.
Proof. unfold n_start. rewrite filter_app, app_length. destruct e; reflexivity. Qed.
Lemma n_ok_snoc l e : n_ok (l ++ [e]) = (n_ok l + match e with EEnd _ None => 1 | _ => 0 end)%nat.
Proof. unfold n_ok. rewrite filter_app, app_length. destruct e as [|? []]; reflexivity. Qed.
(** nobody else is in a handshake while a call holds handshakeMutex outside one *)
Lemma no_run g s i p : inv g s -> nth_error (s_calls s) i = Some p -> holds_hm p = true -> (totn running (s_calls s) <= running p)%nat.
Proof.
  intros I E H. destruct (le_lt_dec 1 (totn running (s_calls s))) as [G|L]; [|lia].
  assert (totn running (s_calls s) <= 1)%nat.
  { apply totn_le1; [intros []; cbn; lia|]. intros a b x y Ea Eb Ha Hb.
    assert (holds_hm x = true) as Hx by (destruct x; cbn in *; try lia; reflexivity). assert (holds_hm y = true) as Hy by (destruct y; cbn in *; try lia; reflexivity).
    apply (i_hm _ _ I _ _ Ea) in Hx. apply (i_hm _ _ I _ _ Eb) in Hy. congruence. }
  apply totn_pos in G as (j & r & Ej & Hj). assert (holds_hm r = true) as Hr by (destruct r; cbn in *; try lia; reflexivity).
  apply (i_hm _ _ I _ _ Ej) in Hr. apply (i_hm _ _ I _ _ E) in H. assert (i = j) as <- by congruence. rewrite E in Ej. injection Ej as <-. lia.
Qed.
Ltac lk := first [left; split; reflexivity | right; left; repeat split; assumption || reflexivity | right; right; repeat split; reflexivity].
Ltac simp := cbn [pcinv running is_h4 set_pc set_hm set_in set_out set_status set_err inc_count add_log s_hm s_in s_out s_status s_err s_count s_log s_calls holds_hm holds_in] in *.
Ltac small := simp; unfold reneg_start, ever, limit, errbit in *; simp; rewrite ?n_start_snoc, ?n_ok_snoc;
  repeat match goal with H : _ /\ _ |- _ => destruct H end;
  repeat match goal with H : s_status _ = _ |- _ => rewrite H in * | H : s_err _ = _ |- _ => rewrite H in * | H : s_count _ = 0%nat |- _ => rewrite H in * end;
  repeat split; intros; auto; try discriminate; try congruence; try lia.
Ltac ru RU := simp; let HC := fresh in intros HC; first [solve [destruct (RU HC) as [?|[?|?]]; [left; congruence|right; left; congruence|right; right; lia]] | left; congruence | left; tauto | right; left; congruence | right; right; lia].
Ltac fin I E RU := eapply (inv_upd _ _ _ _ _ _ I E); [reflexivity|lk|lk|lk|first [left; repeat split; reflexivity|right; small]|try solve [small]|try solve [small]|try solve [ru RU]|try solve [small]|try solve [small]|try solve [small]|try solve [small]|try solve [small]].
Lemma totn_le f h l : (forall p, (f p <= h p)%nat) -> (totn f l <= totn h l)%nat.
Proof. intros H. unfold totn. induction l as [|x l IH]; cbn [fold_right]; [lia|]. specialize (H x). lia. Qed.
Lemma step_inv g s i c s' : inv g s -> step g s i c = Some s' -> inv g s'.
Proof.
  intros I H. unfold step in H. destruct (nth_error (s_calls s) i) as [p|] eqn:E; [|discriminate].
  pose proof (i_pc _ _ I _ _ E) as HP. pose proof (i_se _ _ I) as SE. pose proof (i_run _ _ I) as RU. pose proof (i_st _ _ I) as ST. pose proof (i_never _ _ I) as NE.
  pose proof (i_start _ _ I) as NS. pose proof (i_ok _ _ I) as NO. pose proof (i_lim _ _ I) as LI. pose proof (no_run g s i p I E) as NR.
  pose proof (totn_in running _ _ _ E) as TR. pose proof (totn_in is_h4 _ _ _ E) as T4.
  assert (totn is_h4 (s_calls s) <= totn running (s_calls s))%nat as T5 by (apply totn_le; intros [| | | | | | |[]| | | | | | | | | | | | | | | | | | | | | | | |]; cbn; lia).
  destruct p; try specialize (NR eq_refl).
  - (* H0 *) destruct (s_hm s) eqn:L; [discriminate|]. injection H as <-. fin I E RU.
  - (* H1 *) destruct (s_err s) as [e|] eqn:Ee; [injection H as <-; destruct k; fin I E RU|]. destruct (s_status s) eqn:Es; injection H as <-.
    + specialize (ST eq_refl). simp. assert (1 <= s_count s)%nat as HC by lia. destruct k; fin I E RU.
    + simp. assert (s_count s = 0%nat) as HC by (destruct (s_count s); [reflexivity|destruct RU as [?|[?|?]]; [lia|discriminate|congruence|lia]]). fin I E RU.
  - destruct (s_in s) eqn:L; [discriminate|]. injection H as <-. fin I E RU.
  - destruct c; [| | |destruct h]; injection H as <-; try destruct h; fin I E RU.
  - destruct (s_out s) eqn:L; [discriminate|]. injection H as <-. destruct h; fin I E RU.
  - injection H as <-. destruct h; fin I E RU.
  - injection H as <-. destruct h; fin I E RU.
  - destruct h; injection H as <-; fin I E RU; intros _; left; apply HP.
  - injection H as <-. destruct e, k; fin I E RU.
  - destruct (s_in s) eqn:L; [discriminate|]. injection H as <-. fin I E RU.
  - destruct c; try (injection H as <-; fin I E RU). destruct (reneg_ok g) eqn:Er, (s_status s) eqn:Es; injection H as <-; fin I E RU.
  - destruct (s_out s) eqn:L; [discriminate|]. injection H as <-. fin I E RU.
  - injection H as <-. fin I E RU.
  - destruct c; injection H as <-; fin I E RU.
  - injection H as <-. fin I E RU.
  - destruct (isClient g) eqn:Ec; [|injection H as <-; fin I E RU]. destruct (pol g) eqn:Ep; try (injection H as <-; fin I E RU).
    destruct (Nat.ltb_spec 1 (s_count s)); injection H as <-; fin I E RU.
  - destruct (s_hm s) eqn:L; [discriminate|]. injection H as <-. fin I E RU.
  - injection H as <-. fin I E RU.
  - injection H as <-. destruct r; [fin I E RU|fin I E RU|destruct HP].
  - destruct (s_out s) eqn:L; [discriminate|]. injection H as <-. fin I E RU.
  - destruct (is_fail c); [injection H as <-; fin I E RU|]. destruct (s_status s) eqn:Es; injection H as <-; [fin I E RU|].
    assert (reneg_ok g = true) as Hr by (destruct (reneg_ok g); [reflexivity|exfalso; specialize (NE eq_refl HP); discriminate]). fin I E RU.
  - injection H as <-. destruct (is_fail c); fin I E RU.
  - destruct (s_status s) eqn:Es; injection H as <-; fin I E RU.
  - destruct (s_out s) eqn:L; [discriminate|]. injection H as <-. fin I E RU.
  - injection H as <-. fin I E RU.
  - destruct (s_hm s) eqn:L; [discriminate|]. injection H as <-. fin I E RU.
  - injection H as <-. fin I E RU.
  - discriminate.
  - discriminate.
  - discriminate.
  - discriminate.
  - discriminate.
Qed.

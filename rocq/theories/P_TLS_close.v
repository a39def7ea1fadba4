(** Property theorems for the interlock of Write and Close (C54). *)
From Verif Require Import GoBase GoLemmas TLS_close_model TLS_close_proofs.
Open Scope Z_scope.
Ltac Zify.zify_post_hook ::= Z.div_mod_to_equations.

(** reachable from a fresh connection with any (fewer than 2^29) calls of Write, Close, CloseWrite and sendAlert, in any interleaving *)
Definition reachable (s : state) : Prop := exists calls, Forall fresh calls /\ zlen calls < 2 ^ 29 /\ steps (init calls) s.
Lemma reachable_inv s : reachable s -> inv s.
Proof. intros (calls & HF & HL & HS). eapply inv_steps; [exact HS|]. now apply inv_init. Qed.
Lemma reachable_step s i go s' : reachable s -> step s i go = Some s' -> reachable s'.
Proof.
  intros (calls & HF & HL & HS) H. exists calls. split; [exact HF|]. split; [exact HL|]. clear -HS H. induction HS as [|s0 j g s1 s2 E _ IH]; [econstructor; [exact H|constructor]|]. econstructor; [exact E|auto].
Qed.
(** the closed bit of activeCall *)
Definition closed (s : state) : Prop := s_active s mod 2 = 1.
(** a Write that has not passed its compare-and-swap, or was turned away *)
Definition outside (p : pc) : Prop := match p with W0 | W1 _ | WDone WErrClosed => True | _ => False end.
Definition close_outside (p : pc) : Prop := match p with C0 | C1 _ | CDone CErrClosed => True | _ => False end.

Lemma closed_iff s : inv s -> closed s <-> total closer (s_calls s) = 1.
Proof. intros I. unfold closed. pose proof (i_ac s I). pose proof (i_cl s I). pose proof (total_range closer (s_calls s) closer_01). lia. Qed.
Lemma step_active s i go s' p : step s i go = Some s' -> nth_error (s_calls s) i = Some p -> closed s -> inv s -> 
  closed s' /\ (outside p -> exists q, nth_error (s_calls s') i = Some q /\ outside q) /\ (close_outside p -> exists q, nth_error (s_calls s') i = Some q /\ close_outside q) /\
  (p = W0 -> nth_error (s_calls s') i = Some (WDone WErrClosed)) /\ (forall x, p = W1 x -> nth_error (s_calls s') i = Some W0) /\
  (p = C0 -> nth_error (s_calls s') i = Some (CDone CErrClosed)) /\ (forall x, p = C1 x -> nth_error (s_calls s') i = Some C0) /\
  (forall j, j <> i -> nth_error (s_calls s') j = nth_error (s_calls s) j).
Proof.
  intros H E HC I. assert (I' := inv_step _ _ _ _ I H). pose proof (i_crit s I i p E) as HCr.
  assert (Odd : negb (Z.land (s_active s) 1 =? 0) = true) by (rewrite land1, HC; reflexivity).
  assert (HS : exists q, s_calls s' = upd i q (s_calls s) /\ closer p <= closer q /\
     match p with W0 => q = WDone WErrClosed | W1 _ => q = W0 | C0 => q = CDone CErrClosed | C1 _ => q = C0 | _ => True end /\ (outside p -> outside q) /\ (close_outside p -> close_outside q)).
  { unfold step in H. rewrite E in H. destruct p; cbv zeta in H; rewrite ?Odd in H;
      try (destruct (s_lock s); [discriminate|]); try discriminate;
      try (match type of H with (if s_active s =? ?x then _ else _) = _ => destruct (Z.eqb_spec (s_active s) x) as [Ex|Ex]; [exfalso; unfold closed in HC; lia|] end);
      repeat match type of H with (if ?b then _ else _) = _ => destruct b end; apply (f_equal (fun o => match o with Some z => s_calls z | None => [] end)) in H; cbn [set_pc set_active set_lock set_sent add_log add_close s_calls] in H;
      eexists; (split; [symmetry; exact H|]); (split; [try (destruct close); try (destruct go); cbn; lia|]); cbn; intuition auto. }
  destruct HS as (q & Eq & Hc & Hm & Ho & Hco).
  split. { apply closed_iff in HC; [|exact I]. apply closed_iff; [exact I'|]. pose proof (i_cl s' I'). rewrite Eq in *. rewrite (total_upd _ _ _ p q E) in *. lia. }
  rewrite Eq. pose proof (nth_upd_same _ _ _ q E) as Es. repeat split.
  - intros HH. eauto.
  - intros HH. eauto.
  - intros ->. now rewrite Es, Hm.
  - intros x ->. now rewrite Es, Hm.
  - intros ->. now rewrite Es, Hm.
  - intros x ->. now rewrite Es, Hm.
  - intros j Hj. apply nth_upd_other. congruence.
Qed.
Lemma steps_outside s s' : steps s s' -> inv s -> closed s -> closed s' /\ forall i p, nth_error (s_calls s) i = Some p ->
  (outside p -> exists q, nth_error (s_calls s') i = Some q /\ outside q) /\ (close_outside p -> exists q, nth_error (s_calls s') i = Some q /\ close_outside q).
Proof.
  induction 1 as [s|s i go s1 s2 E HS IH]; intros I HC; [split; [exact HC|]; intros i p Ep; split; eauto|].
  assert (Ei : exists pi, nth_error (s_calls s) i = Some pi) by (unfold step in E; destruct (nth_error (s_calls s) i); [eauto|discriminate]). destruct Ei as (pi & Ei).
  destruct (step_active _ _ _ _ _ E Ei HC I) as (C1 & A1 & A2 & _ & _ & _ & _ & A7). assert (I1 := inv_step _ _ _ _ I E). destruct (IH I1 C1) as (C2 & G). split; [exact C2|].
  intros j p Ep. destruct (Nat.eq_dec j i) as [->|N].
  - assert (pi = p) by congruence. subst pi. split.
    + intros HO. destruct (A1 HO) as (q & Eq & Hq). exact (proj1 (G _ _ Eq) Hq).
    + intros HO. destruct (A2 HO) as (q & Eq & Hq). exact (proj2 (G _ _ Eq) Hq).
  - rewrite <- (A7 j N) in Ep. exact (G j p Ep).
Qed.
(** (a) once the closed bit is set it stays set, and a Write that had not got in by then never does: it can only return errClosed;
    likewise a later Close can only return errClosed *)
Theorem C54_no_entry_after_close : forall s s', reachable s -> closed s -> steps s s' -> closed s' /\
  forall i p, nth_error (s_calls s) i = Some p -> (outside p -> exists q, nth_error (s_calls s') i = Some q /\ outside q) /\ (close_outside p -> exists q, nth_error (s_calls s') i = Some q /\ close_outside q).
Proof. intros s s' HR HC HS. apply steps_outside; auto. now apply reachable_inv. Qed.
(** (b) and it does return: at most two of its own steps, never blocked *)
Theorem C54_turned_away : forall s i go, reachable s -> closed s ->
  (nth_error (s_calls s) i = Some W0 -> exists s', step s i go = Some s' /\ nth_error (s_calls s') i = Some (WDone WErrClosed)) /\
  (forall x, nth_error (s_calls s) i = Some (W1 x) -> exists s', step s i go = Some s' /\ nth_error (s_calls s') i = Some W0) /\
  (nth_error (s_calls s) i = Some C0 -> exists s', step s i go = Some s' /\ nth_error (s_calls s') i = Some (CDone CErrClosed)) /\
  (forall x, nth_error (s_calls s) i = Some (C1 x) -> exists s', step s i go = Some s' /\ nth_error (s_calls s') i = Some C0).
Proof.
  intros s i go HR HC. pose proof (reachable_inv s HR) as I.
  assert (G : forall p, nth_error (s_calls s) i = Some p -> match p with W0 | W1 _ | C0 | C1 _ => exists s', step s i go = Some s' | _ => True end).
  { intros p E. unfold step. rewrite E. destruct p; auto; [destruct (negb _)|destruct (_ =? _)|destruct (negb _)|destruct (_ =? _)]; eauto. }
  repeat split.
  - intros E. destruct (G _ E) as (s' & H). exists s'. split; [exact H|]. apply (step_active _ _ _ _ _ H E HC I). reflexivity.
  - intros x E. destruct (G _ E) as (s' & H). exists s'. split; [exact H|]. destruct (step_active _ _ _ _ _ H E HC I) as (_ & _ & _ & _ & K & _). exact (K x eq_refl).
  - intros E. destruct (G _ E) as (s' & H). exists s'. split; [exact H|]. apply (step_active _ _ _ _ _ H E HC I). reflexivity.
  - intros x E. destruct (G _ E) as (s' & H). exists s'. split; [exact H|]. destruct (step_active _ _ _ _ _ H E HC I) as (_ & _ & _ & _ & _ & _ & K & _). exact (K x eq_refl).
Qed.
(** (c) at most one Close succeeds; after it has returned the connection is closed, and the transport was closed exactly once *)
Definition doneC (p : pc) : Z := match p with CDone COk => 1 | _ => 0 end.
Lemma doneC_01 p : 0 <= doneC p <= 1. Proof. destruct p as [| | | | | | | | | | | |[]| | | | | | | |]; cbn; lia. Qed.
Lemma closedT_step s i go s' : step s i go = Some s' -> Z.of_nat (s_closedT s) = total doneC (s_calls s) -> Z.of_nat (s_closedT s') = total doneC (s_calls s').
Proof.
  intros H HT. unfold step in H. destruct (nth_error (s_calls s) i) as [p|] eqn:E; [|discriminate].
  destruct p; cbv zeta in H; try (destruct (s_lock s); [discriminate|]); try discriminate; repeat match type of H with (if ?b then _ else _) = _ => destruct b end;
    injection H as <-; cbn [set_pc set_active set_lock set_sent add_log add_close s_calls s_closedT]; rewrite (total_upd _ _ _ _ _ E);
    try (destruct close); try (destruct go); cbn [doneC after_notify]; lia.
Qed.
Lemma closedT_reach s : reachable s -> Z.of_nat (s_closedT s) = total doneC (s_calls s).
Proof.
  intros (calls & HF & _ & HS). assert (H0 : Z.of_nat (s_closedT (init calls)) = total doneC (s_calls (init calls))).
  { clear HS. cbn. unfold total. induction HF as [|p l Hp HF IH]; [reflexivity|]. cbn [fold_right]. destruct Hp as [-> |[-> |[-> | ->]]]; cbn [doneC]; lia. }
  clear HF. induction HS as [|s i go s1 s2 E _ IH]; [exact H0|]. apply IH. eapply closedT_step; eassumption.
Qed.
Theorem C54_one_close : forall s, reachable s ->
  (forall i j, nth_error (s_calls s) i = Some (CDone COk) -> nth_error (s_calls s) j = Some (CDone COk) -> i = j) /\
  (forall i, nth_error (s_calls s) i = Some (CDone COk) -> closed s /\ s_closedT s = 1%nat) /\ (s_closedT s <= 1)%nat.
Proof.
  intros s HR. pose proof (reachable_inv s HR) as I. pose proof (i_cl s I) as H1. pose proof (closedT_reach s HR) as HT.
  assert (HD : total doneC (s_calls s) <= total closer (s_calls s)).
  { assert (HD1 : forall p, doneC p <= closer p) by (intros p; destruct p as [| | | | | | | | | | | |[]|[]|[]|[]|[]| | | |]; cbn; lia).
    clear -HD1. unfold total. induction (s_calls s) as [|p l IH]; cbn [fold_right]; [lia|]. specialize (HD1 p). lia. }
  split; [|split; [|lia]].
  - intros i j E1 E2. destruct (Nat.eq_dec i j) as [|N]; [assumption|]. pose proof (total_two closer _ i j _ _ closer_01 N E1 E2) as H2. cbn in H2. lia.
  - intros i E. pose proof (total_in doneC _ i _ doneC_01 E) as H2. cbn in H2. split; [apply closed_iff; [exact I|lia]|lia].
Qed.
(** (d) the counter returns to its value: with no Write inside, activeCall is 1 if the connection is closed and 0 if not *)
Theorem C54_counter : forall s, reachable s -> (forall i p, nth_error (s_calls s) i = Some p -> match p with W2 | W3 | W4 | W4b | W5 _ => False | _ => True end) ->
  s_active s = 0 \/ s_active s = 1.
Proof.
  intros s HR HN. pose proof (reachable_inv s HR) as I. pose proof (i_cl s I). pose proof (i_ac s I) as HA. pose proof (total_range closer (s_calls s) closer_01).
  assert (total entered (s_calls s) = 0) as HE0.
  { clear -HN. induction (s_calls s) as [|p l IH]; [reflexivity|]. unfold total in *. cbn [fold_right]. rewrite IH by (intros i; exact (HN (Datatypes.S i))). specialize (HN 0%nat p eq_refl). destruct p; cbn in *; tauto || lia. }
  lia.
Qed.
(** (e) close_notify is sent at most once, and no application data after it *)
Theorem C54_close_notify : forall s, reachable s -> (length (filter (fun k => match k with Notify => true | _ => false end) (s_log s)) <= 1)%nat /\
  forall a b, s_log s = a ++ Notify :: b -> ~ In App b.
Proof.
  intros s HR. pose proof (reachable_inv s HR) as I. split; [|apply (i_app s I)].
  change (n_notify (s_log s) <= 1)%nat. rewrite (i_log s I). unfold expected. destruct (s_sent s); [lia|]. destruct (s_lock s); [|lia]. destruct (nth_error _ _) as [[]|]; lia.
Qed.
(** (f) the interlock does not deadlock: while some call has not returned, some call can take a step *)
Definition returned (p : pc) : bool := match p with WDone _ | CDone _ | NDone | ADone => true | _ => false end.
Theorem C54_no_deadlock : forall s i p, reachable s -> nth_error (s_calls s) i = Some p -> returned p = false -> exists j go s', step s j go = Some s'.
Proof.
  intros s i p HR E HN. pose proof (reachable_inv s HR) as I. destruct (s_lock s) as [h|] eqn:EL.
  - destruct (i_lockv s I h EL) as (q & Eq). pose proof (proj2 (i_lock s I h q Eq) EL) as HH. exists h, true. unfold step. rewrite Eq. destruct q; try discriminate HH; cbn [negb]; try (destruct (s_sent s)); eauto.
  - exists i, true. unfold step. rewrite E. destruct p; try discriminate HN; rewrite ?EL; cbv zeta; repeat match goal with |- context [if ?b then _ else _] => destruct b end; eauto.
Qed.
Print Assumptions C54_no_entry_after_close. Print Assumptions C54_turned_away. Print Assumptions C54_one_close. Print Assumptions C54_counter. Print Assumptions C54_close_notify. Print Assumptions C54_no_deadlock.
(** a Write in flight while Close runs, and a second Write and Close after it *)
Fixpoint run (s : state) (l : list (nat * bool)) : option state := match l with [] => Some s | (i, go) :: l => match step s i go with Some s => run s l | None => None end end.
Lemma run_steps : forall l s s', run s l = Some s' -> steps s s'.
Proof. induction l as [|[i go] l IH]; intros s s' H; cbn in H; [injection H as <-; constructor|]. destruct (step s i go) eqn:E; [|discriminate]. econstructor; [exact E|auto]. Qed.
Example C54_hyps : exists s, reachable s /\ closed s /\ s_calls s = [WDone WOk; CDone COk; WDone WErrClosed; CDone CErrClosed] /\ s_active s = 1 /\ s_log s = [App].
Proof.
  exists (mkS 1 false None [App] 1 [WDone WOk; CDone COk; WDone WErrClosed; CDone CErrClosed]). split.
  - exists [W0; C0; W0; C0]. split; [unfold fresh; repeat (apply Forall_cons; [auto 6|]); apply Forall_nil|]. split; [cbn; lia|].
    apply (run_steps [(0, true); (0, true); (2, true); (1, true); (1, true); (2, true); (2, true); (3, true); (1, true); (0, true); (0, true); (0, true); (0, true); (0, true); (1, true)]%nat). vm_compute. reflexivity.
  - repeat split.
Qed.
Example C54_hyps_notify : exists s, reachable s /\ closed s /\ s_log s = [App; Notify] /\ s_calls s = [WDone WOk; CDone COk; NDone; WDone WErrClosed].
Proof.
  exists (mkS 1 true None [App; Notify] 1 [WDone WOk; CDone COk; NDone; WDone WErrClosed]). split.
  - exists [W0; C0; N0 false; W0]. split; [unfold fresh; repeat (apply Forall_cons; [auto 6|]); apply Forall_nil|]. split; [cbn; lia|].
    apply (run_steps [(0, true); (0, true); (0, true); (0, true); (0, true); (0, true); (0, true); (1, true); (1, true); (1, true); (2, true); (2, true); (2, true); (2, true); (1, true); (1, true); (1, true); (3, true)]%nat). vm_compute. reflexivity.
  - repeat split.
Qed.

(** Invariants of the Write/Close interlock. *)
From Verif Require Import GoBase GoLemmas TLS_close_model.
Open Scope Z_scope.
Ltac Zify.zify_post_hook ::= Z.div_mod_to_equations.

Definition total (f : pc -> Z) (l : list pc) : Z := fold_right (fun p a => f p + a) 0 l.
Lemma total_upd f : forall l i p q, nth_error l i = Some p -> total f (upd i q l) = total f l - f p + f q.
Proof. unfold total. induction l as [|x l IH]; intros [|i] p q H; cbn [nth_error upd fold_right] in *; try discriminate; [injection H as ->; lia|]. rewrite (IH _ _ _ H). lia. Qed.
Lemma total_range f l : (forall p, 0 <= f p <= 1) -> 0 <= total f l <= zlen l.
Proof. intros H. unfold total, zlen. induction l as [|x l IH]; cbn [fold_right length]; [lia|]. specialize (H x). lia. Qed.
Lemma total_in f l i p : (forall q, 0 <= f q <= 1) -> nth_error l i = Some p -> f p <= total f l.
Proof. intros H. unfold total. revert i. induction l as [|x l IH]; intros [|i] E; cbn [nth_error fold_right] in *; try discriminate.
  - injection E as ->. pose proof (total_range f l H). unfold total in *. lia.
  - apply IH in E. specialize (H x). lia. Qed.
Lemma total_two f l i j p q : (forall q, 0 <= f q <= 1) -> i <> j -> nth_error l i = Some p -> nth_error l j = Some q -> f p + f q <= total f l.
Proof. intros H. unfold total. revert i j. induction l as [|x l IH]; intros [|i] [|j] N E1 E2; cbn [nth_error fold_right] in *; try discriminate; try congruence.
  - injection E1 as ->. pose proof (total_in f l j q H E2). unfold total in *. lia.
  - injection E2 as ->. pose proof (total_in f l i p H E1). unfold total in *. lia.
  - specialize (IH i j ltac:(congruence) E1 E2). specialize (H x). lia. Qed.
Lemma nth_upd_same {A} (l : list A) i p q : nth_error l i = Some p -> nth_error (upd i q l) i = Some q.
Proof. revert i. induction l as [|x l IH]; intros [|i] H; cbn in *; try discriminate; auto. Qed.
Lemma nth_upd_other {A} (l : list A) i j q : i <> j -> nth_error (upd i q l) j = nth_error l j.
Proof. revert i j. induction l as [|x l IH]; intros [|i] [|j] H; cbn; try congruence; auto. Qed.
Lemma upd_len {A} (l : list A) i q : length (upd i q l) = length l.
Proof. revert i. induction l as [|x l IH]; intros [|i]; cbn; auto. Qed.

(** a Write between its successful compare-and-swap and the deferred decrement *)
Definition entered (p : pc) : Z := match p with W2 | W3 | W4 | W4b | W5 _ => 1 | _ => 0 end.
(** a Close that has set the closed bit *)
Definition closer (p : pc) : Z := match p with C2 _ | C3 | CDone COk | N0 true | N1 true | Nw true | Ns true => 1 | _ => 0 end.
(** holding c.out *)
Definition holding (p : pc) : bool := match p with W4 | W4b | N1 _ | Nw _ | Ns _ | A1 => true | _ => false end.
Definition n_notify (l : list rec_kind) : nat := length (filter (fun k => match k with Notify => true | _ => false end) l).
Lemma n_notify_app a b : n_notify (a ++ b) = (n_notify a + n_notify b)%nat.
Proof. unfold n_notify. rewrite filter_app, app_length. reflexivity. Qed.
Lemma n_notify_0 l : n_notify l = 0%nat -> ~ In Notify l.
Proof. unfold n_notify. induction l as [|[] l IH]; cbn; intros H; try tauto; [intros [?|?]; [discriminate|tauto]|lia|intros [?|?]; [discriminate|tauto]]. Qed.
Definition no_app_after (l : list rec_kind) : Prop := forall a b, l = a ++ Notify :: b -> ~ In App b.
Definition expected (s : state) : nat := if s_sent s then 1%nat else match s_lock s with Some i => match nth_error (s_calls s) i with Some (Ns _) => 1%nat | _ => 0%nat end | None => 0%nat end.
Record inv (s : state) : Prop := {
  i_ac : s_active s = 2 * total entered (s_calls s) + total closer (s_calls s);
  i_cl : total closer (s_calls s) <= 1;
  i_len : zlen (s_calls s) < 2 ^ 29;
  i_lock : forall i p, nth_error (s_calls s) i = Some p -> (holding p = true <-> s_lock s = Some i);
  i_lockv : forall i, s_lock s = Some i -> exists p, nth_error (s_calls s) i = Some p;
  i_crit : forall i p, nth_error (s_calls s) i = Some p -> match p with W4b | Nw _ | Ns _ => s_sent s = false | W1 x | C1 x => x mod 2 = 0 | _ => True end;
  i_log : n_notify (s_log s) = expected s;
  i_app : no_app_after (s_log s) }.
Lemma entered_01 p : 0 <= entered p <= 1. Proof. destruct p; cbn; lia. Qed.
Lemma closer_01 p : 0 <= closer p <= 1. Proof. destruct p as [| | | | | | | | | | | |[]|[]|[]|[]|[]| | | |]; cbn; lia. Qed.
Lemma i32_small z : 0 <= z < 2 ^ 31 -> i32 z = z.
Proof. intros H. unfold i32. rewrite Z.mod_small by lia. destruct (Z.ltb_spec z (2 ^ 31)); lia. Qed.
Lemma land1 x : Z.land x 1 = x mod 2.
Proof. change 1 with (Z.ones 1). rewrite Z.land_ones by lia. reflexivity. Qed.
Lemma lor1_even x : x mod 2 = 0 -> Z.lor x 1 = x + 1.
Proof.
  intros H. assert (x = 2 * (x / 2)) as E by lia. rewrite Z.add_nocarry_lxor, Z.lxor_lor by (rewrite land1; exact H). reflexivity.
Qed.
Lemma no_app_snoc l k : no_app_after l -> (k = App -> n_notify l = 0%nat) -> no_app_after (l ++ [k]).
Proof.
  intros H HK a b E. destruct b as [|x b'] using rev_ind; [intros []|]. rewrite app_comm_cons, app_assoc in E. apply app_inj_tail in E as [E ->].
  intros HI. apply in_app_or in HI as [HI|[->|[]]]; [exact (H _ _ E HI)|]. specialize (HK eq_refl). apply n_notify_0 in HK. apply HK. rewrite E. apply in_or_app. right. now left.
Qed.

Lemma holder_unique s i j p q : inv s -> nth_error (s_calls s) i = Some p -> nth_error (s_calls s) j = Some q -> holding p = true -> holding q = true -> i = j.
Proof. intros I E1 E2 H1 H2. apply (i_lock s I i p E1) in H1. apply (i_lock s I j q E2) in H2. congruence. Qed.
(** a step of call [i] from [p] to [q] that does not touch the mutex *)
Lemma inv_plain s i p q a : inv s -> nth_error (s_calls s) i = Some p -> holding q = holding p ->
  (match q with W4b | Nw _ | Ns _ => s_sent s = false | W1 x | C1 x => x mod 2 = 0 | _ => True end) ->
  (match p with Ns _ => False | _ => True end) -> (match q with Ns _ => False | _ => True end) ->
  a = 2 * (total entered (s_calls s) - entered p + entered q) + (total closer (s_calls s) - closer p + closer q) ->
  total closer (s_calls s) - closer p + closer q <= 1 ->
  inv (set_pc (set_active s a) i q).
Proof.
  intros I E HH HC HP HQ HA HCl. destruct I. constructor; cbn [set_pc set_active s_active s_sent s_lock s_log s_calls].
  - rewrite !(total_upd _ _ _ p q E). lia.
  - rewrite (total_upd _ _ _ p q E). lia.
  - unfold zlen in *. rewrite upd_len. exact i_len0.
  - intros j r Hj. destruct (Nat.eq_dec i j) as [<-|N].
    + rewrite (nth_upd_same _ _ _ _ E) in Hj. injection Hj as <-. rewrite HH. now apply i_lock0.
    + rewrite nth_upd_other in Hj by exact N. now apply i_lock0.
  - intros j Hj. destruct (i_lockv0 j Hj) as (r & Hr). destruct (Nat.eq_dec i j) as [<-|N]; [exists q; eapply nth_upd_same; exact E|exists r; rewrite nth_upd_other by exact N; exact Hr].
  - intros j r Hj. destruct (Nat.eq_dec i j) as [<-|N].
    + rewrite (nth_upd_same _ _ _ _ E) in Hj. injection Hj as <-. exact HC.
    + rewrite nth_upd_other in Hj by exact N. exact (i_crit0 j r Hj).
  - rewrite i_log0. unfold expected. cbn [set_pc set_active s_sent s_lock s_calls]. destruct (s_sent s); [reflexivity|]. destruct (s_lock s) as [j|]; [|reflexivity].
    destruct (Nat.eq_dec i j) as [<-|N]; [|now rewrite nth_upd_other by exact N]. rewrite E, (nth_upd_same _ _ _ _ E). destruct p, q; try reflexivity; contradiction.
  - exact i_app0.
Qed.
Lemma set_active_id s : set_active s (s_active s) = s. Proof. now destruct s. Qed.
Lemma inv_plain0 s i p q : inv s -> nth_error (s_calls s) i = Some p -> holding q = holding p ->
  (match q with W4b | Nw _ | Ns _ => s_sent s = false | W1 x | C1 x => x mod 2 = 0 | _ => True end) ->
  (match p with Ns _ => False | _ => True end) -> (match q with Ns _ => False | _ => True end) ->
  entered q = entered p -> closer q = closer p -> inv (set_pc s i q).
Proof.
  intros I E HH HC HP HQ He Hc. rewrite <- (set_active_id s). apply (inv_plain s i p q); auto.
  - rewrite He, Hc, (i_ac s I). lia.
  - rewrite Hc. pose proof (i_cl s I). lia.
Qed.
(** taking the mutex *)
Lemma inv_lock s i p q : inv s -> nth_error (s_calls s) i = Some p -> s_lock s = None -> holding q = true ->
  (match q with W4 | N1 _ | A1 => True | _ => False end) -> entered q = entered p -> closer q = closer p -> inv (set_pc (set_lock s (Some i)) i q).
Proof.
  intros I E HL HQ HC He Hc. destruct I. constructor; cbn [set_pc set_lock s_active s_sent s_lock s_log s_calls].
  - rewrite !(total_upd _ _ _ p q E). lia.
  - rewrite (total_upd _ _ _ p q E). lia.
  - unfold zlen in *. rewrite upd_len. exact i_len0.
  - intros j r Hj. destruct (Nat.eq_dec i j) as [<-|N].
    + rewrite (nth_upd_same _ _ _ _ E) in Hj. injection Hj as <-. rewrite HQ. tauto.
    + rewrite nth_upd_other in Hj by exact N. rewrite (i_lock0 j r Hj), HL. split; [discriminate|congruence].
  - intros j [= <-]. exists q. eapply nth_upd_same; exact E.
  - intros j r Hj. destruct (Nat.eq_dec i j) as [<-|N].
    + rewrite (nth_upd_same _ _ _ _ E) in Hj. injection Hj as <-. destruct q; try contradiction; exact I.
    + rewrite nth_upd_other in Hj by exact N. exact (i_crit0 j r Hj).
  - rewrite i_log0. unfold expected. cbn [set_pc set_lock s_sent s_lock s_calls]. rewrite HL. destruct (s_sent s); [reflexivity|].
    rewrite (nth_upd_same _ _ _ _ E). destruct q; try reflexivity; contradiction.
  - exact i_app0.
Qed.
(** releasing the mutex, possibly after writing [ks] and setting closeNotifySent to [b] *)
Lemma inv_unlock s i p q ks (b : bool) : inv s -> nth_error (s_calls s) i = Some p -> holding p = true -> holding q = false ->
  (match q with W1 _ | C1 _ => False | _ => True end) -> entered q = entered p -> closer q = closer p ->
  n_notify (s_log s ++ ks) = (if b then 1 else 0)%nat -> no_app_after (s_log s ++ ks) -> 
  inv (mkS (s_active s) b None (s_log s ++ ks) (s_closedT s) (upd i q (s_calls s))).
Proof.
  intros I E HP HQ HC He Hc HN HA. pose proof (proj1 (i_lock s I i p E) HP) as HL. destruct I. constructor; cbn [s_active s_sent s_lock s_log s_calls].
  - rewrite !(total_upd _ _ _ p q E). lia.
  - rewrite (total_upd _ _ _ p q E). lia.
  - unfold zlen in *. rewrite upd_len. exact i_len0.
  - intros j r Hj. destruct (Nat.eq_dec i j) as [<-|N].
    + rewrite (nth_upd_same _ _ _ _ E) in Hj. injection Hj as <-. rewrite HQ. split; discriminate.
    + rewrite nth_upd_other in Hj by exact N. rewrite (i_lock0 j r Hj), HL. split; [congruence|discriminate].
  - discriminate.
  - intros j r Hj. destruct (Nat.eq_dec i j) as [<-|N].
    + rewrite (nth_upd_same _ _ _ _ E) in Hj. injection Hj as <-. destruct q; try contradiction; try discriminate; exact I.
    + rewrite nth_upd_other in Hj by exact N. pose proof (i_lock0 j r Hj) as HJ. specialize (i_crit0 j r Hj). destruct r; auto; rewrite HL in HJ; cbn in HJ; exfalso; apply N; destruct HJ as [HJ _]; specialize (HJ eq_refl); congruence.
  - rewrite HN. unfold expected. cbn [s_sent s_lock]. now destruct b.
  - exact HA.
Qed.
Lemma inv_add_close s : inv s -> inv (add_close s).
Proof. intros []. constructor; assumption. Qed.

Lemma inv_step s i go s' : inv s -> step s i go = Some s' -> inv s'.
Proof.
  intros I H. unfold step in H. destruct (nth_error (s_calls s) i) as [p|] eqn:E; [|discriminate].
  pose proof (total_in entered _ i p entered_01 E) as TE. pose proof (total_in closer _ i p closer_01 E) as TC.
  pose proof (total_range entered (s_calls s) entered_01) as RE. pose proof (total_range closer (s_calls s) closer_01) as RC.
  pose proof (i_ac s I) as HA. pose proof (i_cl s I) as HCL. pose proof (i_len s I) as HLen. pose proof (i_crit s I i p E) as HCr. pose proof (i_log s I) as HLog.
  assert (HEx : holding p = true -> (match p with Ns _ => False | _ => True end) -> s_sent s = false -> n_notify (s_log s) = 0%nat).
  { intros Hh Hn Hs. rewrite HLog. unfold expected. rewrite Hs, (proj1 (i_lock s I i p E) Hh), E. destruct p; try reflexivity; contradiction. }
  assert (HEx1 : holding p = true -> (match p with Ns _ => False | _ => True end) -> n_notify (s_log s) = (if s_sent s then 1 else 0)%nat).
  { intros Hh Hn. destruct (s_sent s) eqn:Es; [rewrite HLog; unfold expected; now rewrite Es|]. auto. }
  destruct p; try discriminate H.
  - destruct (negb (Z.land (s_active s) 1 =? 0)) eqn:EB; injection H as <-; eapply inv_plain0; eauto; cbn; auto.
    apply Bool.negb_false_iff, Z.eqb_eq in EB. now rewrite land1 in EB.
  - destruct (Z.eqb_spec (s_active s) x); injection H as <-; [|eapply inv_plain0; eauto; cbn; auto].
    eapply inv_plain; eauto; cbn [entered closer holding] in *; auto; [|lia]. rewrite i32_small by lia. lia.
  - injection H as <-. destruct go; eapply inv_plain0; eauto; cbn; auto.
  - destruct (s_lock s) eqn:EL; [discriminate|]. injection H as <-. eapply inv_lock; eauto; cbn; auto.
  - destruct (negb go); [|destruct (s_sent s) eqn:Es]; injection H as <-.
    + pose proof (inv_unlock s i W4 (W5 WErr) [] (s_sent s) I E eq_refl eq_refl Logic.I eq_refl eq_refl) as U. rewrite app_nil_r in U. apply U; [apply HEx1; auto|apply (i_app s I)].
    + pose proof (inv_unlock s i W4 (W5 WErrShutdown) [] (s_sent s) I E eq_refl eq_refl Logic.I eq_refl eq_refl) as U. rewrite app_nil_r in U. rewrite Es in *. unfold set_pc, set_lock. cbn. rewrite Es. apply U; [apply HEx1; auto|apply (i_app s I)].
    + eapply inv_plain0; eauto; cbn; auto.
  - injection H as <-. pose proof (inv_unlock s i W4b (W5 (if go then WOk else WErr)) [App] false I E eq_refl eq_refl Logic.I eq_refl eq_refl) as U.
    assert (Es : s_sent s = false) by exact HCr. unfold set_pc, set_lock, add_log. cbn. rewrite Es. apply U.
    + rewrite n_notify_app. rewrite HEx by auto. reflexivity.
    + apply no_app_snoc; [apply (i_app s I)|]. intros _. apply HEx; auto.
  - injection H as <-. eapply inv_plain; eauto; cbn [entered closer holding] in *; auto; [|lia]. rewrite i32_small by lia. lia.
  - destruct (negb (Z.land (s_active s) 1 =? 0)) eqn:EB; injection H as <-; eapply inv_plain0; eauto; cbn; auto.
    apply Bool.negb_false_iff, Z.eqb_eq in EB. now rewrite land1 in EB.
  - cbn in HCr. destruct (Z.eqb_spec (s_active s) x) as [Ex|]; injection H as <-; [|eapply inv_plain0; eauto; cbn; auto].
    eapply inv_plain; eauto; cbn [entered closer holding] in *; auto; [|lia]. rewrite lor1_even by exact HCr. rewrite i32_small by lia. lia.
  - destruct (negb (x =? 0)); [|destruct go]; injection H as <-; eapply inv_plain0; eauto; cbn; auto.
  - injection H as <-. change (set_pc (add_close s) i (CDone COk)) with (add_close (set_pc s i (CDone COk))). apply inv_add_close. eapply inv_plain0; eauto; cbn; auto.
  - destruct (s_lock s) eqn:EL; [discriminate|]. injection H as <-. eapply inv_lock; eauto; cbn; auto.
  - destruct (s_sent s) eqn:Es; injection H as <-.
    + pose proof (inv_unlock s i (N1 close) (after_notify close) [] true I E eq_refl ltac:(now destruct close) ltac:(now destruct close) ltac:(now destruct close) ltac:(now destruct close)) as U. rewrite app_nil_r in U.
      unfold set_pc, set_lock. cbn. rewrite Es. apply U; [apply HEx1; auto|apply (i_app s I)].
    + eapply inv_plain0; eauto; cbn; auto.
  - injection H as <-. assert (Es : s_sent s = false) by exact HCr. pose proof (proj1 (i_lock s I i _ E) eq_refl) as HL. pose proof (HEx eq_refl Logic.I Es) as H0.
    destruct I. constructor; cbn [set_pc add_log s_active s_sent s_lock s_log s_calls].
    + rewrite !(total_upd _ _ _ _ _ E). destruct close; cbn [entered closer] in *; lia.
    + rewrite (total_upd _ _ _ _ _ E). destruct close; cbn [entered closer] in *; lia.
    + unfold zlen in *. rewrite upd_len. exact i_len0.
    + intros j r Hj. destruct (Nat.eq_dec i j) as [<-|N]; [rewrite (nth_upd_same _ _ _ _ E) in Hj; injection Hj as <-; cbn; tauto|rewrite nth_upd_other in Hj by exact N; now apply i_lock0].
    + intros j Hj. rewrite HL in Hj. injection Hj as <-. eexists. eapply nth_upd_same; exact E.
    + intros j r Hj. destruct (Nat.eq_dec i j) as [<-|N]; [rewrite (nth_upd_same _ _ _ _ E) in Hj; injection Hj as <-; exact Es|rewrite nth_upd_other in Hj by exact N; exact (i_crit0 j r Hj)].
    + rewrite n_notify_app, H0. unfold expected. cbn [set_pc add_log s_sent s_lock s_calls]. rewrite Es, HL, (nth_upd_same _ _ _ _ E). reflexivity.
    + apply no_app_snoc; [exact i_app0|discriminate].
  - injection H as <-. pose proof (inv_unlock s i (Ns close) (after_notify close) [] true I E eq_refl ltac:(now destruct close) ltac:(now destruct close) ltac:(now destruct close) ltac:(now destruct close)) as U. rewrite app_nil_r in U.
    unfold set_pc, set_lock, set_sent. cbn. apply U; [|apply (i_app s I)]. rewrite HLog. unfold expected. assert (Es : s_sent s = false) by exact HCr. rewrite Es, (proj1 (i_lock s I i _ E) eq_refl), E. reflexivity.
  - destruct (s_lock s) eqn:EL; [discriminate|]. injection H as <-. eapply inv_lock; eauto; cbn; auto.
  - injection H as <-. pose proof (inv_unlock s i A1 ADone [Alert] (s_sent s) I E eq_refl eq_refl Logic.I eq_refl eq_refl) as U. apply U.
    + rewrite n_notify_app, HEx1 by auto. cbn. lia.
    + apply no_app_snoc; [apply (i_app s I)|discriminate].
Qed.
Lemma inv_init calls : Forall fresh calls -> zlen calls < 2 ^ 29 -> inv (init calls).
Proof.
  intros HF HL. assert (HT : forall f, (forall p, fresh p -> f p = 0) -> total f calls = 0).
  { intros f Hf. unfold total. clear HL. induction HF as [|p l Hp HF IH]; cbn [fold_right]; [reflexivity|]. rewrite (Hf p Hp), IH. reflexivity. }
  assert (HN : forall i p, nth_error calls i = Some p -> fresh p) by (intros i p E; rewrite Forall_forall in HF; apply HF; eapply nth_error_In; exact E).
  constructor; cbn [init s_active s_sent s_lock s_log s_calls].
  - rewrite !HT; [reflexivity| |]; intros p [-> |[-> |[-> | ->]]]; reflexivity.
  - rewrite HT; [lia|]. intros p [-> |[-> |[-> | ->]]]; reflexivity.
  - exact HL.
  - intros i p E. apply HN in E as [-> |[-> |[-> | ->]]]; cbn; split; discriminate.
  - discriminate.
  - intros i p E. apply HN in E as [-> |[-> |[-> | ->]]]; exact I.
  - reflexivity.
  - intros a b E. destruct a; discriminate.
Qed.
Lemma inv_steps s s' : steps s s' -> inv s -> inv s'.
Proof. induction 1; auto. intros I. apply IHsteps. eapply inv_step; eauto. Qed.

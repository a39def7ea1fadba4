(** C111-C115: concurrent use of a tls.Conn. *)
From Verif Require Import GoBase GoLemmas TLS_sync_model TLS_sync_proofs.
From Verif Require TLS_close_proofs.
Import TLS_sync_model.
Open Scope Z_scope.

Lemma init_inv g calls : Forall fresh calls -> inv g (init calls).
Proof.
  intros F. assert (forall i p, nth_error calls i = Some p -> fresh p) as N by (intros i p H; apply nth_error_In in H; rewrite Forall_forall in F; auto).
  assert (forall f, (forall p, fresh p -> f p = 0%nat) -> totn f calls = 0%nat) as T0.
  { intros f Hf. clear N. unfold totn. induction F as [|x l Hx _ IH]; cbn [fold_right]; [reflexivity|]. rewrite IH, Hf by exact Hx. reflexivity. }
  assert (totn running calls = 0%nat) as R0' by (apply T0; intros p [[k ->]|[ -> | -> ]]; reflexivity).
  constructor; cbn [init s_hm s_in s_out s_status s_err s_count s_log s_calls]; try discriminate; try (intros; lia); try reflexivity.
  - intros i p H. destruct (N _ _ H) as [[k ->]|[ -> | -> ]]; split; discriminate.
  - intros i p H. destruct (N _ _ H) as [[k ->]|[ -> | -> ]]; split; discriminate.
  - intros i p H. destruct (N _ _ H) as [[k ->]|[ -> | -> ]]; split; discriminate.
  - intros i p H. destruct (N _ _ H) as [[k ->]|[ -> | -> ]]; exact I.
  - rewrite R0'. reflexivity.
  - split; intros _; cbn; lia.
Qed.
Lemma steps_inv g s s' : steps g s s' -> inv g s -> inv g s'.
Proof. induction 1; auto. intros I. apply IHsteps. exact (step_inv _ _ _ _ _ I H). Qed.
Lemma reach_inv g s : reachable g s -> inv g s.
Proof. intros (calls & F & H). exact (steps_inv _ _ _ H (init_inv _ _ F)). Qed.
Lemma reach_steps g s s' : reachable g s -> steps g s s' -> reachable g s'.
Proof.
  intros (calls & F & H) H'. exists calls. split; [exact F|]. clear F. induction H; [exact H'|]. exact (steps_step _ _ _ _ _ _ H (IHsteps H')).
Qed.

(** *** C111: no deadlock.  Whatever the schedule, a call that has not returned can go on, or waits (possibly through other waiting
    calls) for a call that can: there is no cycle of calls waiting for each other. *)
Lemma enabled_free g s i p : nth_error (s_calls s) i = Some p -> wants p = None -> returned p = false -> exists s', step g s i Go = Some s'.
Proof.
  intros E W R. unfold step. rewrite E. destruct p; cbn in W, R; try discriminate; try (eexists; reflexivity).
  - destruct (s_err s); [eexists; reflexivity|]. destruct (s_status s); eexists; reflexivity.
  - destruct (isClient g); cbn [negb]; [|eexists; reflexivity]. destruct (pol g); try (eexists; reflexivity). destruct (1 <? s_count s)%nat; eexists; reflexivity.
  - cbn [is_fail]. destruct (s_status s); eexists; reflexivity.
Qed.
Lemma enabled_lock g s i p m : nth_error (s_calls s) i = Some p -> wants p = Some m -> lock s m = None -> exists s', step g s i Go = Some s'.
Proof. intros E W L. unfold step. rewrite E. destruct p; cbn in W; try discriminate; injection W as <-; cbn in L; rewrite L; eexists; reflexivity. Qed.
Definition can_go (g : cfg) (s : state) (i : nat) : Prop := exists c s', step g s i c = Some s'.
(** the holder of out never waits *)
Lemma out_holder g s i p : inv g s -> nth_error (s_calls s) i = Some p -> wants p = Some 2%nat -> exists j, waits_chain s i j /\ can_go g s j.
Proof.
  intros I E W. destruct (s_out s) as [j|] eqn:L.
  - destruct (i_outv _ _ I _ L) as [q Ej]. pose proof (proj2 (i_out _ _ I _ _ Ej) L) as Hq. exists j. split.
    + eapply wc_step; [|apply wc_refl]. exists p, 2%nat. repeat split; auto.
    + destruct (enabled_free g s j q Ej) as [s' Hs]; [destruct q; cbn in *; try discriminate; reflexivity|destruct q; cbn in *; try discriminate; reflexivity|]. exists Go, s'. exact Hs.
  - exists i. split; [apply wc_refl|]. destruct (enabled_lock g s i p 2 E W L) as [s' Hs]. exists Go, s'. exact Hs.
Qed.
Lemma wc_trans s i j k : waits s i j -> (exists l, waits_chain s j l /\ k l) -> exists l, waits_chain s i l /\ k l.
Proof. intros H (l & C & K). exists l. split; [exact (wc_step _ _ _ _ H C)|exact K]. Qed.
Theorem C111_no_deadlock g s i p : reachable g s -> nth_error (s_calls s) i = Some p -> returned p = false ->
  exists j, waits_chain s i j /\ exists c s', step g s j c = Some s'.
Proof.
  intros HR E R. apply reach_inv in HR as I. clear HR.
  assert (forall i p, nth_error (s_calls s) i = Some p -> returned p = false -> wants p = None -> exists j, waits_chain s i j /\ can_go g s j) as Free.
  { clear i p E R. intros i p E R W. exists i. split; [apply wc_refl|]. destruct (enabled_free g s i p E W R) as [s' H]. exists Go, s'. exact H. }
  (* waiting for in: the holder of in is a handshake or a reader *)
  assert (forall i p, nth_error (s_calls s) i = Some p -> wants p = Some 1%nat -> exists j, waits_chain s i j /\ can_go g s j) as In1.
  { clear i p E R. intros i p E W. destruct (s_in s) as [j|] eqn:L.
    - destruct (i_inv _ _ I _ L) as [q Ej]. pose proof (proj2 (i_in _ _ I _ _ Ej) L) as Hq.
      apply (wc_trans s i j); [exists p, 1%nat; repeat split; auto|].
      destruct q; cbn in Hq; try discriminate; try (apply (Free j _ Ej); reflexivity); try (apply (out_holder g s j _ I Ej); reflexivity).
      (* R4 waits for handshakeMutex *)
      pose proof (i_pc _ _ I _ _ Ej) as PJ. cbn in PJ. unfold reneg_start in PJ. destruct (s_hm s) as [k|] eqn:LH.
      + destruct (i_hmv _ _ I _ LH) as [r Ek]. pose proof (proj2 (i_hm _ _ I _ _ Ek) LH) as Hr. pose proof (i_pc _ _ I _ _ Ek) as PK.
        apply (wc_trans s j k); [exists R4, 0%nat; repeat split; auto|].
        destruct r; cbn in Hr; try discriminate; try (apply (Free k _ Ek); reflexivity); try (apply (out_holder g s k _ I Ek); reflexivity).
        cbn in PK. lia.
      + exists j. split; [apply wc_refl|]. destruct (enabled_lock g s j R4 0 Ej eq_refl LH) as [s' Hs]. exists Go, s'. exact Hs.
    - exists i. split; [apply wc_refl|]. destruct (enabled_lock g s i p 1 E W L) as [s' Hs]. exists Go, s'. exact Hs. }
  destruct (wants p) as [m|] eqn:W; [|exact (Free i p E R W)].
  destruct m as [|[|[|m]]]; [|exact (In1 i p E W)|exact (out_holder g s i p I E W)|destruct p; discriminate W].
  destruct (s_hm s) as [j|] eqn:L.
  - destruct (i_hmv _ _ I _ L) as [q Ej]. pose proof (proj2 (i_hm _ _ I _ _ Ej) L) as Hq.
    apply (wc_trans s i j); [exists p, 0%nat; repeat split; auto|].
    destruct q; cbn in Hq; try discriminate; try (apply (Free j _ Ej); reflexivity); try (apply (out_holder g s j _ I Ej); reflexivity).
    apply (In1 j _ Ej). reflexivity.
  - exists i. split; [apply wc_refl|]. destruct (enabled_lock g s i p 0 E W L) as [s' Hs]. exists Go, s'. exact Hs.
Qed.

(** *** C112: one handshake.  All calls share one first handshake, no data moves before a handshake has succeeded, and without
    renegotiation all calls see the same outcome. *)
Definition n_first (l : list event) : nat := length (filter (fun e => match e with EStart (First _) => true | _ => false end) l).
Lemma n_first_snoc l e : n_first (l ++ [e]) = (n_first l + match e with EStart (First _) => 1 | _ => 0 end)%nat.
Proof. unfold n_first. rewrite filter_app, app_length. destruct e as [[]|]; reflexivity. Qed.
Lemma n_first_le l : (n_first l <= n_start l)%nat.
Proof. unfold n_first, n_start. induction l as [|[[]|] l IH]; cbn; lia. Qed.
(** the handshake outcome a call reports: nil, or the handshake error *)
Definition outcome (p : pc) : option (option Z) :=
  match p with
  | HDone e => Some e
  | RDone (RHs e) | WDone (WHs e) => Some (Some e)
  | RDone ROk | RDone RErr | WDone WOk | WDone WErr | WDone WInternal => Some None
  | _ => None
  end.
Lemma step_log g s i c s' : step g s i c = Some s' ->
  (s_log s' = s_log s) \/ (exists k, nth_error (s_calls s) i = Some (H2 k) /\ s_log s' = s_log s ++ [EStart (First k)]) \/
  (s_log s' = s_log s ++ [EStart Reneg]) \/ exists h e, s_log s' = s_log s ++ [EEnd h e].
Proof.
  unfold step. destruct (nth_error (s_calls s) i) as [p|]; [|discriminate]. intros H.
  destruct p; try discriminate H;
    repeat match type of H with (match ?x with _ => _ end) = Some _ => destruct x | Some (match ?x with _ => _ end) = Some _ => destruct x end;
    try discriminate H; injection H as <-; cbn [set_pc set_hm set_in set_out set_status set_err inc_count add_log s_log]; auto;
    try (right; left; eexists; split; reflexivity); try (right; right; left; reflexivity); try (right; right; right; eexists; eexists; reflexivity).
Qed.
Theorem C112_one_first_handshake g s : reachable g s -> (n_first (s_log s) <= 1)%nat.
Proof.
  intros (calls & F & H). pose proof (init_inv g calls F) as I. assert (n_first (s_log (init calls)) <= 1)%nat as B by (cbn; lia). revert I B.
  induction H as [s|s i c s1 s2 H _ IH]; auto. intros I B. apply IH; [exact (step_inv _ _ _ _ _ I H)|].
  destruct (step_log _ _ _ _ _ H) as [ -> |[(k & E & -> )|[ -> |(h & e & -> )]]]; [exact B| | |]; rewrite n_first_snoc; try lia.
  pose proof (i_pc _ _ I _ _ E) as P. cbn in P. destruct P as (P1 & P2 & P3). pose proof (i_start _ _ I) as S0. unfold errbit in S0. rewrite P1, P3 in S0.
  pose proof (no_run _ _ _ _ I E eq_refl). cbn in H0. pose proof (n_first_le (s_log s)). lia.
Qed.
Theorem C112_no_data_before_handshake g s i p : reachable g s -> nth_error (s_calls s) i = Some p ->
  p = RDone ROk \/ p = WDone WOk \/ p = W2 -> exists h, In (EEnd h None) (s_log s).
Proof.
  intros HR E HP. apply reach_inv in HR as I. pose proof (i_pc _ _ I _ _ E) as P. pose proof (i_ok _ _ I) as O.
  assert (1 <= s_count s)%nat as C by (destruct HP as [ -> |[ -> | -> ]]; exact P). rewrite <- O in C. clear -C. unfold n_ok in C.
  destruct (filter _ (s_log s)) as [|x l] eqn:EF; [cbn in C; lia|]. assert (In x (x :: l)) as HI by now left. rewrite <- EF in HI. apply filter_In in HI as [H1 H2].
  destruct x as [|h [e|]]; try discriminate. now exists h.
Qed.
Theorem C112_same_outcome g s i j p q e f : reneg_ok g = false -> reachable g s -> nth_error (s_calls s) i = Some p -> nth_error (s_calls s) j = Some q ->
  outcome p = Some e -> outcome q = Some f -> e = f.
Proof.
  intros HG HR E1 E2 O1 O2. apply reach_inv in HR as I.
  assert (forall i p e, nth_error (s_calls s) i = Some p -> outcome p = Some e -> e = s_err s) as K.
  { clear -I HG. intros i p e E O. pose proof (i_pc _ _ I _ _ E) as P. assert ((1 <= s_count s)%nat -> s_err s = None) as N by (intros C; apply (i_se _ _ I), (i_never _ _ I HG C)).
    destruct p as [| | |[]|[]|[]|[]|[]|? []| | | | | | | | | |[]| | | | | | | | |[]|[]|[]| |]; cbn in O, P; try discriminate O; injection O as <-; try congruence; symmetry; apply N; lia. }
  rewrite (K _ _ _ E1 O1), (K _ _ _ E2 O2). reflexivity.
Qed.

(** *** C113: a failed handshake is final.  After a call has reported the handshake error e, every call made later reports e, and none
    of them writes anything. *)
Lemma err_stays g s s' e : inv g s -> steps g s s' -> s_err s = Some e -> s_err s' = Some e.
Proof.
  intros I H. revert I. induction H as [s|s i c s1 s2 H _ IH]; auto. intros I HE. apply IH; [exact (step_inv _ _ _ _ _ I H)|].
  unfold step in H. destruct (nth_error (s_calls s) i) as [p|] eqn:E; [|discriminate]. pose proof (i_pc _ _ I _ _ E) as P.
  destruct p; try discriminate H;
    repeat match type of H with (match ?x with _ => _ end) = Some _ => destruct x eqn:? | Some (match ?x with _ => _ end) = Some _ => destruct x eqn:? end;
    try discriminate H; injection H as <-; cbn [set_pc set_hm set_in set_out set_status set_err inc_count add_log s_err]; try assumption; try congruence;
    unfold pcinv, reneg_start in P; exfalso; repeat match goal with H : _ /\ _ |- _ => destruct H end; congruence.
Qed.
Theorem C113_failure_is_final g s s' i p e j k q : reachable g s -> nth_error (s_calls s) i = Some p -> outcome p = Some (Some e) ->
  nth_error (s_calls s) j = Some (H0 k) -> steps g s s' -> nth_error (s_calls s') j = Some q ->
  writing q = false /\ (returned q = true -> outcome q = Some (Some e)).
Proof.
  intros HR E O Ej H Eq. apply reach_inv in HR as I.
  assert (s_err s = Some e) as HE.
  { pose proof (i_pc _ _ I _ _ E) as P. clear -P O. destruct p as [| | |[]|[]|[]|[]|[]|? []| | | | | | | | | |[]| | | | | | | | |[]|[]|[]| |]; cbn in O, P; try discriminate O; injection O as <-; exact P. }
  assert (q = H0 k \/ q = H1 k \/ q = stop k e) as [ -> |[ -> | -> ]]; [|split; [reflexivity|discriminate]|split; [reflexivity|discriminate]|destruct k; split; reflexivity].
  assert (exists r, nth_error (s_calls s) j = Some r /\ (r = H0 k \/ r = H1 k \/ r = stop k e)) as (r & Er & Hr) by (exists (H0 k); auto).
  clear E O Ej HR. revert r Er Hr I HE Eq. induction H as [s|s i' c s1 s2 H _ IH]; intros r Er Hr I HE Eq; [rewrite Er in Eq; injection Eq as <-; exact Hr|].
  pose proof (err_stays g s s1 e I ltac:(eapply steps_step; [exact H|apply steps_refl]) HE) as HE1. pose proof (step_inv _ _ _ _ _ I H) as I1.
  assert (exists r1, nth_error (s_calls s1) j = Some r1 /\ (r1 = H0 k \/ r1 = H1 k \/ r1 = stop k e)) as (r1 & Er1 & Hr1); [|exact (IH r1 Er1 Hr1 I1 HE1 Eq)].
  clear IH. destruct (Nat.eq_dec i' j) as [ -> |N].
  - unfold step in H. rewrite Er in H. destruct Hr as [ -> |[ -> | -> ]].
    + destruct (s_hm s); [discriminate|]. injection H as <-. exists (H1 k). split; [cbn; now apply (TLS_close_proofs.nth_upd_same _ _ _ _ Er)|auto].
    + rewrite HE in H. injection H as <-. exists (stop k e). split; [cbn; now apply (TLS_close_proofs.nth_upd_same _ _ _ _ Er)|auto].
    + destruct k; discriminate.
  - exists r. split; [|exact Hr]. rewrite <- Er. clear -H N. unfold step in H. destruct (nth_error (s_calls s) i') as [p|] eqn:E; [|discriminate].
    destruct p; try discriminate H;
      repeat match type of H with (match ?x with _ => _ end) = Some _ => destruct x | Some (match ?x with _ => _ end) = Some _ => destruct x end;
      try discriminate H; injection H as <-; cbn [set_pc set_hm set_in set_out set_status set_err inc_count add_log s_calls];
      apply TLS_close_proofs.nth_upd_other; exact N.
Qed.

(** *** C114: renegotiation is limited as configured.  A server and a client with RenegotiateNever run one handshake at most, a client
    with RenegotiateOnceAsClient two. *)
Theorem C114_renegotiation_limit g s : reachable g s ->
  (isClient g = false \/ pol g = RenegotiateNever -> (n_start (s_log s) <= 1)%nat) /\
  (pol g = RenegotiateOnceAsClient -> (n_start (s_log s) <= 2)%nat).
Proof.
  intros HR. apply reach_inv in HR as I. pose proof (i_start _ _ I) as N. pose proof (i_lim _ _ I) as [L1 L2].
  destruct (le_lt_dec 1 (totn running (s_calls s))) as [G|G].
  - apply totn_pos in G as (i & p & E & HP). assert (holds_hm p = true) as HH by (destruct p; cbn in *; try lia; reflexivity).
    pose proof (no_run _ _ _ _ I E HH) as T. assert (running p <= 1)%nat as R1' by (destruct p; cbn; lia). pose proof (i_pc _ _ I _ _ E) as P.
    assert (s_err s = None /\ (s_count s = 0%nat \/ (1 <= s_count s)%nat /\ reneg_ok g = true /\ (pol g = RenegotiateOnceAsClient -> (s_count s <= 1)%nat))) as [P1 P2].
    { destruct p as [| | |[]|[]|[]|[]|[]|? []| | | | | | | | | |[]| | | | | | | | |[]|[]|[]| |]; cbn in HP; try lia; cbn in P; unfold reneg_start in P; tauto. }
    unfold errbit in N. rewrite P1 in N. split.
    + intros HG. assert (reneg_ok g = false) as HN by (unfold reneg_ok; destruct HG as [ -> | -> ]; [reflexivity|apply andb_false_r]). destruct P2 as [P2|(_ & P2 & _)]; [lia|congruence].
    + intros HG. destruct P2 as [P2|(_ & _ & P2)]; [lia|]. specialize (P2 HG). lia.
  - split.
    + intros HG. assert (reneg_ok g = false) as HN by (unfold reneg_ok; destruct HG as [ -> | -> ]; [reflexivity|apply andb_false_r]). specialize (L1 HN). lia.
    + intros HG. specialize (L2 HG). lia.
Qed.

(** *** C115: one writer at a time.  Two calls never write to the transport together - unless the client allows renegotiation. *)
Definition exclusive_writers (g : cfg) : Prop :=
  forall s i j p q, reachable g s -> nth_error (s_calls s) i = Some p -> nth_error (s_calls s) j = Some q -> writing p = true -> writing q = true -> i = j.
Theorem C115_exclusive_writers_partial g : isClient g = false \/ pol g = RenegotiateNever -> exclusive_writers g.
Proof.
  intros HG. assert (reneg_ok g = false) as HN by (unfold reneg_ok; destruct HG as [ -> | -> ]; [reflexivity|apply andb_false_r]).
  intros s i j p q HR E1 E2 W1' W2'. apply reach_inv in HR as I.
  pose proof (i_pc _ _ I _ _ E1) as P1. pose proof (i_pc _ _ I _ _ E2) as P2.
  assert (forall i p, nth_error (s_calls s) i = Some p -> writing p = true -> holds_out p = true \/ exists k, p = HSu (First k)) as K.
  { clear -I HN. intros i p E W. pose proof (i_pc _ _ I _ _ E) as P. destruct p as [| | |[]|[]|[]|[]|[]|? []| | | | | | | | | |[]| | | | | | | | |[]|[]|[]| |]; cbn in W; try discriminate; auto; cbn in P; unfold reneg_start in P.
    - right. eexists. reflexivity.
    - destruct P as ((_ & _ & P & _) & _). congruence.
    - destruct P as (_ & _ & _ & P). congruence. }
  assert (forall i p k j, nth_error (s_calls s) i = Some p -> writing p = true -> holds_out p = true -> nth_error (s_calls s) j = Some (HSu (First k)) -> i = j) as X.
  { clear -I HN. intros i p k j E W HO Ej. pose proof (i_pc _ _ I _ _ E) as P. pose proof (i_pc _ _ I _ _ Ej) as Q. cbn in Q. destruct Q as (Q1 & Q2 & Q3).
    destruct p as [| | |[]|[]|[]|[]|[]|? []| | | | | | | | | |[]| | | | | | | | |[]|[]|[]| |]; cbn in HO, W; try discriminate; cbn in P; unfold reneg_start, ever in P.
    - pose proof (proj1 (i_hm _ _ I _ _ E) eq_refl). pose proof (proj1 (i_hm _ _ I _ _ Ej) eq_refl). congruence.
    - destruct P as ((_ & _ & P & _) & _). congruence.
    - lia.
    - lia.
    - destruct P as [P|P]; [congruence|lia]. }
  destruct (K _ _ E1 W1') as [O1|[k1 -> ]], (K _ _ E2 W2') as [O2|[k2 -> ]].
  - apply (i_out _ _ I _ _ E1) in O1. apply (i_out _ _ I _ _ E2) in O2. congruence.
  - exact (X _ _ _ _ E1 W1' O1 E2).
  - symmetry. exact (X _ _ _ _ E2 W2' O2 E1).
  - pose proof (proj1 (i_hm _ _ I _ _ E1) eq_refl). pose proof (proj1 (i_hm _ _ I _ _ E2) eq_refl). congruence.
Qed.

Ltac frs := repeat (apply Forall_cons; [first [left; eexists; reflexivity|right; left; reflexivity|right; right; reflexivity]|]); apply Forall_nil.
(** running a schedule *)
Fixpoint run (g : cfg) (s : state) (l : list (nat * choice)) : option state :=
  match l with [] => Some s | (i, c) :: l => match step g s i c with Some s' => run g s' l | None => None end end.
Lemma run_steps g l : forall s s', run g s l = Some s' -> steps g s s'.
Proof.
  induction l as [|[i c] l IH]; intros s s' H; cbn in H; [injection H as <-; apply steps_refl|]. destruct (step g s i c) as [s1|] eqn:E; [|discriminate].
  exact (steps_step _ _ _ _ _ _ E (IH _ _ H)).
Qed.
Lemma run_reach g calls l s' : Forall fresh calls -> run g (init calls) l = Some s' -> reachable g s'.
Proof. intros F H. exists calls. split; [exact F|exact (run_steps _ _ _ _ H)]. Qed.
(** the schedule: the handshake completes; call 1 (Write) has passed its checks and is writing when call 0 (Read) gets a HelloRequest header
    announcing an oversized message, or flushes *)
Definition race_schedule : list (nat * choice) :=
  [(0, Go); (0, Go); (0, Go); (0, Go); (0, Go); (0, Go);        (* Read: H0 H1 H2 HS H4 HX: R0 *)
   (1, Go); (1, Go); (1, Go); (1, Go);                          (* Write: H0 H1 W0 W1: W2 *)
   (0, Go); (0, Raw); (0, Raw)]%nat.                            (* Read: R0, R1 handshake bytes, R2: R2u *)
Theorem C115_race_refuted g : isClient g = true -> pol g <> RenegotiateNever -> ~ exclusive_writers g.
Proof.
  intros HC HP X. destruct g as [c p]. cbn in HC, HP. subst c.
  destruct (run (mkC true p) (init [H0 KRead; H0 KWrite]) race_schedule) as [s|] eqn:E.
  - assert (reachable (mkC true p) s) as R by (apply (run_reach _ [H0 KRead; H0 KWrite] race_schedule); [frs|exact E]).
    destruct p; try congruence; vm_compute in E; injection E as <-;
    specialize (X _ 0%nat 1%nat R2u W2 R eq_refl eq_refl eq_refl eq_refl); discriminate X.
  - destruct p; try congruence; vm_compute in E; discriminate E.
Qed.

(** *** C116: an established connection stays established.  Without renegotiation no Write finds the handshake incomplete, and
    ConnectionState called after a successful Handshake says so. *)
Definition stays_established (g : cfg) : Prop := forall s i p, reachable g s -> nth_error (s_calls s) i = Some p -> p <> WDone WInternal.
Theorem C116_stays_established_partial g : isClient g = false \/ pol g = RenegotiateNever -> stays_established g /\
  forall s s' i j b, reachable g s -> nth_error (s_calls s) i = Some (HDone None) -> nth_error (s_calls s) j = Some S0 -> steps g s s' ->
  nth_error (s_calls s') j = Some (SDone b) -> b = true.
Proof.
  intros HG. assert (reneg_ok g = false) as HN by (unfold reneg_ok; destruct HG as [ -> | -> ]; [reflexivity|apply andb_false_r]). split.
  - intros s i p HR E -> . apply reach_inv in HR as I. pose proof (i_pc _ _ I _ _ E) as P. cbn in P. destruct P as [_ P]. congruence.
  - intros s s' i j b HR Ei Ej H Ej'. apply reach_inv in HR as I.
    assert (1 <= s_count s)%nat as C by exact (i_pc _ _ I _ _ Ei). clear Ei HR.
    assert (exists r, nth_error (s_calls s) j = Some r /\ (r = S0 \/ r = S1 \/ r = SDone true)) as (r & Er & Hr) by (exists S0; auto).
    clear Ej. revert r Er Hr I C Ej'. induction H as [s|s i' c s1 s2 H _ IH]; intros r Er Hr I C Ej'.
    + rewrite Er in Ej'. injection Ej' as ->. destruct Hr as [?|[?|[= ->]]]; congruence.
    + pose proof (step_inv _ _ _ _ _ I H) as I1. pose proof (i_never _ _ I HN C) as ST.
      assert (1 <= s_count s1)%nat as C1.
      { clear -H C. unfold step in H. destruct (nth_error (s_calls s) i') as [p|]; [|discriminate]. destruct p; try discriminate H;
        repeat match type of H with (match ?x with _ => _ end) = Some _ => destruct x | Some (match ?x with _ => _ end) = Some _ => destruct x end;
        try discriminate H; injection H as <-; cbn [set_pc set_hm set_in set_out set_status set_err inc_count add_log s_count]; lia. }
      assert (exists r1, nth_error (s_calls s1) j = Some r1 /\ (r1 = S0 \/ r1 = S1 \/ r1 = SDone true)) as (r1 & Er1 & Hr1); [|exact (IH r1 Er1 Hr1 I1 C1 Ej')].
      clear IH. destruct (Nat.eq_dec i' j) as [ -> |N].
      * unfold step in H. rewrite Er in H. destruct Hr as [ -> |[ -> | -> ]].
        -- destruct (s_hm s); [discriminate|]. injection H as <-. exists S1. split; [cbn; now apply (TLS_close_proofs.nth_upd_same _ _ _ _ Er)|auto].
        -- rewrite ST in H. injection H as <-. exists (SDone true). split; [cbn; now apply (TLS_close_proofs.nth_upd_same _ _ _ _ Er)|auto].
        -- discriminate.
      * exists r. split; [|exact Hr]. rewrite <- Er. clear -H N. unfold step in H. destruct (nth_error (s_calls s) i') as [p|] eqn:E; [|discriminate].
        destruct p; try discriminate H;
        repeat match type of H with (match ?x with _ => _ end) = Some _ => destruct x | Some (match ?x with _ => _ end) = Some _ => destruct x end;
        try discriminate H; injection H as <-; cbn [set_pc set_hm set_in set_out set_status set_err inc_count add_log s_calls];
        apply TLS_close_proofs.nth_upd_other; exact N.
Qed.
Definition internal_schedule : list (nat * choice) :=
  [(0, Go); (0, Go); (0, Go); (0, Go); (0, Go); (0, Go);        (* Read: the handshake *)
   (1, Go); (1, Go);                                            (* Write: Handshake returns nil *)
   (0, Go); (0, Raw); (0, Go); (0, Go); (0, Go); (0, Go);       (* Read: HelloRequest, renegotiation starts *)
   (1, Go); (1, Go)]%nat.                                       (* Write: not complete *)
Theorem C116_renegotiation_refuted g : isClient g = true -> pol g = RenegotiateOnceAsClient \/ pol g = RenegotiateFreelyAsClient -> ~ stays_established g.
Proof.
  intros HC HP X. destruct g as [c p]. cbn in HC, HP. subst c.
  destruct (run (mkC true p) (init [H0 KRead; H0 KWrite]) internal_schedule) as [s|] eqn:E.
  - assert (reachable (mkC true p) s) as R by (apply (run_reach _ [H0 KRead; H0 KWrite] internal_schedule); [frs|exact E]).
    destruct HP as [ -> | -> ]; vm_compute in E; injection E as <-; exact (X _ 1%nat (WDone WInternal) R eq_refl eq_refl).
  - destruct HP as [ -> | -> ]; vm_compute in E; discriminate E.
Qed.

(** *** The hypotheses are met *)
Ltac comp := match goal with |- ?a = Some ?v => let r := eval vm_compute in a in match r with Some ?x => unify v x end end; vm_compute; exact eq_refl.
(** three calls; the handshake fails with error 7 in call 0 while call 1 waits; call 2 has not started *)
Theorem C111_example : let g := mkC false RenegotiateNever in
  exists s, reachable g s /\ nth_error (s_calls s) 0 = Some (HSw (First KRead)) /\ nth_error (s_calls s) 1 = Some (H0 KWrite) /\
  waits s 1 0 /\ nth_error (s_calls s) 2 = Some (H0 KHandshake).
Proof.
  intros g. eexists. split; [apply (run_reach g [H0 KRead; H0 KWrite; H0 KHandshake] [(0, Go); (0, Go); (0, Go); (0, Send)]%nat); [frs|comp]|].
  repeat split. exists (H0 KWrite), 0%nat. repeat split.
Qed.
Theorem C113_example : let g := mkC false RenegotiateNever in
  exists s, reachable g s /\ nth_error (s_calls s) 0 = Some (RDone (RHs 7)) /\ outcome (RDone (RHs 7)) = Some (Some 7) /\
  nth_error (s_calls s) 1 = Some (H0 KWrite) /\ exists s', steps g s s' /\ nth_error (s_calls s') 1 = Some (WDone (WHs 7)).
Proof.
  intros g. eexists. split; [apply (run_reach g [H0 KRead; H0 KWrite] [(0, Go); (0, Go); (0, Go); (0, Send); (0, Go); (0, Go); (0, Fail 7); (0, Go)]%nat); [frs|comp]|].
  repeat split. eexists. split; [apply (run_steps g [(1, Go); (1, Go)]%nat); comp|exact eq_refl].
Qed.
(** a client that renegotiates freely runs a third handshake *)
Theorem C114_example : exists s, reachable (mkC true RenegotiateFreelyAsClient) s /\ n_start (s_log s) = 3%nat /\ s_count s = 3%nat.
Proof.
  eexists. split; [apply (run_reach _ [H0 KRead] [(0, Go); (0, Go); (0, Go); (0, Go); (0, Go); (0, Go); (0, Go);
    (0, Raw); (0, Go); (0, Go); (0, Go); (0, Go); (0, Go); (0, Go); (0, Raw); (0, Go); (0, Go); (0, Go); (0, Go); (0, Go); (0, Go)]%nat); [frs|comp]|].
  split; reflexivity.
Qed.
(** a successful Handshake, a Write under way, ConnectionState not yet called *)
Theorem C115_example : let g := mkC true RenegotiateNever in
  exists s, reachable g s /\ nth_error (s_calls s) 0 = Some (HDone None) /\ nth_error (s_calls s) 1 = Some W2 /\ writing W2 = true /\ nth_error (s_calls s) 2 = Some S0.
Proof.
  intros g. eexists. split; [apply (run_reach g [H0 KHandshake; H0 KWrite; S0] [(0, Go); (0, Go); (0, Go); (0, Go); (0, Go); (0, Go); (1, Go); (1, Go); (1, Go); (1, Go)]%nat); [frs|comp]|].
  repeat split.
Qed.

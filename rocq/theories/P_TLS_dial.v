(** C136: DialWithDialer.  C137: the server name sent in the clear. *)
From Verif Require Import GoBase GoLemmas TLS_dial_model.
Open Scope Z_scope.

(** ** Invariant over all schedules *)
Definition sent_of (s : dst) : Prop :=
  match d_timer s, d_gor s with
  | (TNone | TArmed | TSend), (GNone | GRun | GSend _) => d_sent s = []
  | (TNone | TArmed | TSend), GDone => exists e, d_hs s = Some e /\ d_sent s = [e]
  | TDone, (GNone | GRun | GSend _) => d_sent s = [Some eTimeout]
  | TDone, GDone => exists e, d_hs s = Some e /\ (d_sent s = [e; Some eTimeout] \/ d_sent s = [Some eTimeout; e])
  end.
Definition gor_ok (s : dst) : Prop := match d_gor s with GNone => True | GRun => d_hs s = None | GSend e => d_hs s = Some e | GDone => d_hs s <> None end.
Record dinv (t : Z) (s : dst) : Prop := {
  v_sent : sent_of s; v_gor : gor_ok s;
  v_zero : t = 0 -> d_timer s = TNone /\ d_gor s = GNone;
  v_main : match d_main s with
           | MStart => d_timer s = TNone /\ d_gor s = GNone /\ d_raw s = false /\ d_closed s = false /\ d_ch s = d_sent s /\ d_hs s = None
           | MDial => d_gor s = GNone /\ d_raw s = false /\ d_closed s = false /\ d_ch s = d_sent s /\ (t <> 0 -> d_timer s <> TNone) /\ d_hs s = None
           | MShake => t = 0 /\ d_raw s = true /\ d_closed s = false /\ d_hs s = None
           | MWait => t <> 0 /\ d_raw s = true /\ d_closed s = false /\ d_ch s = d_sent s /\ d_timer s <> TNone /\ d_gor s <> GNone
           | MRet r => (d_raw s = false /\ d_closed s = false /\ d_gor s = GNone /\ d_ch s = d_sent s /\ exists e, r = DErr e) \/
                       (d_raw s = true /\ d_closed s = (match r with DConn => false | DErr _ => true end) /\
                        ((t = 0 /\ exists e, d_hs s = Some e /\ ret e = MRet r) \/
                         (t <> 0 /\ d_gor s <> GNone /\ exists e, d_sent s = e :: d_ch s /\ ret e = MRet r)))
           end }.
Lemma dinv_reach t s : dreach t s -> dinv t s.
Proof.
  induction 1 as [|s s' _ [VS VG VZ VM] H].
  - split; try exact I; [reflexivity|auto|cbn; repeat split; reflexivity].
  - destruct H as [s Hm|s e Hm|s Hm|s e Hm|s e rest Hm Hc|s Ht|s Ht Hl|s e Hg|s e Hg Hl].
    + rewrite Hm in VM. destruct VM as (M1 & M2 & M3 & M4 & M5 & M6). split; cbn.
      * unfold sent_of, gor_ok in *. cbn. rewrite M1, M2 in *. destruct (t =? 0); exact VS.
      * unfold gor_ok. cbn. rewrite M2. exact I.
      * intros ->. cbn. auto.
      * repeat split; auto. intros N. destruct (Z.eqb_spec t 0); [contradiction|discriminate].
    + rewrite Hm in VM. destruct VM as (M1 & M2 & M3 & M4 & M5 & M6). split; cbn; auto. left. repeat split; auto. now exists e.
    + rewrite Hm in VM. destruct VM as (M1 & M2 & M3 & M4 & M5 & M6). destruct (Z.eqb_spec t 0) as [T0|T0]; split; cbn; auto.
      * unfold sent_of in *. cbn. rewrite M1 in VS. destruct (d_timer s); exact VS.
      * intros; contradiction.
      * repeat split; auto. discriminate.
    + rewrite Hm in VM. destruct VM as (M1 & M2 & M3 & M4). destruct (VZ M1) as [Z1 Z2]. split; cbn.
      * unfold sent_of in *. cbn. rewrite Z1, Z2 in *. exact VS.
      * unfold gor_ok. cbn. now rewrite Z2.
      * auto.
      * destruct e as [e|]; cbn; right; rewrite M3; cbn; repeat split; auto; left; split; auto; eexists; split; reflexivity.
    + rewrite Hm in VM. destruct VM as (M1 & M2 & M3 & M4 & M5 & M6). split; cbn; auto.
      destruct e as [e|]; cbn; right; rewrite M3; cbn; repeat split; auto; right; (split; [auto|]); (split; [auto|]); eexists; (split; [rewrite <- M4, Hc; reflexivity|reflexivity]).
    + split; cbn; auto.
      * unfold sent_of in *. cbn. rewrite Ht in VS. exact VS.
      * intros T0. destruct (VZ T0). congruence.
      * destruct (d_main s) as [| | | |r]; [destruct VM; congruence| | | |]; cbn; intuition (auto; discriminate).
    + split; cbn; auto.
      * unfold sent_of in *. cbn. rewrite Ht in VS. destruct (d_gor s); try (rewrite VS; reflexivity). destruct VS as (e & E1 & ->). exists e. split; [exact E1|]. now left.
      * intros T0. destruct (VZ T0). congruence.
      * destruct (d_main s) as [| | | |r]; cbn; [destruct VM; congruence| | | |].
        -- destruct VM as (M1 & M2 & M3 & M4 & M5 & M6). repeat split; auto; [now rewrite M4|discriminate].
        -- exact VM.
        -- destruct VM as (M1 & M2 & M3 & M4 & M5 & M6). repeat split; auto; [now rewrite M4|discriminate].
        -- destruct VM as [(A & B & C & D & F)|(A & B & [C|(C1 & C2 & e & C3 & C4)])]; [left; repeat split; auto; now rewrite D|right; auto|right]. split; [exact A|]. split; [exact B|]. right. split; [exact C1|]. split; [exact C2|]. exists e. rewrite C3. split; [reflexivity|exact C4].
    + assert (GN : d_hs s = None) by (unfold gor_ok in VG; rewrite Hg in VG; exact VG).
      split; cbn.
      * unfold sent_of in *. cbn. rewrite Hg in VS. destruct (d_timer s); exact VS.
      * exact eq_refl.
      * intros T0. destruct (VZ T0). congruence.
      * destruct (d_main s) as [| | | |r]; cbn; [destruct VM as (? & ? & _); congruence|destruct VM as (? & _); congruence| | |].
        -- destruct VM as (M1 & _). destruct (VZ M1). congruence.
        -- intuition (auto; discriminate).
        -- destruct VM as [(A & B & C & D & F)|(A & B & [(C1 & C2)|(C1 & C2 & C3)])]; [congruence|destruct (VZ C1); congruence|right]. split; [exact A|]. split; [exact B|]. right. split; [exact C1|]. split; [discriminate|exact C3].
    + assert (GN : d_hs s = Some e) by (unfold gor_ok in VG; rewrite Hg in VG; exact VG).
      split; cbn.
      * unfold sent_of in *. cbn. rewrite Hg in VS. destruct (d_timer s); rewrite VS; exists e; (split; [exact GN|]); [reflexivity|reflexivity|reflexivity|now right].
      * unfold gor_ok. cbn. rewrite GN. discriminate.
      * intros T0. destruct (VZ T0). congruence.
      * destruct (d_main s) as [| | | |r]; cbn; [destruct VM as (? & ? & _); congruence|destruct VM as (? & _); congruence| | |].
        -- destruct VM as (M1 & _). destruct (VZ M1). congruence.
        -- destruct VM as (M1 & M2 & M3 & M4 & M5 & M6). repeat split; auto; [now rewrite M4|discriminate].
        -- destruct VM as [(A & B & C & D & F)|(A & B & [(C1 & C2)|(C1 & C2 & e' & C3 & C4)])]; [congruence|destruct (VZ C1); congruence|right]. split; [exact A|]. split; [exact B|]. right. split; [exact C1|]. split; [discriminate|]. exists e'. rewrite C3. split; [reflexivity|exact C4].
Qed.

(** ** C136 *)
(** a connection is returned only when its handshake has ended without an error, and is never closed behind the caller's back, whatever the timer does later *)
Theorem C136_connection : forall t s, dreach t s -> d_main s = MRet DConn -> d_raw s = true /\ d_hs s = Some None /\ d_closed s = false.
Proof.
  intros t s R H. destruct (dinv_reach t s R) as [VS VG VZ VM]. rewrite H in VM. destruct VM as [(_ & _ & _ & _ & e & F)|(A & B & [(C & e & E1 & E2)|(C1 & C2 & e & E1 & E2)])]; [discriminate| |].
  - destruct e; [discriminate|]. auto.
  - destruct e; [discriminate|]. split; [exact A|]. split; [|exact B]. unfold sent_of in VS. rewrite E1 in VS.
    destruct (d_timer s); destruct (d_gor s); try discriminate; try (destruct VS as (e' & V1 & V2); congruence).
    destruct VS as (e' & V1 & [V2|V2]); congruence.
Qed.
(** an error: there is no connection, and a raw connection that was opened has been closed *)
Theorem C136_error : forall t s e, dreach t s -> d_main s = MRet (DErr e) -> d_closed s = d_raw s.
Proof. intros t s e R H. destruct (dinv_reach t s R) as [VS VG VZ VM]. rewrite H in VM. destruct VM as [(A & B & _)|(A & B & _)]; congruence. Qed.
(** whichever comes first, the end of the handshake or the timer, decides; later events change nothing *)
Theorem C136_first_wins : forall t s r, t <> 0 -> dreach t s -> d_main s = MRet r -> d_raw s = true -> exists e rest, d_sent s = e :: rest /\ r = match e with None => DConn | Some e => DErr e end.
Proof.
  intros t s r T R H HR. destruct (dinv_reach t s R) as [VS VG VZ VM]. rewrite H in VM. destruct VM as [(A & _)|(A & B & [(C & _)|(C1 & C2 & e & E1 & E2)])]; [congruence|contradiction|].
  exists e, (d_ch s). split; [exact E1|]. destruct e; cbn in E2; congruence.
Qed.
Lemma sent_grows t s s' : dstep t s s' -> exists l, d_sent s' = d_sent s ++ l.
Proof. intros H. destruct H; cbn; try (exists []; now rewrite app_nil_r); try (eexists; reflexivity). destruct (t =? 0); cbn; exists []; now rewrite app_nil_r. Qed.
Inductive dsteps (t : Z) : dst -> dst -> Prop := dsteps0 s : dsteps t s s | dstepsS s s' s'' : dsteps t s s' -> dstep t s' s'' -> dsteps t s s''.
Lemma dsteps_reach t s s' : dreach t s -> dsteps t s s' -> dreach t s'.
Proof. intros R H. induction H as [s|s s1 s2 H IH S]; [exact R|]. exact (dreachS t s1 s2 (IH R) S). Qed.
Lemma dsteps_sent t s s' : dsteps t s s' -> exists l, d_sent s' = d_sent s ++ l.
Proof. induction 1 as [s|s s' s'' _ (l & IH) H]; [exists []; now rewrite app_nil_r|]. destruct (sent_grows _ _ _ H) as (l' & E). exists (l ++ l'). now rewrite E, IH, app_assoc. Qed.
(** once the time limit has been reported before the handshake ended, no connection is ever returned *)
Theorem C136_time_limit : forall t s s' r, dreach t s -> d_sent s = [Some eTimeout] -> dsteps t s s' -> d_main s' = MRet r -> d_main s <> MRet DConn -> r <> DConn.
Proof.
  intros t s s' r R ES H HM HN ->. pose proof (dsteps_reach t s s' R H) as R'. destruct (dsteps_sent t s s' H) as (l & EL). rewrite ES in EL. cbn in EL.
  destruct (dinv_reach t s' R') as [VS VG VZ VM]. rewrite HM in VM. destruct VM as [(_ & _ & _ & _ & e & F)|(A & B & [(C & _)|(C1 & C2 & e & E1 & E2)])]; [discriminate| |].
  - destruct (dinv_reach t s R) as [VS0 _ VZ0 _]. destruct (VZ0 C) as [Z1 Z2]. unfold sent_of in VS0. rewrite Z1, Z2 in VS0. congruence.
  - rewrite E1 in EL. injection EL as -> _. discriminate.
Qed.
(** nobody is left waiting: the timer and the handshake's goroutine can always put their result into the channel, and the caller, waiting with a time limit, can
    go on as soon as one of them has *)
Theorem C136_no_goroutine_blocks : forall t s, dreach t s ->
  ((d_timer s = TSend \/ exists e, d_gor s = GSend e) -> (length (d_ch s) < chan_cap)%nat) /\
  (d_main s = MWait -> d_timer s = TDone \/ d_gor s = GDone -> d_ch s <> []).
Proof.
  intros t s R. destruct (dinv_reach t s R) as [VS VG VZ VM]. unfold chan_cap.
  assert (LE : exists l, d_sent s = l ++ d_ch s).
  { destruct (d_main s) as [| | | |r]; [destruct VM as (_ & _ & _ & _ & -> & _); now exists []|destruct VM as (_ & _ & _ & -> & _); now exists []| |destruct VM as (_ & _ & _ & -> & _); now exists []|].
    - destruct VM as (T0 & _). destruct (VZ T0) as [Z1 Z2]. unfold sent_of in VS. rewrite Z1, Z2 in VS. rewrite VS. clear -R T0. 
      assert (G : forall t s, dreach t s -> t = 0 -> d_ch s = []).
      { clear. intros t s R T0. pose proof (fun s R => v_zero t s (dinv_reach t s R)) as Z. induction R as [|s s' R IH H]; [reflexivity|]. destruct (Z s R T0) as [Z1 Z2]. destruct H; cbn; try congruence. destruct (t =? 0); exact IH. }
      exists []. symmetry. now apply (G t s R).
    - destruct VM as [(_ & _ & _ & -> & _)|(_ & _ & [(T0 & _)|(_ & _ & e & -> & _)])]; [now exists []| |now exists [e]].
      destruct (VZ T0) as [Z1 Z2]. unfold sent_of in VS. rewrite Z1, Z2 in VS. rewrite VS. clear -R T0.
      assert (G : forall t s, dreach t s -> t = 0 -> d_ch s = []).
      { clear. intros t s R T0. pose proof (fun s R => v_zero t s (dinv_reach t s R)) as Z. induction R as [|s s' R IH H]; [reflexivity|]. destruct (Z s R T0) as [Z1 Z2]. destruct H; cbn; try congruence. destruct (t =? 0); exact IH. }
      exists []. symmetry. now apply (G t s R). }
  destruct LE as (l & LE). assert (LL : (length (d_ch s) <= length (d_sent s))%nat) by (rewrite LE, app_length; lia). split.
  - intros H. enough (length (d_sent s) < 2)%nat by lia. unfold sent_of in VS. destruct H as [H|(e & H)]; rewrite H in VS.
    + destruct (d_gor s); try (rewrite VS; cbn; lia). destruct VS as (e & _ & ->). cbn. lia.
    + destruct (d_timer s); rewrite VS; cbn; lia.
  - intros HM H. rewrite HM in VM. destruct VM as (_ & _ & _ & -> & _). unfold sent_of in VS. destruct H as [H|H]; rewrite H in VS.
    + destruct (d_gor s); try (rewrite VS; discriminate). destruct VS as (e & _ & [-> | ->]); discriminate.
    + destruct (d_timer s); try (destruct VS as (e & _ & ->); discriminate). destruct VS as (e & _ & [-> | ->]); discriminate.
Qed.
(** the limit covers Timeout and Deadline: the smaller of the two, when both are given *)
Theorem C136_limit : forall timeout until, dial_timeout timeout None = timeout /\
  (timeout = 0 -> dial_timeout timeout (Some until) = until) /\ (timeout <> 0 -> dial_timeout timeout (Some until) = Z.min timeout until).
Proof.
  intros timeout until. split; [reflexivity|]. unfold dial_timeout. split; [intros ->; reflexivity|]. intros H. destruct (Z.eqb_spec timeout 0); [contradiction|]. cbn [orb]. destruct (Z.ltb_spec until timeout); lia.
Qed.
(** FALSE of the code at one instant: a deadline of exactly now counts as no limit at all *)
Theorem C136_deadline_now_refuted : dial_timeout 0 (Some 0) = 0 /\
  forall s, dreach (dial_timeout 0 (Some 0)) s -> d_timer s = TNone.
Proof. split; [reflexivity|]. intros s R. apply (v_zero _ _ (dinv_reach _ _ R)). reflexivity. Qed.
(** the name checked against the server's certificate: the one configured, else the address up to its last colon *)
Lemma last_colon_spec s : forall i f, last_colon i s f = match last_colon 0 s None with Some j => Some (i + j)%nat | None => f end.
Proof.
  induction s as [|c s IH]; intros i f; cbn [last_colon]; [reflexivity|]. rewrite (IH (i + 1)%nat), (IH (0 + 1)%nat (if c =? 58 then Some 0%nat else None)). destruct (last_colon 0 s None) as [j|]; [f_equal; lia|]. destruct (c =? 58); [f_equal; lia|reflexivity].
Qed.
Lemma last_colon_none s : ~ In 58 s -> last_colon 0 s None = None.
Proof. induction s as [|c s IH]; intros H; cbn [last_colon]; [reflexivity|]. rewrite last_colon_spec, IH by (intros X; apply H; now right). destruct (Z.eqb_spec c 58); [subst; exfalso; apply H; now left|reflexivity]. Qed.
Lemma last_colon_some h p : ~ In 58 p -> last_colon 0 (h ++ 58 :: p) None = Some (length h).
Proof.
  intros H. induction h as [|c h IH]; cbn [app last_colon length].
  - change (58 =? 58) with true. cbv iota. rewrite last_colon_spec, last_colon_none by exact H. reflexivity.
  - rewrite last_colon_spec, IH. reflexivity.
Qed.
Theorem C136_server_name : forall serverName addr,
  (serverName <> [] -> dial_server_name serverName addr = serverName) /\
  (~ In 58 addr -> dial_server_name [] addr = addr) /\
  (forall h p, addr = h ++ 58 :: p -> ~ In 58 p -> dial_server_name [] addr = h).
Proof.
  intros n addr. unfold dial_server_name. split; [destruct n; [congruence|reflexivity]|]. split.
  - intros H. rewrite (last_colon_none addr H). apply firstn_all.
  - intros h p -> H. rewrite (last_colon_some h p H). rewrite firstn_app, Nat.sub_diag, firstn_all. cbn [firstn]. apply app_nil_r.
Qed.
(** Listen *)
Theorem C136_listen : forall c n g, listen_refused c n g = false <-> c = true /\ (n <> 0%nat \/ g = true).
Proof. intros [] n []; unfold listen_refused; cbn; destruct (Nat.eqb_spec n 0); cbn; split; intros; try discriminate; intuition congruence. Qed.
(** a run in which the timer fires while the handshake is under way and the handshake succeeds afterwards, and one in which it does not get to fire first *)
Theorem C136_hyps :
  (exists s, dreach 5 s /\ d_main s = MRet (DErr eTimeout) /\ d_hs s = Some None /\ d_gor s = GDone /\ d_closed s = true) /\
  (exists s, dreach 5 s /\ d_main s = MRet DConn /\ d_timer s = TDone /\ d_closed s = false) /\ (exists s, dreach 0 s /\ d_main s = MRet DConn) /\
  dial_server_name [] [97;46;98;58;52;52;51] = [97;46;98].
Proof.
  split; [|split; [|split]].
  - pose proof (dreach0 5) as R. eapply dreachS in R; [|apply SStart; reflexivity]. cbn in R. eapply dreachS in R; [|apply SDial; reflexivity]. cbn in R. eapply dreachS in R; [|apply SFire; reflexivity]. cbn in R.
    eapply dreachS in R; [|apply STimer; [reflexivity|cbn; unfold chan_cap; lia]]. cbn in R. eapply dreachS in R; [|eapply (SDone _ _ None); reflexivity]. cbn in R. eapply dreachS in R; [|eapply SGor; [reflexivity|cbn; unfold chan_cap; lia]]. cbn in R.
    eapply dreachS in R; [|eapply SRecv; reflexivity]. cbn in R. eexists. split; [exact R|]. repeat split; reflexivity.
  - pose proof (dreach0 5) as R. eapply dreachS in R; [|apply SStart; reflexivity]. cbn in R. eapply dreachS in R; [|apply SDial; reflexivity]. cbn in R. eapply dreachS in R; [|eapply (SDone _ _ None); reflexivity]. cbn in R.
    eapply dreachS in R; [|eapply SGor; [reflexivity|cbn; unfold chan_cap; lia]]. cbn in R. eapply dreachS in R; [|eapply SRecv; reflexivity]. cbn in R. eapply dreachS in R; [|apply SFire; reflexivity]. cbn in R.
    eapply dreachS in R; [|apply STimer; [reflexivity|cbn; unfold chan_cap; lia]]. cbn in R. eexists. split; [exact R|]. repeat split; reflexivity.
  - pose proof (dreach0 0) as R. eapply dreachS in R; [|apply SStart; reflexivity]. cbn in R. eapply dreachS in R; [|apply SDial; reflexivity]. cbn in R. eapply dreachS in R; [|eapply (SShake _ _ None); reflexivity]. cbn in R.
    eexists. split; [exact R|]. reflexivity.
  - reflexivity.
Qed.

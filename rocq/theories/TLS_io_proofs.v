(** Proofs about reading and writing records: fragmentation, warning alerts, sticky errors, Write, end-to-end delivery. *)
From Verif Require Import GoBase GoLemmas CBC TLS_record_model TLS_rec_proofs.
Open Scope Z_scope.
Ltac Zify.zify_post_hook ::= Z.div_mod_to_equations.

(** ** Reading from the transport *)
Definition temps (t : transport) : nat := length (filter (fun o => match o with None => true | Some _ => false end) (t_sched t)).
Definition is_temp (e : option nerr) : bool := match e with Some NTemp => true | _ => false end.
Lemma t_read_spec t m err t' : t_read t = (m, err, t') ->
  m ++ t_rest t' = t_rest t /\
  match err with
  | None => m <> [] /\ temps t' = temps t /\ (length (t_sched t') + length (t_rest t') < length (t_sched t) + length (t_rest t))%nat
  | Some NEof => m = [] /\ t_rest t' = [] /\ temps t' = temps t
  | Some NTemp => m = [] /\ S (temps t') = temps t
  end.
Proof.
  unfold t_read, temps. destruct t as [rest sched]; cbn [t_rest t_sched]. destruct sched as [|[k|] s].
  - destruct rest as [|x r]; intros [= <- <- <-]; cbn [t_rest t_sched app]; [auto|]. rewrite app_nil_r. split; [reflexivity|]. split; [discriminate|]. split; [reflexivity|]. cbn [length]. lia.
  - destruct rest as [|x r]; intros [= <- <- <-]; cbn [t_rest t_sched app filter]; [auto|].
    split; [f_equal; apply firstn_skipn|]. split; [discriminate|]. split; [reflexivity|]. cbn [length]. rewrite skipn_length. lia.
  - intros [= <- <- <-]. cbn [t_rest t_sched app filter length]. auto.
Qed.
Lemma read_loop_spec : forall fuel t data n b err t', (length (t_sched t) + length (t_rest t) < fuel)%nat -> (length data < n)%nat ->
  read_loop fuel t data n = (b, err, t') ->
  b ++ t_rest t' = data ++ t_rest t /\ (exists x, b = data ++ x) /\
  match err with
  | None => (n <= length b)%nat /\ temps t' = temps t
  | Some NEof => (length b < n)%nat /\ t_rest t' = [] /\ temps t' = temps t
  | Some NTemp => (length b < n)%nat /\ (temps t' < temps t)%nat
  end.
Proof.
  induction fuel as [|f IH]; intros t data n b err t' Hf Hd H; [lia|]. cbn [read_loop] in H.
  destruct (t_read t) as [[m e] t1] eqn:ET. apply t_read_spec in ET as [E1 E2].
  destruct (Nat.leb_spec n (length (data ++ m))) as [Hle|Hgt].
  - injection H as <- <- <-. split; [rewrite <- app_assoc, E1; reflexivity|]. split; [now exists m|]. split; [exact Hle|].
    destruct e as [[|]|]; [|tauto|tauto]. destruct E2 as [-> _]. rewrite app_nil_r in Hle. lia.
  - destruct e as [[|]|].
    + injection H as <- <- <-. split; [rewrite <- app_assoc, E1; reflexivity|]. split; [now exists m|]. split; [exact Hgt|lia].
    + injection H as <- <- <-. split; [rewrite <- app_assoc, E1; reflexivity|]. split; [now exists m|]. tauto.
    + destruct E2 as (Hm & HT & Hlt). specialize (IH t1 (data ++ m) n b err t' ltac:(lia) Hgt H).
      destruct IH as (I1 & (x & Ix) & I3). split; [rewrite I1, <- app_assoc, E1; reflexivity|]. split; [exists (m ++ x); rewrite Ix, <- app_assoc; reflexivity|].
      rewrite HT in I3. exact I3.
Qed.
Lemma readFromUntil_spec t data n b err t' : readFromUntil t data n = (b, err, t') ->
  b ++ t_rest t' = data ++ t_rest t /\ (exists x, b = data ++ x) /\
  match err with
  | None => (n <= length b)%nat /\ temps t' = temps t
  | Some NEof => (length b < n)%nat /\ t_rest t' = [] /\ temps t' = temps t
  | Some NTemp => (length b < n)%nat /\ (temps t' < temps t)%nat
  end.
Proof.
  unfold readFromUntil. destruct (Nat.leb_spec n (length data)) as [H|H].
  - intros [= <- <- <-]. split; [reflexivity|]. split; [exists []; now rewrite app_nil_r|]. auto.
  - apply read_loop_spec; lia.
Qed.

(** ** What a record read does, as a function of the byte stream alone *)
Definition view (c : conn) : conn := with_raw c [].
Definition stream (c : conn) (t : transport) : list Z := c_raw c ++ t_rest t.
Definition out_view (o : outcome) : outcome := match o with Again c => Again (view c) | Ret c e => Ret (view c) e end.
Definition out_raw (o : outcome) : list Z := match o with Again c => c_raw c | Ret c _ => c_raw c end.
Definition out_conn (o : outcome) : conn := match o with Again c => c | Ret c _ => c end.
Definition pure_one (c : conn) (s : list Z) (want : Z) : res (outcome * list Z) :=
  if (length s <? 5)%nat then Ok (ret_err c EEof, s)
  else match bad_header c want (firstn 5 s) with
       | Some o => Ok (o, s)
       | None =>
           let n := Z.to_nat (256 * nth 3 s 0 + nth 4 s 0) in
           if (length s <? 5 + n)%nat then Ok (ret_err c EUnexpectedEof, s)
           else do o <- process c want (firstn (5 + n) s); Ok (o, skipn (5 + n) s)
       end.
Lemma nth_firstn_lt {A} (l : list A) n i d : (i < n)%nat -> nth i (firstn n l) d = nth i l d.
Proof. revert n i. induction l as [|x l IH]; intros [|n] [|i] H; cbn [firstn nth]; try lia; auto. apply IH. lia. Qed.
Lemma bad_header_view c b want r : (5 <= length b)%nat ->
  match bad_header (with_raw c b) want b with Some o => bad_header (view c) want (firstn 5 (b ++ r)) = Some (out_view o) /\ out_raw o = b | None => bad_header (view c) want (firstn 5 (b ++ r)) = None end.
Proof.
  intros Hb. unfold bad_header. rewrite !nth_firstn_lt by lia. rewrite !app_nth1 by lia.
  change (c_haveVers (with_raw c b)) with (c_haveVers c). change (c_vers (with_raw c b)) with (c_vers c).
  change (c_haveVers (view c)) with (c_haveVers c). change (c_vers (view c)) with (c_vers c).
  destruct (_ && _); [split; reflexivity|]. destruct (_ && _); [split; reflexivity|]. destruct (maxCiphertext <? _); [split; reflexivity|].
  destruct (_ && _); [split; reflexivity|reflexivity].
Qed.
Lemma handle_view c b want typ data : handle (view c) want typ data = match handle (with_raw c b) want typ data with Ok o => Ok (out_view o) | Err e => Err e | Panic => Panic end.
Proof.
  unfold handle. destruct c as [a1 a2 a3 a4 a5 a6 a7 a8 a9 a10 a11]. unfold view, with_raw. cbn [c_haveVers c_vers c_complete c_reneg c_in c_err c_raw c_hand c_input c_warn c_alerts].
  unfold with_warn, fail_alert, failed, sent, ret, ret_err, with_input, with_hand, with_in, out_view, view, with_raw.
  cbn [c_haveVers c_vers c_complete c_reneg c_in c_err c_raw c_hand c_input c_warn c_alerts].
  destruct (maxPlaintext <? _); [reflexivity|]. destruct (negb (typ =? recordTypeAlert) && _); cbn [c_haveVers c_vers c_complete c_reneg c_in c_err c_raw c_hand c_input c_warn c_alerts];
  (destruct (typ =? recordTypeAlert); [destruct (negb _); [reflexivity|]; destruct (_ =? alertCloseNotify); [reflexivity|]; destruct (nth 0 data 0 =? 1); [destruct (maxWarnAlertCount <? _); reflexivity|]; destruct (_ =? 2); reflexivity|]);
  (destruct (typ =? recordTypeChangeCipherSpec); [destruct (_ || _); [reflexivity|]; destruct (0 <? _)%nat; [reflexivity|]; destruct (changeCipherSpec _); reflexivity|]);
  (destruct (typ =? recordTypeApplicationData); [destruct (negb _); reflexivity|]);
  (destruct (typ =? recordTypeHandshake); [destruct (_ && _); reflexivity|reflexivity]).
Qed.
Lemma handle_raw c want typ data o : handle c want typ data = Ok o -> out_raw o = c_raw c.
Proof.
  unfold handle. destruct c as [a1 a2 a3 a4 a5 a6 a7 a8 a9 a10 a11]. cbn [c_haveVers c_vers c_complete c_reneg c_in c_err c_raw c_hand c_input c_warn c_alerts].
  unfold with_warn, fail_alert, failed, sent, ret, ret_err, with_input, with_hand, with_in, out_raw.
  cbn [c_haveVers c_vers c_complete c_reneg c_in c_err c_raw c_hand c_input c_warn c_alerts].
  destruct (maxPlaintext <? _); [now intros [= <-]|]. destruct (negb (typ =? recordTypeAlert) && _); cbn [c_haveVers c_vers c_complete c_reneg c_in c_err c_raw c_hand c_input c_warn c_alerts];
  (destruct (typ =? recordTypeAlert); [destruct (negb _); [now intros [= <-]|]; destruct (_ =? alertCloseNotify); [now intros [= <-]|]; destruct (nth 0 data 0 =? 1); [destruct (maxWarnAlertCount <? _); now intros [= <-]|]; destruct (_ =? 2); now intros [= <-]|]);
  (destruct (typ =? recordTypeChangeCipherSpec); [destruct (_ || _); [now intros [= <-]|]; destruct (0 <? _)%nat; [now intros [= <-]|]; destruct (changeCipherSpec _); [now intros [= <-]|now intros [= <-]|discriminate]|]);
  (destruct (typ =? recordTypeApplicationData); [destruct (negb _); now intros [= <-]|]);
  (destruct (typ =? recordTypeHandshake); [destruct (_ && _); now intros [= <-]|now intros [= <-]]).
Qed.
Lemma process_view c b want rec : process (view c) want rec = match process (with_raw c b) want rec with Ok o => Ok (out_view o) | Err e => Err e | Panic => Panic end.
Proof.
  unfold process. change (c_in (view c)) with (c_in c). change (c_in (with_raw c b)) with (c_in c). destruct (decrypt (c_in c) rec) as [[off d h|h]| |]; cbn [rbind]; try reflexivity.
  change (with_in (view c) h) with (view (with_in c h)). rewrite (handle_view (with_in c h) b). reflexivity.
Qed.
Lemma process_raw c want rec o : process c want rec = Ok o -> out_raw o = c_raw c.
Proof.
  unfold process. destruct (decrypt (c_in c) rec) as [[off d h|h]| |]; cbn [rbind]; try discriminate.
  - intros H. apply handle_raw in H. exact H.
  - now intros [= <-].
Qed.
(** one record from the transport: either a temporary error (nothing lost), or what the byte stream determines *)
Lemma one_record_pure c t want :
  (exists b t', one_record c t want = Ok (Ret (with_raw c b) (Some ETemp), t') /\ b ++ t_rest t' = stream c t /\ (temps t' < temps t)%nat) \/
  (exists o t', one_record c t want = Ok (o, t') /\ pure_one (view c) (stream c t) want = Ok (out_view o, out_raw o ++ t_rest t') /\ temps t' = temps t) \/
  (exists e, one_record c t want = Err e /\ pure_one (view c) (stream c t) want = Err e) \/
  (one_record c t want = Panic /\ pure_one (view c) (stream c t) want = Panic).
Proof.
  unfold one_record. destruct (readFromUntil t (c_raw c) 5) as [[b err] t1] eqn:E1. apply readFromUntil_spec in E1 as (R1 & (x1 & X1) & R2).
  destruct err as [[|]|].
  - left. exists b, t1. split; [reflexivity|]. split; [exact R1|tauto].
  - right; left. eexists; exists t1. split; [reflexivity|]. destruct R2 as (L & E0 & ET). split; [|exact ET].
    unfold pure_one, stream. rewrite <- R1, E0, app_nil_r. replace (length b <? 5)%nat with true by (symmetry; apply Nat.ltb_lt; exact L). cbn. rewrite app_nil_r. reflexivity.
  - destruct R2 as [L ET]. pose proof (bad_header_view c b want (t_rest t1) L) as HB.
    assert (Lt : (length (stream c t) <? 5)%nat = false) by (apply Nat.ltb_ge; unfold stream; rewrite <- R1, app_length; lia).
    unfold pure_one. rewrite Lt. unfold stream in *. rewrite <- R1 in *.
    destruct (bad_header (with_raw c b) want b) as [o|].
    + destruct HB as [HB1 HB2]. right; left. exists o, t1. split; [reflexivity|]. rewrite HB1, HB2. auto.
    + rewrite HB. rewrite !app_nth1 by lia. set (n := Z.to_nat _).
      destruct (readFromUntil t1 b (5 + n)) as [[b2 err2] t2] eqn:E2. apply readFromUntil_spec in E2 as (Q1 & (x2 & X2) & Q2). rewrite <- Q1.
      destruct err2 as [[|]|].
      * left. exists b2, t2. split; [reflexivity|]. split; [reflexivity|lia].
      * right; left. eexists; exists t2. split; [reflexivity|]. destruct Q2 as (L2 & E0 & ET2). split; [|lia]. rewrite E0, app_nil_r.
        replace (length b2 <? 5 + n)%nat with true by (symmetry; apply Nat.ltb_lt; exact L2). cbn. rewrite app_nil_r. reflexivity.
      * destruct Q2 as [L2 ET2]. replace (length (b2 ++ t_rest t2) <? 5 + n)%nat with false by (symmetry; apply Nat.ltb_ge; rewrite app_length; lia).
        replace (firstn (5 + n) (b2 ++ t_rest t2)) with (firstn (5 + n) b2) by (rewrite firstn_app; replace (5 + n - length b2)%nat with 0%nat by lia; cbn [firstn]; now rewrite app_nil_r).
        replace (skipn (5 + n) (b2 ++ t_rest t2)) with (skipn (5 + n) b2 ++ t_rest t2) by (rewrite skipn_app; replace (5 + n - length b2)%nat with 0%nat by lia; reflexivity).
        change (with_raw (with_raw c b) (skipn (5 + n) b2)) with (with_raw c (skipn (5 + n) b2)).
        rewrite (process_view c (skipn (5 + n) b2)). destruct (process (with_raw c (skipn (5 + n) b2)) want (firstn (5 + n) b2)) as [o|e|] eqn:EP; cbn [rbind].
        -- right; left. exists o, t2. split; [reflexivity|]. apply process_raw in EP. rewrite EP. split; [reflexivity|lia].
        -- right; right; left. exists e. auto.
        -- right; right; right. auto.
Qed.

(** ** The read loop *)
Lemma handle_again c want typ data c' : handle c want typ data = Ok (Again c') ->
  c' = with_warn c (c_warn c + 1) /\ c_warn c + 1 <= 5 /\ typ = recordTypeAlert /\ length data = 2%nat /\ nth 0 data 0 = 1 /\ nth 1 data 0 <> alertCloseNotify.
Proof.
  unfold handle, ret, ret_err. destruct (maxPlaintext <? _); [discriminate|].
  destruct (Z.eqb_spec typ recordTypeAlert) as [E|E]; cbn [negb andb].
  - destruct (Nat.eqb_spec (length data) 2); cbn [negb]; [|discriminate]. destruct (Z.eqb_spec (nth 1 data 0) alertCloseNotify); [discriminate|].
    destruct (Z.eqb_spec (nth 0 data 0) 1); [|destruct (_ =? 2); discriminate].
    destruct (Z.ltb_spec maxWarnAlertCount (c_warn (with_warn c (c_warn c + 1)))) as [H|H]; [discriminate|]. intros [= <-].
    unfold maxWarnAlertCount in H. cbn [c_warn with_warn] in H. repeat split; auto.
  - destruct (typ =? recordTypeChangeCipherSpec). { destruct (_ || _); [discriminate|]. destruct (0 <? _)%nat; [discriminate|]. destruct (changeCipherSpec _); discriminate. }
    destruct (typ =? recordTypeApplicationData); [destruct (negb _); discriminate|]. destruct (typ =? recordTypeHandshake); [destruct (_ && _); discriminate|discriminate].
Qed.
Lemma bad_header_ret c want hd o : bad_header c want hd = Some o -> exists a e, o = Ret (failed (sent c a) e) (Some e) /\ e <> ETemp /\ e <> ENoProgress.
Proof.
  unfold bad_header, ret_err. destruct (_ && _); [intros [= <-]; eexists _, _; split; [reflexivity|]; split; discriminate|].
  destruct (_ && _); [intros [= <-]; eexists _, _; split; [reflexivity|]; split; discriminate|].
  destruct (maxCiphertext <? _); [intros [= <-]; eexists _, _; split; [reflexivity|]; split; discriminate|].
  destruct (_ && _); [intros [= <-]; eexists _, _; split; [reflexivity|]; split; discriminate|discriminate].
Qed.
Lemma process_again c want rec c' : process c want rec = Ok (Again c') -> c_warn c' = c_warn c + 1 /\ c_warn c + 1 <= 5 /\ c_err c' = c_err c.
Proof.
  unfold process. destruct (decrypt (c_in c) rec) as [[off d h|h]| |]; cbn [rbind]; try discriminate.
  intros H. apply handle_again in H as (-> & H1 & _). cbn. auto.
Qed.
Lemma pure_again c s want c' s' : pure_one c s want = Ok (Again c', s') -> c_warn c' = c_warn c + 1 /\ c_warn c + 1 <= 5 /\ c_err c' = c_err c.
Proof.
  unfold pure_one, ret_err. destruct (_ <? _)%nat; [discriminate|]. destruct (bad_header _ _ _) as [o|] eqn:EB; [apply bad_header_ret in EB as (a & e & -> & _); discriminate|].
  destruct (_ <? _)%nat; [discriminate|]. destruct (process _ _ _) as [o| |] eqn:EP; cbn [rbind]; try discriminate. intros [= -> _]. now apply process_again in EP.
Qed.
Fixpoint pure_loop (fuel : nat) (c : conn) (s : list Z) (want : Z) : res (conn * option terr * list Z) :=
  match fuel with
  | O => Panic
  | S f => do r <- pure_one c s want;
           let '(o, s) := r in
           match o with Ret c e => Ok (c, e, s) | Again c => pure_loop f c s want end
  end.
Lemma pure_loop_fuel : forall f1 f2 c s want, 6 <= c_warn c + Z.of_nat f1 -> 6 <= c_warn c + Z.of_nat f2 -> (1 <= f1)%nat -> (1 <= f2)%nat ->
  pure_loop f1 c s want = pure_loop f2 c s want.
Proof.
  induction f1 as [|f1 IH]; intros f2 c s want H1 H2 P1 P2; [lia|]. destruct f2 as [|f2]; [lia|]. cbn [pure_loop].
  destruct (pure_one c s want) as [[o s1]| |] eqn:E; cbn [rbind]; try reflexivity. destruct o as [c'|]; [|reflexivity].
  apply pure_again in E as (W & W5 & _). apply IH; lia.
Qed.
(** the result of a call of readRecord, without the division into buffered and unread bytes *)
Definition res_view (r : res (conn * option terr * transport)) : res (conn * option terr * list Z) :=
  match r with Ok (c, e, t) => Ok (view c, e, stream c t) | Err e => Err e | Panic => Panic end.
Lemma out_warn o : c_warn (out_conn (out_view o)) = c_warn (out_conn o). Proof. destruct o; reflexivity. Qed.
Lemma record_loop_pure : forall fuel c t want, 0 <= c_warn c -> 6 <= c_warn c + Z.of_nat fuel -> (1 <= fuel)%nat ->
  (exists c' t', record_loop fuel c t want = Ok (c', Some ETemp, t') /\ (temps t' < temps t)%nat /\ 0 <= c_warn c' /\
       (forall f, 6 <= c_warn c' + Z.of_nat f -> (1 <= f)%nat -> pure_loop f (view c') (stream c' t') want = pure_loop fuel (view c) (stream c t) want)) \/
  (res_view (record_loop fuel c t want) = pure_loop fuel (view c) (stream c t) want /\
     forall c' e t', record_loop fuel c t want = Ok (c', e, t') -> temps t' = temps t).
Proof.
  induction fuel as [|f IH]; intros c t want W0 W Hf; [lia|]. cbn [record_loop pure_loop].
  destruct (one_record_pure c t want) as [(b & t' & E & Es & HT)|[(o & t' & E & Ep & HT)|[(e & E & Ep)|[E Ep]]]]; rewrite E; cbn [rbind].
  - left. eexists _, _. split; [reflexivity|]. split; [exact HT|]. split; [exact W0|]. intros f2 Hf2 P2. change (view (with_raw c b)) with (view c).
    assert (Es2 : stream (with_raw c b) t' = stream c t) by exact Es. rewrite Es2. change (pure_loop f2 (view c) (stream c t) want = pure_loop (S f) (view c) (stream c t) want).
    apply pure_loop_fuel; auto.
  - rewrite Ep. cbn [rbind]. destruct o as [c'|c' e']; cbn [out_view out_raw] in *.
    + apply pure_again in Ep as (W1 & W5 & _). change (c_warn (view c')) with (c_warn c') in W1. change (c_warn (view c)) with (c_warn c) in *.
      destruct (IH c' t' want ltac:(lia) ltac:(lia) ltac:(lia)) as [(c2 & t2 & E2 & T2 & W2 & P2)|(E2 & T2)].
      * left. exists c2, t2. split; [exact E2|]. split; [lia|]. split; [exact W2|]. exact P2.
      * right. split; [exact E2|]. intros c3 e3 t3 E3. rewrite (T2 _ _ _ E3). exact HT.
    + right. split; [reflexivity|]. intros c3 e3 t3 [= <- <- <-]. exact HT.
  - rewrite Ep. cbn [rbind]. right. split; [reflexivity|discriminate].
  - rewrite Ep. cbn [rbind]. right. split; [reflexivity|discriminate].
Qed.
(** readRecord as a function of the byte stream *)
Definition pure_readRecord (c : conn) (s : list Z) (want : Z) : res (conn * option terr * list Z) :=
  let bad_want := if (want =? recordTypeHandshake) || (want =? recordTypeChangeCipherSpec) then c_complete c
                  else if want =? recordTypeApplicationData then negb (c_complete c) else true in
  if bad_want then Ok (failed (sent c alertInternalError) EWant, Some EWant, s) else pure_loop 8 c s want.
Lemma process_complete c want rec o : process c want rec = Ok o -> c_complete (out_conn o) = c_complete c.
Proof.
  unfold process. destruct (decrypt (c_in c) rec) as [[off d h|h]| |]; cbn [rbind]; try discriminate; [|now intros [= <-]].
  unfold handle, ret, ret_err. destruct (maxPlaintext <? _); [now intros [= <-]|].
  destruct (negb (nth 0 rec 0 =? recordTypeAlert) && _);
  (destruct (_ =? recordTypeAlert); [destruct (negb _); [now intros [= <-]|]; destruct (_ =? alertCloseNotify); [now intros [= <-]|]; destruct (_ =? 1); [destruct (maxWarnAlertCount <? _); now intros [= <-]|]; destruct (_ =? 2); now intros [= <-]|]);
  (destruct (_ =? recordTypeChangeCipherSpec); [destruct (_ || _); [now intros [= <-]|]; destruct (0 <? _)%nat; [now intros [= <-]|]; destruct (changeCipherSpec _); [now intros [= <-]|now intros [= <-]|discriminate]|]);
  (destruct (_ =? recordTypeApplicationData); [destruct (negb _); now intros [= <-]|]);
  (destruct (_ =? recordTypeHandshake); [destruct (_ && _); now intros [= <-]|now intros [= <-]]).
Qed.
Lemma one_record_complete c t want o t' : one_record c t want = Ok (o, t') -> c_complete (out_conn o) = c_complete c.
Proof.
  unfold one_record. destruct (readFromUntil t (c_raw c) 5) as [[b err] t1]. destruct err as [[|]|]; cbn [net_fail]; [now intros [= <- _]|now intros [= <- _]|].
  destruct (bad_header _ _ _) as [o'|] eqn:EB. { apply bad_header_ret in EB as (a & e & -> & _). now intros [= <- _]. }
  destruct (readFromUntil t1 b _) as [[b2 err2] t2]. destruct err2 as [[|]|]; cbn [net_fail]; [now intros [= <- _]|now intros [= <- _]|].
  destruct (process _ _ _) as [o'| |] eqn:EP; cbn [rbind]; try discriminate. intros [= <- _]. now apply process_complete in EP.
Qed.
Lemma record_loop_complete : forall fuel c t want c' e t', record_loop fuel c t want = Ok (c', e, t') -> c_complete c' = c_complete c.
Proof.
  induction fuel as [|f IH]; intros c t want c' e t' H; [discriminate|]. cbn [record_loop] in H. destruct (one_record c t want) as [[o t1]| |] eqn:E; cbn [rbind] in H; try discriminate.
  apply one_record_complete in E. destruct o as [c1|c1 e1]; cbn [out_conn] in E; [apply IH in H; congruence|]. injection H as <- <- <-. exact E.
Qed.
Lemma readRecord_pure c t want : 0 <= c_warn c ->
  (exists c' t', readRecord c t want = Ok (c', Some ETemp, t') /\ (temps t' < temps t)%nat /\ 0 <= c_warn c' /\
      pure_readRecord (view c') (stream c' t') want = pure_readRecord (view c) (stream c t) want) \/
  (res_view (readRecord c t want) = pure_readRecord (view c) (stream c t) want /\ forall c' e t', readRecord c t want = Ok (c', e, t') -> temps t' = temps t).
Proof.
  intros W. unfold readRecord, pure_readRecord. change (c_complete (view c)) with (c_complete c).
  set (bw := if _ || _ then _ else _). destruct bw eqn:EB; [right; split; [reflexivity|now intros c' e t' [= <- <- <-]]|].
  destruct (record_loop_pure 8 c t want W ltac:(lia) ltac:(lia)) as [(c' & t' & E & HT & W' & P)|(E & HT)]; [|right; auto].
  left. exists c', t'. split; [exact E|]. split; [exact HT|]. split; [exact W'|].
  apply record_loop_complete in E. change (c_complete (view c')) with (c_complete c'). rewrite E. fold bw. rewrite EB. apply P; lia.
Qed.

(** ** Errors stick *)
Lemma handle_ret_err c want typ data o : handle c want typ data = Ok o -> match o with Ret c' e => e = c_err c' /\ (e = c_err c \/ exists x, e = Some x /\ x <> ETemp /\ x <> ENoProgress) | Again _ => True end.
Proof.
  assert (F : forall c' a, match ret (fail_alert c' a) with Ret c' e => e = c_err c' /\ (e = c_err c \/ exists x, e = Some x /\ x <> ETemp /\ x <> ENoProgress) | Again _ => True end).
  { intros c' a. cbn. split; [reflexivity|]. right. eexists. split; [reflexivity|]. split; discriminate. }
  unfold handle. destruct (maxPlaintext <? _); [intros [= <-]; apply F|].
  assert (W : c_err (if negb (typ =? recordTypeAlert) && (0 <? length data)%nat then with_warn c 0 else c) = c_err c) by (destruct (_ && _); reflexivity).
  set (c1 := if negb (typ =? recordTypeAlert) && _ then _ else _) in *. clearbody c1.
  destruct (typ =? recordTypeAlert).
  { destruct (negb _); [intros [= <-]; apply F|]. destruct (_ =? alertCloseNotify).
    { intros [= <-]. cbn. split; [reflexivity|]. right. eexists. split; [reflexivity|]. split; discriminate. }
    destruct (_ =? 1). { destruct (maxWarnAlertCount <? _); intros [= <-]; [|exact I]. cbn. split; [reflexivity|]. right. eexists. split; [reflexivity|]. split; discriminate. }
    destruct (_ =? 2); [|intros [= <-]; apply F]. intros [= <-]. cbn. split; [reflexivity|]. right. eexists. split; [reflexivity|]. split; discriminate. }
  destruct (typ =? recordTypeChangeCipherSpec).
  { destruct (_ || _); [intros [= <-]; apply F|]. destruct (0 <? _)%nat; [intros [= <-]; apply F|]. destruct (changeCipherSpec _); [|intros [= <-]; apply F|discriminate].
    intros [= <-]. cbn. auto. }
  destruct (typ =? recordTypeApplicationData). { destruct (negb _); [intros [= <-]; apply F|]. intros [= <-]. cbn. auto. }
  destruct (typ =? recordTypeHandshake). { destruct (_ && _); [intros [= <-]; apply F|]. intros [= <-]. cbn. auto. }
  intros [= <-]; apply F.
Qed.
Lemma one_record_err c t want o t' : one_record c t want = Ok (o, t') ->
  match o with Ret c' e => e = Some ETemp /\ c_err c' = c_err c \/ e = c_err c' /\ (e = c_err c \/ exists x, e = Some x /\ x <> ETemp /\ x <> ENoProgress) | Again c' => c_err c' = c_err c end.
Proof.
  unfold one_record. destruct (readFromUntil t (c_raw c) 5) as [[b err] t1].
  assert (FE : forall x, x <> ETemp -> x <> ENoProgress -> forall c', Some x = Some ETemp /\ c_err (failed c' x) = c_err c \/ Some x = c_err (failed c' x) /\ (Some x = c_err c \/ exists y, Some x = Some y /\ y <> ETemp /\ y <> ENoProgress)).
  { intros x N1 N2 c'. right. split; [reflexivity|]. right. now exists x. }
  destruct err as [[|]|]; cbn [net_fail]; [intros [= <- _]; now left|intros [= <- _]; apply FE; discriminate|].
  destruct (bad_header _ _ _) as [o'|] eqn:EB. { apply bad_header_ret in EB as (a & e & -> & N1 & N2). intros [= <- _]. now apply FE. }
  destruct (readFromUntil t1 b _) as [[b2 err2] t2]. destruct err2 as [[|]|]; cbn [net_fail]; [intros [= <- _]; now left|intros [= <- _]; apply FE; discriminate|].
  unfold process. destruct (decrypt _ _) as [[off d h|h]| |]; cbn [rbind]; try discriminate.
  - destruct (handle _ _ _ _) as [o'| |] eqn:EH; cbn [rbind]; try discriminate. intros [= <- _]. pose proof (handle_ret_err _ _ _ _ _ EH) as HR.
    destruct o' as [c1|c1 e1]; [|right; exact HR]. apply handle_again in EH as (-> & _). reflexivity.
  - intros [= <- _]. cbn [ret fail_alert]. right. split; [reflexivity|]. right. eexists. split; [reflexivity|]. split; discriminate.
Qed.
Lemma record_loop_err : forall fuel c t want c' e t', record_loop fuel c t want = Ok (c', e, t') ->
  e = Some ETemp /\ c_err c' = c_err c \/ e = c_err c' /\ (e = c_err c \/ exists x, e = Some x /\ x <> ETemp /\ x <> ENoProgress).
Proof.
  induction fuel as [|f IH]; intros c t want c' e t' H; [discriminate|]. cbn [record_loop] in H. destruct (one_record c t want) as [[o t1]| |] eqn:E; cbn [rbind] in H; try discriminate.
  apply one_record_err in E. destruct o as [c1|c1 e1]; [apply IH in H; rewrite E in H; exact H|]. injection H as <- <- <-. exact E.
Qed.
Lemma readRecord_err c t want c' e t' : readRecord c t want = Ok (c', e, t') ->
  e = Some ETemp /\ c_err c' = c_err c \/ e = c_err c' /\ (e = c_err c \/ exists x, e = Some x /\ x <> ETemp /\ x <> ENoProgress).
Proof.
  unfold readRecord. destruct (if _ || _ then _ else _); [|apply record_loop_err]. intros [= <- <- _]. right. split; [reflexivity|]. right. eexists. split; [reflexivity|]. split; discriminate.
Qed.
Lemma fill_input_err : forall fuel c t c' e t', c_err c = None -> fill_input fuel c t = Ok (Some (c', e, t')) ->
  match e with Some x => x = ETemp /\ c_err c' = None \/ c_err c' = Some x /\ x <> ETemp /\ x <> ENoProgress | None => c_err c' = None end.
Proof.
  induction fuel as [|f IH]; intros c t c' e t' H0 H; [discriminate|]. cbn [fill_input] in H. rewrite H0 in H.
  destruct (c_input c). { injection H as <- <- <-. exact H0. }
  destruct (readRecord c t _) as [[[c1 e1] t1]| |] eqn:ER; cbn [rbind] in H; try discriminate. apply readRecord_err in ER. rewrite H0 in ER.
  destruct e1 as [e1|].
  - injection H as <- <- <-. destruct ER as [[[= ->] E]|[E [?|(x & [= <-] & N)]]]; [now left|discriminate|]. right. split; [now symmetry|exact N].
  - destruct ER as [[? _]|[E _]]; [discriminate|]. destruct (0 <? _)%nat; [discriminate|]. apply IH in H; [exact H|now symmetry].
Qed.
(** an error returned by Read is temporary, or "no progress", or has become the connection's permanent error *)
Lemma read_iter_err : forall fuel c t k c' out e t', c_err c = None -> read_iter fuel c t k = Ok (Some (c', out, Some e, t')) ->
  (e = ETemp \/ e = ENoProgress) /\ c_err c' = None \/ c_err c' = Some e /\ e <> ETemp /\ e <> ENoProgress.
Proof.
  induction fuel as [|f IH]; intros c t k c' out e t' H0 H; cbn [read_iter] in H. { injection H as <- <- <- <-. auto. }
  destruct (fill_input 2 c t) as [[[[c1 e1] t1]|]| |] eqn:EF; cbn [rbind] in H; try discriminate.
  apply (fill_input_err _ _ _ _ _ _ H0) in EF. destruct e1 as [e1|].
  { injection H as <- <- <- <-. destruct EF as [[-> E]|E]; auto. }
  rewrite EF in H. destruct (c_input c1) as [d|]; [|discriminate].
  set (c2 := with_input c1 _) in H. assert (E2 : c_err c2 = None) by exact EF. clearbody c2.
  destruct (negb (length (firstn k d) =? 0)%nat && (length d <=? k)%nat && (0 <? length (c_raw c2))%nat && (nth 0 (c_raw c2) 0 =? recordTypeAlert)) eqn:EB.
  - destruct (readRecord c2 t1 _) as [[[c3 e3] t3]| |] eqn:ER; cbn [rbind] in H; try discriminate. apply readRecord_err in ER. rewrite E2 in ER.
    destruct (negb (length (firstn k d) =? 0)%nat) eqn:EN; [|discriminate EB]. cbn [orb] in H. injection H as <- <- -> <-.
    destruct ER as [[[= ->] E]|[E [?|(x & [= <-] & N)]]]; [left; auto|discriminate|]. right. split; [now symmetry|exact N].
  - cbn [rbind] in H. destruct (negb (length (firstn k d) =? 0)%nat); cbn [orb] in H; [discriminate|]. apply IH in H; auto.
Qed.
Lemma read_iter_sticky fuel c t k e : c_err c = Some e -> read_iter (S fuel) c t k = Ok (Some (c, [], Some e, t)).
Proof. intros H. cbn [read_iter fill_input]. rewrite H. destruct (c_input c); cbn [rbind]; rewrite H; reflexivity. Qed.

(** ** Well-formed records *)
Definition wf_record (v typ : Z) (rec : list Z) : Prop :=
  exists body, rec = [typ; u8 (Z.shiftr v 8); u8 v] ++ len16 (length body) ++ body /\ Z.of_nat (length body) <= maxCiphertext.
Lemma u8_hi_lo v : 0 <= v < 65536 -> 256 * u8 (Z.shiftr v 8) + u8 v = v.
Proof. intros H. unfold u8. rewrite Z.shiftr_div_pow2 by lia. change (2 ^ 8) with 256. lia. Qed.
(** the version a connection asks for in record headers: its own once it has one, before that any that looks like TLS *)
Definition hdr_ok (v : Z) (c : conn) : Prop := if c_haveVers c then c_vers c = v else v < 0x1000.
Lemma pure_one_wf_want c rec s want v typ : wf_record v typ rec -> hdr_ok v c -> c_haveVers c = true \/ typ = want -> 0 <= v < 65536 -> typ <> 0x80 ->
  pure_one c (rec ++ s) want = do o <- process c want rec; Ok (o, s).
Proof.
  intros (body & E & Hl) HV Hv Hr Ht. unfold hdr_ok in HV. unfold maxCiphertext in Hl.
  assert (EL : length rec = (5 + length body)%nat) by (rewrite E, !app_length; reflexivity).
  unfold pure_one. replace (length (rec ++ s) <? 5)%nat with false by (symmetry; apply Nat.ltb_ge; rewrite app_length; lia).
  assert (N : forall i, (i < 5)%nat -> nth i (rec ++ s) 0 = nth i rec 0) by (intros i Hi; apply app_nth1; lia).
  assert (N0 : nth 0 rec 0 = typ) by (rewrite E; reflexivity). assert (N1 : nth 1 rec 0 = u8 (Z.shiftr v 8)) by (rewrite E; reflexivity).
  assert (N2 : nth 2 rec 0 = u8 v) by (rewrite E; reflexivity).
  assert (N34 : 256 * nth 3 rec 0 + nth 4 rec 0 = Z.of_nat (length body)) by (rewrite E; cbn [nth app len16]; apply u8_hi_lo; lia).
  assert (HB : bad_header c want (firstn 5 (rec ++ s)) = None).
  { unfold bad_header. rewrite !nth_firstn_lt by lia. rewrite !N by lia. rewrite N34, N0, N1, N2, (u8_hi_lo v Hr).
    destruct (Z.eqb_spec typ 128); [congruence|]. rewrite Bool.andb_false_r.
    replace (maxCiphertext <? Z.of_nat (length body)) with false by (symmetry; apply Z.ltb_ge; unfold maxCiphertext; lia).
    destruct (c_haveVers c); cbn [negb andb]; [rewrite HV, Z.eqb_refl; reflexivity|]. destruct Hv as [|<-]; [discriminate|]. rewrite Z.eqb_refl. cbn [negb andb orb].
    rewrite Bool.andb_false_r. destruct (Z.leb_spec 4096 v); [lia|reflexivity]. }
  rewrite HB, !N by lia. rewrite N34, Nat2Z.id.
  replace (length (rec ++ s) <? 5 + length body)%nat with false by (symmetry; apply Nat.ltb_ge; rewrite app_length; lia).
  rewrite <- EL, firstn_app_l, skipn_app_l by reflexivity. reflexivity.
Qed.
Lemma pure_one_wf c rec s want v typ : wf_record v typ rec -> c_haveVers c = true -> c_vers c = v -> 0 <= v < 65536 -> typ <> 0x80 ->
  pure_one c (rec ++ s) want = do o <- process c want rec; Ok (o, s).
Proof. intros H HV Hv. apply pure_one_wf_want; [exact H|unfold hdr_ok; now rewrite HV|now left]. Qed.
(** [n] warning alerts at the head of the stream, in records the half-connection [h] accepts *)
Inductive warn_run (v : Z) : half -> list Z -> nat -> half -> list Z -> Prop :=
| wr_0 h s : warn_run v h s 0 h s
| wr_S h rec s n h1 off d a h' s' : wf_record v recordTypeAlert rec -> decrypt h rec = Ok (DecOk off d h1) -> skipn off d = [1; a] -> a <> alertCloseNotify ->
    warn_run v h1 s n h' s' -> warn_run v h (rec ++ s) (S n) h' s'.
Lemma wf_nth0 v typ rec : wf_record v typ rec -> nth 0 rec 0 = typ.
Proof. intros (body & -> & _). reflexivity. Qed.
Lemma process_warn c want rec off d h1 a v : wf_record v recordTypeAlert rec -> decrypt (c_in c) rec = Ok (DecOk off d h1) -> skipn off d = [1; a] -> a <> alertCloseNotify ->
  process c want rec = Ok (if maxWarnAlertCount <? c_warn c + 1 then ret_err (sent (with_warn (with_in c h1) (c_warn c + 1)) alertUnexpectedMessage) ETooManyWarn else Again (with_warn (with_in c h1) (c_warn c + 1))).
Proof.
  intros Hw HD HS Ha. unfold process. rewrite HD. cbn [rbind]. rewrite HS, (wf_nth0 _ _ _ Hw). unfold handle. cbn [zlen length Z.of_nat nth].
  change (maxPlaintext <? zlen [1; a]) with false. change (recordTypeAlert =? recordTypeAlert) with true. cbn [negb andb Nat.eqb Nat.ltb Nat.leb].
  destruct (Z.eqb_spec a alertCloseNotify); [contradiction|]. cbn [Z.eqb Pos.eqb]. change (c_warn (with_warn (with_in c h1) (c_warn (with_in c h1) + 1))) with (c_warn c + 1).
  change (c_warn (with_in c h1)) with (c_warn c). destruct (maxWarnAlertCount <? _); reflexivity.
Qed.
Lemma warn_run_skip v n : forall f c s h' s' want, warn_run v (c_in c) s n h' s' -> c_haveVers c = true -> c_vers c = v -> 0 <= v < 65536 ->
  c_warn c + Z.of_nat n <= 5 -> pure_loop (n + f) c s want = pure_loop f (with_warn (with_in c h') (c_warn c + Z.of_nat n)) s' want.
Proof.
  induction n as [|n IH]; intros f c s h' s' want HW HV Hv Hr Hn.
  - inversion HW; subst. cbn [Nat.add Z.of_nat]. rewrite Z.add_0_r. destruct c; reflexivity.
  - inversion HW as [|? rec s0 n0 h1 off d a h2 s2 Hwf HD HS Ha HW']; subst. cbn [Nat.add pure_loop].
    rewrite (pure_one_wf c rec s0 want (c_vers c) recordTypeAlert Hwf HV eq_refl Hr) by discriminate.
    rewrite (process_warn c want rec off d h1 a _ Hwf HD HS Ha). replace (maxWarnAlertCount <? c_warn c + 1) with false by (symmetry; apply Z.ltb_ge; unfold maxWarnAlertCount; lia).
    cbn [rbind]. set (c1 := with_warn (with_in c h1) (c_warn c + 1)). rewrite (IH f c1 s0 h' s' want HW' HV eq_refl Hr) by (cbn; lia).
    f_equal. unfold c1, with_warn, with_in. cbn. f_equal. lia.
Qed.
Lemma warn_run_split v n m : forall h s h' s', warn_run v h s (n + m) h' s' -> exists h1 s1, warn_run v h s n h1 s1 /\ warn_run v h1 s1 m h' s'.
Proof.
  induction n as [|n IH]; intros h s h' s' H; cbn [Nat.add] in H; [exists h, s; split; [constructor|exact H]|].
  inversion H; subst. destruct (IH _ _ _ _ ltac:(eassumption)) as (h1' & s1' & A & B). exists h1', s1'. split; [econstructor; eassumption|exact B].
Qed.
Lemma warn_flood v n c s h' s' want : warn_run v (c_in c) s n h' s' -> c_haveVers c = true -> c_vers c = v -> 0 <= v < 65536 ->
  0 <= c_warn c <= 5 -> 5 < c_warn c + Z.of_nat n ->
  exists c' s1, pure_loop 8 c s want = Ok (c', Some ETooManyWarn, s1) /\ c_err c' = Some ETooManyWarn /\ c_alerts c' = c_alerts c ++ [alertUnexpectedMessage] /\
     c_input c' = c_input c /\ c_hand c' = c_hand c.
Proof.
  intros HW HV Hv Hr Hc Hn. set (k := Z.to_nat (5 - c_warn c)).
  replace n with (k + S (n - S k))%nat in HW by (unfold k; lia). apply warn_run_split in HW as (h1 & s1 & HA & HB).
  replace 8%nat with (k + (8 - k))%nat by (unfold k; lia). rewrite (warn_run_skip v k (8 - k) c s h1 s1 want HA HV Hv Hr) by (unfold k; lia).
  replace (8 - k)%nat with (S (7 - k)) by (unfold k; lia). cbn [pure_loop].
  inversion HB as [|? rec s0 n0 h2 off d a h3 s2 Hwf HD HS Ha HW']; subst. set (c1 := with_warn (with_in c h1) (c_warn c + Z.of_nat k)).
  rewrite (pure_one_wf c1 rec s0 want (c_vers c) recordTypeAlert Hwf HV eq_refl Hr) by discriminate.
  rewrite (process_warn c1 want rec off d h2 a _ Hwf HD HS Ha). replace (maxWarnAlertCount <? c_warn c1 + 1) with true by (symmetry; apply Z.ltb_lt; change (c_warn c1) with (c_warn c + Z.of_nat k); unfold maxWarnAlertCount, k; lia).
  cbn [rbind ret_err]. eexists _, s0. split; [reflexivity|]. cbn. auto.
Qed.

(** ** Writing *)
Lemma ldiff_ge a b : 0 <= a -> 0 <= b -> a - b <= Z.ldiff a b <= a.
Proof.
  intros Ha Hb. assert (E : Z.ldiff a b = a - Z.land a b).
  { rewrite (Z.sub_nocarry_ldiff a (Z.land a b)).
    - apply Z.bits_inj'. intros i Hi. rewrite !Z.ldiff_spec, Z.land_spec. destruct (Z.testbit a i), (Z.testbit b i); reflexivity.
    - apply Z.bits_inj_0. intros i. rewrite Z.ldiff_spec, Z.land_spec. destruct (Z.testbit a i), (Z.testbit b i); reflexivity. }
  assert (0 <= Z.land a b) by (apply Z.land_nonneg; lia).
  assert (Z.land a b <= b).
  { rewrite Z.land_comm. apply Z.ldiff_le; [lia|]. apply Z.bits_inj_0. intros i. rewrite Z.ldiff_spec, Z.land_spec. destruct (Z.testbit a i), (Z.testbit b i); reflexivity. }
  lia.
Qed.
(** the sender can write: it is in sync with some receiver, its suite's overhead is moderate, its counters are sane *)
Definition can_write (k : Z) (w : wconn) (r : half) : Prop :=
  in_sync k (w_out w) r /\ (overhead (w_out w) <= 1000)%nat /\ 0 <= w_packetsSent w /\ 0 <= w_bytesSent w /\ 0 < w_vers w < 65536.
Lemma maxPayload_pos k w r typ : can_write k w r ->
  200 <= fst (maxPayloadSizeForWrite w typ (fst (explicit_iv_len (w_out w)))) <= maxPlaintext /\ 0 <= snd (maxPayloadSizeForWrite w typ (fst (explicit_iv_len (w_out w)))).
Proof.
  intros (HS & HO & HP & HB & _). unfold maxPayloadSizeForWrite, maxPlaintext, recordSizeBoostThreshold, tcpMSSEstimate.
  destruct (_ || _); [cbn [fst snd]; lia|]. destruct (_ <=? _); [cbn [fst snd]; lia|].
  unfold overhead, mac_size in HO. set (e := fst (explicit_iv_len (w_out w))) in *. clearbody e.
  assert (HM : Z.of_nat (match h_mac (w_out w) with Some m => m_size m | None => 0%nat end) = match h_mac (w_out w) with Some m => Z.of_nat (m_size m) | None => 0 end) by (destruct (h_mac (w_out w)); reflexivity).
  destruct HS as (_ & _ & _ & _ & _ & _ & HC & _).
  set (M := match h_mac (w_out w) with Some m => m_size m | None => 0%nat end) in *. rewrite <- HM. clear HM. clearbody M.
  set (pb := match h_cipher (w_out w) with None => _ | Some _ => _ end).
  assert (Hpb : 200 <= pb).
  { unfold pb. unfold cipher_sync in HC. destruct (h_cipher (w_out w)) as [[|a|[|] bs F iv]|]; try lia.
    - destruct (h_cipher r) as [[| |[|] bs' D iv']|]; try contradiction. destruct HC as (_ & _ & _ & _ & _ & OK). pose proof (bo_pos _ _ _ OK).
      pose proof (ldiff_ge (1208 - 5 - Z.of_nat e) (Z.of_nat bs - 1)). lia. }
  clearbody pb. destruct (1000 <? w_packetsSent w); cbn [fst snd]; [lia|]. destruct (16384 <? _) eqn:E; cbn [fst snd]; [lia|]. apply Z.ltb_ge in E. nia.
Qed.
(** one record reaches the receiver *)
Definition ivs_ok (w : wconn) (rnds : nat -> option (list Z)) : Prop :=
  forall i, exists iv, rnds i = Some iv /\ length iv = fst (explicit_iv_len (w_out w)) /\ bytes iv.
Lemma fit_length n l : length (fit n l) = n.
Proof. unfold fit. rewrite app_length, firstn_length, zeros_length. lia. Qed.
Lemma fit_bytes n l : bytes l -> bytes (fit n l).
Proof. intros H. unfold fit. apply bytes_app. split; [now apply bytes_firstn|apply bytes_repeat; unfold is_byte; lia]. Qed.
Lemma skipn_prefix {A} (a b c : list A) n : (length a + length b)%nat = n -> skipn n (a ++ b ++ c) = c.
Proof. intros <-. rewrite app_assoc. apply skipn_app_l. rewrite app_length. reflexivity. Qed.
Lemma write_one_spec k w r typ data rnd : can_write k w r -> k < 2 ^ 64 - 1 -> data <> [] -> bytes data -> 0 <= typ < 256 ->
  (exists iv, rnd = Some iv /\ length iv = fst (explicit_iv_len (w_out w)) /\ bytes iv) ->
  exists w' m rec off d r', write_one w typ data rnd = Ok (w', m) /\ (1 <= m <= length data)%nat /\ Z.of_nat m <= maxPlaintext /\
    Z.of_nat m = Z.min (zlen data) (fst (maxPayloadSizeForWrite w typ (fst (explicit_iv_len (w_out w))))) /\
    w_log w' = w_log w ++ [rec] /\ wf_record (w_vers w) typ rec /\ decrypt r rec = Ok (DecOk off d r') /\ skipn off d = firstn m data /\
    can_write (k + 1) w' r' /\ w_vers w' = w_vers w /\ h_version r' = h_version r /\ fst (explicit_iv_len (w_out w')) = fst (explicit_iv_len (w_out w)) /\
    is_block_mode (w_out w') = is_block_mode (w_out w).
Proof.
  intros HW Hk Hne Bd Ht (riv & -> & Lriv & Briv). pose proof HW as (HS & HO & HP & HB & HV). unfold write_one.
  destruct (maxPayload_pos k w r typ HW) as [HM HPk]. destruct (explicit_iv_len (w_out w)) as [e isq] eqn:EE. cbn [fst] in *.
  destruct (maxPayloadSizeForWrite w typ e) as [mp pk]. cbn [fst snd] in *.
  set (m := if mp <? zlen data then mp else zlen data). unfold maxPlaintext in *.
  assert (Hd : 1 <= zlen data) by (unfold zlen; destruct data; [congruence|cbn [length]; lia]).
  assert (Hm : 1 <= m <= zlen data /\ m <= 16384 /\ m = Z.min (zlen data) mp) by (unfold m; destruct (Z.ltb_spec mp (zlen data)); lia).
  clearbody m. replace (m <? 0) with false by (symmetry; apply Z.ltb_ge; lia).
  set (chunk := firstn (Z.to_nat m) data). assert (Lc : length chunk = Z.to_nat m) by (unfold chunk; rewrite firstn_length; unfold zlen in *; lia).
  set (iv0 := if (0 <? e)%nat then (if isq then Some (fit e (h_seq (w_out w))) else Some riv) else Some []).
  assert (HI : exists iv, iv0 = Some iv /\ length iv = e /\ bytes iv).
  { unfold iv0. destruct (Nat.ltb_spec 0 e); [|exists []; split; [reflexivity|]; split; [cbn; lia|constructor]].
    destruct isq; [|exists riv; auto]. eexists; split; [reflexivity|]. split; [apply fit_length|]. apply fit_bytes. destruct HS as (_ & -> & _). apply be_bytes_bytes. }
  destruct HI as (iv & -> & Liv & Biv).
  assert (EH : record_header w typ m ++ iv ++ chunk = [typ; u8 (Z.shiftr (w_vers w) 8); u8 (w_vers w)] ++ len16 (length chunk) ++ iv ++ chunk).
  { unfold record_header, len16. rewrite Lc, Z2Nat.id by lia. destruct (Z.eqb_spec (w_vers w) 0); [lia|]. replace (u8 typ) with typ by (unfold u8; rewrite Z.mod_small by (change (2 ^ 8) with 256; lia); reflexivity). reflexivity. }
  rewrite EH. clear EH. assert (HL : zlen chunk + Z.of_nat (mac_size (w_out w)) < 2 ^ 30) by (unfold zlen, overhead in *; rewrite Lc; lia).
  destruct (record_round_trip k (w_out w) r [typ; u8 (Z.shiftr (w_vers w) 8); u8 (w_vers w)] iv chunk HS Hk eq_refl) as (body & s' & r' & E1 & Bb & Lb & E2 & HS' & V1 & V2 & EM & EO & EI & EC); auto.
  { rewrite EE. exact Liv. } { now apply bytes_firstn. }
  rewrite <- Liv, E1. cbn [rbind]. set (rec := [typ; u8 (Z.shiftr (w_vers w) 8); u8 (w_vers w)] ++ len16 (length body) ++ body) in *.
  eexists _, (Z.to_nat m), rec, _, _, r'. split; [reflexivity|]. split; [unfold zlen in *; lia|]. split; [lia|]. split; [lia|]. split; [reflexivity|].
  split; [exists body; split; [reflexivity|unfold maxCiphertext; lia]|]. split; [exact E2|].
  split. { rewrite (app_assoc (len16 _)). rewrite app_assoc. apply skipn_app_l. rewrite !app_length, len16_length. cbn [length]. lia. }
  split. { unfold can_write. cbn [w_out w_packetsSent w_bytesSent w_vers]. split; [exact HS'|]. split; [rewrite EO; exact HO|]. split; [exact HPk|]. split; [unfold zlen; lia|exact HV]. }
  split; [reflexivity|]. split; [exact V2|]. cbn [w_out]. rewrite EE in EI. cbn [fst] in EI. split; [rewrite EI; now symmetry|].
  unfold is_block_mode. destruct HS as (_ & _ & _ & _ & _ & _ & HC & _). destruct HS' as (_ & _ & _ & _ & _ & _ & HC' & _).
  clear - E1. unfold encrypt in E1. destruct (_ <? _)%nat; [discriminate|]. unfold encipher in E1. destruct (h_cipher (w_out w)) as [[|a|en bs F iv0]|].
  - cbn [rbind] in E1. destruct (incSeq _) eqn:EQ; [|discriminate|discriminate]. cbn [rbind] in E1. apply (f_equal (fun r => match r with Ok (_, h) => h | _ => w_out w end)) in E1. cbn in E1. subst.
    unfold incSeq in EQ. destruct (inc_from _ _); [|discriminate]. injection EQ as <-. reflexivity.
  - cbn [rbind] in E1. destruct (incSeq _) eqn:EQ; [|discriminate|discriminate]. cbn [rbind] in E1. apply (f_equal (fun r => match r with Ok (_, h) => h | _ => w_out w end)) in E1. cbn in E1. subst.
    unfold incSeq in EQ. destruct (inc_from _ _); [|discriminate]. injection EQ as <-. reflexivity.
  - destruct (padToBlockSize _ _) as [p f]. destruct (CryptBlocks en bs F _ p) as [[o1 i1]| |]; cbn [rbind] in E1; try discriminate.
    destruct (CryptBlocks en bs F i1 f) as [[o2 i2]| |]; cbn [rbind] in E1; try discriminate. destruct (incSeq _) eqn:EQ; [|discriminate|discriminate]. cbn [rbind] in E1.
    apply (f_equal (fun r => match r with Ok (_, h) => h | _ => w_out w end)) in E1. cbn in E1. subst.
    unfold incSeq in EQ. destruct (inc_from _ _); [|discriminate]. injection EQ as <-. reflexivity.
  - cbn [rbind] in E1. destruct (incSeq _) eqn:EQ; [|discriminate|discriminate]. cbn [rbind] in E1. apply (f_equal (fun r => match r with Ok (_, h) => h | _ => w_out w end)) in E1. cbn in E1. subst.
    unfold incSeq in EQ. destruct (inc_from _ _); [|discriminate]. injection EQ as <-. reflexivity.
Qed.

(** ** Records in flight: [wire v r recs ms]: the half-connection [r] accepts the records [recs] one after the other and finds in them
    the non-empty application data payloads [ms], each of at most 16384 bytes *)
Inductive wire (v : Z) : half -> list (list Z) -> list (list Z) -> half -> Prop :=
| wire_nil r : wire v r [] [] r
| wire_cons r rec off d r' recs m ms r'' : wf_record v recordTypeApplicationData rec -> decrypt r rec = Ok (DecOk off d r') -> skipn off d = m ->
    m <> [] -> zlen m <= maxPlaintext -> wire v r' recs ms r'' -> wire v r (rec :: recs) (m :: ms) r''.
Lemma wire_app v r recs1 ms1 r1 recs2 ms2 r2 : wire v r recs1 ms1 r1 -> wire v r1 recs2 ms2 r2 -> wire v r (recs1 ++ recs2) (ms1 ++ ms2) r2.
Proof. intros H. revert recs2 ms2 r2. induction H; intros recs2 ms2 rr2 HH2; cbn [app]; [exact HH2|]. econstructor; eauto. Qed.
Lemma firstn_ne {A} (l : list A) m : (1 <= m)%nat -> l <> [] -> firstn m l <> [].
Proof. destruct m, l; cbn; try lia; congruence. Qed.

Lemma write_loop_spec : forall fuel k w r data rnds n, can_write k w r -> k + zlen data < 2 ^ 64 -> bytes data -> (length data <= fuel)%nat ->
  (forall i, exists iv, rnds i = Some iv /\ length iv = fst (explicit_iv_len (w_out w)) /\ bytes iv) ->
  exists w' recs ms k' r', write_loop fuel w recordTypeApplicationData data rnds n = Ok (w', n + zlen data) /\ w_log w' = w_log w ++ recs /\
    wire (w_vers w) r recs ms r' /\ concat ms = data /\ can_write k' w' r' /\ k <= k' <= k + zlen data /\ w_vers w' = w_vers w /\
    fst (explicit_iv_len (w_out w')) = fst (explicit_iv_len (w_out w)) /\ is_block_mode (w_out w') = is_block_mode (w_out w) /\
    (data <> [] -> exists m ms', ms = m :: ms' /\ zlen m = Z.min (zlen data) (fst (maxPayloadSizeForWrite w recordTypeApplicationData (fst (explicit_iv_len (w_out w)))))).
Proof.
  induction fuel as [|f IH]; intros k w r data rnds n HW Hk Bd Hf HI.
  - destruct data; [|cbn in Hf; lia]. exists w, [], [], k, r. cbn [write_loop]. unfold zlen. cbn [length Z.of_nat]. rewrite Z.add_0_r, app_nil_r.
    split; [reflexivity|]. split; [reflexivity|]. split; [constructor|]. split; [reflexivity|]. split; [exact HW|]. split; [lia|]. repeat (split; [reflexivity|]). congruence.
  - destruct data as [|x l] eqn:ED.
    { exists w, [], [], k, r. cbn [write_loop]. unfold zlen. cbn [length Z.of_nat]. rewrite Z.add_0_r, app_nil_r.
      split; [reflexivity|]. split; [reflexivity|]. split; [constructor|]. split; [reflexivity|]. split; [exact HW|]. split; [lia|]. repeat (split; [reflexivity|]). congruence. }
    rewrite <- ED in *. assert (Hne : data <> []) by (rewrite ED; discriminate).
    assert (EW : write_loop (S f) w recordTypeApplicationData data rnds n = do r <- write_one w recordTypeApplicationData data (rnds 0%nat); let '(w', m) := r in write_loop f w' recordTypeApplicationData (skipn m data) (fun i => rnds (S i)) (n + Z.of_nat m)) by (rewrite ED; reflexivity).
    rewrite EW. clear EW ED x l.
    assert (Hz : 1 <= zlen data) by (unfold zlen; destruct data; [congruence|cbn [length]; lia]).
    destruct (write_one_spec k w r recordTypeApplicationData data (rnds 0%nat) HW ltac:(lia) Hne Bd ltac:(unfold recordTypeApplicationData; lia) (HI 0%nat))
      as (w1 & m & rec & off & d & r1 & E1 & Hm & Hmp & Hmin & EL & Hwf & HD & HS & HW1 & V1 & V2 & EI & EB).
    rewrite E1. cbn [rbind].
    assert (Lf : zlen (skipn m data) = zlen data - Z.of_nat m) by (unfold zlen; rewrite skipn_length; lia).
    destruct (IH (k + 1) w1 r1 (skipn m data) (fun i => rnds (S i)) (n + Z.of_nat m) HW1 ltac:(lia) (bytes_skipn _ _ Bd) ltac:(rewrite skipn_length; lia)) as (w' & recs & ms & k' & r' & I1 & I2 & I3 & I4 & I5 & I6 & I7 & I8 & I9 & _).
    { intros i. rewrite EI. apply HI. }
    exists w', (rec :: recs), (firstn m data :: ms), k', r'. split; [rewrite I1; do 2 f_equal; lia|].
    split; [rewrite I2, EL, <- app_assoc; reflexivity|]. rewrite V1 in I3. split.
    { econstructor; eauto; [now apply firstn_ne|]. unfold zlen. rewrite firstn_length. lia. }
    split; [cbn [concat]; rewrite I4; apply firstn_skipn|]. split; [exact I5|]. split; [lia|]. split; [congruence|]. split; [congruence|]. split; [congruence|].
    intros _. exists (firstn m data), ms. split; [reflexivity|]. unfold zlen at 1. rewrite firstn_length. lia.
Qed.
(** the 1/n-1 condition *)
Definition splits (w : wconn) (b : list Z) : bool := (1 <? length b)%nat && (w_vers w <=? VersionTLS10) && negb (w_vers w =? VersionGMSSL) && is_block_mode (w_out w).
Lemma Write_spec k w r b rnds : can_write k w r -> k + zlen b < 2 ^ 64 -> bytes b -> ivs_ok w rnds ->
  exists w' recs ms k' r', Write w b rnds = Ok (w', zlen b) /\ w_log w' = w_log w ++ recs /\ wire (w_vers w) r recs ms r' /\ concat ms = b /\
    can_write k' w' r' /\ k <= k' <= k + zlen b /\ w_vers w' = w_vers w /\ fst (explicit_iv_len (w_out w')) = fst (explicit_iv_len (w_out w)) /\
    (if splits w b then exists x m ms', ms = [x] :: m :: ms' else (2 <= length b)%nat -> exists x y m ms', ms = (x :: y :: m) :: ms').
Proof.
  intros HW Hk Bb HI. unfold Write. fold (splits w b). destruct (splits w b) eqn:ES.
  - unfold splits in ES. apply Bool.andb_true_iff in ES as [ES HB]. apply Bool.andb_true_iff in ES as [ES HV]. apply Bool.andb_true_iff in ES as [HL _]. apply Nat.ltb_lt in HL.
    destruct b as [|x b']; [cbn in HL; lia|]. cbn [firstn skipn]. assert (Hz : zlen (x :: b') = 1 + zlen b') by (unfold zlen; cbn [length]; lia). rewrite Hz in *.
    apply bytes_cons in Bb as [Bx Bb']. unfold writeRecordLocked.
    destruct (write_loop_spec 1 k w r [x] rnds 0 HW) as (w1 & recs1 & ms1 & k1 & r1 & A1 & A2 & A3 & A4 & A5 & A6 & A7 & A8 & A9 & A10); auto.
    { unfold zlen in *. cbn [length]. lia. } { apply bytes_cons. split; [exact Bx|constructor]. }
    change (length [x]) with 1%nat. rewrite A1. cbn [rbind]. change (zlen [x]) with 1 in *.
    destruct (write_loop_spec (length b') k1 w1 r1 b' (fun i => rnds (S i)) 0 A5) as (w2 & recs2 & ms2 & k2 & r2 & B1 & B2 & B3 & B4 & B5 & B6 & B7 & B8 & B9 & B10); auto; try lia.
    { intros i. rewrite A8. apply HI. }
    rewrite B1. cbn [rbind]. exists w2, (recs1 ++ recs2), (ms1 ++ ms2), k2, r2. split; [do 2 f_equal; lia|]. split; [rewrite B2, A2, app_assoc; reflexivity|].
    split; [rewrite A7 in B3; eapply wire_app; eassumption|]. split; [rewrite concat_app, A4, B4; reflexivity|]. split; [exact B5|]. split; [lia|]. split; [congruence|]. split; [congruence|].
    destruct (A10 ltac:(discriminate)) as (m1 & ms1' & -> & Z1). assert (ms1' = [] /\ m1 = [x]) as [-> ->].
    { cbn [concat] in A4. pose proof (f_equal (@length Z) A4) as AL. rewrite app_length in AL. cbn [length] in AL.
      destruct (maxPayload_pos k w r recordTypeApplicationData HW) as [HP _]. change (zlen [x]) with 1 in Z1. assert (length m1 = 1)%nat by (unfold zlen in Z1; lia).
      assert (length (concat ms1') = 0)%nat by lia. inversion A3 as [|? ? ? ? ? ? ? ? ? ? ? ? ? ? W0]; subst. 
      assert (C0 : concat ms1' = []) by (apply length_zero_iff_nil; assumption). split.
      - destruct W0 as [|? ? ? ? ? ? ? ? ? ? ? ? N0]; [reflexivity|]. cbn [concat] in C0. apply app_eq_nil in C0 as [C0 _]. contradiction.
      - rewrite C0, app_nil_r in A4. exact A4. }
    destruct (B10 ltac:(destruct b'; [cbn in HL; lia|discriminate])) as (m2 & ms2' & -> & _). exists x, m2, ms2'. reflexivity.
  - unfold writeRecordLocked. destruct (write_loop_spec (length b) k w r b rnds 0 HW Hk Bb (le_n _) HI) as (w1 & recs & ms & k1 & r1 & A1 & A2 & A3 & A4 & A5 & A6 & A7 & A8 & A9 & A10).
    exists w1, recs, ms, k1, r1. rewrite A1. split; [do 2 f_equal; lia|]. repeat (split; [assumption|]).
    intros HL. destruct (A10 ltac:(destruct b; [cbn in HL; lia|discriminate])) as (m & ms' & -> & Z1).
    destruct (maxPayload_pos k w r recordTypeApplicationData HW) as [HP _]. unfold zlen in Z1. destruct m as [|x [|y m]]; cbn [length] in Z1; [lia|lia|]. now exists x, y, m, ms'.
Qed.

(** ** Reading what was written *)
(** the reader holds [pending] undelivered bytes of the current record; the records [recs] with payloads [ms] are still to come *)
Definition reading (v : Z) (c : conn) (t : transport) (data : list Z) : Prop :=
  hdr_ok v c /\ 0 <= v < 65536 /\ c_complete c = true /\ c_err c = None /\ c_hand c = [] /\ 0 <= c_warn c /\ c_input c <> Some [] /\
  exists recs ms r', wire v (c_in c) recs ms r' /\ stream c t = concat recs /\
    data = match c_input c with Some d => d | None => [] end ++ concat ms.
(** the next record is application data *)
Lemma read_app v c t rec off d r' s : wf_record v recordTypeApplicationData rec -> decrypt (c_in c) rec = Ok (DecOk off d r') -> skipn off d <> [] -> zlen (skipn off d) <= maxPlaintext ->
  hdr_ok v c -> 0 <= v < 65536 -> c_complete c = true -> c_err c = None -> 0 <= c_warn c -> stream c t = rec ++ s ->
  exists c' e t', readRecord c t recordTypeApplicationData = Ok (c', e, t') /\ hdr_ok v c' /\ c_complete c' = true /\ c_hand c' = c_hand c /\ 0 <= c_warn c' /\
   (e = Some ETemp /\ (temps t' < temps t)%nat /\ stream c' t' = rec ++ s /\ c_in c' = c_in c /\ c_input c' = c_input c /\ c_err c' = None \/
    e = None /\ temps t' = temps t /\ c_err c' = None /\ c_in c' = r' /\ c_input c' = Some (skipn off d) /\ stream c' t' = s).
Proof.
  intros Hwf HD Hne Hm HV Hr HC HE HWn HS. unfold readRecord. rewrite HC. cbn [orb Z.eqb Pos.eqb recordTypeApplicationData recordTypeHandshake recordTypeChangeCipherSpec negb].
  change 8%nat with (S 7). cbn [record_loop].
  assert (EP : forall c0, c_in c0 = c_in c -> c_err c0 = None -> process c0 recordTypeApplicationData rec = Ok (Ret (with_input (with_warn (with_in c0 r') 0) (Some (skipn off d))) None)).
  { intros c0 E0 E1. unfold process. rewrite E0, HD. cbn [rbind]. rewrite (wf_nth0 _ _ _ Hwf). unfold handle. replace (maxPlaintext <? zlen (skipn off d)) with false by (symmetry; apply Z.ltb_ge; exact Hm).
    replace (0 <? length (skipn off d))%nat with true by (symmetry; apply Nat.ltb_lt; destruct (skipn off d); [congruence|cbn [length]; lia]).
    cbn [Z.eqb Pos.eqb recordTypeApplicationData recordTypeAlert recordTypeChangeCipherSpec negb andb]. unfold ret. cbn [c_err with_input with_warn with_in]. rewrite E1. reflexivity. }
  destruct (one_record_pure c t recordTypeApplicationData) as [(b & t' & E & Es & HT)|[(o & t' & E & Ep & HT)|[(e & E & Ep)|[E Ep]]]]; rewrite E; cbn [rbind].
  - exists (with_raw c b), (Some ETemp), t'. split; [reflexivity|]. repeat (split; [assumption|]). split; [reflexivity|]. split; [exact HWn|]. left.
    split; [reflexivity|]. split; [exact HT|]. split; [unfold stream at 1; cbn [c_raw with_raw]; congruence|]. auto.
  - rewrite HS, (pure_one_wf_want (view c) rec s _ v recordTypeApplicationData Hwf HV (or_intror eq_refl) Hr) in Ep by discriminate. rewrite (EP (view c) eq_refl HE) in Ep. cbn [rbind] in Ep.
    apply (f_equal (fun r => match r with Ok x => x | _ => (Again c, []) end)) in Ep. cbv beta iota in Ep.
    pose proof (f_equal snd Ep) as Ep2. apply (f_equal fst) in Ep. cbn [fst snd] in Ep, Ep2. destruct o as [c'|c' e']; cbn [out_view] in Ep; [discriminate|].
    assert (Ev : view c' = with_input (with_warn (with_in (view c) r') 0) (Some (skipn off d))) by congruence. assert (e' = None) by congruence. subst e'.
    exists c', None, t'. split; [reflexivity|].
    assert (F : forall {A} (f : conn -> A), f (view c') = f (with_input (with_warn (with_in (view c) r') 0) (Some (skipn off d)))) by (intros; now rewrite Ev).
    split; [pose proof (F _ (hdr_ok v)) as FV; change (hdr_ok v (view c')) with (hdr_ok v c') in FV; rewrite FV; exact HV|]. split; [exact (eq_trans (F _ c_complete) HC)|]. split; [exact (F _ c_hand)|].
    split; [pose proof (F _ c_warn) as FW; cbn in FW; rewrite FW; lia|]. right. split; [reflexivity|]. split; [exact HT|]. split; [exact (eq_trans (F _ c_err) HE)|]. split; [exact (F _ c_in)|].
    split; [exact (F _ c_input)|]. symmetry. exact Ep2.
  - rewrite HS, (pure_one_wf_want (view c) rec s _ v recordTypeApplicationData Hwf HV (or_intror eq_refl) Hr) in Ep by discriminate. rewrite (EP (view c) eq_refl HE) in Ep. discriminate.
  - rewrite HS, (pure_one_wf_want (view c) rec s _ v recordTypeApplicationData Hwf HV (or_intror eq_refl) Hr) in Ep by discriminate. rewrite (EP (view c) eq_refl HE) in Ep. discriminate.
Qed.
Lemma read_end c t : c_complete c = true -> c_err c = None -> 0 <= c_warn c -> stream c t = [] ->
  exists c' t', readRecord c t recordTypeApplicationData = Ok (c', Some ETemp, t') /\ (temps t' < temps t)%nat /\ view c' = view c /\ stream c' t' = [] \/
                readRecord c t recordTypeApplicationData = Ok (c', Some EEof, t') /\ view c' = view (failed c EEof).
Proof.
  intros HC HE HWn HS. unfold readRecord. rewrite HC. cbn [orb Z.eqb Pos.eqb recordTypeApplicationData recordTypeHandshake recordTypeChangeCipherSpec negb].
  change 8%nat with (S 7). cbn [record_loop].
  destruct (one_record_pure c t recordTypeApplicationData) as [(b & t' & E & Es & HT)|[(o & t' & E & Ep & HT)|[(e & E & Ep)|[E Ep]]]]; rewrite E; cbn [rbind].
  - exists (with_raw c b), t'. left. split; [reflexivity|]. split; [exact HT|]. split; [reflexivity|]. unfold stream at 1. cbn [c_raw with_raw]. congruence.
  - rewrite HS in Ep. cbn in Ep. apply (f_equal (fun r => match r with Ok x => x | _ => (Again c, []) end)) in Ep. cbv beta iota in Ep. apply (f_equal fst) in Ep. cbn [fst] in Ep.
    destruct o as [c'|c' e']; cbn [out_view] in Ep; [discriminate|]. unfold ret_err in Ep. assert (view c' = failed (view c) EEof /\ e' = Some EEof) as [Ev ->] by (split; congruence).
    exists c', t'. right. split; [reflexivity|]. exact Ev.
  - rewrite HS in Ep. discriminate.
  - rewrite HS in Ep. discriminate.
Qed.

Lemma raw_not_alert v h c t recs ms r' : wire v h recs ms r' -> stream c t = concat recs -> c_raw c <> [] -> nth 0 (c_raw c) 0 = recordTypeApplicationData.
Proof.
  intros HW HS Hne. unfold stream in HS. destruct HW as [|? rec ? ? ? ? ? ? ? Hwf].
  - cbn [concat] in HS. apply app_eq_nil in HS as [HS _]. contradiction.
  - cbn [concat] in HS. apply (f_equal (fun l => nth 0 l 0)) in HS. rewrite app_nth1 in HS by (destruct (c_raw c); [congruence|cbn [length]; lia]).
    destruct Hwf as (body & -> & _). rewrite HS. reflexivity.
Qed.
(** delivering from the current record *)
Lemma read_input f v c t data k d : reading v c t data -> c_input c = Some d -> (0 < k)%nat ->
  exists c' rest, read_iter (S f) c t k = Ok (Some (c', firstn k d, None, t)) /\ firstn k d <> [] /\ data = firstn k d ++ rest /\ reading v c' t rest.
Proof.
  intros (HV & Hr & HC & HE & HH & HWn & Hin & recs & ms & r' & HW & HS & HD) EI Hk. rewrite EI in HD, Hin.
  assert (Hd : d <> []) by congruence. assert (Ho : firstn k d <> []) by (apply firstn_ne; [lia|exact Hd]).
  cbn [read_iter]. cbn [fill_input]. rewrite EI. cbn [rbind]. rewrite HE, EI.
  set (c1 := with_input c (if (length d <=? k)%nat then None else Some (skipn k d))).
  replace (negb (length (firstn k d) =? 0)%nat) with true by (destruct (firstn k d); [congruence|reflexivity]).
  assert (NA : (true && (length d <=? k)%nat && (0 <? length (c_raw c1))%nat && (nth 0 (c_raw c1) 0 =? recordTypeAlert)) = false).
  { change (c_raw c1) with (c_raw c). destruct (c_raw c) as [|x l] eqn:ER; [cbn [length Nat.ltb Nat.leb]; rewrite Bool.andb_false_r; reflexivity|].
    rewrite <- ER. rewrite (raw_not_alert _ _ _ _ _ _ _ HW HS) by (rewrite ER; discriminate). change (recordTypeApplicationData =? recordTypeAlert) with false. apply Bool.andb_false_r. }
  rewrite NA. cbn [rbind orb]. exists c1, (skipn k d ++ concat ms). split; [reflexivity|]. split; [exact Ho|].
  split; [rewrite app_assoc, firstn_skipn; exact HD|]. unfold reading. cbn [c1 with_input c_haveVers c_vers c_complete c_err c_hand c_warn c_input c_in].
  repeat (split; [assumption|]). split.
  { destruct (Nat.leb_spec (length d) k) as [Hle|Hgt]; [discriminate|]. intros [= E0]. apply (f_equal (@length Z)) in E0. rewrite skipn_length in E0. cbn in E0. lia. }
  exists recs, ms, r'. split; [exact HW|]. split; [exact HS|]. destruct (Nat.leb_spec (length d) k) as [Hle|Hgt]; [|reflexivity]. rewrite skipn_all2 by exact Hle. reflexivity.
Qed.
Lemma Read_step v c t data k : reading v c t data -> (0 < k)%nat ->
  exists c' out e t', Read c t k = Ok (Some (c', out, e, t')) /\
    (e = None /\ out <> [] /\ (length out <= k)%nat /\ (exists rest, data = out ++ rest /\ reading v c' t' rest) /\ (temps t' <= temps t)%nat \/
     e = Some ETemp /\ out = [] /\ reading v c' t' data /\ (temps t' < temps t)%nat \/
     e = Some EEof /\ out = [] /\ data = [] /\ c_err c' = Some EEof).
Proof.
  intros HR Hk. unfold Read. replace (k =? 0)%nat with false by (symmetry; apply Nat.eqb_neq; lia). change 101%nat with (S 100).
  pose proof HR as (HV & Hr & HC & HE & HH & HWn & Hin & recs & ms & r' & HW & HS & HD).
  destruct (c_input c) as [d|] eqn:EI.
  - destruct (read_input 100 v c t data k d HR EI Hk) as (c' & rest & E & Ho & Ed & HR'). exists c', (firstn k d), None, t. split; [exact E|]. left.
    split; [reflexivity|]. split; [exact Ho|]. split; [rewrite firstn_length; lia|]. split; [now exists rest|lia].
  - cbn [app] in HD. destruct recs as [|rec recs].
    + inversion HW; subst ms r'. cbn [concat] in HS, HD. subst data.
      destruct (read_end c t HC HE HWn HS) as (c' & t' & [(E & HT & Ev & Es)|(E & Ev)]).
      * exists c', [], (Some ETemp), t'. split; [cbn [read_iter fill_input]; rewrite EI, HE, E; reflexivity|]. right; left. split; [reflexivity|]. split; [reflexivity|]. split; [|exact HT].
        assert (F : forall {A} (f : conn -> A), f (view c') = f (view c)) by (intros; now rewrite Ev).
        unfold reading. split; [pose proof (F _ (hdr_ok v)) as FV; change (hdr_ok v (view c')) with (hdr_ok v c') in FV; rewrite FV; exact HV|]. split; [exact Hr|]. split; [exact (eq_trans (F _ c_complete) HC)|].
        split; [exact (eq_trans (F _ c_err) HE)|]. split; [exact (eq_trans (F _ c_hand) HH)|]. split; [pose proof (F _ c_warn) as FW; cbn in FW; rewrite FW; exact HWn|].
        pose proof (F _ c_input) as FI. cbn in FI. rewrite FI, EI. split; [discriminate|]. exists [], [], (c_in c). split; [|split; [exact Es|reflexivity]].
        pose proof (F _ c_in) as Fin. cbn in Fin. rewrite Fin. constructor.
      * exists c', [], (Some EEof), t'. split; [cbn [read_iter fill_input]; rewrite EI, HE, E; reflexivity|]. right; right. split; [reflexivity|]. split; [reflexivity|]. split; [reflexivity|].
        exact (f_equal c_err Ev).
    + inversion HW as [|? ? off d r1 ? m ms' ? Hwf HDc Hsk Hne Hm HW']; subst. cbn [concat] in HS.
      destruct (read_app v c t rec off d r1 (concat recs) Hwf HDc Hne Hm HV Hr HC HE HWn HS) as (c' & e & t' & E & V1 & C1 & H1 & W1 & [(-> & HT & Es & Ein & EIn & EEr)|(-> & HT & EEr & Ein & EIn & Es)]).
      * exists c', [], (Some ETemp), t'. split; [cbn [read_iter fill_input]; rewrite EI, HE, E; reflexivity|]. right; left. split; [reflexivity|]. split; [reflexivity|]. split; [|exact HT].
        unfold reading. repeat (split; [assumption|]). split; [congruence|]. split; [exact W1|]. rewrite EIn, EI. split; [discriminate|].
        exists (rec :: recs), (skipn off d :: ms'), r'. split; [rewrite Ein; econstructor; eauto|]. split; [exact Es|reflexivity].
      * assert (HR' : reading v c' t' (concat (skipn off d :: ms'))).
        { unfold reading. repeat (split; [assumption|]). split; [congruence|]. split; [exact W1|]. rewrite EIn. split; [congruence|].
          exists recs, ms', r'. split; [rewrite Ein; exact HW'|]. split; [exact Es|reflexivity]. }
        destruct (read_input 100 _ c' t' _ k (skipn off d) HR' EIn Hk) as (c2 & rest & E2 & Ho & Ed & HR2).
        exists c2, (firstn k (skipn off d)), None, t'. split.
        -- cbn [read_iter fill_input]. rewrite EI, HE, E. cbn [rbind]. rewrite H1, HH. change (0 <? length (@nil Z))%nat with false. cbv iota.
           cbn [read_iter fill_input] in E2. rewrite EIn in E2. cbn [rbind] in E2. rewrite EIn. cbn [rbind]. exact E2.
        -- left. split; [reflexivity|]. split; [exact Ho|]. split; [rewrite firstn_length; lia|]. split; [exists rest; auto|lia].
Qed.

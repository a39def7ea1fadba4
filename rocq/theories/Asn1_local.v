(** General facts about the readers of Asn1_go.v: they look only at the element they consume, and they never panic. *)
From Verif Require Import GoBase GoLemmas BigBytes Asn1_model Asn1_go X509C_ext_proofs.
Open Scope Z_scope.

Definition loc {A} (p : list Z -> res (A * list Z)) : Prop :=
  forall b v r, p b = Ok (v, r) -> exists pre, b = pre ++ r /\ forall r', p (pre ++ r') = Ok (v, r').
Lemma loc_base128 k acc : loc (base128 k acc).
Proof.
  intros b v r. revert acc b. induction k as [|k IH]; intros acc b H; [discriminate|]. cbn [base128] in H. destruct b as [|x b]; [discriminate|]. cbv zeta in H.
  destruct (x <? 128) eqn:E.
  - destruct (2 ^ 31 - 1 <? acc * 128 + Z.land x 127) eqn:E2; [discriminate|]. apply Ok_inj in H. injection H as <- <-. exists [x]. split; [reflexivity|].
    intros r'. cbn [app base128]. cbv zeta. rewrite E, E2. reflexivity.
  - destruct (IH _ _ H) as (pre & -> & Hp). exists (x :: pre). split; [reflexivity|]. intros r'. cbn [app base128]. cbv zeta. rewrite E. apply Hp.
Qed.
Lemma loc_parseBase128 : loc parseBase128.
Proof.
  intros b v r H. unfold parseBase128 in H. destruct (hd 0 b =? 128) eqn:E; [discriminate|]. destruct (loc_base128 _ _ _ _ _ H) as (pre & -> & Hp).
  exists pre. split; [reflexivity|]. intros r'. unfold parseBase128. destruct pre as [|x pre].
  - cbn [app base128] in H. specialize (Hp []). discriminate.
  - cbn [app hd] in *. rewrite E. apply Hp.
Qed.
Lemma loc_len_bytes k acc : loc (len_bytes k acc).
Proof.
  intros b v r. revert acc b. induction k as [|k IH]; intros acc b H; cbn [len_bytes] in H.
  - apply Ok_inj in H. injection H as <- <-. exists []. split; reflexivity.
  - destruct b as [|x b]; [discriminate|]. destruct (2 ^ 23 <=? acc) eqn:E; [discriminate|]. cbv zeta in H. destruct (acc * 256 + x =? 0) eqn:E2; [discriminate|].
    destruct (IH _ _ H) as (pre & -> & Hp). exists (x :: pre). split; [reflexivity|]. intros r'. cbn [app len_bytes]. rewrite E. cbv zeta. rewrite E2. apply Hp.
Qed.
Lemma loc_parse_len : loc parse_len.
Proof.
  intros b v r H. unfold parse_len in H. destruct b as [|x b]; [discriminate|]. destruct (x <? 128) eqn:E.
  - apply Ok_inj in H. injection H as <- <-. exists [x]. split; [reflexivity|]. intros r'. cbn [app parse_len]. now rewrite E.
  - destruct (x =? 128) eqn:E2; [discriminate|]. apply bind_ok in H as ([l rr] & H1 & H). cbn [fst] in H. destruct (l <? 128) eqn:E3; [discriminate|].
    apply Ok_inj in H. injection H as <- <-. destruct (loc_len_bytes _ _ _ _ _ H1) as (pre & -> & Hp). exists (x :: pre). split; [reflexivity|].
    intros r'. cbn [app parse_len]. rewrite E, E2, Hp. cbn [rbind fst]. now rewrite E3.
Qed.
Lemma loc_parse_hdr : loc parse_hdr.
Proof.
  intros b v r H. unfold parse_hdr in H. destruct b as [|t b]; [discriminate|]. apply bind_ok in H as ([tg b1] & H1 & H). apply bind_ok in H as ([l b2] & H2 & H).
  cbn [fst snd] in *. apply Ok_inj in H. injection H as <- <-. destruct (loc_parse_len _ _ _ H2) as (pre2 & -> & Hp2).
  destruct (Z.land t 31 =? 31) eqn:E.
  - apply bind_ok in H1 as ([q b3] & H0 & H1). cbn [fst] in H1. destruct (q <? 31) eqn:E2; [discriminate|]. apply Ok_inj in H1. injection H1 as -> ->.
    destruct (loc_parseBase128 _ _ _ H0) as (pre & -> & Hp). exists (t :: pre ++ pre2). split; [cbn [app]; now rewrite app_assoc|].
    intros r'. cbn [app]. unfold parse_hdr. rewrite E, <- app_assoc, Hp. cbn [rbind fst snd]. rewrite E2. cbn [rbind fst snd]. rewrite Hp2. reflexivity.
  - apply Ok_inj in H1. injection H1 as <- ->. exists (t :: pre2). split; [reflexivity|]. intros r'. cbn [app]. unfold parse_hdr. rewrite E. cbn [rbind fst snd]. rewrite Hp2. reflexivity.
Qed.
Lemma loc_take n : loc (take n).
Proof.
  intros b v r H. unfold take in H. destruct (Z.ltb_spec (zlen b) n) as [E|E]; [discriminate|]. apply Ok_inj in H. injection H as <- <-. exists (firstn (Z.to_nat n) b).
  split; [now rewrite firstn_skipn|]. intros r'. unfold take. rewrite zlen_app. pose proof (zlen_nonneg r').
  assert (L : Z.to_nat n = length (firstn (Z.to_nat n) b)) by (rewrite firstn_length; unfold zlen in E; lia).
  replace (zlen (firstn (Z.to_nat n) b) + zlen r' <? n) with false by (unfold zlen; rewrite <- L; lia).
  generalize dependent (firstn (Z.to_nat n) b). intros a L. rewrite L, firstn_app_l, skipn_app_l by reflexivity. reflexivity.
Qed.
Lemma loc_req {A} t (p : list Z -> res A) : loc (req t p).
Proof.
  intros b v r H. unfold req in H. apply bind_ok in H as ([h b1] & H1 & H). cbn [fst snd] in H. destruct (tag_is h t) eqn:E; [|discriminate].
  apply bind_ok in H as ([c b2] & H2 & H). apply bind_ok in H as (w & H3 & H). cbn [fst snd] in *. apply Ok_inj in H. injection H as <- <-.
  destruct (loc_parse_hdr _ _ _ H1) as (p1 & -> & K1). destruct (loc_take _ _ _ _ H2) as (p2 & -> & K2). exists (p1 ++ p2). split; [now rewrite app_assoc|].
  intros r'. unfold req. rewrite <- app_assoc, K1. cbn [rbind fst snd]. rewrite E, K2. cbn [rbind fst snd]. rewrite H3. reflexivity.
Qed.
Lemma with_full_inv {A} (p : list Z -> res (A * list Z)) b v full r : loc p -> with_full p b = Ok (v, full, r) -> b = full ++ r /\ forall r', p (full ++ r') = Ok (v, r').
Proof.
  intros L H. unfold with_full in H. apply bind_ok in H as ([w r2] & H1 & H). cbn [fst snd] in H. apply Ok_inj in H. injection H as <- <- <-.
  destruct (L _ _ _ H1) as (pre & -> & K). rewrite app_length. replace (length pre + length r2 - length r2)%nat with (length pre) by lia.
  rewrite firstn_app_l by reflexivity. split; [reflexivity|exact K].
Qed.
Lemma loc_with_full {A} (p : list Z -> res (A * list Z)) : loc p -> loc (with_full p).
Proof.
  intros L b [v full] r H. destruct (with_full_inv _ _ _ _ _ L H) as [-> K]. exists full. split; [reflexivity|]. intros r'. unfold with_full. rewrite K. cbn [rbind fst snd].
  rewrite app_length. replace (length full + length r' - length r')%nat with (length full) by lia. now rewrite firstn_app_l by reflexivity.
Qed.

(** ** No panics *)
Definition np {A} (r : res A) : Prop := r <> Panic.
Lemma np_bind {A B} (r : res A) (f : A -> res B) : np r -> (forall a, r = Ok a -> np (f a)) -> np (rbind r f).
Proof. unfold np. destruct r; cbn [rbind]; intros H1 H2; [apply H2; reflexivity|discriminate|congruence]. Qed.
Lemma np_ok {A} (a : A) : np (Ok a). Proof. discriminate. Qed.
Lemma np_err {A} k : np (@Err A k). Proof. discriminate. Qed.
Definition npp {A B} (p : A -> res B) : Prop := forall a, np (p a).
Ltac np1 := repeat match goal with
  | |- np (Ok _) => apply np_ok
  | |- np (Err _) => apply np_err
  | |- np (rbind _ _) => apply np_bind; [|intros ? ?]
  | |- np (if ?b then _ else _) => destruct b
  | |- np (match ?x with _ => _ end) => destruct x
  | |- np _ => assumption || (match goal with H : npp _ |- _ => apply H end)
  end.
Lemma np_base128 k : forall acc b, np (base128 k acc b).
Proof. induction k as [|k IH]; intros acc b; cbn [base128]; [np1|]. destruct b as [|x b]; [np1|]. cbv zeta. destruct (x <? 128); [np1|apply IH]. Qed.
Lemma np_parseBase128 : npp parseBase128. Proof. intros b. unfold parseBase128. destruct (_ =? _); [np1|apply np_base128]. Qed.
Lemma np_len_bytes k : forall acc b, np (len_bytes k acc b).
Proof. induction k as [|k IH]; intros acc b; cbn [len_bytes]; [np1|]. destruct b; [np1|]. destruct (_ <=? _); [np1|]. cbv zeta. destruct (_ =? _); [np1|apply IH]. Qed.
Lemma np_parse_len : npp parse_len.
Proof. intros b. unfold parse_len. destruct b; [np1|]. destruct (_ <? _); [np1|]. destruct (_ =? _); [np1|]. apply np_bind; [apply np_len_bytes|intros a _; np1]. Qed.
Lemma np_parse_hdr : npp parse_hdr.
Proof.
  intros b. unfold parse_hdr. destruct b; [np1|]. apply np_bind; [|intros a _; apply np_bind; [apply np_parse_len|intros ? ?; np1]].
  destruct (_ =? _); [|np1]. apply np_bind; [apply np_parseBase128|intros ? ?; np1].
Qed.
Lemma np_take n : npp (take n). Proof. intros b. unfold take. np1. Qed.
Lemma np_req {A} t (p : list Z -> res A) : npp p -> npp (req t p).
Proof. intros H b. unfold req. apply np_bind; [apply np_parse_hdr|]. intros a _. destruct (tag_is _ _); [|np1]. apply np_bind; [apply np_take|]. intros c _. apply np_bind; [apply H|]. intros; np1. Qed.
Lemma np_opt {A} t (p : list Z -> res A) : npp p -> npp (opt t p).
Proof. intros H b. unfold opt. destruct b; [np1|]. apply np_bind; [apply np_parse_hdr|]. intros a _. destruct (tag_is _ _); [|np1]. apply np_bind; [apply np_take|]. intros c _. apply np_bind; [apply H|]. intros; np1. Qed.
Lemma np_explicit {A} t i (p : list Z -> res A) : npp p -> npp (explicit t i p).
Proof.
  intros H b. unfold explicit. destruct b; [np1|]. apply np_bind; [apply np_parse_hdr|]. intros a _. destruct (_ =? _)%nat; [np1|]. destruct (_ && _); [|np1]. destruct (_ =? _); [np1|].
  apply np_bind; [apply np_parse_hdr|]. intros g _. destruct (tag_is _ _); [|np1]. apply np_bind; [apply np_take|]. intros c _. apply np_bind; [apply H|]. intros; np1.
Qed.
Lemma np_any : npp any.
Proof. intros b. unfold any. apply np_bind; [apply np_parse_hdr|]. intros a _. apply np_bind; [apply np_take|]. intros; np1. Qed.
Lemma np_with_full {A} (p : list Z -> res (A * list Z)) : npp p -> npp (with_full p).
Proof. intros H b. unfold with_full. apply np_bind; [apply H|]. intros; np1. Qed.
Lemma np_whole {A} (p : list Z -> res (A * list Z)) : npp p -> npp (whole p).
Proof. intros H b. unfold whole. apply np_bind; [apply H|]. intros; np1. Qed.
Lemma np_seq_of {A} (p : list Z -> res (A * list Z)) : npp p -> npp (seq_of p).
Proof.
  intros H b. unfold seq_of. generalize (length b) as f. intros f. revert b. induction f as [|f IH]; intros b; cbn [seq_of_aux]; destruct b; try np1; apply IH.
Qed.
Lemma np_oid : npp p_oid_content. Proof. intros b. unfold p_oid_content. np1. Qed.
Lemma np_bool : npp p_bool. Proof. intros b. unfold p_bool. np1. Qed.
Lemma np_int : npp int_value. Proof. intros b. unfold int_value. cbv zeta. np1. Qed.
Lemma np_int64 : npp p_int64. Proof. intros b. unfold p_int64. apply np_bind; [apply np_int|]. intros; np1. Qed.
Lemma np_bits : npp p_bits. Proof. intros b. unfold p_bits. np1. Qed.
Lemma np_id : npp p_id. Proof. intros b. unfold p_id. np1. Qed.
Lemma np_alg : npp p_alg.
Proof. intros b. unfold p_alg. apply np_bind; [apply np_req, np_oid|]. intros a _. destruct (snd a); [np1|]. apply np_bind; [apply np_any|]. intros; np1. Qed.

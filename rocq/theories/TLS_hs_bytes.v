(** Byte-ness and sizes of what the handshake reads and computes (Go's []byte makes this a typing fact; here it is proved). *)
From Verif Require Import GoBase GoLemmas BigBytes HMAC SM3_spec Prime_cert SM2_curve_spec SM2_spec SM2_model SM2_proofs P_SM2 TLS_prf_model TLS_prf_spec TLS_prf_proofs
  TLS_gmka_model P_TLS_gmka TLS_msg_model.
Open Scope Z_scope.
#[local] Opaque sm3 smul Bytes be_bytes sm2_p sm2_n Decrypt.

Lemma bytes_nth (l : list Z) j : bytes l -> is_byte (nth j l 0).
Proof. intros H. destruct (Nat.ltb_spec j (length l)); [|rewrite nth_overflow by lia; unfold is_byte; lia]. unfold bytes in H. rewrite Forall_forall in H. apply H. now apply nth_In. Qed.
Lemma bytes_map_seq (f : nat -> Z) a k : (forall j, (a <= j < a + k)%nat -> is_byte (f j)) -> bytes (map f (seq a k)).
Proof. intros H. unfold bytes. apply Forall_map, Forall_forall. intros j Hj. apply in_seq in Hj. apply H. lia. Qed.
Lemma A_bytes mac size seed i : good_hash mac size -> bytes seed -> bytes (A mac seed i).
Proof. intros G Hs. induction i as [|i IH]; cbn [A]; [exact Hs|]. now apply G. Qed.
Lemma P_hash_bytes mac size seed k : good_hash mac size -> bytes seed -> bytes (P_hash mac size seed k).
Proof.
  intros G Hs. apply bytes_map_seq. intros j _. unfold P_byte. apply bytes_nth. apply G. apply bytes_app. split; [eapply A_bytes; eauto|exact Hs].
Qed.
Lemma PRF_bytes Hs v k secret label seed : good_hashes Hs -> bytes secret -> bytes label -> bytes seed -> (k <= 176)%nat -> bytes (PRF Hs v k secret label seed).
Proof.
  intros (G1 & G2 & G3 & G4) B1 B2 B3 Hk.
  assert (BL : bytes (label ++ seed)) by (apply bytes_app; auto).
  assert (T1 : bytes (xorl (P_hash (hmac (MD5 Hs) 64 (firstn ((length secret + 1) / 2) secret)) 16 (label ++ seed) k)
                           (P_hash (hmac (SHA1 Hs) 64 (skipn (length secret / 2) secret)) 20 (label ++ seed) k))).
  { apply xorl_bytes; (eapply P_hash_bytes; [apply hmac_good; [eassumption|lia|]|exact BL]); [apply bytes_firstn|apply bytes_skipn]; exact B1. }
  destruct v as [| | |[|]|]; cbn [PRF].
  - apply bytes_map_seq. intros j Hj. unfold S3_byte. apply bytes_nth. apply G1. apply bytes_app. split; [exact B1|].
    apply G2. apply bytes_app. split; [|apply bytes_app; auto].
    apply Forall_forall. intros x Hx. apply repeat_spec in Hx. subst x. unfold is_byte.
    assert (j / 16 <= 11)%nat by (apply Nat.div_le_upper_bound; lia). lia.
  - exact T1.
  - exact T1.
  - eapply P_hash_bytes; [apply hmac_good; [eassumption|lia|exact B1]|exact BL].
  - eapply P_hash_bytes; [apply hmac_good; [eassumption|lia|exact B1]|exact BL].
  - eapply P_hash_bytes; [apply hmac_good; [apply sm3_good|lia|exact B1]|exact BL].
Qed.

(** ** Parsed messages *)
Lemma fails_ok {A} c (k : res A) r : fails c k = Ok r -> c = false /\ k = Ok r.
Proof. unfold fails. destruct c; [discriminate|auto]. Qed.
Lemma rbind_ok {A B} (r : res A) (k : A -> res B) b : rbind r k = Ok b -> exists a, r = Ok a /\ k a = Ok b.
Proof. destruct r; cbn [rbind]; intros H; try discriminate. eauto. Qed.
Lemma sl_from_ok d k r : sl_from d k = Ok r -> 0 <= k <= zlen d /\ r = skipn (Z.to_nat k) d.
Proof. unfold sl_from. destruct ((0 <=? k) && (k <=? zlen d)) eqn:E; [|discriminate]. intros [= <-]. split; [lia|reflexivity]. Qed.
Lemma sl_to_ok d k r : sl_to d k = Ok r -> 0 <= k <= zlen d /\ r = firstn (Z.to_nat k) d.
Proof. unfold sl_to. destruct ((0 <=? k) && (k <=? zlen d)) eqn:E; [|discriminate]. intros [= <-]. split; [lia|reflexivity]. Qed.
Lemma sl_ok d a b r : sl d a b = Ok r -> bytes d -> bytes r /\ zlen r = b - a.
Proof.
  unfold sl. intros H Hb. apply rbind_ok in H as (t & H1 & H). apply sl_to_ok in H1 as [L1 ->]. apply sl_from_ok in H as [L2 ->].
  split; [apply bytes_skipn, bytes_firstn, Hb|]. unfold zlen in *. rewrite firstn_length in L2. rewrite skipn_length, firstn_length. lia.
Qed.
Lemma wloop_inv {A} (P : A -> Prop) body : (forall a d r, P a -> body a d = Ok r -> P (fst r)) -> forall fuel a d r, P a -> wloop body fuel a d = Ok r -> P r.
Proof.
  intros HB. induction fuel as [|f IH]; intros a d r Ha H; destruct d as [|x d]; cbn [wloop] in H; try (injection H as <-; exact Ha); [discriminate|].
  apply rbind_ok in H as (q & Hq & H). eapply IH; [|exact H]. eapply HB; eauto.
Qed.
Lemma ext_body_inv {M} (P : M -> Prop) sw : (forall m e l d r, P m -> sw m e l d = Ok r -> P r) -> forall a d r, P a -> ext_body sw a d = Ok r -> P (fst r).
Proof.
  intros HS a d r Ha H. unfold ext_body in H. apply fails_ok in H as [_ H].
  do 3 (apply rbind_ok in H as (? & _ & H)). apply fails_ok in H as [_ H]. apply rbind_ok in H as (m & Hm & H). apply rbind_ok in H as (? & _ & H).
  injection H as <-. cbn [fst]. eapply HS; eauto.
Qed.
Ltac ropen H := repeat first [ progress cbv zeta in H | apply fails_ok in H as [_ H] | apply rbind_ok in H as (? & _ & H) ].
Lemma ch_ext_random R m e l d r : ch_random m = R -> ch_ext m e l d = Ok r -> ch_random r = R.
Proof.
  intros HR H. unfold ch_ext in H.
  repeat match type of H with (if ?c then _ else _) = _ => destruct c end;
    try solve [ropen H; injection H as <-; exact HR].
  apply rbind_ok in H as (? & _ & H). apply fails_ok in H as [_ H]. do 2 (apply rbind_ok in H as (? & _ & H)). apply fails_ok in H as [_ H].
  revert H. unfold wrun. apply (wloop_inv (fun c => ch_random c = R)); [|exact HR].
  clear. intros a d r Ha H. unfold sni_body in H. apply fails_ok in H as [_ H]. do 3 (apply rbind_ok in H as (? & _ & H)). apply fails_ok in H as [_ H].
  apply rbind_ok in H as (? & _ & H). destruct (x =? 0); ropen H; injection H as <-; exact Ha.
Qed.
Lemma ch_random_ok m d r : u_clientHello m d = Ok r -> bytes d -> bytes (ch_random r) /\ length (ch_random r) = 32%nat.
Proof.
  intros H Hb. unfold u_clientHello in H. apply fails_ok in H as [_ H]. apply rbind_ok in H as (? & _ & H). apply rbind_ok in H as (R & HR & H).
  apply sl_ok in HR as [BR LR]; [|exact Hb].
  assert (X : ch_random r = R).
  { apply rbind_ok in H as (? & _ & H). apply fails_ok in H as [_ H]. do 2 (apply rbind_ok in H as (? & _ & H)). apply fails_ok in H as [_ H].
    apply rbind_ok in H as (? & _ & H). apply fails_ok in H as [_ H]. do 2 (apply rbind_ok in H as (? & _ & H)). cbv zeta in H.
    apply rbind_ok in H as (? & _ & H). apply fails_ok in H as [_ H]. apply rbind_ok in H as (? & _ & H). apply fails_ok in H as [_ H].
    do 2 (apply rbind_ok in H as (? & _ & H)).
    match type of H with (if ?c then _ else _) = _ => destruct c end; [injection H as <-; reflexivity|].
    apply fails_ok in H as [_ H]. do 2 (apply rbind_ok in H as (? & _ & H)). apply fails_ok in H as [_ H].
    revert H. unfold wrun. apply (wloop_inv (fun c => ch_random c = R)); [|reflexivity].
    intros a d' r' Ha. apply (ext_body_inv (fun c => ch_random c = R) ch_ext); [|exact Ha]. intros m' e l d2 r2 Hm He. exact (ch_ext_random R m' e l d2 r2 Hm He). }
  rewrite X. split; [exact BR|]. unfold zlen in LR. lia.
Qed.
Lemma sh_ext_random R m e l d r : sh_random m = R -> sh_ext m e l d = Ok r -> sh_random r = R.
Proof.
  intros HR H. unfold sh_ext in H.
  repeat match type of H with (if ?c then _ else _) = _ => destruct c end; solve [ropen H; injection H as <-; exact HR].
Qed.
Lemma sh_random_ok m d r : u_serverHello m d = Ok r -> bytes d -> bytes (sh_random r) /\ length (sh_random r) = 32%nat.
Proof.
  intros H Hb. unfold u_serverHello in H. apply fails_ok in H as [_ H]. apply rbind_ok in H as (? & _ & H). apply rbind_ok in H as (R & HR & H).
  apply sl_ok in HR as [BR LR]; [|exact Hb].
  assert (X : sh_random r = R).
  { apply rbind_ok in H as (? & _ & H). apply fails_ok in H as [_ H]. do 2 (apply rbind_ok in H as (? & _ & H)). apply fails_ok in H as [_ H].
    do 3 (apply rbind_ok in H as (? & _ & H)). cbv zeta in H.
    match type of H with (if ?c then _ else _) = _ => destruct c end; [injection H as <-; reflexivity|].
    apply fails_ok in H as [_ H]. do 2 (apply rbind_ok in H as (? & _ & H)). apply fails_ok in H as [_ H].
    revert H. unfold wrun. apply (wloop_inv (fun c => sh_random c = R)); [|reflexivity].
    intros a d' r' Ha. apply (ext_body_inv (fun c => sh_random c = R) sh_ext); [|exact Ha]. intros m' e l d2 r2 Hm He. exact (sh_ext_random R m' e l d2 r2 Hm He). }
  rewrite X. split; [exact BR|]. unfold zlen in LR. lia.
Qed.

(** ** The pre-master secret *)
Lemma processCKX_small {T} (cv : curve T) key ct pms : mult_range cv -> bytes ct -> zlen ct < 2 ^ 57 -> processClientKeyExchange cv key ct = Ok pms ->
  bytes pms /\ length pms = 48%nat.
Proof.
  intros HM Hb Hl H. destruct ct as [|b0 [|b1 c]]; try discriminate. cbn [processClientKeyExchange] in H.
  destruct (negb _); [discriminate|]. destruct key as [priv|]; [|discriminate].
  apply rbind_ok in H as (plain & HD & H). destruct (length plain =? 48)%nat eqn:EL; [|discriminate]. cbn [negb] in H. injection H as <-.
  split; [|now apply Nat.eqb_eq]. apply bytes_cons in Hb as [_ Hb]. apply bytes_cons in Hb as [_ Hb].
  assert (Hc : zlen c < 2 ^ 57) by (unfold zlen in *; cbn [length] in Hl; lia).
  destruct (C22_malformed_refuted T cv priv c Hb Hc HM) as [_ X].
  assert (NP : Decrypt cv c priv <> Panic) by congruence.
  assert (H97 : (97 <= length c)%nat) by (destruct (Nat.ltb_spec (length c) 97); [exfalso; apply NP, X; auto|lia]).
  assert (H4 : nth 0 c 0 = 4) by (destruct (Z.eq_dec (nth 0 c 0) 4); [auto|exfalso; apply NP, X; auto]).
  set (x1 := be_val (firstn 32 (skipn 1 c))). set (y1 := be_val (firstn 32 (skipn 33 c))).
  destruct (cv_mult cv x1 y1 (Bytes (sD priv))) as [x2 y2] eqn:EM.
  pose proof (HM x1 y1 (Bytes (sD priv)) (be_val_32 _ (bytes_skipn 1 _ Hb)) (be_val_32 _ (bytes_skipn 33 _ Hb)) (Bytes_bytes _)) as R. rewrite EM in R. cbn [fst snd] in R.
  destruct (C20_only_authenticated T cv c priv plain Hb Hc H97 H4 x2 y2 EM (proj1 R) (proj2 R)) as [I _].
  apply I in HD as (_ & E2 & _).
  assert (EP : plain = c2_of (Pt x2 y2) (skipn 97 c)).
  { rewrite E2. change (plain = c2_of (Pt x2 y2) (c2_of (Pt x2 y2) plain)). now rewrite c2_c2. }
  rewrite EP. apply c2_bytes. now apply bytes_skipn.
Qed.

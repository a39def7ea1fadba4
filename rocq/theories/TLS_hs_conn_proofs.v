(** Reading handshake messages over the record layer: what readRecord, readHandshake and the ChangeCipherSpec step do for every peer. *)
From Verif Require Import GoBase GoLemmas CBC SM3_spec SM4_spec HMAC TLS_record_model TLS_rec_proofs TLS_io_proofs P_TLS_record TLS_hs_model TLS_hs_conn.
Open Scope Z_scope.
Ltac Zify.zify_post_hook ::= Z.div_mod_to_equations.
#[local] Opaque sm3 sm4_enc sm4_dec.

(** ** A record changes neither the keys in force nor the keys in waiting *)
Definition same_cipher (c c' : option cph) : Prop :=
  match c, c' with
  | None, None => True
  | Some (Stream ks _), Some (Stream ks' _) => ks = ks'
  | Some (Aead a), Some (Aead a') => a = a'
  | Some (Cbc e b F _), Some (Cbc e' b' F' _) => e = e' /\ b = b' /\ F = F'
  | _, _ => False
  end.
Definition same_keys (h h' : half) : Prop :=
  h_version h' = h_version h /\ same_cipher (h_cipher h) (h_cipher h') /\ h_mac h' = h_mac h /\ h_nextCipher h' = h_nextCipher h /\ h_nextMac h' = h_nextMac h.
Lemma same_cipher_refl c : same_cipher c c. Proof. destruct c as [[| |]|]; cbn; auto. Qed.
Lemma same_keys_refl h : same_keys h h. Proof. repeat split. apply same_cipher_refl. Qed.
Lemma same_cipher_trans a b c : same_cipher a b -> same_cipher b c -> same_cipher a c.
Proof. destruct a as [[| |]|], b as [[| |]|], c as [[| |]|]; cbn; try tauto; try congruence. intuition congruence. Qed.
Lemma same_keys_trans a b c : same_keys a b -> same_keys b c -> same_keys a c.
Proof. intros (A1 & A2 & A3 & A4 & A5) (B1 & B2 & B3 & B4 & B5). repeat split; try congruence. eapply same_cipher_trans; eassumption. Qed.
Lemma incSeq_keeps h h' : incSeq h = Ok h' -> same_keys h h'.
Proof. unfold incSeq. destruct (inc_from _ _); [|discriminate]. intros [= <-]. repeat split; apply same_cipher_refl. Qed.
Lemma set_cipher_keeps h c : same_cipher (h_cipher h) c -> same_keys h (set_cipher h c). Proof. intros H. repeat split. exact H. Qed.
Lemma decipher_keeps h hd p n eiv q pl g c : decipher h hd p n = Ok (Some (eiv, q, pl, g, c)) -> same_cipher (h_cipher h) c.
Proof.
  unfold decipher. destruct (h_cipher h) as [[ks pos|a|en bs F iv]|].
  - now intros [= _ _ _ _ <-].
  - destruct (_ <? _)%nat; [discriminate|]. destruct (a_open _ _ _ _); [|discriminate]. now intros [= _ _ _ _ <-].
  - destruct (_ || _); [discriminate|]. destruct (CryptBlocks _ _ _ _ _) as [[o i]| |]; cbn [rbind]; try discriminate. destruct (if h_version h =? VersionSSL30 then extractPaddingSSL30 o else extractPadding o) as [x y]. intros [= _ _ _ _ <-]. cbn. auto.
  - now intros [= _ _ _ _ <-].
Qed.
Lemma decrypt_keeps h data r : decrypt h data = Ok r -> same_keys h (match r with DecOk _ _ h' | DecBad h' => h' end).
Proof.
  unfold decrypt. destruct (_ <? _)%nat; [discriminate|]. destruct (decipher _ _ _ _) as [[[[[[e p] pl] g] c]|]| |] eqn:ED; cbn [rbind]; try discriminate.
  2:{ intros [= <-]. apply same_keys_refl. }
  apply decipher_keeps in ED. pose proof (set_cipher_keeps h c ED) as HK. rewrite set_cipher_mac. destruct (h_mac h) as [m|].
  - destruct (_ <? _)%nat; [now intros [= <-]|]. destruct (_ || _); [discriminate|]. destruct (_ || _); [now intros [= <-]|].
    destruct (incSeq (set_cipher h c)) as [h1| |] eqn:E; cbn [rbind]; try discriminate. intros H. apply (f_equal (fun x => match x with Ok y => y | _ => DecBad h end)) in H. cbv beta iota in H. subst r.
    apply incSeq_keeps in E. eapply same_keys_trans; eassumption.
  - destruct (incSeq (set_cipher h c)) as [h1| |] eqn:E; cbn [rbind]; try discriminate. intros H. apply (f_equal (fun x => match x with Ok y => y | _ => DecBad h end)) in H. cbv beta iota in H. subst r.
    apply incSeq_keeps in E. eapply same_keys_trans; eassumption.
Qed.
Lemma encrypt_keeps h data n d h' : encrypt h data n = Ok (d, h') -> same_keys h h'.
Proof.
  unfold encrypt. destruct (_ <? _)%nat; [discriminate|]. set (dd := match h_mac h with Some _ => _ | None => _ end). clearbody dd. destruct (encipher h dd n) as [[x c]| |] eqn:EE; cbn [rbind]; try discriminate.
  destruct (incSeq (set_cipher h c)) as [h1| |] eqn:E; cbn [rbind]; try discriminate. intros [= _ <-]. apply incSeq_keeps in E. eapply same_keys_trans; [|exact E]. apply set_cipher_keeps.
  unfold encipher in EE. destruct (h_cipher h) as [[ks pos|a|en bs F iv]|].
  - now injection EE as _ <-.
  - now injection EE as _ <-.
  - destruct (padToBlockSize _ _) as [p f]. destruct (CryptBlocks en bs F _ p) as [[o1 i1]| |]; cbn [rbind] in EE; try discriminate.
    destruct (CryptBlocks en bs F i1 f) as [[o2 i2]| |]; cbn [rbind] in EE; try discriminate. injection EE as _ <-. cbn. auto.
  - now injection EE as _ <-.
Qed.
Lemma write_one_keeps w typ data rnd w' m : write_one w typ data rnd = Ok (w', m) -> same_keys (w_out w) (w_out w') /\ w_vers w' = w_vers w /\ w_dyn w' = w_dyn w /\ exists r, w_log w' = w_log w ++ [r].
Proof.
  unfold write_one. destruct (explicit_iv_len _) as [e isq]. destruct (maxPayloadSizeForWrite _ _ _) as [mp pk]. destruct (_ <? 0); [discriminate|]. destruct (if (0 <? e)%nat then _ else _) as [iv|]; [|discriminate].
  destruct (encrypt _ _ _) as [[rec h']| |] eqn:EE; cbn [rbind]; try discriminate. intros [= <- _]. cbn. apply encrypt_keeps in EE. eauto.
Qed.
Lemma write_loop_keeps : forall fuel w typ data rnds n w' n', write_loop fuel w typ data rnds n = Ok (w', n') ->
  same_keys (w_out w) (w_out w') /\ w_vers w' = w_vers w /\ w_dyn w' = w_dyn w /\ exists r, w_log w' = w_log w ++ r.
Proof.
  induction fuel as [|f IH]; intros w typ data rnds n w' n' H; destruct data as [|x data]; cbn [write_loop] in H; try discriminate.
  - injection H as <- _. repeat split; [apply same_cipher_refl|]. exists []. now rewrite app_nil_r.
  - injection H as <- _. repeat split; [apply same_cipher_refl|]. exists []. now rewrite app_nil_r.
  - destruct (write_one _ _ _ _) as [[w1 m]| |] eqn:E1; cbn [rbind] in H; try discriminate. apply write_one_keeps in E1 as (K1 & V1 & D1 & r1 & L1). apply IH in H as (K2 & V2 & D2 & r2 & L2).
    split; [eapply same_keys_trans; eassumption|]. split; [congruence|]. split; [congruence|]. exists ([r1] ++ r2). rewrite L2, L1, app_assoc. reflexivity.
Qed.

(** ** What a record read does when it succeeds *)
Definition calm (c c' : conn) : Prop :=
  c_haveVers c' = c_haveVers c /\ c_vers c' = c_vers c /\ c_complete c' = c_complete c /\ c_reneg c' = c_reneg c /\ c_alerts c' = c_alerts c /\ c_input c' = c_input c.
Lemma calm_refl c : calm c c. Proof. repeat split. Qed.
Lemma calm_trans a b c : calm a b -> calm b c -> calm a c. Proof. unfold calm. intuition congruence. Qed.
Definition grows (c c' : conn) : Prop := same_keys (c_in c) (c_in c') /\ exists d, c_hand c' = c_hand c ++ d /\ zlen d <= maxPlaintext.
Definition switched (c c' : conn) : Prop := c_hand c = [] /\ c_hand c' = [] /\ exists h, same_keys (c_in c) h /\ changeCipherSpec h = Ok (c_in c').
Definition got (want : Z) (c c' : conn) : Prop :=
  want = recordTypeHandshake /\ grows c c' \/
  want = recordTypeChangeCipherSpec /\ (switched c c' \/ c_haveVers c = true /\ c_reneg c = true /\ grows c c').
Definition hs_want (want : Z) : Prop := want = recordTypeHandshake \/ want = recordTypeChangeCipherSpec.
Lemma handle_got c want typ data c' : hs_want want -> c_err c = None -> (c_haveVers c = false -> typ = recordTypeAlert \/ typ = want) -> handle c want typ data = Ok (Ret c' None) -> calm c c' /\ got want c c'.
Proof.
  intros HW HE HV H. unfold handle in H. destruct (Z.ltb_spec maxPlaintext (zlen data)) as [|HL]; [discriminate|]. cbv zeta in H.
  set (c1 := if negb (typ =? recordTypeAlert) && _ then _ else _) in H.
  assert (F1 : calm c c1 /\ c_in c1 = c_in c /\ c_hand c1 = c_hand c /\ c_err c1 = None) by (unfold c1; destruct (_ && _); cbn; repeat split; auto). clearbody c1. destruct F1 as (K1 & I1 & H1 & E1).
  destruct (Z.eqb_spec typ recordTypeAlert) as [ |NA].
  { exfalso. destruct (negb _); [discriminate|]. destruct (_ =? alertCloseNotify); [discriminate|]. destruct (_ =? 1); [destruct (maxWarnAlertCount <? _); discriminate|]. destruct (_ =? 2); discriminate. }
  destruct (Z.eqb_spec typ recordTypeChangeCipherSpec) as [TC|NC].
  { destruct (negb (typ =? want)) eqn:EW; [discriminate|]. apply Bool.negb_false_iff, Z.eqb_eq in EW. cbn [orb] in H. destruct (_ || _); [discriminate|].
    destruct (Nat.ltb_spec 0 (length (c_hand c1))) as [|HH]; [discriminate|]. destruct (changeCipherSpec (c_in c1)) as [h| |] eqn:EC; try discriminate. unfold ret in H. injection H as <- _.
    split; [eapply calm_trans; [exact K1|]; repeat split|]. right. split; [congruence|]. left. assert (Z0 : c_hand c = []) by (rewrite <- H1; destruct (c_hand c1); [reflexivity|cbn in HH; lia]).
    split; [exact Z0|]. split; [cbn; rewrite H1; exact Z0|]. exists (c_in c1). rewrite I1 at 1. split; [apply same_keys_refl|]. exact EC. }
  destruct (Z.eqb_spec typ recordTypeApplicationData) as [TA|]. { exfalso. destruct (negb (typ =? want)) eqn:EW; [discriminate|]. apply Bool.negb_false_iff, Z.eqb_eq in EW. unfold hs_want, recordTypeHandshake, recordTypeChangeCipherSpec, recordTypeApplicationData in *. lia. }
  destruct (Z.eqb_spec typ recordTypeHandshake) as [TH|]; [|discriminate].
  destruct (negb (typ =? want) && negb (c_reneg c1)) eqn:EW; [discriminate|]. unfold ret in H. injection H as <- _.
  split; [eapply calm_trans; [exact K1|]; repeat split|].
  assert (G : grows c (with_hand c1 (c_hand c1 ++ data))). { split; [cbn; rewrite I1; apply same_keys_refl|]. exists data. cbn. rewrite H1. auto. }
  destruct HW as [-> | ->]; [left; auto|]. right. split; [reflexivity|]. right. rewrite TH in EW. cbn in EW. destruct K1 as (_ & _ & _ & KR & _). rewrite KR in EW. apply Bool.negb_false_iff in EW. split; [|auto].
  destruct (c_haveVers c) eqn:EH; [reflexivity|]. destruct (HV eq_refl); [contradiction|]. unfold recordTypeHandshake, recordTypeChangeCipherSpec in *. lia.
Qed.
Lemma bad_header_type c want hd : bad_header c want hd = None -> c_haveVers c = false -> nth 0 hd 0 = recordTypeAlert \/ nth 0 hd 0 = want.
Proof.
  unfold bad_header. intros H HV. rewrite HV in H. destruct (_ && _); [discriminate|]. cbn [andb negb] in H. destruct (maxCiphertext <? _); [discriminate|].
  destruct (Z.eqb_spec (nth 0 hd 0) recordTypeAlert); [now left|]. destruct (Z.eqb_spec (nth 0 hd 0) want); [now right|]. discriminate.
Qed.
Lemma pure_one_got c s want o s' : hs_want want -> c_err c = None -> pure_one c s want = Ok (o, s') ->
  match o with
  | Ret c' None => calm c c' /\ got want c c' /\ (length s' + 5 <= length s)%nat
  | Again c' => calm c c' /\ same_keys (c_in c) (c_in c') /\ c_hand c' = c_hand c /\ (length s' + 5 <= length s)%nat
  | _ => True end.
Proof.
  intros HW HE H. unfold pure_one in H. destruct (Nat.ltb_spec (length s) 5); [injection H as <- _; exact I|].
  destruct (bad_header c want (firstn 5 s)) as [o1|] eqn:EB. { apply bad_header_ret in EB as (a & e & -> & _). injection H as <- _. exact I. }
  set (n := Z.to_nat _) in H. destruct (Nat.ltb_spec (length s) (5 + n)); [injection H as <- _; exact I|].
  assert (LS : (length (skipn (5 + n) s) + 5 <= length s)%nat) by (rewrite skipn_length; lia).
  unfold process in H. destruct (decrypt (c_in c) (firstn (5 + n) s)) as [r| |] eqn:ED; cbn [rbind] in H; try discriminate. apply decrypt_keeps in ED. destruct r as [off d h|h].
  2:{ cbn [rbind] in H. injection H as <- _. exact I. }
  destruct (handle (with_in c h) want _ _) as [o1| |] eqn:EH; cbn [rbind] in H; try discriminate. injection H as <- <-.
  destruct o1 as [c'|c' [e|]]; [|exact I|].
  - apply handle_again in EH as (-> & _). repeat split; try apply ED; try exact LS.
  - apply handle_got in EH; [|exact HW|exact HE|].
    + destruct EH as (K & G). split; [exact K|]. split; [|exact LS]. destruct G as [[-> (G1 & G2)]|[-> [(G1 & G2 & h1 & G3 & G4)|(G1 & G2 & G3 & G4)]]].
      * left. split; [reflexivity|]. split; [eapply same_keys_trans; eassumption|exact G2].
      * right. split; [reflexivity|]. left. split; [exact G1|]. split; [exact G2|]. exists h1. split; [eapply same_keys_trans; eassumption|exact G4].
      * right. split; [reflexivity|]. right. split; [exact G1|]. split; [exact G2|]. split; [eapply same_keys_trans; eassumption|exact G4].
    + intros HV. change (c_haveVers (with_in c h)) with (c_haveVers c) in HV. pose proof (bad_header_type _ _ _ EB HV) as X. rewrite !nth_firstn_lt in X by lia. rewrite nth_firstn_lt by lia. exact X.
Qed.
Lemma got_pre want c c1 c' : calm c c1 -> same_keys (c_in c) (c_in c1) -> c_hand c1 = c_hand c -> got want c1 c' -> got want c c'.
Proof.
  intros (KV & _ & _ & KR & _) K H [[-> (G1 & d & G2)]|[-> [(G1 & G2 & h1 & G3 & G4)|(G1 & G2 & G3 & d & G4)]]].
  - left. split; [reflexivity|]. split; [eapply same_keys_trans; eassumption|]. exists d. now rewrite <- H.
  - right. split; [reflexivity|]. left. split; [congruence|]. split; [exact G2|]. exists h1. split; [eapply same_keys_trans; eassumption|exact G4].
  - right. split; [reflexivity|]. right. split; [congruence|]. split; [congruence|]. split; [eapply same_keys_trans; eassumption|]. exists d. now rewrite <- H.
Qed.
Lemma pure_loop_got : forall f c s want c' s', hs_want want -> c_err c = None -> pure_loop f c s want = Ok (c', None, s') -> calm c c' /\ got want c c' /\ (length s' + 5 <= length s)%nat.
Proof.
  induction f as [|f IH]; intros c s want c' s' HW HE H; [discriminate|]. cbn [pure_loop] in H. destruct (pure_one c s want) as [[o s1]| |] eqn:E; cbn [rbind] in H; try discriminate.
  pose proof (pure_one_got _ _ _ _ _ HW HE E) as G. destruct o as [c1|c1 e1].
  - apply pure_again in E as (_ & _ & E). destruct G as (K & KK & KH & KL). apply IH in H; [|exact HW|congruence]. destruct H as (H1 & H2 & H3).
    split; [eapply calm_trans; eassumption|]. split; [eapply got_pre; eassumption|lia].
  - injection H as -> -> ->. exact G.
Qed.
(** readRecord, in handshake mode, on a network without temporary errors *)
Lemma readRecord_got c t want c' t' : hs_want want -> sane c -> c_err c = None -> readRecord c t want = Ok (c', None, t') ->
  calm c c' /\ got want c c' /\ (length (stream c' t') + 5 <= length (stream c t))%nat /\ c_err c' = None /\ sane c' /\ temps t' = temps t.
Proof.
  intros HW HS HE H. pose proof (readRecord_err _ _ _ _ _ _ H) as [[? _]|[EE _]]; [discriminate|].
  destruct (readRecord_pure c t want (proj1 HS)) as [(c2 & t2 & H2 & _)|(HP & HT)]; [congruence|]. rewrite H in HP. cbn [res_view] in HP. symmetry in HP.
  pose proof (pure_readRecord_sane (view c) (stream c t) want (view c') None (stream c' t') HS HP) as [HS' _].
  unfold pure_readRecord in HP. destruct (if _ || _ then _ else _); [discriminate|]. apply pure_loop_got in HP; [|exact HW|exact HE]. destruct HP as (K & G & L).
  split; [exact K|]. split; [exact G|]. split; [exact L|]. split; [now symmetry|]. split; [exact HS'|]. now apply HT in H.
Qed.
Lemma readRecord_no_temp c t want c' e t' : sane c -> temps t = 0%nat -> readRecord c t want = Ok (c', e, t') -> e <> Some ETemp.
Proof.
  intros HS HT H. destruct (readRecord_pure c t want (proj1 HS)) as [(c2 & t2 & _ & L & _)|(HP & _)]; [lia|]. rewrite H in HP. cbn [res_view] in HP. symmetry in HP.
  now apply (pure_readRecord_sane (view c) (stream c t)) in HP as [_ HP].
Qed.

(** ** readHandshake *)
(** however a read ends, it adds at most one record's plaintext to the handshake buffer *)
Lemma handle_hand c want typ data o : handle c want typ data = Ok o -> exists d, c_hand (out_conn o) = c_hand c ++ d /\ zlen d <= maxPlaintext.
Proof.
  intros H. assert (Z0 : zlen (@nil Z) <= maxPlaintext) by (unfold maxPlaintext; cbn; lia).
  assert (G : c_hand (out_conn o) = c_hand c \/ (c_hand (out_conn o) = c_hand c ++ data /\ zlen data <= maxPlaintext)).
  2:{ destruct G as [G|[G1 G2]]; [exists []; rewrite app_nil_r; auto|eauto]. }
  unfold handle in H. destruct (Z.ltb_spec maxPlaintext (zlen data)); [left; injection H as <-; reflexivity|]. cbv zeta in H.
  set (c1 := if negb (typ =? recordTypeAlert) && _ then _ else _) in H. assert (F : c_hand c1 = c_hand c) by (unfold c1; destruct (_ && _); reflexivity). clearbody c1. rewrite <- F.
  repeat match type of H with (if ?b then _ else _) = _ => destruct b | (let x := _ in _) = _ => cbv zeta in H | match ?x with _ => _ end = _ => destruct x end; try discriminate; injection H as <-; cbn; auto.
Qed.
Lemma one_record_hand c t want o t' : one_record c t want = Ok (o, t') -> exists d, c_hand (out_conn o) = c_hand c ++ d /\ zlen d <= maxPlaintext.
Proof.
  intros H. assert (N : exists d : list Z, c_hand c = c_hand c ++ d /\ zlen d <= maxPlaintext) by (exists []; rewrite app_nil_r; split; [reflexivity|unfold maxPlaintext; cbn; lia]).
  unfold one_record in H. destruct (readFromUntil _ _ _) as [[b err] t1]. destruct err as [e|]. { injection H as <- _. destruct e; exact N. }
  destruct (bad_header _ _ _) as [o1|] eqn:EB. { injection H as <- _. apply bad_header_ret in EB as (a & e & -> & _). exact N. }
  destruct (readFromUntil t1 _ _) as [[b2 err2] t2]. destruct err2 as [e|]. { injection H as <- _. destruct e; exact N. }
  unfold process in H. destruct (decrypt _ _) as [[off d h|h]| |]; cbn [rbind] in H; try discriminate.
  - destruct (handle _ _ _ _) as [o1| |] eqn:EH; cbn [rbind] in H; try discriminate. injection H as <- _. apply handle_hand in EH. exact EH.
  - injection H as <- _. exact N.
Qed.
Lemma one_record_again c t want c' t' : one_record c t want = Ok (Again c', t') -> c_hand c' = c_hand c.
Proof.
  intros H. unfold one_record in H. destruct (readFromUntil _ _ _) as [[b err] t1]. destruct err as [e|]. { destruct e; discriminate. }
  destruct (bad_header _ _ _) as [o1|] eqn:EB. { apply bad_header_ret in EB as (a & e & -> & _). discriminate. }
  destruct (readFromUntil t1 _ _) as [[b2 err2] t2]. destruct err2 as [e|]. { destruct e; discriminate. }
  unfold process in H. destruct (decrypt _ _) as [[off d h|h]| |]; cbn [rbind] in H; try discriminate.
  destruct (handle _ _ _ _) as [o1| |] eqn:EH; cbn [rbind] in H; try discriminate. injection H as -> _. apply handle_again in EH as (-> & _). reflexivity.
Qed.
Lemma record_loop_hand : forall f c t want c' e t', record_loop f c t want = Ok (c', e, t') -> exists d, c_hand c' = c_hand c ++ d /\ zlen d <= maxPlaintext.
Proof.
  induction f as [|f IH]; intros c t want c' e t' H; [discriminate|]. cbn [record_loop] in H. destruct (one_record c t want) as [[o t1]| |] eqn:E; cbn [rbind] in H; try discriminate. destruct o as [c1|c1 e1].
  - apply one_record_again in E. apply IH in H. now rewrite E in H.
  - injection H as <- <- <-. apply one_record_hand in E. exact E.
Qed.
Lemma readRecord_hand c t want c' e t' : readRecord c t want = Ok (c', e, t') -> exists d, c_hand c' = c_hand c ++ d /\ zlen d <= maxPlaintext.
Proof.
  unfold readRecord. cbv zeta. match goal with |- context [if ?b then Ok _ else record_loop _ _ _ _] => destruct b end; [|apply record_loop_hand].
  intros [= <- _ _]. exists []. cbn. rewrite app_nil_r. split; [reflexivity|unfold maxPlaintext; lia].
Qed.
Lemma put_alert_c l a : k_c (put_alert l a) = k_c l. Proof. reflexivity. Qed.
Lemma put_alerts_c : forall al l, k_c (fold_left put_alert al l) = k_c l /\ k_t (fold_left put_alert al l) = k_t l /\ k_iv (fold_left put_alert al l) = k_iv l.
Proof. induction al as [|a al IH]; intros l; [auto|]. cbn [fold_left]. destruct (IH (put_alert l a)) as (-> & -> & ->). auto. Qed.
Lemma l_readRecord_hand want l r l' : l_readRecord want l = (r, l') -> exists d, c_hand (k_c l') = c_hand (k_c l) ++ d /\ zlen d <= maxPlaintext.
Proof.
  unfold l_readRecord. destruct (readRecord _ _ _) as [[[c e] t]| |] eqn:E.
  - intros [= _ <-]. rewrite (proj1 (put_alerts_c _ _)). cbn. now apply readRecord_hand in E.
  - intros [= _ <-]. exists []. rewrite app_nil_r. split; [reflexivity|unfold maxPlaintext; cbn; lia].
  - intros [= _ <-]. exists []. rewrite app_nil_r. split; [reflexivity|unfold maxPlaintext; cbn; lia].
Qed.
(** a record read that returns nil *)
Definition step_ok (want : Z) (l l' : link) : Prop :=
  l' = with_ct l (k_c l') (k_t l') /\ calm (k_c l) (k_c l') /\ got want (k_c l) (k_c l') /\ (length (stream (k_c l') (k_t l')) + 5 <= length (stream (k_c l) (k_t l)))%nat /\
  c_err (k_c l') = None /\ sane (k_c l') /\ temps (k_t l') = temps (k_t l).
Lemma l_readRecord_ok want l l' u : hs_want want -> sane (k_c l) -> c_err (k_c l) = None -> l_readRecord want l = (HOk u, l') -> step_ok want l l'.
Proof.
  intros HW HS HE. unfold l_readRecord. destruct (readRecord _ _ _) as [[[c [e|]] t]| |] eqn:E; try discriminate. intros H.
  destruct (readRecord_got _ _ _ _ _ HW HS HE E) as (K & G & L & EE & S' & TT).
  assert (HA : c_alerts c = c_alerts (k_c l)) by apply K. rewrite HA, skipn_all in H. injection H as _ <-. cbn [fold_left]. repeat (split; [first [reflexivity|assumption]|]). exact TT.
Qed.
(** the loops of readHandshake *)
Definition fed (l l' : link) : Prop :=
  l' = with_ct l (k_c l') (k_t l') /\ calm (k_c l) (k_c l') /\ same_keys (c_in (k_c l)) (c_in (k_c l')) /\ (exists d, c_hand (k_c l') = c_hand (k_c l) ++ d) /\
  (length (stream (k_c l') (k_t l')) <= length (stream (k_c l) (k_t l)))%nat /\ c_err (k_c l') = c_err (k_c l) /\ sane (k_c l') /\ temps (k_t l') = temps (k_t l).
Lemma fed_refl l : sane (k_c l) -> fed l l.
Proof. intros HS. destruct l. split; [reflexivity|]. split; [apply calm_refl|]. split; [apply same_keys_refl|]. split; [exists []; now rewrite app_nil_r|]. split; [lia|]. split; [reflexivity|]. split; [exact HS|reflexivity]. Qed.
Lemma fed_trans a b c : fed a b -> fed b c -> fed a c.
Proof.
  intros (A1 & A2 & A3 & (d & A4) & A5 & A6 & A7 & A8) (B1 & B2 & B3 & (d' & B4) & B5 & B6 & B7 & B8). split; [rewrite B1, A1; reflexivity|]. split; [eapply calm_trans; eassumption|].
  split; [eapply same_keys_trans; eassumption|]. split; [exists (d ++ d'); rewrite B4, A4; now rewrite app_assoc|]. split; [lia|]. split; [congruence|]. split; [assumption|congruence].
Qed.
Lemma got_hs c c' : got recordTypeHandshake c c' -> grows c c'. Proof. intros [[_ G]|[X _]]; [exact G|discriminate X]. Qed.
Lemma need_ok : forall f n l l' u, sane (k_c l) -> need f n l = (HOk u, l') -> fed l l' /\ (n <= length (c_hand (k_c l')))%nat.
Proof.
  induction f as [|f IH]; intros n l l' u HS H; cbn [need] in H; destruct (Nat.leb_spec n (length (c_hand (k_c l)))) as [HN|HN].
  1,3: injection H as _ <-; split; [now apply fed_refl|exact HN]. discriminate.
  destruct (c_err (k_c l)) as [e|] eqn:HE; [discriminate|]. destruct (l_readRecord recordTypeHandshake l) as [[x|e| |] l1] eqn:E; try discriminate.
  apply l_readRecord_ok in E as (A1 & A2 & A3 & A4 & A5 & A6 & A7); [|now left|exact HS|exact HE]. apply got_hs in A3 as (G1 & d & G2 & _). apply IH in H as (H1 & H2); [|exact A6]. split; [|exact H2].
  eapply fed_trans; [|exact H1]. split; [exact A1|]. split; [exact A2|]. split; [exact G1|]. split; [now exists d|]. split; [lia|]. split; [congruence|]. auto.
Qed.
Lemma need_no_loop : forall f n l, sane (k_c l) -> (length (stream (k_c l) (k_t l)) < f)%nat -> fst (need f n l) <> HLoop.
Proof.
  induction f as [|f IH]; intros n l HS HF; [lia|]. cbn [need]. destruct (_ <=? _)%nat; [discriminate|]. destruct (c_err (k_c l)) eqn:HE; [discriminate|].
  destruct (l_readRecord recordTypeHandshake l) as [[x|e| |] l1] eqn:E; try discriminate.
  - apply l_readRecord_ok in E as (A1 & A2 & A3 & A4 & A5 & A6 & A7); [|now left|exact HS|exact HE]. apply IH; [exact A6|lia].
  - exfalso. unfold l_readRecord in E. destruct (readRecord _ _ _) as [[[c [e|]] t]| |]; discriminate.
Qed.
Lemma need_fuel n l : sane (k_c l) -> fst (need (l_fuel l) n l) <> HLoop.
Proof. intros HS. apply need_no_loop; [exact HS|]. unfold l_fuel, stream. rewrite app_length. lia. Qed.
(** the buffer never outgrows what was asked for by more than one record *)
Lemma need_bound : forall f n l r l', need f n l = (r, l') -> (length (c_hand (k_c l')) <= Nat.max (length (c_hand (k_c l))) (n - 1 + Z.to_nat maxPlaintext))%nat.
Proof.
  induction f as [|f IH]; intros n l r l' H; cbn [need] in H; destruct (Nat.leb_spec n (length (c_hand (k_c l)))) as [HN|HN].
  1-3: injection H as _ <-; lia.
  destruct (c_err (k_c l)) as [e|]; [injection H as _ <-; lia|]. destruct (l_readRecord recordTypeHandshake l) as [x l1] eqn:E.
  apply l_readRecord_hand in E as (d & E & L). assert (L1 : (length (c_hand (k_c l1)) <= n - 1 + Z.to_nat maxPlaintext)%nat) by (rewrite E, app_length; unfold zlen in L; lia).
  destruct x as [x|e| |]; [|injection H as _ <-; lia..]. apply IH in H. lia.
Qed.
Lemma l_read_ok l m l' : sane (k_c l) -> l_read l = (HOk m, l') ->
  exists d, c_hand (k_c l) ++ d = m ++ c_hand (k_c l') /\ (4 <= length m)%nat /\ msg_len m <= maxHandshake /\ length m = (4 + Z.to_nat (msg_len m))%nat /\
  l' = with_ct l (k_c l') (k_t l') /\ calm (k_c l) (k_c l') /\ same_keys (c_in (k_c l)) (c_in (k_c l')) /\
  (length (stream (k_c l') (k_t l')) <= length (stream (k_c l) (k_t l)))%nat /\ c_err (k_c l') = c_err (k_c l) /\ sane (k_c l') /\ temps (k_t l') = temps (k_t l).
Proof.
  intros HS. unfold l_read. destruct (need (l_fuel l) 4 l) as [[u|e| |] l1] eqn:E1; try discriminate. apply need_ok in E1 as (F1 & N1); [|exact HS].
  destruct (Z.ltb_spec maxHandshake (msg_len (c_hand (k_c l1)))) as [|HM]; [discriminate|]. cbv zeta. remember (4 + Z.to_nat (msg_len (c_hand (k_c l1))))%nat as n eqn:En.
  destruct (need (l_fuel l1) n l1) as [[u2|e| |] l2] eqn:E2; try discriminate. pose proof F1 as (_ & _ & _ & (d1 & D1) & _ & _ & S1 & _). apply need_ok in E2 as (F2 & N2); [|exact S1].
  intros H. injection H as <- <-. pose proof (fed_trans _ _ _ F1 F2) as (G1 & G2 & G3 & (d & G4) & G5 & G6 & G7 & G8). pose proof F2 as (_ & _ & _ & (d2 & D2) & _).
  assert (EM : msg_len (firstn n (c_hand (k_c l2))) = msg_len (c_hand (k_c l1))).
  { unfold msg_len. rewrite !nth_firstn_lt by lia. rewrite D2. rewrite !app_nth1 by lia. reflexivity. }
  exists d. cbn [with_c k_c k_t with_hand c_hand c_err c_in]. rewrite firstn_skipn, <- G4. rewrite firstn_length, Nat.min_l by exact N2. rewrite EM.
  split; [reflexivity|]. split; [lia|]. split; [exact HM|]. split; [exact En|]. split; [unfold with_c, with_ct; cbn; rewrite G1; reflexivity|].
  split; [eapply calm_trans; [exact G2|]; repeat split|]. split; [exact G3|]. split; [exact G5|]. split; [exact G6|]. split; [exact G7|exact G8].
Qed.
Lemma l_read_no_loop l : sane (k_c l) -> fst (l_read l) <> HLoop.
Proof.
  intros HS. unfold l_read. pose proof (need_fuel 4 l HS) as N1. destruct (need (l_fuel l) 4 l) as [[u|e| |] l1] eqn:E1; try discriminate; [|exfalso; apply N1; reflexivity]. apply need_ok in E1 as (F1 & _); [|exact HS].
  destruct (_ <? _); [discriminate|]. cbv zeta. set (n := (4 + Z.to_nat _)%nat). assert (S1 : sane (k_c l1)) by apply F1. pose proof (need_fuel n l1 S1) as N2. destruct (need (l_fuel l1) n l1) as [[u2|e| |] l2]; try discriminate. exfalso. apply N2. reflexivity.
Qed.
Lemma l_read_bound l r l' : l_read l = (r, l') -> (length (c_hand (k_c l')) <= Nat.max (length (c_hand (k_c l))) (Z.to_nat (maxHandshake + 3 + maxPlaintext)))%nat.
Proof.
  unfold l_read. destruct (need (l_fuel l) 4 l) as [x1 l1] eqn:E1. apply need_bound in E1. unfold maxHandshake, maxPlaintext in *.
  destruct x1 as [u|e| |]; [|intros H; injection H as _ <-; lia..]. destruct (Z.ltb_spec 65536 (msg_len (c_hand (k_c l1)))) as [|HM]; [intros HX; injection HX as _ <-; cbn; lia|]. cbv zeta.
  set (n := (4 + Z.to_nat _)%nat). destruct (need (l_fuel l1) n l1) as [x2 l2] eqn:E2. apply need_bound in E2. unfold maxPlaintext in E2. assert (Z.of_nat n <= 65540) by (unfold n; lia). clearbody n.
  destruct x2 as [u2|e| |]; intros H2; injection H2 as _ <-; cbn [with_c k_c with_hand c_hand]; rewrite ?skipn_length; lia.
Qed.

(** ** The bytes a message is made of: whole records, each opened with the keys in force *)
(** [opens h s h' data s']: reading records off the front of [s], the half [h] ends as [h'], the handshake records carry [data], and [s'] is left.  Alert records carry none. *)
Inductive opens : half -> list Z -> half -> list Z -> list Z -> Prop :=
| opens_nil h s : opens h s h [] s
| opens_hs h (rec : list Z) off d h1 s h' data s' : (5 <= length rec)%nat -> length rec = (5 + Z.to_nat (256 * nth 3 rec 0 + nth 4 rec 0)%Z)%nat -> nth 0 rec 0 = recordTypeHandshake ->
    decrypt h rec = Ok (DecOk off d h1) -> opens h1 s h' data s' -> opens h (rec ++ s) h' (skipn off d ++ data) s'
| opens_alert h (rec : list Z) off d h1 s h' data s' : (5 <= length rec)%nat -> length rec = (5 + Z.to_nat (256 * nth 3 rec 0 + nth 4 rec 0)%Z)%nat -> nth 0 rec 0 = recordTypeAlert ->
    decrypt h rec = Ok (DecOk off d h1) -> opens h1 s h' data s' -> opens h (rec ++ s) h' data s'.
Lemma opens_trans h s h1 d1 s1 h2 d2 s2 : opens h s h1 d1 s1 -> opens h1 s1 h2 d2 s2 -> opens h s h2 (d1 ++ d2) s2.
Proof. induction 1; intros HX; [exact HX| |]; [rewrite <- app_assoc; eapply opens_hs|eapply opens_alert]; eauto. Qed.
Lemma pure_one_opens c s o s' : c_err c = None -> pure_one c s recordTypeHandshake = Ok (o, s') ->
  match o with
  | Ret c' None => exists d, opens (c_in c) s (c_in c') d s' /\ c_hand c' = c_hand c ++ d
  | Again c' => opens (c_in c) s (c_in c') [] s' /\ c_hand c' = c_hand c
  | _ => True end.
Proof.
  intros HE H. unfold pure_one in H. destruct (Nat.ltb_spec (length s) 5); [injection H as <- _; exact I|].
  destruct (bad_header c recordTypeHandshake (firstn 5 s)) as [o1|] eqn:EB. { apply bad_header_ret in EB as (a & e & -> & _). injection H as <- _. exact I. }
  set (n := Z.to_nat _) in H. destruct (Nat.ltb_spec (length s) (5 + n)) as [|HL]; [injection H as <- _; exact I|].
  assert (LR : length (firstn (5 + n) s) = (5 + n)%nat) by (rewrite firstn_length; lia).
  assert (LN : length (firstn (5 + n) s) = (5 + Z.to_nat (256 * nth 3 (firstn (5 + n) s) 0 + nth 4 (firstn (5 + n) s) 0)%Z)%nat) by (rewrite LR, !nth_firstn_lt by lia; reflexivity).
  assert (ES : s = firstn (5 + n) s ++ skipn (5 + n) s) by (symmetry; apply firstn_skipn).
  unfold process in H. destruct (decrypt (c_in c) (firstn (5 + n) s)) as [r| |] eqn:ED; cbn [rbind] in H; try discriminate. destruct r as [off d h|h].
  2:{ cbn [rbind] in H. injection H as <- _. exact I. }
  destruct (handle (with_in c h) recordTypeHandshake _ _) as [o1| |] eqn:EH; cbn [rbind] in H; try discriminate. injection H as <- <-.
  destruct o1 as [c'|c' [e|]]; [|exact I|].
  - apply handle_again in EH as (-> & _ & ET & _). cbn [with_warn with_in c_in c_hand]. split; [|reflexivity]. rewrite ES at 1. eapply opens_alert; [lia|exact LN|exact ET|exact ED|apply opens_nil].
  - assert (X : c_in c' = h /\ c_hand c' = c_hand c ++ skipn off d /\ nth 0 (firstn (5 + n) s) 0 = recordTypeHandshake).
    { clear -EH HE. revert EH. generalize (nth 0 (firstn (5 + n) s) 0). intros typ H. unfold handle in H. destruct (_ <? _); [discriminate|]. cbv zeta in H.
      set (c1 := if negb (typ =? recordTypeAlert) && _ then _ else _) in H. assert (F1 : c_in c1 = h /\ c_hand c1 = c_hand c /\ c_err c1 = None) by (unfold c1; destruct (_ && _); auto). clearbody c1. destruct F1 as (F1 & F2 & F3).
      destruct (Z.eqb_spec typ recordTypeAlert) as [->|]. { exfalso. destruct (negb _); [discriminate|]. destruct (_ =? alertCloseNotify); [discriminate|]. destruct (_ =? 1); [destruct (_ <? _); discriminate|]. destruct (_ =? 2); discriminate. }
      destruct (Z.eqb_spec typ recordTypeChangeCipherSpec) as [->|]; [discriminate|]. destruct (Z.eqb_spec typ recordTypeApplicationData) as [->|]; [discriminate|].
      destruct (Z.eqb_spec typ recordTypeHandshake) as [->|]; [|discriminate]. cbn [Z.eqb Pos.eqb recordTypeHandshake negb andb] in H. unfold TLS_record_model.ret in H. injection H as <- _. cbn. rewrite F2. auto. }
    destruct X as (<- & X2 & X3). exists (skipn off d). split; [|exact X2]. rewrite ES at 1. rewrite <- (app_nil_r (skipn off d)). eapply opens_hs; [lia|exact LN|exact X3|exact ED|apply opens_nil].
Qed.
Lemma pure_loop_opens : forall f c s c' s', c_err c = None -> pure_loop f c s recordTypeHandshake = Ok (c', None, s') -> exists d, opens (c_in c) s (c_in c') d s' /\ c_hand c' = c_hand c ++ d.
Proof.
  induction f as [|f IH]; intros c s c' s' HE H; [discriminate|]. cbn [pure_loop] in H. destruct (pure_one c s recordTypeHandshake) as [[o s1]| |] eqn:E; cbn [rbind] in H; try discriminate.
  pose proof (pure_one_opens _ _ _ _ HE E) as G. destruct o as [c1|c1 e1].
  - apply pure_again in E as (_ & _ & E). destruct G as (G1 & G2). apply IH in H as (d & H1 & H2); [|congruence]. exists d. split; [exact (opens_trans _ _ _ [] _ _ _ _ G1 H1)|congruence].
  - injection H as -> -> ->. exact G.
Qed.
Lemma readRecord_opens c t c' t' : sane c -> c_err c = None -> readRecord c t recordTypeHandshake = Ok (c', None, t') ->
  exists d, opens (c_in c) (stream c t) (c_in c') d (stream c' t') /\ c_hand c' = c_hand c ++ d.
Proof.
  intros HS HE H. destruct (readRecord_pure c t recordTypeHandshake (proj1 HS)) as [(c2 & t2 & H2 & _)|(HP & HT)]; [congruence|]. rewrite H in HP. cbn [res_view] in HP. symmetry in HP.
  unfold pure_readRecord in HP. destruct (if _ || _ then _ else _); [discriminate|]. now apply pure_loop_opens in HP.
Qed.
Lemma need_opens : forall f n l l' u, sane (k_c l) -> need f n l = (HOk u, l') ->
  exists d, opens (c_in (k_c l)) (stream (k_c l) (k_t l)) (c_in (k_c l')) d (stream (k_c l') (k_t l')) /\ c_hand (k_c l') = c_hand (k_c l) ++ d.
Proof.
  induction f as [|f IH]; intros n l l' u HS H; cbn [need] in H; destruct (Nat.leb_spec n (length (c_hand (k_c l)))) as [HN|HN].
  1,3: injection H as _ <-; exists []; rewrite app_nil_r; split; [apply opens_nil|reflexivity]. discriminate.
  destruct (c_err (k_c l)) as [e|] eqn:HE; [discriminate|]. destruct (l_readRecord recordTypeHandshake l) as [[x|e| |] l1] eqn:E; try discriminate.
  pose proof E as E'. apply l_readRecord_ok in E as (A1 & A2 & A3 & A4 & A5 & A6 & A7); [|now left|exact HS|exact HE]. apply IH in H as (d2 & H1 & H2); [|exact A6].
  assert (X : exists d, opens (c_in (k_c l)) (stream (k_c l) (k_t l)) (c_in (k_c l1)) d (stream (k_c l1) (k_t l1)) /\ c_hand (k_c l1) = c_hand (k_c l) ++ d).
  { unfold l_readRecord in E'. destruct (readRecord _ _ _) as [[[c [e|]] t]| |] eqn:ER; try discriminate. injection E' as _ <-.
    destruct (put_alerts_c (skipn (length (c_alerts (k_c l))) (c_alerts c)) (with_ct l c t)) as (-> & -> & _). cbn [with_ct k_c k_t]. now apply readRecord_opens in ER. }
  destruct X as (d1 & X1 & X2). exists (d1 ++ d2). split; [eapply opens_trans; eassumption|]. rewrite H2, X2. now rewrite app_assoc.
Qed.
Lemma l_read_opens l m l' : sane (k_c l) -> l_read l = (HOk m, l') ->
  exists d, opens (c_in (k_c l)) (stream (k_c l) (k_t l)) (c_in (k_c l')) d (stream (k_c l') (k_t l')) /\ c_hand (k_c l) ++ d = m ++ c_hand (k_c l').
Proof.
  intros HS. unfold l_read. destruct (need (l_fuel l) 4 l) as [[u|e| |] l1] eqn:E1; try discriminate. pose proof E1 as O1. apply need_opens in O1 as (d1 & O1 & D1); [|exact HS]. apply need_ok in E1 as (F1 & N1); [|exact HS].
  destruct (Z.ltb_spec maxHandshake (msg_len (c_hand (k_c l1)))) as [|HM]; [discriminate|]. cbv zeta. remember (4 + Z.to_nat (msg_len (c_hand (k_c l1))))%nat as n eqn:En. clear En.
  destruct (need (l_fuel l1) n l1) as [[u2|e| |] l2] eqn:E2; try discriminate. assert (S1 : sane (k_c l1)) by apply F1. apply need_opens in E2 as (d2 & O2 & D2); [|exact S1].
  intros H. injection H as <- <-. exists (d1 ++ d2). cbn [with_c k_c k_t with_hand c_hand c_in]. split; [eapply opens_trans; eassumption|]. rewrite firstn_skipn, D2, D1. now rewrite app_assoc.
Qed.

Lemma decrypt_no_err h data e : decrypt h data <> Err e.
Proof.
  unfold decrypt. destruct (_ <? _)%nat; [discriminate|]. assert (X : forall hd p n, decipher h hd p n <> Err e).
  { intros hd p n. unfold decipher. destruct (h_cipher h) as [[ks pos|a|en bs F iv]|]; try discriminate.
    - destruct (_ <? _)%nat; [discriminate|]. destruct (a_open _ _ _ _); discriminate.
    - destruct (_ || _); [discriminate|]. destruct (CryptBlocks _ _ _ _ _) as [[o i]|e1|] eqn:EC; cbn [rbind]; try discriminate.
      + destruct (if h_version h =? VersionSSL30 then extractPaddingSSL30 o else extractPadding o). discriminate.
      + unfold CryptBlocks in EC. repeat match type of EC with (if ?b then _ else _) = _ => destruct b end; discriminate. }
  match goal with |- context [decipher h ?a ?b ?c] => specialize (X a b c); destruct (decipher h a b c) as [[[[[[e0 p] pl] g] c0]|]| |] end; cbn [rbind]; try discriminate; [|congruence].
  assert (Y : forall h, incSeq h <> Err e) by (intros h0; unfold incSeq; destruct (inc_from _ _); discriminate).
  destruct (h_mac _) as [m|].
  - destruct (_ <? _)%nat; [discriminate|]. destruct (_ || _); [discriminate|]. destruct (_ || _); [discriminate|]. match goal with |- context [incSeq ?x] => specialize (Y x); destruct (incSeq x) end; cbn [rbind]; try discriminate. congruence.
  - match goal with |- context [incSeq ?x] => specialize (Y x); destruct (incSeq x) end; cbn [rbind]; try discriminate. congruence.
Qed.
Lemma readRecord_no_err c t want e : readRecord c t want <> Err e.
Proof.
  assert (H1 : forall c want rec, process c want rec <> Err e).
  { intros c0 w rec. unfold process. pose proof (decrypt_no_err (c_in c0) rec) as D. destruct (decrypt _ _) as [[off d h|h]|e1|]; cbn [rbind]; try discriminate; [|now destruct (D e1)].
    unfold handle. destruct (_ <? _); [discriminate|]. cbv zeta. set (c1 := if _ && _ then _ else _). clearbody c1.
    repeat match goal with |- (if ?b then _ else _) <> _ => destruct b | |- match changeCipherSpec ?x with _ => _ end <> _ => destruct (changeCipherSpec x) end; discriminate. }
  assert (H2 : forall c t want, one_record c t want <> Err e).
  { intros c0 t0 w. unfold one_record. destruct (readFromUntil _ _ _) as [[b [er|]] t1]; [discriminate|]. destruct (bad_header _ _ _); [discriminate|]. destruct (readFromUntil _ _ _) as [[b2 [er|]] t2]; [discriminate|].
    match goal with |- context [process ?a ?b ?c] => specialize (H1 a b c); destruct (process a b c) end; cbn [rbind]; try discriminate. congruence. }
  assert (H3 : forall f c t want, record_loop f c t want <> Err e).
  { induction f as [|f IH]; intros c0 t0 w; [discriminate|]. cbn [record_loop]. specialize (H2 c0 t0 w). destruct (one_record c0 t0 w) as [[[c1|c1 e1] t1]| |]; cbn [rbind]; try discriminate; [apply IH|congruence]. }
  unfold readRecord. cbv zeta. match goal with |- context [if ?b then Ok _ else record_loop _ _ _ _] => destruct b end; [discriminate|apply H3].
Qed.

(** ** The ChangeCipherSpec step, for a peer that is not renegotiating and a network without temporary errors *)
Lemma l_ccs_ok l l' u : sane (k_c l) -> c_err (k_c l) = None -> temps (k_t l) = 0%nat -> c_haveVers (k_c l) = false \/ c_reneg (k_c l) = false -> l_ccs l = (HOk u, l') ->
  l' = with_ct l (k_c l') (k_t l') /\ calm (k_c l) (k_c l') /\ switched (k_c l) (k_c l') /\ c_err (k_c l') = None /\ sane (k_c l') /\ temps (k_t l') = 0%nat.
Proof.
  intros HS HE HT HR H. unfold l_ccs in H. destruct (l_readRecord recordTypeChangeCipherSpec l) as [r l1] eqn:E.
  assert (H1 : c_err (k_c l1) = None /\ l1 = l'). { destruct r; try discriminate; destruct (c_err (k_c l1)); try discriminate; injection H as _ <-; auto. } destruct H1 as [H1 <-].
  assert (HO : r = HOk tt).
  { unfold l_readRecord in E. destruct (readRecord (k_c l) (k_t l) recordTypeChangeCipherSpec) as [[[c e] t]| |] eqn:ER.
    - injection E as <- <-. rewrite (proj1 (put_alerts_c _ _)) in H1. cbn in H1. destruct e as [e|]; [|reflexivity]. exfalso. pose proof (readRecord_no_temp _ _ _ _ _ _ HS HT ER) as NT.
      apply readRecord_err in ER as [[[= ->] _]|[X _]]; [now apply NT|congruence].
    - exfalso. exact (readRecord_no_err _ _ _ _ ER).
    - injection E as <- <-. discriminate H. }
  subst r. apply l_readRecord_ok in E as (A1 & A2 & A3 & A4 & A5 & A6 & A7); [|now right|exact HS|exact HE]. split; [exact A1|]. split; [exact A2|]. split; [|split; [exact A5|split; [exact A6|congruence]]].
  destruct A3 as [[X _]|[_ [X|(X1 & X2 & _)]]]; [discriminate X|exact X|]. destruct HR; congruence.
Qed.

(** Property theorems for the admission of records (C82): what the record layer delivers, and what it refuses. *)
From Verif Require Import GoBase GoLemmas TLS_record_model TLS_rec_proofs TLS_io_proofs P_TLS_record.
Open Scope Z_scope.
Ltac Zify.zify_post_hook ::= Z.div_mod_to_equations.

Lemma len16_of a b : 0 <= a < 256 -> 0 <= b < 256 -> len16 (Z.to_nat (256 * a + b)) = [a; b].
Proof.
  intros Ha Hb. unfold len16, u8. rewrite Z2Nat.id by lia. rewrite Z.shiftr_div_pow2 by lia. change (2 ^ 8) with 256.
  apply (f_equal2 cons); [lia|]. apply (f_equal2 cons); [lia|reflexivity].
Qed.
Lemma hdr_split (s : list Z) (k : nat) : (5 + k <= length s)%nat -> exists a b c d e body, firstn (5 + k) s = a :: b :: c :: d :: e :: body /\ length body = k /\ nth 0 s 0 = a /\ nth 1 s 0 = b /\ nth 2 s 0 = c /\ nth 3 s 0 = d /\ nth 4 s 0 = e.
Proof.
  intros H. destruct s as [|a [|b [|c [|d [|e s]]]]]; cbn [length] in H; try lia. exists a, b, c, d, e, (firstn k s). split; [reflexivity|]. split; [apply firstn_length_le; lia|]. repeat split.
Qed.
Lemma nth_byte (s : list Z) i : bytes s -> 0 <= nth i s 0 < 256.
Proof.
  intros H. destruct (Nat.lt_ge_cases i (length s)) as [L|L]; [|rewrite nth_overflow by exact L; lia]. unfold bytes in H. rewrite Forall_forall in H. apply H. now apply nth_In.
Qed.
(** one record read either fails outright (error set, nothing else but alerts changed) or takes a well-formed record of the right version *)
Lemma pure_one_inv v c s want o s' : bytes s -> c_haveVers c = true -> c_vers c = v -> 0 <= v < 65536 -> pure_one c s want = Ok (o, s') ->
  (exists c' e, o = Ret c' (Some e) /\ c_err c' = Some e /\ c_input c' = c_input c /\ c_hand c' = c_hand c) \/
  (exists rec, s = rec ++ s' /\ wf_record v (nth 0 s 0) rec /\ process c want rec = Ok o).
Proof.
  intros Hb HV Hv Hr. unfold pure_one. destruct (Nat.ltb_spec (length s) 5) as [H5|H5].
  { intros [= <- <-]. left. eexists _, _. split; [reflexivity|]. auto. }
  destruct (bad_header c want (firstn 5 s)) as [o0|] eqn:EB.
  { intros [= <- <-]. apply bad_header_ret in EB as (a & e & -> & _). left. eexists _, _. split; [reflexivity|]. auto. }
  cbv zeta. destruct (Nat.ltb_spec (length s) (5 + Z.to_nat (256 * nth 3 s 0 + nth 4 s 0))) as [Hn|Hn].
  { intros [= <- <-]. left. eexists _, _. split; [reflexivity|]. auto. }
  destruct (process c want _) as [o0| |] eqn:EP; cbn [rbind]; try discriminate. intros [= <- <-]. right.
  set (k := Z.to_nat (256 * nth 3 s 0 + nth 4 s 0)) in *. exists (firstn (5 + k) s). split; [symmetry; apply firstn_skipn|]. split; [|exact EP].
  destruct (hdr_split s k Hn) as (a & b & c0 & d & e & body & E & L & N0 & N1 & N2 & N3 & N4).
  unfold bad_header in EB. rewrite !nth_firstn_lt in EB by lia. rewrite HV, Hv in EB. cbn [andb negb] in EB.
  destruct ((want =? recordTypeHandshake) && (nth 0 s 0 =? 128)); [discriminate|]. destruct (Z.eqb_spec (256 * nth 1 s 0 + nth 2 s 0) v) as [Ev|]; [|discriminate]. cbn [negb] in EB.
  destruct (Z.ltb_spec maxCiphertext (256 * nth 3 s 0 + nth 4 s 0)) as [|Hm]; [discriminate|].
  pose proof (nth_byte s 1 Hb) as B1. pose proof (nth_byte s 2 Hb) as B2. pose proof (nth_byte s 3 Hb) as B3. pose proof (nth_byte s 4 Hb) as B4.
  exists body. split.
  - rewrite E, L. unfold k. rewrite len16_of by assumption. rewrite N0, N3, N4. cbn [app]. unfold u8. rewrite Z.shiftr_div_pow2 by lia. change (2 ^ 8) with 256.
    replace ((v / 256) mod 256) with b by lia. replace (v mod 256) with c0 by lia. reflexivity.
  - rewrite L. unfold k. rewrite Z2Nat.id by lia. exact Hm.
Qed.
Lemma process_delivers c want rec o d : process c want rec = Ok o -> c_input c = None -> c_input (out_conn o) = Some d ->
  exists off data, decrypt (c_in c) rec = Ok (DecOk off data (c_in (out_conn o))) /\ skipn off data = d /\ zlen d <= 16384 /\ nth 0 rec 0 = recordTypeApplicationData /\ want = recordTypeApplicationData /\
    match o with Ret _ e => e = c_err c | Again _ => False end.
Proof.
  unfold process. destruct (decrypt (c_in c) rec) as [[off data h|h]| |] eqn:ED; cbn [rbind]; try discriminate.
  2:{ intros [= <-] H H'. cbn in H'. congruence. }
  intros H H0 Hd. assert (H0' : c_input (with_in c h) = None) by exact H0. assert (E0 : c_err (with_in c h) = c_err c) by reflexivity. assert (I0 : c_in (with_in c h) = h) by reflexivity.
  set (c1 := with_in c h) in *. clearbody c1. unfold handle in H.
  destruct (Z.ltb_spec maxPlaintext (zlen (skipn off data))) as [|HL]. { injection H as <-. cbn in Hd. congruence. }
  assert (K : exists c2, (if negb (nth 0 rec 0 =? recordTypeAlert) && (0 <? length (skipn off data))%nat then with_warn c1 0 else c1) = c2 /\ c_input c2 = None /\ c_err c2 = c_err c /\ c_in c2 = h).
  { destruct (_ && _); eexists; split; try reflexivity; cbn; auto. }
  destruct K as (c2 & K & A1 & A2 & A3). rewrite K in H. clear K.
  Ltac dfin H Hd := injection H as <-; cbn in Hd; congruence.
  destruct (nth 0 rec 0 =? recordTypeAlert). { destruct (negb _); [dfin H Hd|]. destruct (_ =? alertCloseNotify); [dfin H Hd|]. destruct (_ =? 1); [destruct (_ <? _); dfin H Hd|]. destruct (_ =? 2); dfin H Hd. }
  destruct (nth 0 rec 0 =? recordTypeChangeCipherSpec). { destruct (_ || _); [dfin H Hd|]. destruct (0 <? _)%nat; [dfin H Hd|]. destruct (changeCipherSpec _); [dfin H Hd|dfin H Hd|discriminate]. }
  destruct (Z.eqb_spec (nth 0 rec 0) recordTypeApplicationData) as [Ht|].
  { destruct (Z.eqb_spec (nth 0 rec 0) want) as [Hw|]; cbn [negb] in H; [|dfin H Hd]. injection H as <-. cbn in Hd. injection Hd as Hd. exists off, data. cbn [out_conn ret with_input c_in c_err]. rewrite A3.
    split; [reflexivity|]. split; [exact Hd|]. split; [rewrite <- Hd; exact HL|]. split; [exact Ht|]. split; [congruence|exact A2]. }
  destruct (nth 0 rec 0 =? recordTypeHandshake); [destruct (_ && _); dfin H Hd|dfin H Hd].
Qed.
Lemma process_again_inv c want rec c' : process c want rec = Ok (Again c') -> exists off d h a, nth 0 rec 0 = recordTypeAlert /\ decrypt (c_in c) rec = Ok (DecOk off d h) /\ skipn off d = [1; a] /\ a <> alertCloseNotify /\ c' = with_warn (with_in c h) (c_warn c + 1).
Proof.
  unfold process. destruct (decrypt (c_in c) rec) as [[off data h|h]| |] eqn:ED; cbn [rbind]; try discriminate. unfold handle. destruct (_ <? _); [discriminate|].
  destruct (Z.eqb_spec (nth 0 rec 0) recordTypeAlert) as [Et|]; cbn [negb andb].
  - destruct (Nat.eqb_spec (length (skipn off data)) 2) as [L|]; cbn [negb]; [|discriminate]. destruct (skipn off data) as [|x [|a [|]]] eqn:Es; try discriminate L. cbn [nth].
    destruct (Z.eqb_spec a alertCloseNotify); [discriminate|]. destruct (Z.eqb_spec x 1) as [-> |]; [|destruct (x =? 2); discriminate]. destruct (_ <? _); [discriminate|]. intros [= <-]. exists off, data, h, a. repeat split; assumption.
  - repeat match goal with |- (if ?b then _ else _) = _ -> _ => destruct b | |- match ?x with _ => _ end = _ -> _ => destruct x end; discriminate.
Qed.
Lemma bytes_app_r (a b : list Z) : bytes (a ++ b) -> bytes b.
Proof. unfold bytes. rewrite Forall_app. tauto. Qed.
Lemma pure_loop_delivers v : forall f c s want c' e s' d, bytes s -> c_haveVers c = true -> c_vers c = v -> 0 <= v < 65536 -> c_input c = None ->
  pure_loop f c s want = Ok (c', e, s') -> c_input c' = Some d ->
  exists n h rec off data, warn_run v (c_in c) s n h (rec ++ s') /\ wf_record v recordTypeApplicationData rec /\ decrypt h rec = Ok (DecOk off data (c_in c')) /\ skipn off data = d /\ zlen d <= 16384 /\
    want = recordTypeApplicationData /\ e = c_err c.
Proof.
  induction f as [|f IH]; intros c s want c' e s' d Hb HV Hv Hr H0 H Hd; [discriminate|]. cbn [pure_loop] in H.
  destruct (pure_one c s want) as [[o s1]| |] eqn:E1; cbn [rbind] in H; try discriminate.
  destruct (pure_one_inv v c s want o s1 Hb HV Hv Hr E1) as [(c1 & e1 & -> & _ & B & _)|(rec & Es & Hw & EP)].
  { injection H as <- <- <-. congruence. }
  destruct o as [c1|c1 e1].
  - destruct (process_again_inv c want rec c1 EP) as (off & dd & h & a & Et & ED & Ek & Ha & Ec).
    assert (bytes s1) as Hb1 by (rewrite Es in Hb; now apply bytes_app_r in Hb).
    destruct (IH c1 s1 want c' e s' d Hb1 ltac:(rewrite Ec; exact HV) ltac:(rewrite Ec; exact Hv) Hr ltac:(rewrite Ec; exact H0) H Hd) as (n & h' & rec' & off' & data' & A1 & A2 & A3 & A4 & A5 & A6 & A7).
    exists (Datatypes.S n), h', rec', off', data'. split; [|split; [exact A2|split; [exact A3|split; [exact A4|split; [exact A5|split; [exact A6|rewrite A7, Ec; reflexivity]]]]]].
    rewrite Es. eapply wr_S; [|exact ED|exact Ek|exact Ha|]. { pose proof (wf_nth0 _ _ _ Hw) as Hn0. rewrite Et in Hn0. rewrite <- Hn0 in Hw. exact Hw. } rewrite Ec in A1. exact A1.
  - injection H as <- <- <-. destruct (process_delivers c want rec _ d EP H0 Hd) as (off & data & A1 & A2 & A3 & A4 & A5 & A6). cbn [out_conn] in *.
    exists 0%nat, (c_in c), rec, off, data. split; [rewrite Es; constructor|]. pose proof (wf_nth0 _ _ _ Hw) as Hn0. rewrite A4 in Hn0. rewrite <- Hn0 in Hw. tauto.
Qed.

(** ** C82: only authentic records of the negotiated version and legal size are delivered.
    A connection whose version has been negotiated reads application data [d].  Then the stream starts with some warning alerts, each in a
    record the reading half accepts, and continues with a record of type application_data, carrying the negotiated version, with at most
    18432 bytes of body, which the reading half decrypts and authenticates to [d]; [d] has at most 16384 bytes, the caller was asking for
    application data after the handshake, and exactly these records have been consumed. *)
Theorem C82_delivered_is_authentic : forall v c t want c' e t' d,
  bytes (stream c t) -> sane c -> c_haveVers c = true -> c_vers c = v -> 0 <= v < 65536 -> c_input c = None ->
  fetch c t want = Ok (c', e, t') -> c_input c' = Some d ->
  c_complete c = true /\ want = recordTypeApplicationData /\ e = c_err c /\ zlen d <= 16384 /\
  exists n h rec off data, warn_run v (c_in c) (stream c t) n h (rec ++ stream c' t') /\ wf_record v recordTypeApplicationData rec /\ decrypt h rec = Ok (DecOk off data (c_in c')) /\ skipn off data = d.
Proof.
  intros v c t want c' e t' d Hb Hs HV Hv Hr H0 H Hd. pose proof (fetch_n_pure (temps t) c t want Hs ltac:(lia)) as P. change (fetch_n (temps t) c t want) with (fetch c t want) in P. rewrite H in P. cbn [res_view] in P. symmetry in P.
  unfold pure_readRecord in P. cbv zeta in P. match type of P with (if ?b then _ else _) = _ => destruct b eqn:EW end.
  - assert (EV : view c' = failed (sent (view c) alertInternalError) EWant) by congruence. assert (c_input (view c') = None) as E by (rewrite EV; exact H0). cbn in E. congruence.
  - destruct (pure_loop_delivers v 8 (view c) (stream c t) want (view c') e (stream c' t') d Hb HV Hv Hr H0 P Hd) as (n & h & rec & off & data & A1 & A2 & A3 & A4 & A5 & A6 & A7).
    subst want. cbn [recordTypeApplicationData Z.eqb recordTypeHandshake recordTypeChangeCipherSpec] in EW. cbn in EW. destruct (c_complete c) eqn:EC; [|discriminate EW].
    split; [reflexivity|]. split; [reflexivity|]. split; [exact A7|]. split; [exact A5|]. exists n, h, rec, off, data. auto.
Qed.
(** ** C82, refusals.  A record whose header carries another version than the negotiated one (alert protocol_version = 70), or announces more than 18432 bytes (record_overflow = 22), kills
    the reading side before anything is decrypted or delivered *)
Theorem C82_bad_header : forall c t want typ v1 v0 l1 l0 rest,
  sane c -> right_phase c want -> c_haveVers c = true -> stream c t = typ :: v1 :: v0 :: l1 :: l0 :: rest -> typ <> 0x80 ->
  256 * v1 + v0 <> c_vers c \/ 18432 < 256 * l1 + l0 ->
  exists c' t', let a := if 256 * v1 + v0 =? c_vers c then 22 else 70 in
    fetch c t want = Ok (c', Some (EHeader a), t') /\ c_err c' = Some (EHeader a) /\ c_alerts c' = c_alerts c ++ [a] /\ c_input c' = c_input c /\ c_hand c' = c_hand c /\ c_in c' = c_in c.
Proof.
  intros c t want typ v1 v0 l1 l0 rest Hs HP HV Es Ht Hbad. pose proof (fetch_n_pure (temps t) c t want Hs ltac:(lia)) as P. rewrite pure_readRecord_phase in P by exact HP.
  change 8%nat with (Datatypes.S 7) in P. cbn [pure_loop] in P. unfold pure_one in P. rewrite Es in P. cbn [length Nat.ltb Nat.leb] in P. unfold bad_header in P. cbn [firstn nth] in P.
  destruct (Z.eqb_spec typ 128); [congruence|]. rewrite Bool.andb_false_r in P. change (c_haveVers (view c)) with (c_haveVers c) in P. rewrite HV in P. change (c_vers (view c)) with (c_vers c) in P.
  change (fetch_n (temps t) c t want) with (fetch c t want) in P. cbv zeta in P |- *. cbn [andb negb] in P.
  assert (G : forall a, res_view (fetch c t want) = Ok (failed (sent (view c) a) (EHeader a), Some (EHeader a), typ :: v1 :: v0 :: l1 :: l0 :: rest) ->
    exists c' t', fetch c t want = Ok (c', Some (EHeader a), t') /\ c_err c' = Some (EHeader a) /\ c_alerts c' = c_alerts c ++ [a] /\ c_input c' = c_input c /\ c_hand c' = c_hand c /\ c_in c' = c_in c).
  { intros a G. destruct (fetch c t want) as [[[c' e] t']| |]; cbn [res_view] in G; try discriminate. assert (EV : view c' = failed (sent (view c) a) (EHeader a)) by congruence. assert (e = Some (EHeader a)) as -> by congruence.
    exists c', t'. split; [reflexivity|]. change (c_err c') with (c_err (view c')). change (c_alerts c') with (c_alerts (view c')). change (c_input c') with (c_input (view c')). change (c_hand c') with (c_hand (view c')). change (c_in c') with (c_in (view c')). rewrite EV. cbn. auto. }
  destruct (Z.eqb_spec (256 * v1 + v0) (c_vers c)) as [Ev|Nv]; cbn [negb] in P.
  - destruct Hbad as [Hb|Hb]; [congruence|]. replace (maxCiphertext <? 256 * l1 + l0) with true in P by (symmetry; apply Z.ltb_lt; unfold maxCiphertext; lia). cbn in P. now apply G.
  - cbn in P. now apply G.
Qed.
(** a record that does not authenticate (bad_record_mac = 20), one whose plaintext exceeds 16384 bytes (record_overflow), and application data arriving during a handshake (unexpected_message = 10) *)
Theorem C82_bad_body : forall v c t want rec typ s',
  sane c -> right_phase c want -> c_haveVers c = true -> c_vers c = v -> 0 <= v < 65536 -> wf_record v typ rec -> typ <> 0x80 -> stream c t = rec ++ s' ->
  forall a, (exists h, decrypt (c_in c) rec = Ok (DecBad h) /\ a = 20) \/
            (exists off d h, decrypt (c_in c) rec = Ok (DecOk off d h) /\ 16384 < zlen (skipn off d) /\ a = 22) \/
            (exists off d h, decrypt (c_in c) rec = Ok (DecOk off d h) /\ zlen (skipn off d) <= 16384 /\ typ = recordTypeApplicationData /\ c_complete c = false /\ a = 10) ->
  exists c' t', fetch c t want = Ok (c', Some (ELocal a), t') /\ c_err c' = Some (ELocal a) /\ c_alerts c' = c_alerts c ++ [a] /\ c_input c' = c_input c /\ c_hand c' = c_hand c.
Proof.
  intros v c t want rec typ s' Hs HP HV Hv Hr Hw Ht Es a Ha. pose proof (fetch_n_pure (temps t) c t want Hs ltac:(lia)) as P. rewrite pure_readRecord_phase in P by exact HP.
  change 8%nat with (Datatypes.S 7) in P. cbn [pure_loop] in P. rewrite Es, (pure_one_wf (view c) rec s' want v typ Hw HV Hv Hr Ht) in P. unfold process in P. change (c_in (view c)) with (c_in c) in P. rewrite (wf_nth0 _ _ _ Hw) in P.
  change (fetch_n (temps t) c t want) with (fetch c t want) in P.
  assert (G : forall c1, res_view (fetch c t want) = Ok (fail_alert c1 a, Some (ELocal a), s') -> c_alerts c1 = c_alerts c -> c_input c1 = c_input c -> c_hand c1 = c_hand c ->
    exists c' t', fetch c t want = Ok (c', Some (ELocal a), t') /\ c_err c' = Some (ELocal a) /\ c_alerts c' = c_alerts c ++ [a] /\ c_input c' = c_input c /\ c_hand c' = c_hand c).
  { intros c1 G A1 A2 A3. destruct (fetch c t want) as [[[c' e] t']| |]; cbn [res_view] in G; try discriminate. assert (EV : view c' = fail_alert c1 a) by congruence. assert (e = Some (ELocal a)) as -> by congruence.
    exists c', t'. split; [reflexivity|]. change (c_err c') with (c_err (view c')). change (c_alerts c') with (c_alerts (view c')). change (c_input c') with (c_input (view c')). change (c_hand c') with (c_hand (view c')). rewrite EV. cbn. rewrite A1, A2, A3. auto. }
  destruct Ha as [(h & ED & ->)|[(off & d & h & ED & HL & ->)|(off & d & h & ED & HL & Et & HC & ->)]]; rewrite ED in P; cbn [rbind] in P.
  - eapply G; [exact P|reflexivity..].
  - unfold handle in P. replace (maxPlaintext <? zlen (skipn off d)) with true in P by (symmetry; apply Z.ltb_lt; unfold maxPlaintext; lia). cbn [rbind] in P. eapply G; [exact P|reflexivity..].
  - unfold handle in P. replace (maxPlaintext <? zlen (skipn off d)) with false in P by (symmetry; apply Z.ltb_ge; unfold maxPlaintext; lia). subst typ.
    change (recordTypeApplicationData =? recordTypeAlert) with false in P. change (recordTypeApplicationData =? recordTypeChangeCipherSpec) with false in P. change (recordTypeApplicationData =? recordTypeApplicationData) with true in P.
    assert (Ew : (recordTypeApplicationData =? want) = false) by (destruct HP as [[HC' _]|[_ [-> | ->]]]; [congruence|reflexivity|reflexivity]). rewrite Ew in P. cbn [negb andb rbind] in P.
    eapply G; [exact P|destruct (0 <? _)%nat; reflexivity..].
Qed.
Print Assumptions C82_delivered_is_authentic. Print Assumptions C82_bad_header. Print Assumptions C82_bad_body.
(** a warning, then data, on a plaintext GM connection; a TLS 1.2 header on the same connection; a record announced too long *)
Example C82_hyps :
  match fetch plain_conn (mkTr (warning ++ [23; 1; 1; 0; 1; 7]) []) recordTypeApplicationData with Ok (c', None, _) => match c_input c' with Some [7] => true | _ => false end | _ => false end = true /\
  match fetch plain_conn (mkTr [23; 3; 3; 0; 1; 7] []) recordTypeApplicationData with Ok (c', Some (EHeader 70), _) => match c_input c' with None => true | _ => false end | _ => false end = true /\
  match fetch plain_conn (mkTr [23; 1; 1; 72; 1; 7] []) recordTypeApplicationData with Ok (c', Some (EHeader 22), _) => match c_input c' with None => true | _ => false end | _ => false end = true.
Proof. repeat split. Qed.

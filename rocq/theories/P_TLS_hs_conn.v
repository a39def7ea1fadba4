(** C118, C119: the handshake over the record layer, for every peer. *)
From Verif Require Import GoBase GoLemmas CBC SM3_spec SM4_spec HMAC X509_spec SM2_model TLS_record_model TLS_rec_proofs TLS_io_proofs P_TLS_record TLS_neg_model TLS_hs_model TLS_hs_spec
  TLS_hs_sim TLS_hs_marks TLS_hs_conn TLS_hs_conn_proofs.
Open Scope Z_scope.
#[local] Opaque sm3 sm4_enc sm4_dec.

(** ** C118: reading a handshake message terminates, in bounded memory, whatever the peer sends *)
(** the declared length of a handshake message: bytes 1 to 3 *)
Definition declared (m : list Z) : Z := 65536 * nth 1 m 0 + 256 * nth 2 m 0 + nth 3 m 0.
Theorem C118_message_bounds l m l' : sane (k_c l) -> l_read l = (HOk m, l') ->
  (4 <= length m)%nat /\ declared m <= 65536 /\ length m = (4 + Z.to_nat (declared m))%nat /\
  (* the message is made of whole records, each opened with the keys in force; nothing is lost, added or reordered *)
  exists d, opens (c_in (k_c l)) (stream (k_c l) (k_t l)) (c_in (k_c l')) d (stream (k_c l') (k_t l')) /\ c_hand (k_c l) ++ d = m ++ c_hand (k_c l').
Proof.
  intros HS H. pose proof (l_read_opens _ _ _ HS H) as HO. apply l_read_ok in H as (d & _ & H2 & H3 & H4 & _); [|exact HS].
  split; [exact H2|]. split; [exact H3|]. split; [exact H4|exact HO].
Qed.
Print Assumptions C118_message_bounds.
(** the loops of readHandshake end, and the buffer stays below 65536 + 3 + 16384 bytes, whatever the outcome *)
Theorem C118_terminates l : sane (k_c l) -> fst (l_read l) <> HLoop.
Proof. apply l_read_no_loop. Qed.
Theorem C118_memory l r l' : l_read l = (r, l') -> Z.of_nat (length (c_hand (k_c l))) <= 81923 -> Z.of_nat (length (c_hand (k_c l'))) <= 81923.
Proof. intros H HB. apply l_read_bound in H. unfold maxHandshake, maxPlaintext in H. lia. Qed.
(** a longer message is refused: alert internal_error (80) is sent, and the connection reads nothing more *)
Theorem C118_oversized l : c_err (k_c l) = None -> (4 <= length (c_hand (k_c l)))%nat -> 65536 < declared (c_hand (k_c l)) ->
  exists e l', l_read l = (HErr e, l') /\ c_alerts (k_c l') = c_alerts (k_c l) ++ [80] /\ c_err (k_c l') <> None /\ k_oerr l' = Some 80 /\ k_t l' = k_t l /\
    forall l2 m, l_read (with_c l' (with_hand (k_c l') [])) <> (HOk m, l2).
Proof.
  intros HE HL HD. unfold l_read at 1. assert (EN : need (l_fuel l) 4 l = (HOk tt, l)). { unfold l_fuel. cbn [need]. destruct (Nat.leb_spec 4 (length (c_hand (k_c l)))); [reflexivity|lia]. }
  rewrite EN. cbv zeta. unfold maxHandshake. change (msg_len (c_hand (k_c l))) with (declared (c_hand (k_c l))). destruct (Z.ltb_spec 65536 (declared (c_hand (k_c l)))); [|lia].
  eexists _, _. split; [reflexivity|]. split; [reflexivity|]. split; [discriminate|]. split; [reflexivity|]. split; [reflexivity|].
  intros l2 m H2. unfold l_read in H2. cbn [with_c k_c with_hand failed] in H2. unfold l_fuel in H2. cbn [need c_hand k_c with_hand with_c length Nat.leb c_err failed] in H2. discriminate.
Qed.
Print Assumptions C118_oversized.
(** alerts on the wire, before the keys change: one record with two octets, 2 (fatal) for every alert but close_notify (0) and no_renegotiation (100), which
    are warnings; after a fatal one nothing more is written *)
Theorem C118_alert_sent l a : h_cipher (w_out (k_w l)) = None -> h_mac (w_out (k_w l)) = None -> inc_from 8 (h_seq (w_out (k_w l))) <> None ->
  let v := if w_vers (k_w l) =? 0 then 0x0301 else w_vers (k_w l) in
  w_log (k_w (l_alert a l)) = w_log (k_w l) ++ [[21; u8 (Z.shiftr v 8); u8 v; 0; 2; (if (a =? 0) || (a =? 100) then 1 else 2); a]] /\
  k_oerr (l_alert a l) = (if a =? 0 then k_oerr l else Some a) /\ c_alerts (k_c (l_alert a l)) = c_alerts (k_c l) ++ [a] /\ k_t (l_alert a l) = k_t l.
Proof.
  intros HC HM HI v. unfold l_alert, put_alert. cbn [k_w with_c k_c k_oerr k_t k_iv]. split; [|split; [reflexivity|split; reflexivity]].
  assert (EX : explicit_iv_len (w_out (k_w l)) = (0%nat, false)) by (unfold explicit_iv_len; rewrite HC; reflexivity).
  assert (EM : maxPayloadSizeForWrite (k_w l) recordTypeAlert 0 = (maxPlaintext, w_packetsSent (k_w l))) by (unfold maxPayloadSizeForWrite; change (recordTypeAlert =? recordTypeApplicationData) with false; cbn [negb]; rewrite Bool.orb_true_r; reflexivity).
  unfold writeRecordLocked. cbn [length write_loop]. unfold write_one. rewrite EX, EM. change (maxPlaintext <? zlen [alert_level a; a]) with false. cbv zeta iota. change (zlen [alert_level a; a]) with 2. change (2 <? 0) with false. change (0 <? 0)%nat with false. cbv iota.
  unfold encrypt. rewrite HM. unfold record_header. fold VersionTLS10. change (if w_vers (k_w l) =? 0 then VersionTLS10 else w_vers (k_w l)) with v. generalize v as v0. intros v0. clear EX EM.
  change (firstn (Z.to_nat 2) [alert_level a; a]) with [alert_level a; a]. cbn [app length Nat.ltb Nat.leb Nat.add]. unfold encipher. rewrite HC. cbn [rbind].
  unfold incSeq. cbn [set_cipher h_seq]. destruct (inc_from 8 _) as [s|] eqn:ES; [|contradiction]. cbn [rbind]. change (skipn (Z.to_nat 2) [alert_level a; a]) with (@nil Z). cbv beta iota. cbn [w_log]. unfold alert_level. rewrite (Bool.orb_comm (a =? 0)). reflexivity.
Qed.
Print Assumptions C118_alert_sent.

(** ** C119: when the handshake completes, the negotiated keys protect both directions *)
(** the half uses the SM4 key and the HMAC-SM3 key of [ks], with no other keys in waiting *)
Definition protects (v : Z) (isRead : bool) (ks : list Z * list Z * list Z) (h : half) : Prop :=
  let '(mk, key, _) := ks in
  h_version h = v /\ (exists iv, h_cipher h = Some (if isRead then Cbc false 16 (sm4_dec key) iv else Cbc true 16 (sm4_enc key) iv)) /\ h_mac h = Some (gm_mac mk) /\
  h_nextCipher h = None /\ h_nextMac h = None.
(** what the client writes with (and the server reads with), and the other way round *)
Definition client_write (k : keyblock) := (kb_clientMAC k, kb_clientKey k, kb_clientIV k).
Definition server_write (k : keyblock) := (kb_serverMAC k, kb_serverKey k, kb_serverIV k).

Definition cphs (isRead : bool) (ks : list Z * list Z * list Z) : cph * macT := let '(mk, key, iv) := ks in (if isRead then Cbc false 16 (sm4_dec key) iv else Cbc true 16 (sm4_enc key) iv, gm_mac mk).
Definition holds (v0 : Z) (isRead : bool) (f : keyblock -> list Z * list Z * list Z) (ph : option keyblock * option keyblock) (h : half) : Prop :=
  match snd ph with None => h_cipher h = None /\ h_mac h = None
  | Some k => h_version h = v0 /\ same_cipher (Some (fst (cphs isRead (f k)))) (h_cipher h) /\ h_mac h = Some (snd (cphs isRead (f k))) end /\
  match fst ph with None => h_nextCipher h = None /\ h_nextMac h = None
  | Some k => h_version h = v0 /\ h_nextCipher h = Some (fst (cphs isRead (f k))) /\ h_nextMac h = Some (snd (cphs isRead (f k))) end.
Definition turn (isIn : bool) (s : option (option keyblock * option keyblock)) (e : event) : option (option keyblock * option keyblock) :=
  match s with
  | None => None
  | Some (p, o) =>
      match e with
      | EvKeys k => Some (Some k, o)
      | EvRecvCCS => if isIn then match p with Some k => Some (None, Some k) | None => None end else s
      | EvSendCCS => if isIn then s else match p with Some k => Some (None, Some k) | None => None end
      | _ => s
      end
  end.
Definition phase (isIn : bool) (l : list event) := fold_left (turn isIn) l (Some (None, None)).
Lemma phase_snoc b l e : phase b (l ++ [e]) = turn b (phase b l) e. Proof. unfold phase. now rewrite fold_left_app. Qed.
Lemma holds_same v0 b f ph h h' : same_keys h h' -> holds v0 b f ph h -> holds v0 b f ph h'.
Proof.
  intros (K1 & K2 & K3 & K4 & K5) (H1 & H2). split.
  - destruct (snd ph) as [k|].
    + destruct H1 as (A & B & D). split; [congruence|]. split; [eapply same_cipher_trans; eassumption|congruence].
    + destruct H1 as [A B]. rewrite A in K2. split; [destruct (h_cipher h'); [contradiction|reflexivity]|congruence].
  - destruct (fst ph) as [k|]; rewrite ?K4, ?K5, ?K1; exact H2.
Qed.
Lemma holds_change v0 b f p o h h' : holds v0 b f (p, o) h -> changeCipherSpec h = Ok h' -> exists k, p = Some k /\ holds v0 b f (None, Some k) h'.
Proof.
  intros (_ & H2) H. unfold changeCipherSpec in H. cbn [fst snd] in *. destruct p as [k|]; [|destruct H2 as [H2 _]; rewrite H2 in H; discriminate].
  destruct H2 as (A & B & D). rewrite B in H. injection H as <-. exists k. split; [reflexivity|]. split; cbn [snd fst h_version h_cipher h_mac h_nextCipher h_nextMac]; [|auto]. split; [exact A|]. rewrite D. split; [apply same_cipher_refl|reflexivity].
Qed.

Section C119.
Context (isC : bool) (v0 : Z) (L : list event).
Definition in_keys (k : keyblock) := read_keys isC k.
Definition out_keys (k : keyblock) := read_keys (negb isC) k.
Definition J0 (l : list event) (k : link) : Prop :=
  (exists pi, phase true l = Some pi /\ holds v0 true in_keys pi (c_in (k_c k))) /\ (exists po, phase false l = Some po /\ holds v0 false out_keys po (w_out (k_w k))) /\
  sane (k_c k) /\ c_err (k_c k) = None /\ temps (k_t k) = 0%nat /\ (if isC then c_haveVers (k_c k) = false else c_reneg (k_c k) = false) /\ k_oerr k = None.
Definition J (l : list event) (k : link) : Prop := J0 l k /\ c_vers (k_c k) = v0 /\ w_vers (k_w k) = v0 /\ c_haveVers (k_c k) = negb isC.
Definition R0 : srel net net := fun c1 l c2 => c1 = c2 /\ J0 l c1.
Definition R : srel net net := fun c1 l c2 => c1 = c2 /\ J l c1.
(** a step on a single record layer *)
Lemma one {A} (P P' : list event -> link -> Prop) (m : M net A) : (forall c l a c' l', m (c, l) = (HOk a, (c', l')) -> (exists x, l' = l ++ x) /\ (P l c -> P' l' c')) ->
  sim net net L any (fun c1 l c2 => c1 = c2 /\ P l c1) (fun c1 l c2 => c1 = c2 /\ P' l c1) m m.
Proof. intros H c1 l a c1' l' E. destruct (H _ _ _ _ _ E) as [H1 H2]. split; [exact H1|]. intros _ _ c2 [<- HP]. exists c1'. split; [exact E|]. split; [reflexivity|]. exact (H2 HP). Qed.
Lemma J0_read l k m k' : J0 l k -> l_read k = (HOk m, k') -> J0 (l ++ [EvRecv m]) k' /\ c_vers (k_c k') = c_vers (k_c k) /\ w_vers (k_w k') = w_vers (k_w k) /\ c_haveVers (k_c k') = c_haveVers (k_c k).
Proof.
  intros ((pi & P1 & H1) & (po & P2 & H2) & S & E & TT & V & O) H. apply l_read_ok in H as (d & _ & _ & _ & _ & LK & K & KK & _ & EE & S' & T'); [|exact S].
  assert (KW : k_w k' = k_w k) by (rewrite LK; reflexivity). assert (KO : k_oerr k' = k_oerr k) by (rewrite LK; reflexivity). destruct K as (K1 & K2 & _ & K4 & _). rewrite K1, K2, KW. split; [|auto].
  split; [exists pi; rewrite phase_snoc, P1; split; [destruct pi; reflexivity|eapply holds_same; eassumption]|].
  split; [exists po; rewrite phase_snoc, P2, KW; split; [destruct po; reflexivity|exact H2]|]. split; [exact S'|]. split; [congruence|]. split; [congruence|]. rewrite K1, K4, KO. auto.
Qed.
Lemma J0_ccs l k u k' : J0 l k -> l_ccs k = (HOk u, k') -> J0 (l ++ [EvRecvCCS]) k' /\ c_vers (k_c k') = c_vers (k_c k) /\ w_vers (k_w k') = w_vers (k_w k) /\ c_haveVers (k_c k') = c_haveVers (k_c k).
Proof.
  intros ((pi & P1 & H1) & (po & P2 & H2) & S & E & TT & V & O) H. apply l_ccs_ok in H as (LK & K & (_ & _ & h & KK & CC) & E' & S' & T'); [|assumption..|destruct isC; auto].
  assert (KW : k_w k' = k_w k) by (rewrite LK; reflexivity). assert (KO : k_oerr k' = k_oerr k) by (rewrite LK; reflexivity). destruct K as (K1 & K2 & _ & K4 & _). rewrite K1, K2, KW. split; [|auto].
  destruct pi as [p o]. apply (holds_same _ _ _ _ _ _ KK) in H1. destruct (holds_change _ _ _ _ _ _ _ H1 CC) as (kb & -> & H1').
  split; [exists (None, Some kb); rewrite phase_snoc, P1; split; [reflexivity|exact H1']|].
  split; [exists po; rewrite phase_snoc, P2, KW; split; [destruct po; reflexivity|exact H2]|]. split; [exact S'|]. split; [exact E'|]. split; [exact T'|]. rewrite K1, K4, KO. auto.
Qed.
Lemma J0_write l k typ data u k' e : J0 l k -> l_write typ data k = (HOk u, k') -> (typ = recordTypeHandshake /\ e = EvSend data \/ typ = recordTypeChangeCipherSpec /\ e = EvSendCCS) ->
  J0 (l ++ [e]) k' /\ c_vers (k_c k') = c_vers (k_c k) /\ w_vers (k_w k') = w_vers (k_w k) /\ c_haveVers (k_c k') = c_haveVers (k_c k).
Proof.
  intros ((pi & P1 & H1) & (po & P2 & H2) & S & E & TT & V & O) H HT. unfold l_write in H. destruct (writeRecordLocked _ _ _ _) as [[w n]| |] eqn:EW; try discriminate.
  apply write_loop_keeps in EW as (KK & KV & _). apply (holds_same _ _ _ _ _ _ KK) in H2. destruct HT as [(-> & ->)|(-> & ->)]; cbn [Z.eqb Pos.eqb recordTypeHandshake recordTypeChangeCipherSpec] in H.
  - injection H as _ <-. cbn [with_w k_c k_w]. split; [|auto]. split; [exists pi; rewrite phase_snoc, P1; split; [destruct pi; reflexivity|exact H1]|].
    split; [exists po; rewrite phase_snoc, P2; split; [destruct po; reflexivity|exact H2]|]. auto.
  - destruct (changeCipherSpec (w_out w)) as [h| |] eqn:CC; try discriminate. injection H as _ <-. cbn [with_w k_c k_w with_out w_vers]. split; [|auto]. destruct po as [p o]. destruct (holds_change _ _ _ _ _ _ _ H2 CC) as (kb & -> & H2').
    split; [exists pi; rewrite phase_snoc, P1; split; [destruct pi; reflexivity|exact H1]|]. split; [exists (None, Some kb); rewrite phase_snoc, P2; split; [reflexivity|exact H2']|]. auto.
Qed.
Lemma holds_prep b f p o h k : holds v0 b f (p, o) h -> holds v0 b f (Some k, o) (prep h b v0 (f k)).
Proof.
  intros (H1 & _). cbn [fst snd] in *. unfold prep, prepareCipherSpec. destruct (f k) as [[mk key] iv] eqn:EF. split; cbn [snd fst h_version h_cipher h_mac h_nextCipher h_nextMac]; rewrite ?EF; [|repeat split].
  destruct o as [k0|]; [|exact H1]. destruct H1 as (_ & A & B). auto.
Qed.
Lemma J0_keys l k kb : J0 l k -> J0 (l ++ [EvKeys kb]) (l_keys isC v0 kb k).
Proof.
  intros ((pi & P1 & H1) & (po & P2 & H2) & S & E & TT & V & O). destruct pi as [p o], po as [p' o'].
  split; [exists (Some kb, o); rewrite phase_snoc, P1; split; [reflexivity|apply holds_prep with (p := p); exact H1]|].
  split; [exists (Some kb, o'); rewrite phase_snoc, P2; split; [reflexivity|apply holds_prep with (p := p'); exact H2]|]. split; [exact S|]. auto.
Qed.
Lemma J_closed : closed net net L isC v0 R.
Proof.
  constructor.
  - apply one. intros c l a c' l' H. unfold recv_raw in H. cbn [fst snd net cn_read] in H. destruct (l_read c) as [[m|e| |] c1] eqn:EL; try discriminate. injection H as _ <- <-. split; [eauto|]. intros [HJ (V1 & V2 & V3)].
    destruct (J0_read _ _ _ _ HJ EL) as (A & X1 & X2 & X3). split; [exact A|]. rewrite X1, X2, X3. auto.
  - apply one. intros c l a c' l' H. unfold recv_ccs in H. cbn [fst snd net cn_ccs] in H. destruct (l_ccs c) as [[m|e| |] c1] eqn:EL; try discriminate. injection H as _ <- <-. split; [eauto|]. intros [HJ (V1 & V2 & V3)].
    destruct (J0_ccs _ _ _ _ HJ EL) as (A & X1 & X2 & X3). split; [exact A|]. rewrite X1, X2, X3. auto.
  - intros m. apply one. intros c l a c' l' H. unfold send in H. cbn [fst snd net cn_write] in H. destruct (l_write recordTypeHandshake m c) as [[u|e| |] c1] eqn:EL; try discriminate. injection H as _ <- <-. split; [eauto|]. intros [HJ (V1 & V2 & V3)].
    destruct (J0_write _ _ _ _ _ _ (EvSend m) HJ EL) as (A & X1 & X2 & X3); [left; auto|]. split; [exact A|]. rewrite X1, X2, X3. auto.
  - apply one. intros c l a c' l' H. unfold send_ccs in H. cbn [fst snd net cn_write] in H. destruct (l_write recordTypeChangeCipherSpec [1] c) as [[u|e| |] c1] eqn:EL; try discriminate. injection H as _ <- <-. split; [eauto|]. intros [HJ (V1 & V2 & V3)].
    destruct (J0_write _ _ _ _ _ _ EvSendCCS HJ EL) as (A & X1 & X2 & X3); [right; auto|]. split; [exact A|]. rewrite X1, X2, X3. auto.
  - intros k. apply one. intros c l a c' l' H. injection H as _ <- <-. split; [cbn; eauto|]. intros [HJ (V1 & V2 & V3)]. split; [now apply J0_keys|]. auto.
Qed.
Lemma J0_vers l k : (if isC then True else c_reneg (k_c k) = false) -> J0 l k -> J l (l_vers v0 (negb isC) k).
Proof. intros HR (A & B & S & E & TT & V & O). split; [|auto]. split; [exact A|]. split; [exact B|]. split; [exact S|]. split; [exact E|]. split; [exact TT|]. split; [|exact O]. cbn. destruct isC; [reflexivity|exact HR]. Qed.
Lemma J_setvers : sim net net L any R0 R (setvers v0 (negb isC)) (setvers v0 (negb isC)).
Proof. apply one. intros c l a c' l' H. injection H as _ <- <-. split; [apply here|]. intros HJ. apply J0_vers; [|exact HJ]. destruct HJ as (_ & _ & _ & _ & _ & V & _). destruct isC; auto. Qed.
Lemma J_recv0 : sim net net L any R0 R0 recv_raw recv_raw.
Proof.
  apply one. intros c l a c' l' H. unfold recv_raw in H. cbn [fst snd net cn_read] in H. destruct (l_read c) as [[m|e| |] c1] eqn:EL; try discriminate. injection H as _ <- <-. split; [eauto|]. intros HJ.
  now destruct (J0_read _ _ _ _ HJ EL) as (A & _).
Qed.
Lemma J0_fresh reneg dyn iv t : temps t = 0%nat -> (isC = false -> reneg = false) -> J0 [] (fresh reneg dyn iv t).
Proof.
  intros HT HR. split; [exists (None, None); split; [reflexivity|]; repeat split|]. split; [exists (None, None); split; [reflexivity|]; repeat split|]. split; [split; cbn; [lia|discriminate]|].
  split; [reflexivity|]. split; [exact HT|]. split; [|reflexivity]. cbn. destruct isC; [reflexivity|now apply HR].
Qed.
End C119.

Lemma phase_kev b l s : fold_left (turn b) l s = fold_left (turn b) (filter (fun e => match mark_of e with [] => false | _ => true end) l) s.
Proof. revert s. induction l as [|e l IH]; intros s; [reflexivity|]. cbn [fold_left filter]. rewrite IH. destruct e; cbn [mark_of fold_left]; try reflexivity; destruct s as [[p o]|]; reflexivity. Qed.
Lemma marks_phase l : marks l = [Keyed; InOn; OutOn] \/ marks l = [Keyed; OutOn; InOn] -> exists kb, keys_of l = [kb] /\ phase true l = Some (None, Some kb) /\ phase false l = Some (None, Some kb).
Proof.
  intros H. unfold phase. rewrite (phase_kev true l), (phase_kev false l). set (kl := filter _ l). assert (HM : marks l = marks kl /\ keys_of l = keys_of kl).
  { unfold kl. clear. induction l as [|e l [IH1 IH2]]; [split; reflexivity|]. unfold marks, keys_of in *. cbn [filter flat_map]. destruct e; cbn [mark_of flat_map app]; rewrite IH1, IH2; split; reflexivity. }
  destruct HM as [HM HK]. rewrite HM in H. rewrite HK. assert (HF : Forall (fun e => mark_of e <> []) kl). { unfold kl. apply Forall_forall. intros e HI. apply filter_In in HI as [_ HI]. destruct (mark_of e); [discriminate|discriminate]. }
  clearbody kl. clear -H HF. destruct kl as [|e1 kl]; [destruct H; discriminate|]. inversion HF as [|? ? F1 HF1]; subst. destruct e1; try (now destruct F1); try (now destruct H). unfold marks in H. cbn [flat_map mark_of app] in H.
  destruct kl as [|e2 kl]; [destruct H; discriminate|]. inversion HF1 as [|? ? F2 HF2]; subst. destruct kl as [|e3 kl]; [destruct e2; cbn in H; destruct H; discriminate|]. inversion HF2 as [|? ? F3 HF3]; subst.
  assert (kl = []). { destruct kl as [|e4 kl]; [reflexivity|]. exfalso. inversion HF3 as [|? ? F4 HF4]; subst. destruct e2, e3, e4; cbn in *; try congruence; destruct H; discriminate. } subst kl.
  exists k. destruct e2, e3; cbn in *; try (now destruct F2); try (now destruct F3); try (destruct H; discriminate); repeat split.
Qed.
Lemma J_protects isC v0 l k : J isC v0 l k -> marks l = [Keyed; InOn; OutOn] \/ marks l = [Keyed; OutOn; InOn] ->
  exists kb, keys_of l = [kb] /\ protects v0 true (in_keys isC kb) (c_in (k_c k)) /\ protects v0 false (out_keys isC kb) (w_out (k_w k)) /\
    c_err (k_c k) = None /\ k_oerr k = None /\ c_vers (k_c k) = v0 /\ w_vers (k_w k) = v0 /\ c_haveVers (k_c k) = negb isC.
Proof.
  intros [((pi & P1 & H1) & (po & P2 & H2) & S & E & _ & _ & O) (V1 & V2 & V3)] HM. destruct (marks_phase l HM) as (kb & HK & Q1 & Q2). exists kb. split; [exact HK|].
  assert (X : forall b f h, holds v0 b f (None, Some kb) h -> protects v0 b (f kb) h).
  { intros b f h ((A1 & A2 & A3) & B1 & B2). unfold protects. cbn [snd fst cphs] in *. destruct (f kb) as [[mk key] iv]. cbn [fst snd] in *. split; [exact A1|]. split; [|auto].
    destruct b; cbn [fst] in A2; destruct (h_cipher h) as [[| |en bs F iv']|]; cbn in A2; try contradiction; destruct A2 as (<- & <- & <-); now exists iv'. }
  rewrite Q1 in P1. injection P1 as <-. rewrite Q2 in P2. injection P2 as <-. split; [now apply X|]. split; [now apply X|]. auto.
Qed.

(** The server, whatever the other end sends, over any network that reports no temporary errors *)
Theorem C119_server_partial {T} (E : env T) cfg getcfg rn dyn iv t r l log : temps t = 0%nat -> serverHandshakeGM E net cfg getcfg rn (fresh false dyn iv t, []) = (HOk r, (l, log)) ->
  exists kb, keys_of log = [kb] /\ protects (hr_vers r) true (client_write kb) (c_in (k_c l)) /\ protects (hr_vers r) false (server_write kb) (w_out (k_w l)) /\
    c_err (k_c l) = None /\ k_oerr l = None /\ c_vers (k_c l) = hr_vers r /\ w_vers (k_w l) = hr_vers r /\ c_haveVers (k_c l) = true.
Proof.
  intros HT H. pose proof (server_marks E _ _ _ _ _ _ _ _ H) as HM. cbn [marks flat_map app] in HM.
  destruct (proj2 (server_sim E net net log (hr_vers r) (R0 false (hr_vers r)) (R0 false (hr_vers r)) (R false (hr_vers r)) (J_closed false (hr_vers r) log) cfg getcfg rn (J_recv0 _ _ _) (J_setvers false (hr_vers r) log) _ _ _ _ _ H) (here log) eq_refl _
    (conj eq_refl (J0_fresh false (hr_vers r) false dyn iv t HT (fun _ => eq_refl)))) as (l2 & _ & <- & HJ).
  apply J_protects in HJ; [exact HJ|]. rewrite HM. unfold flow_marks. destruct (Bool.eqb _ _); auto.
Qed.
Print Assumptions C119_server_partial.
Theorem C119_client_partial {T} (E : env T) cfg cache rn reneg dyn iv t r l log : temps t = 0%nat -> clientHandshakeGM E net cfg cache rn (fresh reneg dyn iv t, []) = (HOk r, (l, log)) ->
  exists kb, keys_of log = [kb] /\ protects 0x0101 true (server_write kb) (c_in (k_c l)) /\ protects 0x0101 false (client_write kb) (w_out (k_w l)) /\
    c_err (k_c l) = None /\ k_oerr l = None /\ c_vers (k_c l) = 0x0101 /\ w_vers (k_w l) = 0x0101 /\ c_haveVers (k_c l) = false.
Proof.
  intros HT H. destruct (client_marks E _ _ _ _ _ _ _ _ H) as [HM _]. cbn [marks flat_map app] in HM.
  destruct (proj2 (client_sim E net net log (R0 true 0x0101) (R true 0x0101) (J_closed true 0x0101 log) cfg cache rn (J_setvers true 0x0101 log) _ _ _ _ _ H) (here log) I _
    (conj eq_refl (J0_fresh true 0x0101 reneg dyn iv t HT ltac:(discriminate)))) as (l2 & _ & <- & HJ).
  apply J_protects in HJ; [exact HJ|]. rewrite HM. unfold flow_marks. destruct (Bool.eqb _ _); auto.
Qed.
Print Assumptions C119_client_partial.

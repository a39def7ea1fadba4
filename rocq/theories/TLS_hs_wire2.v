(** The handshake on a script of messages, carried over to the record layer: when the bytes that arrive are what the other end wrote, every step
    that succeeds on the script succeeds on the record layer. *)
From Verif Require Import GoBase GoLemmas CBC SM3_spec SM4_spec HMAC TLS_record_model TLS_rec_proofs TLS_io_proofs P_TLS_record TLS_hs_model TLS_hs_spec TLS_hs_run TLS_hs_sim TLS_hs_conn TLS_hs_conn_proofs
  P_TLS_hs_conn TLS_hs_wire.
Open Scope Z_scope.
#[local] Opaque sm3 sm4_enc sm4_dec.

Lemma turn_keys b l : forall s k o, fold_left (turn b) l s = Some (Some k, o) -> (exists o', s = Some (Some k, o')) \/ In k (keys_of l).
Proof.
  induction l as [|e l IH]; intros s k o H; [left; cbn in H; eauto|]. cbn [fold_left] in H. apply IH in H as [(o' & H)|H].
  - destruct s as [[p q]|]; [|discriminate]. destruct e as [m|m| | |kx|a]; cbn in H; try (left; eauto; fail).
    + destruct b; [left; eauto|]. destruct p; discriminate.
    + destruct b; [|left; eauto]. destruct p; discriminate.
    + right. left. congruence.
  - right. cbn. apply in_or_app. now right.
Qed.
Lemma phase_keys b l k o : phase b l = Some (Some k, o) -> In k (keys_of l).
Proof. intros H. apply turn_keys in H as [(o' & [=])|H]. exact H. Qed.

Section Carry.
Context (isC dyn : bool) (iv : nat -> option (list Z)) (L : list event) (kb : keyblock) (wL : wconn) (r_end : half) (tail : list Z).
Definition w0 : wconn := mkW VersionGMSSL fresh_half dyn 0 0 [].
Definition gmw (w : wconn) : wconn := mkW VersionGMSSL (w_out w) (w_dyn w) (w_bytesSent w) (w_packetsSent w) (w_log w).
Context (HK : keys_of L = [kb]) (HP : phase true L <> None) (HWL : wrun isC iv w0 L = Some wL).
Definition body (c1 : CS script) (l : list event) (k : link) : Prop :=
  c_complete (k_c k) = false /\ c_hand (k_c k) = [] /\ c_input (k_c k) = None /\ k_iv k = iv /\ wrun isC iv w0 l = Some (gmw (k_w k)) /\
  exists r s, agrees (c_in (k_c k)) r /\ arrive (Kof (in_keys isC kb)) r c1 s r_end /\ stream (k_c k) (k_t k) = s ++ tail.
Definition Q0 : srel script net := fun c1 l k => J0 isC VersionGMSSL l k /\ c_haveVers (k_c k) = false /\ body c1 l k.
Definition Q : srel script net := fun c1 l k => J isC VersionGMSSL l k /\ body c1 l k.
Lemma gm_range : 0 <= VersionGMSSL < 65536. Proof. unfold VersionGMSSL. lia. Qed.
Lemma J0_rd l k : J0 isC VersionGMSSL l k -> c_complete (k_c k) = false -> hdr_ok VersionGMSSL (k_c k) -> rd VersionGMSSL k.
Proof. intros (_ & _ & S & E & T' & _) HC HH. split; [exact HH|]. auto. Qed.
Lemma Q_hdr l k : J isC VersionGMSSL l k -> hdr_ok VersionGMSSL (k_c k).
Proof. intros (_ & V1 & _ & V3). unfold hdr_ok. rewrite V3. destruct isC; cbn; [unfold VersionGMSSL; lia|exact V1]. Qed.
Lemma gmw_same w : w_vers w = VersionGMSSL -> gmw w = w. Proof. destruct w. cbn. now intros ->. Qed.
Lemma body_recv c1 l k m c1' : J0 isC VersionGMSSL l k -> hdr_ok VersionGMSSL (k_c k) -> body (IMsg m :: c1') l k -> c1 = IMsg m :: c1' ->
  exists k', l_read k = (HOk m, k') /\ body c1' (l ++ [EvRecv m]) k'.
Proof.
  intros HJ HH (B1 & B2 & B3 & B4 & B5 & r & s & B6 & B7 & B8) _. inversion B7 as [|? ? recs ms r1 ? s' ? HC EM HM HR|]; subst. rewrite <- app_assoc in B8.
  destruct (l_read_there _ _ _ _ _ _ _ _ gm_range HC eq_refl HM (J0_rd _ _ HJ B1 HH) B6 B2 B8) as (k' & E & R1 & A1 & H1 & S1). exists k'. split; [exact E|].
  assert (SN : sane (k_c k)) by apply HJ. apply l_read_ok in E as (d & _ & _ & _ & _ & LK & K & _); [|exact SN]. destruct K as (_ & _ & K3 & _ & _ & K6).
  split; [congruence|]. split; [exact H1|]. split; [congruence|]. split; [rewrite LK; exact B4|]. split; [rewrite wrun_app, B5; cbn; rewrite LK; reflexivity|]. exists r1, s'. auto.
Qed.
Lemma body_ccs l k c1' : J isC VersionGMSSL l k -> pre L (l ++ [EvRecvCCS]) -> body (ICCS :: c1') l k -> exists k', l_ccs k = (HOk tt, k') /\ body c1' (l ++ [EvRecvCCS]) k'.
Proof.
  intros HJ HXp (B1 & B2 & B3 & B4 & B5 & r & s & B6 & B7 & B8). inversion B7 as [| |? rec off d r1 ? s' ? HF HD HN HL HR]; subst. destruct HXp as [x HX]. rewrite <- app_assoc in B8. pose proof HJ as [HJ0 _].
  pose proof HJ0 as ((pi & P1 & (_ & H2)) & _). destruct pi as [[k0|] o]; [|exfalso; apply HP; rewrite HX, <- app_assoc; unfold phase; rewrite fold_left_app; cbn [fold_left app]; fold (phase true l); rewrite P1; cbn [turn]; apply turn_none].
  assert (k0 = kb). { apply phase_keys in P1. assert (HI : In k0 (keys_of L)) by (rewrite HX, <- app_assoc, keys_of_app; apply in_or_app; now left). rewrite HK in HI. destruct HI as [->|[]]. reflexivity. } subst k0. cbn [fst] in H2. destruct H2 as (V & N1 & N2).
  destruct (l_record_ccs _ _ _ _ _ _ _ _ (J0_rd _ _ HJ0 B1 (Q_hdr _ _ HJ)) gm_range B6 HF HD HN B2 ltac:(rewrite N1; discriminate) B8) as (k' & E & R1 & S1 & H1 & C1). exists k'. split; [exact E|].
  apply l_ccs_ok in E as (LK & K & _); [|apply HJ0..|]. 2: { destruct HJ0 as (_ & _ & _ & _ & _ & X & _). destruct isC; auto. } destruct K as (_ & _ & K3 & _ & _ & K6).
  split; [congruence|]. split; [exact H1|]. split; [congruence|]. split; [rewrite LK; exact B4|]. split; [rewrite wrun_app, B5; cbn; rewrite LK; reflexivity|].
  exists (Kof (in_keys isC kb)), s'. split; [|auto]. assert (EQ : c_in (k_c k') = Kof (in_keys isC kb)).
  { rewrite C1, V, N1, N2. unfold Kof, cphs. destruct (in_keys isC kb) as [[mk key] kiv]. cbn [fst snd]. replace (map (fun _ : Z => 0) (h_seq r1)) with (zeros 8); [reflexivity|]. clear -HL. destruct (h_seq r1) as [|a1 [|a2 [|a3 [|a4 [|a5 [|a6 [|a7 [|a8 [|? ?]]]]]]]]]; try discriminate HL. reflexivity. }
  rewrite EQ. apply agrees_refl.
Qed.
Lemma wrun_pre l e w : pre L (l ++ [e]) -> wrun isC iv w0 l = Some w -> exists w', wstep isC iv w e = Some w' /\ wrun isC iv w0 (l ++ [e]) = Some w'.
Proof.
  intros [x HX] HR. pose proof HWL as HW. rewrite HX, <- app_assoc, wrun_app, HR in HW. cbn [app wrun] in HW. destruct (wstep isC iv w e) as [w'|] eqn:E; [|discriminate]. exists w'. split; [reflexivity|]. rewrite wrun_app, HR. cbn [wrun]. now rewrite E.
Qed.
Lemma body_write typ data e c1 l k : J isC VersionGMSSL l k -> pre L (l ++ [e]) -> (typ = recordTypeHandshake /\ e = EvSend data \/ typ = recordTypeChangeCipherSpec /\ data = [1] /\ e = EvSendCCS) -> body c1 l k ->
  exists k', l_write typ data k = (HOk tt, k') /\ body c1 (l ++ [e]) k'.
Proof.
  intros HJ HX HT (B1 & B2 & B3 & B4 & B5 & r & s & B6 & B7 & B8). pose proof HJ as (_ & _ & V2 & _). rewrite (gmw_same _ V2) in B5. destruct (wrun_pre _ _ _ HX B5) as (w' & E1 & E2).
  assert (G : l_write typ data k = (HOk tt, with_w k w') /\ w_vers w' = VersionGMSSL).
  { destruct HT as [(-> & ->)|(-> & -> & ->)]; cbn [wstep] in E1; unfold l_write; rewrite B4.
    - destruct (writeRecordLocked _ _ _ _) as [[w1 n]| |] eqn:EW; try discriminate. injection E1 as ->. apply write_loop_keeps in EW as (_ & KV & _). split; [reflexivity|congruence].
    - destruct (writeRecordLocked _ _ _ _) as [[w1 n]| |] eqn:EW; try discriminate. apply write_loop_keeps in EW as (_ & KV & _). destruct (changeCipherSpec (w_out w1)) as [h| |]; try discriminate. injection E1 as <-. split; [reflexivity|cbn; congruence]. }
  destruct G as [G1 G2]. exists (with_w k w'). split; [exact G1|]. unfold body. cbn [with_w k_c k_w k_iv k_t]. rewrite (gmw_same _ G2). repeat (split; [assumption|]). exists r, s. auto.
Qed.
Lemma body_keys c1 l k kx : J isC VersionGMSSL l k -> body c1 l k -> body c1 (l ++ [EvKeys kx]) (l_keys isC VersionGMSSL kx k).
Proof.
  intros HJ (B1 & B2 & B3 & B4 & B5 & r & s & B6 & B7 & B8). unfold body, l_keys. cbn [with_w with_c with_in k_c k_w k_iv k_t c_complete c_hand c_input c_in]. repeat (split; [assumption|]).
  split; [rewrite wrun_app, B5; reflexivity|]. exists r, s. split; [|auto]. destruct B6 as (A1 & A2 & A3 & A4). pose proof HJ as (((pi & P1 & (H1 & _)) & _) & _).
  unfold prep, prepareCipherSpec. destruct (read_keys isC kx) as [[mk key] kiv]. split; [exact A1|]. split; [exact A2|]. split; [exact A3|]. cbn [h_version]. destruct (snd pi) as [k0|].
  - destruct H1 as (V & _). destruct A4 as [A4|A4]; [now left|right; congruence].
  - left. destruct H1 as [H1 _]. congruence.
Qed.
Lemma recv_script c1 l a c1' l' : recv_raw (C := script) (c1, l) = (HOk a, (c1', l')) -> c1 = IMsg a :: c1' /\ l' = l ++ [EvRecv a].
Proof. unfold recv_raw. cbn [fst snd script cn_read]. destruct c1 as [|[m|] i]; try discriminate. intros [= <- <- <-]. auto. Qed.
Lemma Q_closed : closed script net L isC VersionGMSSL Q.
Proof.
  constructor.
  - intros c1 l a c1' l' H. apply recv_script in H as (-> & ->). split; [eauto|]. intros _ _ k [HJ HB]. destruct (body_recv _ _ _ _ _ (proj1 HJ) (Q_hdr _ _ HJ) HB eq_refl) as (k' & E & HB'). exists k'.
    split; [unfold recv_raw; cbn [fst snd net cn_read]; rewrite E; reflexivity|]. split; [|exact HB']. destruct HJ as [HJ (V1 & V2 & V3)]. destruct (J0_read _ _ _ _ _ _ HJ E) as (A & X1 & X2 & X3). split; [exact A|]. rewrite X1, X2, X3. auto.
  - intros c1 l a c1' l' H. unfold recv_ccs in H. cbn [fst snd script cn_ccs] in H. destruct c1 as [|[m|] i]; try discriminate. injection H as <- <- <-. split; [eauto|]. intros HX _ k [HJ HB].
    destruct (body_ccs _ _ _ HJ HX HB) as (k' & E & HB'). exists k'. split; [unfold recv_ccs; cbn [fst snd net cn_ccs]; rewrite E; reflexivity|]. split; [|exact HB'].
    destruct HJ as [HJ (V1 & V2 & V3)]. destruct (J0_ccs _ _ _ _ _ _ HJ E) as (A & X1 & X2 & X3). split; [exact A|]. rewrite X1, X2, X3. auto.
  - intros m c1 l a c1' l' H. unfold send in H. cbn [fst snd script cn_write] in H. injection H as <- <- <-. split; [eauto|]. intros HX _ k [HJ HB].
    destruct (body_write recordTypeHandshake m _ _ _ _ HJ HX (or_introl (conj eq_refl eq_refl)) HB) as (k' & E & HB'). exists k'. split; [unfold send; cbn [fst snd net cn_write]; rewrite E; reflexivity|]. split; [|exact HB'].
    destruct HJ as [HJ (V1 & V2 & V3)]. destruct (J0_write _ _ _ _ _ _ _ _ (EvSend m) HJ E) as (A & X1 & X2 & X3); [left; auto|]. split; [exact A|]. rewrite X1, X2, X3. auto.
  - intros c1 l a c1' l' H. unfold send_ccs in H. cbn [fst snd script cn_write] in H. injection H as <- <- <-. split; [eauto|]. intros HX _ k [HJ HB].
    destruct (body_write recordTypeChangeCipherSpec [1] _ _ _ _ HJ HX (or_intror (conj eq_refl (conj eq_refl eq_refl))) HB) as (k' & E & HB'). exists k'. split; [unfold send_ccs; cbn [fst snd net cn_write]; rewrite E; reflexivity|]. split; [|exact HB'].
    destruct HJ as [HJ (V1 & V2 & V3)]. destruct (J0_write _ _ _ _ _ _ _ _ EvSendCCS HJ E) as (A & X1 & X2 & X3); [right; auto|]. split; [exact A|]. rewrite X1, X2, X3. auto.
  - intros kx c1 l a c1' l' H. injection H as <- <- <-. split; [cbn; eauto|]. intros _ _ k [HJ HB]. exists (l_keys isC VersionGMSSL kx k). split; [reflexivity|]. split; [|apply body_keys; assumption].
    destruct HJ as [HJ (V1 & V2 & V3)]. split; [now apply J0_keys|]. auto.
Qed.
Lemma Q_setvers : sim script net L any Q0 Q (setvers VersionGMSSL (negb isC)) (setvers VersionGMSSL (negb isC)).
Proof.
  intros c1 l a c1' l' H. injection H as <- <- <-. split; [apply here|]. intros _ _ k (HJ & HV & HB). exists (l_vers VersionGMSSL (negb isC) k). split; [reflexivity|]. split; [|exact HB].
  apply J0_vers; [|exact HJ]. destruct HJ as (_ & _ & _ & _ & _ & V & _). destruct isC; auto.
Qed.
Lemma Q_recv0 : sim script net L any Q0 Q0 recv_raw recv_raw.
Proof.
  intros c1 l a c1' l' H. apply recv_script in H as (-> & ->). split; [eauto|]. intros _ _ k (HJ & HV & HB). destruct (body_recv _ _ _ _ _ HJ ltac:(unfold hdr_ok; rewrite HV; unfold VersionGMSSL; lia) HB eq_refl) as (k' & E & HB'). exists k'.
  split; [unfold recv_raw; cbn [fst snd net cn_read]; rewrite E; reflexivity|]. destruct (J0_read _ _ _ _ _ _ HJ E) as (A & X1 & X2 & X3). split; [exact A|]. split; [congruence|exact HB'].
Qed.
Lemma Q0_fresh reneg c1 s t : temps t = 0%nat -> (isC = false -> reneg = false) -> arrive (Kof (in_keys isC kb)) fresh_half c1 s r_end -> t_rest t = s ++ tail -> Q0 c1 [] (fresh reneg dyn iv t).
Proof.
  intros HT HR HA HS. split; [now apply J0_fresh|]. split; [reflexivity|]. repeat (split; [reflexivity|]). exists fresh_half, s. split; [apply agrees_refl|]. split; [exact HA|exact HS].
Qed.
End Carry.

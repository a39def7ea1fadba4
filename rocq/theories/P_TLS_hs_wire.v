(** C117, C120: messages across the record layer, and two ends that talk over it from the first byte of the handshake to the last byte of data. *)
From Verif Require Import GoBase GoLemmas BigBytes CBC SM3_spec SM4_spec HMAC X509_spec SM2_model TLS_record_model TLS_rec_proofs TLS_io_proofs P_TLS_record TLS_prf_model TLS_prf_spec TLS_prf_proofs TLS_neg_model TLS_hs_model
  TLS_hs_bytes TLS_hs_client TLS_hs_spec TLS_hs_run TLS_hs_sim TLS_hs_marks TLS_hs_conn TLS_hs_conn_proofs P_TLS_hs_conn TLS_hs_wire TLS_hs_wire2.
From Verif Require TLS_hs_proofs P_TLS_prf P_TLS_hs_server P_TLS_hs_client P_TLS_hs_agree P_TLS_hs_run.
Import P_TLS_hs_server P_TLS_hs_client.
Open Scope Z_scope.
#[local] Opaque sm3 sm4_enc sm4_dec PRF.
Notation messages := TLS_hs_proofs.wire.

(** ** The keys are bytes of the right length *)
Lemma client_block {T} (E : env T) C Hs cfg cache rn c r ns log : world_ok E Hs -> client_random_ok E rn -> client_completes E C cfg cache rn c r ns log -> hr_resumed r = false ->
  TLS_hs_proofs.wire_ok log -> exists kb block, keys_of log = [kb] /\ cuts_block kb block /\ bytes block.
Proof.
  intros HW RO H HR WO. destruct (client_parts E C Hs HW _ _ _ _ _ _ _ H HR) as (hello & hello0 & session & chraw & m_sh & sh & su & f & h0 & lf & k & l_np & l_t & m_fin & m_sfin & CR & M1 & M2 & Em & Psh & Ev & Ms & Cp & Np & Al).
  pose proof (cl_log _ _ _ _ _ _ _ _ _ _ _ _ _ _ _ _ _ _ _ _ CR) as EL. destruct (hello_fields _ _ _ _ _ _ M1 M2) as (F1 & F2 & _).
  destruct (client_secret E Hs HW _ _ _ _ _ _ _ _ _ _ _ _ _ _ _ _ _ _ CR WO RO F1 F2 Psh) as (m & pms & ct & curveid & c0 & c1 & rest & LP & Hin & Mk & Gk & SP & Ma & Bm & Lm & RC1 & RC2 & RS1 & RS2).
  destruct (cl_full _ _ _ _ _ _ _ _ _ _ _ _ _ _ _ _ _ _ _ _ CR) as (m_cert & ders & l_skx & l_req & l_cc & l_cv & m_done & m_ckx & pms' & ct' & curveid' & chain & CF).
  pose proof CF as CF2. eapply cfull_steps in CF2 as (sk & rq & cv & _ & _ & _ & _ & KF).
  pose proof CR as CR2. eapply crun_tail in CR2 as (-> & _ & KT & _); [|exact Np].
  destruct HW as (HL & HG & _). assert (SM : small (cf_master f)) by (split; [exact Bm|unfold zlen; rewrite Lm; reflexivity]).
  pose proof (P_TLS_prf.C55_key_block (e_std E) Hs HL HG GMSSL false (cf_master f) (TLS_msg_model.ch_random hello) (TLS_msg_model.sh_random sh) 32 16 16 SM RC1 RS1 RC2 RS2 ltac:(intros; discriminate)) as (kk & X1 & X2 & _).
  pose proof (TLS_hs_client.cl_keys _ _ _ _ _ _ _ _ _ _ _ _ _ _ _ _ _ _ _ _ CR) as HK. unfold gm_keys in HK. change VersionGMSSL with (vers_of GMSSL) in HK. change (sha384_of GMSSL false) with false in X1. rewrite X1 in HK. injection HK as <-.
  eexists _, _. split; [rewrite EL, !keys_of_app, KF, KT; reflexivity|]. split; [exact X2|]. apply PRF_bytes; [exact HG|exact Bm|apply bytesb_spec; reflexivity|apply bytes_app; auto|lia].
Qed.
Lemma block_keyed isC kb block : cuts_block kb block -> bytes block -> keyed isC kb.
Proof.
  intros (-> & L1 & L2 & L3 & L4 & L5 & L6) B. repeat (apply bytes_app in B as [? B]). unfold keyed, out_keys, read_keys. destruct isC; cbn [negb fst snd]; auto.
Qed.
(** ** The start *)
Lemma fresh_can_write dyn : can_write 0 (w0 dyn) fresh_half.
Proof.
  unfold can_write, w0. cbn [w_out w_packetsSent w_bytesSent w_vers]. split; [|unfold VersionGMSSL; cbn; lia].
  unfold in_sync. cbn. repeat (split; [first [reflexivity|lia|exact I]|]). intros [].
Qed.

Lemma wire_agrees v r recs ms r1 : wire v r recs ms r1 -> forall g, agrees g r -> exists g1, wire v g recs ms g1.
Proof.
  induction 1 as [|r rec off d r' recs m ms r'' HF HD Hm Hne Hmax HC IH]; intros g HA; [exists g; constructor|].
  destruct (decrypt_agrees _ _ _ _ _ _ HA HD) as [HD' HA']. destruct (IH _ HA') as (g1 & C1). exists g1. econstructor; eassumption.
Qed.
Lemma framed_ok m : P_TLS_hs_agree.framed m -> zlen m <= 65540 -> msg_ok m.
Proof.
  intros (t & body & HB & ->) HL. assert (EZ : zlen (t :: be_bytes 3 (zlen body) ++ body) = 4 + zlen body). { unfold zlen. cbn [length]. rewrite app_length, be_bytes_length. lia. }
  rewrite EZ in HL. assert (EM : msg_len (t :: be_bytes 3 (zlen body) ++ body) = zlen body).
  { unfold msg_len. set (n := zlen body) in *. clearbody n. cbn [be_bytes app nth]. pose proof (Z.div_mod n 256 ltac:(lia)). pose proof (Z.div_mod (n / 256) 256 ltac:(lia)). rewrite (Z.mod_small (n / 256 / 256) 256); [lia|]. split; [apply Z.div_pos; [apply Z.div_pos; lia|lia]|]. apply Z.div_lt_upper_bound; [lia|]. apply Z.div_lt_upper_bound; lia. }
  split; [cbn [length]; rewrite app_length, be_bytes_length; lia|]. rewrite EM. split; [exact EZ|]. unfold maxHandshake. lia.
Qed.
Lemma size_le l : size l <= zlen (TLS_hs_proofs.transcript l) + zlen (marks l).
Proof.
  induction l as [|e l IH]; [cbn; lia|]. change (size (e :: l)) with (cost e + size l). change (TLS_hs_proofs.transcript (e :: l)) with (concat (TLS_hs_proofs.msg_of e ++ TLS_hs_proofs.wire l)).
  change (marks (e :: l)) with (mark_of e ++ marks l). rewrite concat_app. unfold zlen in *. rewrite !app_length. change (concat (TLS_hs_proofs.wire l)) with (TLS_hs_proofs.transcript l). destruct e; cbn [cost TLS_hs_proofs.msg_of mark_of concat length]; rewrite ?app_nil_r; unfold zlen; cbn [length]; lia.
Qed.
(** 16 random bytes for the explicit IV of each record *)
Definition ivs16 (iv : nat -> option (list Z)) : Prop := forall i, exists v, iv i = Some v /\ length v = 16%nat /\ bytes v.
Lemma side_writes isC dyn iv kb l : keyed isC kb -> ivs16 iv -> keys_of l = [kb] -> phase false l = Some (None, Some kb) -> zlen (marks l) <= 3 -> TLS_hs_proofs.wire_ok l ->
  Forall P_TLS_hs_agree.framed (messages l) -> Forall (fun m => zlen m <= 65540) (messages l) ->
  exists w r2 r2' k, wrun isC iv (w0 dyn) l = Some w /\ arrive (Kof (out_keys isC kb)) fresh_half (outbox l) (concat (w_log w)) r2' /\ agrees r2' r2 /\ can_write k w r2 /\ k < 2 ^ 60 /\ w_vers w = VersionGMSSL.
Proof.
  intros HK HIV KO HP HM [WB WL] HF HS. pose proof (size_le l) as SL.
  destruct (writer_arrive isC iv kb HK HIV l 0 (w0 dyn) fresh_half None None (None, Some kb)) as (w & recs & r2 & r2' & k' & A1 & A2 & A3 & A4 & A5 & A6 & A7 & A8).
  - apply fresh_can_write.
  - reflexivity.
  - split; cbn; auto.
  - now left.
  - exact HP.
  - rewrite KO. constructor; auto.
  - apply Forall_forall. intros e HI. destruct e as [m| | | | |]; auto. assert (IM : In m (messages l)). { apply in_flat_map. exists (EvSend m). split; [exact HI|now left]. }
    rewrite Forall_forall in HF, HS. split; [apply framed_ok; auto|]. unfold TLS_hs_proofs.transcript, bytes in *. rewrite Forall_forall in *. intros x Hx. apply WB. apply in_concat. eauto.
  - lia.
  - exists w, r2, r2', k'. split; [exact A1|]. cbn [w0 w_log app] in A2. rewrite A2. repeat (split; [assumption|]). split; [lia|assumption].
Qed.

(** Conn.Handshake (conn.go:1373-1376): after clientHandshake or serverHandshake returned nil the connection is marked complete *)
Definition complete (c : conn) : conn := mkConn (c_haveVers c) (c_vers c) true (c_reneg c) (c_in c) (c_err c) (c_raw c) (c_hand c) (c_input c) (c_warn c) (c_alerts c).
Lemma finish isC dyn iv kb wL r_end L k recs ms r2 r' : Q isC dyn iv kb r_end (concat recs) [] L k -> wrun isC iv (w0 dyn) L = Some wL -> agrees r_end r2 -> wire VersionGMSSL r2 recs ms r' ->
  k_w k = wL /\ reading VersionGMSSL (complete (k_c k)) (k_t k) (concat ms).
Proof.
  intros [HJ (B1 & B2 & B3 & B4 & B5 & r & s & B6 & B7 & B8)] HW HA HR. pose proof HJ as ((_ & _ & S & E & _) & _ & V2 & _). rewrite (gmw_same _ V2), HW in B5. injection B5 as ->. split; [reflexivity|].
  inversion B7; subst. cbn [app] in B8. destruct (wire_agrees _ _ _ _ _ HR _ (agrees_trans _ _ _ B6 HA)) as (g1 & HR').
  assert (HH : hdr_ok VersionGMSSL (k_c k)) by (eapply Q_hdr; [exact HW|exact HJ]). split; [exact HH|]. split; [exact gm_range|]. split; [reflexivity|]. split; [exact E|]. split; [exact B2|]. split; [apply S|]. split; [cbn; rewrite B3; discriminate|].
  exists recs, ms, g1. split; [exact HR'|]. split; [exact B8|]. cbn. rewrite B3. reflexivity.
Qed.

(** ** C120 *)
(** what a series of Reads on a connection gives: the data in order, nothing else; end of file only after all of it, and with enough calls it is reached *)
Definition delivers (c : conn) (t : transport) (data : list Z) : Prop :=
  forall ks, Forall (fun k => (0 < k)%nat) ks -> exists l rest, reads ks c t = Some l /\ data = concat (map fst l) ++ rest /\
    Forall (fun oe => snd oe = None /\ fst oe <> [] \/ fst oe = [] /\ snd oe = Some EEof) l /\ (In (Some EEof) (map snd l) -> rest = []) /\
    ((length data < length ks)%nat -> last (map snd l) None = Some EEof /\ concat (map fst l) = data).
Lemma reads_no_temp : forall ks v c t data l, reading v c t data -> temps t = 0%nat -> Forall (fun k => (0 < k)%nat) ks -> reads ks c t = Some l -> ~ In (Some ETemp) (map snd l).
Proof.
  induction ks as [|k ks IH]; intros v c t data l HR HT HK HL; [injection HL as <-; intros []|]. inversion HK as [|? ? Hk HK']; subst. cbn [reads] in HL.
  destruct (Read_step v c t data k HR Hk) as (c' & out & e & t' & E & [(-> & Ho & Hl & (rest & -> & HR') & HT')|[(-> & -> & HR' & HT')|(-> & -> & -> & HE)]]); [|lia|]; rewrite E in HL.
  - destruct (reads ks c' t') as [l'|] eqn:EL; [|discriminate]. injection HL as <-. intros [HX|HX]; [discriminate|]. exact (IH v c' t' rest l' HR' ltac:(lia) HK' EL HX).
  - assert (G : forall ks t l, Forall (fun k => (0 < k)%nat) ks -> reads ks c' t = Some l -> ~ In (Some ETemp) (map snd l)).
    { clear -HE. induction ks as [|k ks IH]; intros t l HK H; [injection H as <-; intros []|]. inversion HK; subst. cbn [reads] in H. unfold Read in H. replace (k =? 0)%nat with false in H by (symmetry; apply Nat.eqb_neq; lia). change 101%nat with (Datatypes.S 100) in H.
      rewrite (read_iter_sticky 100 c' t k EEof HE) in H. destruct (reads ks c' t) as [l'|] eqn:EL; [|discriminate]. injection H as <-. intros [HX|HX]; [discriminate|]. eapply IH; eassumption. }
    destruct (reads ks c' t') as [l'|] eqn:EL; [|discriminate]. injection HL as <-. intros [HX|HX]; [discriminate|]. eapply G; eassumption.
Qed.
Lemma reading_delivers v c t data : reading v c t data -> temps t = 0%nat -> delivers c t data.
Proof.
  intros HR HT ks HK. destruct (reads_spec ks v c t data HR HK) as (l & rest & F1 & F2 & F3 & F4 & F5). exists l, rest. split; [exact F1|]. split; [exact F2|].
  pose proof (reads_no_temp ks v c t data l HR HT HK F1) as NT.
  assert (F4' : In (Some EEof) (map snd l) -> rest = []).
  { intros H. apply F4. apply in_concat. exists [EEof]. split; [|left; reflexivity]. apply in_map_iff in H as (x & Hx & Hi). apply in_map_iff. exists x. rewrite Hx. auto. }
  split. { rewrite Forall_forall in *. intros x Hx. destruct (F3 x Hx) as [X|[X|X]]; auto. exfalso. apply NT. apply in_map_iff. exists x. tauto. }
  split; [exact F4'|]. intros Hn. specialize (F5 ltac:(lia)). split; [exact F5|]. assert (rest = []) as R0.
  { apply F4'. clear -F5. induction (map snd l) as [|a m IH]; [discriminate|]. destruct m; [left; exact F5|right; apply IH; exact F5]. }
  rewrite R0, app_nil_r in F2. now symmetry.
Qed.
(** the client and the server over the network: what they send, they send through their record layers; what each receives is what the other's record layer wrote *)
Section Both.
Context {T : Type} (Ec Es : env T) (Hs : hashes) (ccfg scfg : config T) (crn srn : rnds) (x0 x1 : gcert T) (xs : list (gcert T)) (clog slog : list event) (rc rs : hresult T).
Theorem C120_end_to_end reneg cdyn sdyn civ siv : world_ok Ec Hs -> client_random_ok Ec crn -> P_TLS_hs_run.completed_together Ec Es ccfg scfg crn srn x0 x1 xs clog slog rc rs ->
  Forall P_TLS_hs_run.fits (messages clog) -> ivs16 civ -> ivs16 siv ->
  exists cw sw, (* the two writing sides after the handshake: any data can then be written ... *)
    (forall data, bytes (concat data) -> zlen (concat data) < 2 ^ 63 -> (exists cw', writes cw data cw') /\ (exists sw', writes sw data sw')) /\
    (* ... and whatever the two write, *)
    forall cdata sdata cw' sw', bytes (concat cdata) -> zlen (concat cdata) < 2 ^ 63 -> writes cw cdata cw' -> bytes (concat sdata) -> zlen (concat sdata) < 2 ^ 63 -> writes sw sdata sw' ->
    (* and however the network cuts the bytes each end wrote *)
    forall ct st, t_rest ct = concat (w_log sw') -> temps ct = 0%nat -> t_rest st = concat (w_log cw') -> temps st = 0%nat ->
    exists lc ls, clientHandshakeGM Ec net ccfg None crn (fresh reneg cdyn civ ct, []) = (HOk (rc, None), (lc, clog)) /\
      serverHandshakeGM Es net scfg None srn (fresh false sdyn siv st, []) = (HOk rs, (ls, slog)) /\ k_w lc = cw /\ k_w ls = sw /\
      delivers (complete (k_c lc)) (k_t lc) (concat sdata) /\ delivers (complete (k_c ls)) (k_t ls) (concat cdata).
Proof.
  intros HW RO (H1 & H2 & NR & NR2 & EWi & WO & FR & _ & SS) HS CI SI. destruct SS as (V1 & V2 & _ & _ & _ & _ & _ & kb0 & K1 & K2).
  destruct (client_block Ec script Hs ccfg None crn _ rc None clog HW RO (ex_intro _ _ H1) NR WO) as (kb & block & K & CB & BB). rewrite K in K1. injection K1 as <-.
  destruct (client_marks Ec _ _ _ _ _ _ _ _ H1) as [M1 _]. pose proof (server_marks Es _ _ _ _ _ _ _ _ H2) as M2. cbn [marks flat_map app fst] in M1, M2. rewrite NR in M1. rewrite NR2 in M2. cbn [flow_marks Bool.eqb] in M1, M2.
  destruct (marks_phase clog) as (kc & KC & PC1 & PC2); [rewrite M1; auto|]. rewrite K in KC. injection KC as <-. destruct (marks_phase slog) as (kc & KC & PS1 & PS2); [rewrite M2; auto|]. rewrite K2 in KC. injection KC as <-.
  assert (WOs : TLS_hs_proofs.wire_ok slog) by (unfold TLS_hs_proofs.wire_ok, TLS_hs_proofs.transcript in *; rewrite <- EWi; exact WO).
  destruct (side_writes true cdyn civ kb clog (block_keyed _ _ _ CB BB) CI K PC2 ltac:(rewrite M1; cbn; lia) WO FR HS) as (cw & cr & cr' & ck & CW1 & CW2 & CW3 & CW4 & CW5 & CW6).
  rewrite EWi in FR, HS. destruct (side_writes false sdyn siv kb slog (block_keyed _ _ _ CB BB) SI K2 PS2 ltac:(rewrite M2; cbn; lia) WOs FR HS) as (sw & sr & sr' & sk & SW1 & SW2 & SW3 & SW4 & SW5 & SW6).
  exists cw, sw. split.
  { intros data BD LD. assert (RV : forall w, exists rnds, ivs_ok w rnds). { intros w. exists (fun _ => Some (zeros (fst (explicit_iv_len (w_out w))))). intros i. eexists. split; [reflexivity|]. split; [apply repeat_length|apply bytes_repeat; unfold is_byte; lia]. }
    split; eapply C72_writes; try eassumption; auto; lia. }
  intros cdata sdata cw' sw' BC LC WC BS LS WS ct st RC TC RS TS.
  destruct (writes_wire cdata cw cw' ck cr WC CW4 ltac:(lia) BC) as (crecs & cms & cr2 & C1 & C2 & C3). destruct (writes_wire sdata sw sw' sk sr WS SW4 ltac:(lia) BS) as (srecs & sms & sr2 & S1 & S2 & S3).
  rewrite CW6 in C2. rewrite SW6 in S2. rewrite S1, concat_app in RC. rewrite C1, concat_app in RS.
  assert (HPc : phase true clog <> None) by (rewrite PC1; discriminate). assert (HPs : phase true slog <> None) by (rewrite PS1; discriminate).
  destruct (proj2 (client_sim Ec script net clog (Q0 true cdyn civ kb sr' (concat srecs)) (Q true cdyn civ kb sr' (concat srecs)) (Q_closed true cdyn civ clog kb cw sr' (concat srecs) K HPc CW1) ccfg None crn
    (Q_setvers true cdyn civ clog kb cw sr' (concat srecs) CW1) _ _ _ _ _ H1) (here clog) I (fresh reneg cdyn civ ct)) as (lc & EC & QC).
  { apply Q0_fresh with (s := concat (w_log sw)); auto. discriminate. }
  destruct (proj2 (server_sim Es script net slog (hr_vers rs) (Q0 false sdyn siv kb cr' (concat crecs)) (Q0 false sdyn siv kb cr' (concat crecs)) (Q false sdyn siv kb cr' (concat crecs)) 
    ltac:(rewrite V2; exact (Q_closed false sdyn siv slog kb sw cr' (concat crecs) K2 HPs SW1)) scfg None srn (Q_recv0 false sdyn siv slog kb cr' (concat crecs))
    ltac:(rewrite V2; exact (Q_setvers false sdyn siv slog kb sw cr' (concat crecs) SW1)) _ _ _ _ _ H2) (here slog) eq_refl (fresh false sdyn siv st)) as (ls & EO & QS).
  { apply Q0_fresh with (s := concat (w_log cw)); auto. }
  exists lc, ls. split; [exact EC|]. split; [exact EO|].
  destruct (finish _ _ _ _ _ _ _ _ _ _ _ _ QC CW1 SW3 S2) as [F1 F2]. destruct (finish _ _ _ _ _ _ _ _ _ _ _ _ QS SW1 CW3 C2) as [F3 F4].
  split; [exact F1|]. split; [exact F3|]. rewrite S3 in F2. rewrite C3 in F4.
  split; (eapply reading_delivers; [eassumption|]); [apply QC|apply QS].
Qed.
End Both.
Print Assumptions C120_end_to_end.

(** ** C117: handshake messages survive any fragmentation *)
Lemma l_read_more v l r recs ms r1 s m rest : 0 <= v < 65536 -> chunked v r recs ms r1 -> c_hand (k_c l) ++ concat ms = m ++ rest -> msg_ok m -> rd v l -> agrees (c_in (k_c l)) r -> stream (k_c l) (k_t l) = concat recs ++ s ->
  exists l' recs' ms' r2, l_read l = (HOk m, l') /\ chunked v r2 recs' ms' r1 /\ c_hand (k_c l') ++ concat ms' = rest /\ rd v l' /\ agrees (c_in (k_c l')) r2 /\ stream (k_c l') (k_t l') = concat recs' ++ s.
Proof.
  intros HV HC EM (M1 & M2 & M3) HR HA ES.
  assert (FU : forall l2 recs2 r2 ms2, chunked v r2 recs2 ms2 r1 -> stream (k_c l2) (k_t l2) = concat recs2 ++ s -> (length recs2 < l_fuel l2)%nat).
  { intros l2 recs2 r2 ms2 HC2 ES2. apply chunked_len in HC2. apply (f_equal (@length Z)) in ES2. unfold stream in ES2. rewrite !app_length in ES2. unfold l_fuel. lia. }
  destruct (need_there v HV _ _ (l_fuel l) 4 _ _ _ _ HC HR HA ES) as (recs2 & ms2 & r2 & l2 & E2 & C2 & R2 & A2 & S2 & H2 & N2); [rewrite EM, app_length; lia|eapply FU; eassumption|].
  rewrite EM in H2. assert (ML : msg_len (c_hand (k_c l2)) = msg_len m). { assert (X : forall i, (i < 4)%nat -> nth i (c_hand (k_c l2)) 0 = nth i m 0). { intros i Hi. rewrite <- (app_nth1 (c_hand (k_c l2)) (concat ms2)) by lia. rewrite H2. apply app_nth1. lia. } unfold msg_len. rewrite !X by lia. reflexivity. }
  unfold l_read. rewrite E2, ML. cbv zeta. destruct (Z.ltb_spec maxHandshake (msg_len m)); [lia|]. assert (En : (4 + Z.to_nat (msg_len m))%nat = length m) by (unfold zlen in M2; lia). rewrite En.
  destruct (need_there v HV _ _ (l_fuel l2) (length m) _ _ _ _ C2 R2 A2 S2) as (recs3 & ms3 & r3 & l3 & E3 & C3 & R3 & A3 & S3 & H3 & N3); [rewrite H2, app_length; lia|eapply FU; eassumption|].
  rewrite H2 in H3. assert (F1 : firstn (length m) (c_hand (k_c l3)) = m). { apply (f_equal (firstn (length m))) in H3. rewrite firstn_app, (proj2 (Nat.sub_0_le _ _) N3), firstn_O, app_nil_r in H3. rewrite H3, firstn_app, Nat.sub_diag, firstn_O, app_nil_r. apply firstn_all. }
  assert (F2 : skipn (length m) (c_hand (k_c l3)) ++ concat ms3 = rest). { rewrite <- (firstn_skipn (length m) (c_hand (k_c l3))), F1, <- app_assoc in H3. now apply app_inv_head in H3. }
  rewrite E3, F1. eexists _, recs3, ms3, r3. split; [reflexivity|]. cbn [with_c k_c k_t with_hand c_hand c_in]. split; [exact C3|]. split; [exact F2|]. split; [exact R3|]. split; [exact A3|exact S3].
Qed.
(** readHandshake, n times *)
Fixpoint read_msgs (n : nat) (l : link) : hres (list (list Z)) * link :=
  match n with
  | O => (HOk [], l)
  | Datatypes.S n => match l_read l with (HOk m, l) => match read_msgs n l with (HOk ms, l) => (HOk (m :: ms), l) | (HErr e, l) => (HErr e, l) | (HPanic, l) => (HPanic, l) | (HLoop, l) => (HLoop, l) end
                     | (HErr e, l) => (HErr e, l) | (HPanic, l) => (HPanic, l) | (HLoop, l) => (HLoop, l) end
  end.
(** writeRecord(recordTypeHandshake, m) for each message *)
Inductive write_msgs : wconn -> list (list Z) -> wconn -> Prop :=
| wm_nil w : write_msgs w [] w
| wm_cons w m rnds n w1 ms w2 : ivs_ok w rnds -> writeRecordLocked w recordTypeHandshake m rnds = Ok (w1, n) -> write_msgs w1 ms w2 -> write_msgs w (m :: ms) w2.
(** Any peer: its messages, each with its length field and within the limit, cut into handshake records in any way - many records for one message, many messages
    in one record - and the bytes cut by the network in any way, are returned one by one *)
Theorem C117_reassembly v : 0 <= v < 65536 -> forall msgs l r recs ms r' s, rd v l -> c_in (k_c l) = r -> c_hand (k_c l) = [] -> chunked v r recs ms r' -> concat ms = concat msgs -> Forall msg_ok msgs ->
  stream (k_c l) (k_t l) = concat recs ++ s -> exists l', read_msgs (length msgs) l = (HOk msgs, l') /\ stream (k_c l') (k_t l') = s /\ c_hand (k_c l') = [] /\ rd v l'.
Proof.
  intros HV. assert (G : forall msgs l r recs ms r1 s, rd v l -> agrees (c_in (k_c l)) r -> chunked v r recs ms r1 -> c_hand (k_c l) ++ concat ms = concat msgs -> Forall msg_ok msgs -> stream (k_c l) (k_t l) = concat recs ++ s ->
    exists l', read_msgs (length msgs) l = (HOk msgs, l') /\ stream (k_c l') (k_t l') = s /\ c_hand (k_c l') = [] /\ rd v l').
  { induction msgs as [|m msgs IH]; intros l r recs ms r1 s HR HA HC EM HF ES; cbn [concat length read_msgs] in *.
    - apply app_eq_nil in EM as [E1 E2]. destruct (chunked_empty _ _ _ _ _ HC E2) as [-> _]. exists l. auto.
    - inversion HF as [|? ? HM HF']; subst. destruct (l_read_more v l r recs ms r1 s m (concat msgs) HV HC EM HM HR HA ES) as (l1 & recs' & ms' & r2 & E1 & C1 & H1 & R1 & A1 & S1).
      rewrite E1. destruct (IH l1 r2 recs' ms' r1 s R1 A1 C1 H1 HF' S1) as (l' & E2 & X). rewrite E2. exists l'. auto. }
  intros msgs l r recs ms r' s HR HA HH HC EM HF ES. apply (G msgs l r recs ms r' s); auto; [rewrite HA; apply agrees_refl|rewrite HH; exact EM].
Qed.
Print Assumptions C117_reassembly.
Lemma chunked_app v r recs1 ms1 r1 recs2 ms2 r2 : chunked v r recs1 ms1 r1 -> chunked v r1 recs2 ms2 r2 -> chunked v r (recs1 ++ recs2) (ms1 ++ ms2) r2.
Proof. intros H. revert recs2 ms2 r2. induction H; intros recs2 ms2 rr2 HH2; cbn [app]; [exact HH2|]. econstructor; eauto. Qed.
Lemma write_msgs_chunked : forall msgs w w' k r, write_msgs w msgs w' -> can_write k w r -> k + zlen (concat msgs) < 2 ^ 64 -> bytes (concat msgs) ->
  exists recs ms r', w_log w' = w_log w ++ recs /\ chunked (w_vers w) r recs ms r' /\ concat ms = concat msgs.
Proof.
  induction msgs as [|m msgs IH]; intros w w' k r HWs HW Hk Bb; inversion HWs as [|? ? rnds n w1 ? ? HI E HWs']; subst.
  - exists [], [], r. split; [now rewrite app_nil_r|]. split; [constructor|reflexivity].
  - cbn [concat] in *. assert (Hz : zlen (m ++ concat msgs) = zlen m + zlen (concat msgs)) by (unfold zlen; rewrite app_length; lia). apply bytes_app in Bb as [B1 B2].
    assert (P1 : 0 <= zlen (concat msgs)) by (unfold zlen; lia).
    destruct (write_chunked (length m) k w r m rnds 0 HW ltac:(lia) B1 ltac:(lia)) as (w1' & recs & ms & k' & r' & E1 & E2 & E3 & E4 & E5 & E6 & E7).
    { intros i. destruct (HI i) as (x & X1 & X2 & X3). exists x. auto. }
    unfold writeRecordLocked in E. rewrite E in E1. assert (w1' = w1) by congruence. subst w1'.
    destruct (IH w1 w' k' r' HWs' E5 ltac:(lia) B2) as (recs2 & ms2 & r2 & F1 & F2 & F3). exists (recs ++ recs2), (ms ++ ms2), r2.
    split; [rewrite F1, E2, app_assoc; reflexivity|]. split; [rewrite E7 in F2; eapply chunked_app; eassumption|]. rewrite concat_app. congruence.
Qed.
(** This library's own writer, under any keys in sync with the reader's *)
Theorem C117_written_read v w w' k l msgs s : write_msgs w msgs w' -> can_write k w (c_in (k_c l)) -> k + zlen (concat msgs) < 2 ^ 64 -> bytes (concat msgs) -> Forall msg_ok msgs -> w_vers w = v -> w_log w = [] ->
  rd v l -> c_hand (k_c l) = [] -> stream (k_c l) (k_t l) = concat (w_log w') ++ s ->
  exists l', read_msgs (length msgs) l = (HOk msgs, l') /\ stream (k_c l') (k_t l') = s /\ c_hand (k_c l') = [].
Proof.
  intros HWs HW Hk Bb HM HV HL HR HH ES. destruct (write_msgs_chunked _ _ _ _ _ HWs HW Hk Bb) as (recs & ms & r' & E1 & E2 & E3). rewrite HL in E1. cbn [app] in E1. rewrite E1 in ES. rewrite HV in E2.
  destruct (C117_reassembly v ltac:(destruct HW as (_ & _ & _ & _ & HW); lia) msgs l _ recs ms r' s HR eq_refl HH E2 E3 HM ES) as (l' & X1 & X2 & X3 & _). exists l'. auto.
Qed.
Print Assumptions C117_written_read.

(** ** C120 from the configurations *)
(** what C120 promises for a completed pair of handshakes *)
Definition talks {T} (Ec Es : env T) (ccfg scfg : config T) (crn srn : rnds) (clog slog : list event) (rc rs : hresult T) : Prop :=
  forall reneg cdyn sdyn civ siv, ivs16 civ -> ivs16 siv -> exists cw sw,
    (forall data, bytes (concat data) -> zlen (concat data) < 2 ^ 63 -> (exists cw', writes cw data cw') /\ (exists sw', writes sw data sw')) /\
    forall cdata sdata cw' sw', bytes (concat cdata) -> zlen (concat cdata) < 2 ^ 63 -> writes cw cdata cw' -> bytes (concat sdata) -> zlen (concat sdata) < 2 ^ 63 -> writes sw sdata sw' ->
    forall ct st, t_rest ct = concat (w_log sw') -> temps ct = 0%nat -> t_rest st = concat (w_log cw') -> temps st = 0%nat ->
    exists lc ls, clientHandshakeGM Ec net ccfg None crn (fresh reneg cdyn civ ct, []) = (HOk (rc, None), (lc, clog)) /\
      serverHandshakeGM Es net scfg None srn (fresh false sdyn siv st, []) = (HOk rs, (ls, slog)) /\ k_w lc = cw /\ k_w ls = sw /\
      delivers (complete (k_c lc)) (k_t lc) (concat sdata) /\ delivers (complete (k_c ls)) (k_t ls) (concat cdata).
(** C91's configurations, with certificates that fit into one message: the two ends complete over the network, and the data arrives *)
Theorem C120_honest_ends {T} (Ec Es : env T) Hs ccfg scfg crn srn cr sr b rnd b' c0 c1 k0 k1 d1 x0 x1 xs :
  world_ok Ec Hs -> world_ok Es Hs -> e_cv Es = e_cv Ec -> SM2_proofs.good_curve (e_cv Ec) ->
  P_TLS_hs_run.server_ready Es scfg srn sr b c0 c1 k0 k1 d1 -> P_TLS_hs_run.client_ready Ec ccfg crn cr rnd b' (P_TLS_hs_run.sent_certs scfg) k0 k1 d1 x0 x1 xs ->
  P_TLS_hs_run.picks_ecc (cf_prefer scfg) (getCipherSuites (cf_suites scfg)) (getCipherSuites (cf_suites ccfg)) ->
  cf_auth scfg = NoClientCert -> client_random_ok Ec crn -> P_TLS_hs_run.small_config ccfg scfg ->
  exists r s, Sign (e_cv Ec) (Some b) k0 (cr ++ sr ++ [u8 (Z.shiftr (zlen d1) 16); u8 (Z.shiftr (zlen d1) 8); u8 (zlen d1)] ++ d1) = Ok (r, s) /\
    (r <> 0 -> s <> 0 -> exists clog slog rc rs, P_TLS_hs_run.completed_together Ec Es ccfg scfg crn srn x0 x1 xs clog slog rc rs /\ talks Ec Es ccfg scfg crn srn clog slog rc rs).
Proof.
  intros W1 W2 EV GC SR CR PE NA RO SC. destruct (P_TLS_hs_run.C91_completes Ec Es Hs ccfg scfg crn srn cr sr b rnd b' c0 c1 k0 k1 d1 x0 x1 xs W1 W2 EV GC SR CR PE NA) as (r & s & SG & H).
  exists r, s. split; [exact SG|]. intros Nr Ns. destruct (H Nr Ns) as (clog & slog & rc & rs & HC & HF). exists clog, slog, rc, rs. split; [exact HC|].
  intros reneg cdyn sdyn civ siv CI SI. exact (C120_end_to_end Ec Es Hs ccfg scfg crn srn x0 x1 xs clog slog rc rs reneg cdyn sdyn civ siv W1 RO HC (HF SC) CI SI).
Qed.
Print Assumptions C120_honest_ends.
(** the same with a client certificate *)
Theorem C120_honest_ends_mutual {T} (Ec Es : env T) Hs ccfg scfg crn srn cr sr b rnd b' c0 c1 k0 k1 d1 x0 x1 xs cc kc bc y0 ys chains :
  world_ok Ec Hs -> world_ok Es Hs -> e_cv Es = e_cv Ec -> SM2_proofs.good_curve (e_cv Ec) ->
  P_TLS_hs_run.server_ready Es scfg srn sr b c0 c1 k0 k1 d1 -> P_TLS_hs_run.client_ready Ec ccfg crn cr rnd b' (P_TLS_hs_run.sent_certs scfg) k0 k1 d1 x0 x1 xs ->
  P_TLS_hs_run.picks_ecc (cf_prefer scfg) (getCipherSuites (cf_suites scfg)) (getCipherSuites (cf_suites ccfg)) ->
  P_TLS_hs_run.client_cert_ready Ec Es ccfg scfg crn cc kc bc y0 ys chains -> client_random_ok Ec crn -> P_TLS_hs_run.small_config ccfg scfg ->
  TLS_msg_model.cas_len (P_TLS_hs_run.asked_cas scfg) <= 65000 -> 3 * zlen (ce_chain cc) + TLS_msg_model.sum_len (ce_chain cc) <= 65000 ->
  exists r s, Sign (e_cv Ec) (Some b) k0 (cr ++ sr ++ [u8 (Z.shiftr (zlen d1) 16); u8 (Z.shiftr (zlen d1) 8); u8 (zlen d1)] ++ d1) = Ok (r, s) /\
    (r <> 0 -> s <> 0 -> exists t r' s', Sign (e_cv Ec) (Some bc) kc (sm3 t) = Ok (r', s') /\
      (r' <> 0 -> s' <> 0 -> exists clog slog rc rs, P_TLS_hs_run.completed_together Ec Es ccfg scfg crn srn x0 x1 xs clog slog rc rs /\ talks Ec Es ccfg scfg crn srn clog slog rc rs)).
Proof.
  intros W1 W2 EV GC SR CR PE CC RO SC SA SD. destruct (P_TLS_hs_run.C91_completes_mutual Ec Es Hs ccfg scfg crn srn cr sr b rnd b' c0 c1 k0 k1 d1 x0 x1 xs cc kc bc y0 ys chains W1 W2 EV GC SR CR PE CC) as (r & s & SG & H).
  exists r, s. split; [exact SG|]. intros Nr Ns. destruct (H Nr Ns) as (t & r' & s' & SG' & H'). exists t, r', s'. split; [exact SG'|]. intros Nr' Ns'. destruct (H' Nr' Ns') as (clog & slog & rc & rs & HC & _ & HF). exists clog, slog, rc, rs. split; [exact HC|].
  intros reneg cdyn sdyn civ siv CI SI. exact (C120_end_to_end Ec Es Hs ccfg scfg crn srn x0 x1 xs clog slog rc rs reneg cdyn sdyn civ siv W1 RO HC (HF SC SA SD) CI SI).
Qed.
Print Assumptions C120_honest_ends_mutual.

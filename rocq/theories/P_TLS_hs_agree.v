(** C89, C90: a client and a server that complete the same handshake hold the same secrets; and what the Finished messages guarantee against an attacker. *)
From Verif Require Import GoBase GoLemmas BigBytes Asn1_model X509_spec Prime_cert SM2_curve_spec SM2_group SM2_jac SM2_spec SM2_model SM2_proofs SM3_spec TLS_record_model TLS_prf_model TLS_prf_spec TLS_prf_proofs
  TLS_gmka_model TLS_ticket_model TLS_msg_model TLS_msg_proofs TLS_neg_model TLS_hs_model TLS_hs_proofs TLS_hs_bytes TLS_hs_spec P_TLS_hs_server P_TLS_hs_client.
From Verif Require X509_model P_TLS_msg P_TLS_gmka.
Open Scope Z_scope.
#[local] Opaque sm3 PRF smul padd sm2_n sm2_p Encrypt Decrypt be_bytes.

(** ** What the two hello messages carry at fixed places *)
Lemma ch_ext_core m e l d r : ch_ext m e l d = Ok r -> ch_vers r = ch_vers m /\ ch_random r = ch_random m.
Proof.
  intros H. unfold ch_ext in H.
  repeat match type of H with (if ?c then _ else _) = _ => destruct c end;
    try solve [ropen H; injection H as <-; auto].
  apply rbind_ok in H as (? & _ & H). apply fails_ok in H as [_ H]. do 2 (apply rbind_ok in H as (? & _ & H)). apply fails_ok in H as [_ H].
  revert H. unfold wrun. apply (wloop_inv (fun c => ch_vers c = ch_vers m /\ ch_random c = ch_random m)); [|auto].
  clear. intros a d r Ha H. unfold sni_body in H. apply fails_ok in H as [_ H]. do 3 (apply rbind_ok in H as (? & _ & H)). apply fails_ok in H as [_ H].
  apply rbind_ok in H as (? & _ & H). destruct (x =? 0); ropen H; injection H as <-; exact Ha.
Qed.
Lemma ch_core m d r : u_clientHello m d = Ok r -> be16 d 4 = Ok (ch_vers r) /\ sl d 6 38 = Ok (ch_random r).
Proof.
  intros H. unfold u_clientHello in H. apply fails_ok in H as [_ H]. apply rbind_ok in H as (V & HV & H). apply rbind_ok in H as (R & HR & H). rewrite HV, HR.
  enough (X : ch_vers r = V /\ ch_random r = R) by (destruct X; split; congruence).
  apply rbind_ok in H as (? & _ & H). apply fails_ok in H as [_ H]. do 2 (apply rbind_ok in H as (? & _ & H)). apply fails_ok in H as [_ H].
  apply rbind_ok in H as (? & _ & H). apply fails_ok in H as [_ H]. do 2 (apply rbind_ok in H as (? & _ & H)). cbv zeta in H.
  apply rbind_ok in H as (? & _ & H). apply fails_ok in H as [_ H]. apply rbind_ok in H as (? & _ & H). apply fails_ok in H as [_ H].
  do 2 (apply rbind_ok in H as (? & _ & H)).
  match type of H with (if ?c then _ else _) = _ => destruct c end; [injection H as <-; auto|].
  apply fails_ok in H as [_ H]. do 2 (apply rbind_ok in H as (? & _ & H)). apply fails_ok in H as [_ H].
  revert H. unfold wrun. apply (wloop_inv (fun c => ch_vers c = V /\ ch_random c = R)); [|auto].
  intros a d' r' Ha. apply (ext_body_inv (fun c => ch_vers c = V /\ ch_random c = R) ch_ext); [|exact Ha]. intros m' e l d2 r2 [H1 H2] He. apply ch_ext_core in He as [-> ->]. auto.
Qed.
Lemma sh_ext_core m e l d r : sh_ext m e l d = Ok r -> sh_vers r = sh_vers m /\ sh_random r = sh_random m /\ sh_suite r = sh_suite m /\ sh_comp r = sh_comp m /\ sh_sessionId r = sh_sessionId m.
Proof.
  intros H. unfold sh_ext in H.
  repeat match type of H with (if ?c then _ else _) = _ => destruct c end; solve [ropen H; injection H as <-; repeat split].
Qed.
Lemma sh_core m d r : u_serverHello m d = Ok r -> be16 d 4 = Ok (sh_vers r) /\ sl d 6 38 = Ok (sh_random r) /\
  (idx d 38 = Ok 0 -> exists d', sl_from d 39 = Ok d' /\ be16 d' 0 = Ok (sh_suite r) /\ sh_sessionId r = []).
Proof.
  intros H. unfold u_serverHello in H. apply fails_ok in H as [_ H]. apply rbind_ok in H as (V & HV & H). apply rbind_ok in H as (R & HR & H).
  apply rbind_ok in H as (L & HL & H). apply fails_ok in H as [_ H]. apply rbind_ok in H as (I & HI & H). apply rbind_ok in H as (d' & Hd & H). apply fails_ok in H as [_ H].
  apply rbind_ok in H as (S & HS & H). do 2 (apply rbind_ok in H as (? & _ & H)). cbv zeta in H. rewrite HV, HR, HL.
  enough (X : sh_vers r = V /\ sh_random r = R /\ sh_suite r = S /\ sh_sessionId r = I).
  { destruct X as (-> & -> & -> & ->). split; [reflexivity|]. split; [reflexivity|]. intros [= ->]. exists d'. split; [exact Hd|]. split; [exact HS|].
    unfold sl in HI. apply rbind_ok in HI as (y & H1 & H2). apply sl_to_ok in H1 as [? ->]. apply sl_from_ok in H2 as [_ ->]. apply skipn_all2. rewrite firstn_length. lia. }
  match type of H with (if ?c then _ else _) = _ => destruct c end; [injection H as <-; auto|].
  apply fails_ok in H as [_ H]. do 2 (apply rbind_ok in H as (? & _ & H)). apply fails_ok in H as [_ H].
  revert H. unfold wrun. apply (wloop_inv (fun c => sh_vers c = V /\ sh_random c = R /\ sh_suite c = S /\ sh_sessionId c = I)); [|auto].
  intros a e' r' Ha. apply (ext_body_inv (fun c => sh_vers c = V /\ sh_random c = R /\ sh_suite c = S /\ sh_sessionId c = I) sh_ext); [|exact Ha]. intros m' e l d2 r2 (H1 & H2 & H3 & H4) He. apply sh_ext_core in He as (-> & -> & -> & _ & ->). auto.
Qed.
Lemma ch_same m d r : m_clientHello m = Ok d -> u_clientHello ch_empty d = Ok r -> 0 <= ch_vers m < 2 ^ 16 -> length (ch_random m) = 32%nat -> ch_vers r = ch_vers m /\ ch_random r = ch_random m.
Proof.
  intros H1 H2 HV HR. apply ch_core in H2 as [H2 H3]. unfold m_clientHello in H1. destruct (existsb _ _); [discriminate|]. cbv zeta in H1. apply fill_ok in H1 as (k & ->).
  rewrite <- !app_assoc in *. rewrite P_TLS_msg.copy32_id in * by exact HR.
  match type of H2 with context [[1] ++ b3 ?n ++ b2 ?v ++ ?rest] =>
    rewrite (be16_at _ ([1] ++ b3 n) v rest 4) in H2; [|rewrite <- app_assoc; reflexivity|reflexivity|exact HV];
    rewrite (sl_at _ ([1] ++ b3 n ++ b2 v) (ch_random m) (skipn 32 rest) 6 38) in H3 end.
  - split; congruence.
  - rewrite <- !app_assoc. do 3 apply f_equal. rewrite skipn_app, HR, skipn_all2, Nat.sub_diag by lia. reflexivity.
  - reflexivity.
  - unfold zlen. rewrite HR. reflexivity.
Qed.
Lemma sh_same m d r : m_serverHello m = Ok d -> u_serverHello sh_empty d = Ok r -> 0 <= sh_vers m < 2 ^ 16 -> length (sh_random m) = 32%nat -> 0 <= sh_suite m < 2 ^ 16 -> sh_sessionId m = [] ->
  sh_vers r = sh_vers m /\ sh_random r = sh_random m /\ sh_suite r = sh_suite m.
Proof.
  intros H1 H2 HV HR HS HI. apply sh_core in H2 as (H2 & H3 & H4). unfold m_serverHello in H1. destruct (_ && _); [discriminate|]. cbv zeta in H1. apply fill_ok in H1 as (k & ->).
  rewrite HI in *. change (u8 (zlen (@nil Z))) with 0 in *. rewrite app_nil_l in *.
  rewrite <- !app_assoc in *. rewrite P_TLS_msg.copy32_id in * by exact HR.
  match type of H2 with be16 ([2] ++ b3 ?n ++ b2 ?v ++ sh_random m ++ [0] ++ b2 ?s ++ ?rest) 4 = _ =>
    rewrite (be16_at _ ([2] ++ b3 n) v (sh_random m ++ [0] ++ b2 s ++ rest) 4) in H2; [|rewrite <- app_assoc; reflexivity|reflexivity|exact HV];
    rewrite (sl_at _ ([2] ++ b3 n ++ b2 v) (sh_random m) ([0] ++ b2 s ++ rest) 6 38) in H3; [|rewrite <- !app_assoc; reflexivity|reflexivity|unfold zlen; rewrite HR; reflexivity];
    destruct H4 as (d' & H4 & H5 & _); [apply (idx_at _ ([2] ++ b3 n ++ b2 v ++ sh_random m) 0 (b2 s ++ rest)); [rewrite <- !app_assoc; reflexivity|unfold zlen; rewrite !app_length, HR; reflexivity]|];
    rewrite (sl_from_at _ ([2] ++ b3 n ++ b2 v ++ sh_random m ++ [0]) (b2 s ++ rest) 39) in H4; [|rewrite <- !app_assoc; reflexivity|unfold zlen; rewrite !app_length, HR; reflexivity];
    injection H4 as <-; rewrite (be16_at _ [] s rest 0) in H5; [|reflexivity|reflexivity|exact HS] end.
  repeat split; congruence.
Qed.

(** ** Identifying a message in two logs *)
Lemma wire_types l : map mtype (wire l) = flat_map (fun s => match s with Out t | In_ t => [t] | _ => [] end) (steps l).
Proof.
  induction l as [|e l IH]; [reflexivity|]. change (e :: l) with ([e] ++ l). rewrite wire_app, steps_app, map_app, flat_map_app, IH. destruct e; reflexivity.
Qed.
Lemma in_wire_recv m l : In (EvRecv m) l -> In m (wire l). Proof. intros H. apply in_flat_map. exists (EvRecv m). cbn. auto. Qed.
Lemma in_wire_send m l : In (EvSend m) l -> In m (wire l). Proof. intros H. apply in_flat_map. exists (EvSend m). cbn. auto. Qed.
Lemma once (ws : list (list Z)) t a b : count_occ Z.eq_dec (map mtype ws) t = 1%nat -> In a ws -> In b ws -> mtype a = t -> mtype b = t -> a = b.
Proof.
  intros HC Ha Hb Ta Tb. induction ws as [|w ws IH]; [destruct Ha|]. cbn [map] in HC.
  assert (Z0 : forall x, In x ws -> mtype x = t -> count_occ Z.eq_dec (map mtype ws) t <> 0%nat).
  { intros x Hx Tx X. apply (count_occ_not_In Z.eq_dec) in X. apply X. rewrite <- Tx. now apply in_map. }
  destruct (Z.eq_dec (mtype w) t) as [Tw|Tw].
  - rewrite (count_occ_cons_eq Z.eq_dec _ Tw) in HC. destruct Ha as [<-|Ha]; [|exfalso; apply (Z0 a Ha Ta); lia]. destruct Hb as [<-|Hb]; [reflexivity|exfalso; apply (Z0 b Hb Tb); lia].
  - rewrite (count_occ_cons_neq Z.eq_dec _ Tw) in HC. destruct Ha as [<-|Ha]; [congruence|]. destruct Hb as [<-|Hb]; [congruence|]. auto.
Qed.
Lemma client_flow_once sk rq cv np tk t : In t [16; 20] -> t = 16 -> count_occ Z.eq_dec (flat_map (fun s => match s with Out t | In_ t => [t] | _ => [] end) (client_flow sk rq cv np tk)) t = 1%nat.
Proof. intros _ ->. destruct sk, rq, cv, np, tk; reflexivity. Qed.

Lemma app_inj_len {A} (a a' b b' : list A) : a ++ b = a' ++ b' -> length a = length a' -> a = a' /\ b = b'.
Proof. revert a'. induction a as [|x a IH]; intros [|y a'] H L; try discriminate L; [auto|]. cbn in *. injection H as -> H. injection L as L. destruct (IH _ H L) as [-> ->]. auto. Qed.
Lemma wire_bytes l m : wire_ok l -> In m (wire l) -> bytes m.
Proof.
  intros HW Hm. apply in_flat_map in Hm as (e & He & Hm). apply in_split in He as (a & b & ->). apply wire_ok_app in HW as [_ HW]. apply wire_ok_cons in HW as [HW _].
  destruct e; try destruct Hm as [<-|[]]; try destruct Hm; [now apply wire_ok_send in HW|now apply wire_ok_recv in HW].
Qed.

(** ** C89.  Agreement *)
(** A client and a server that complete a full handshake with each other - each message one of them sends is the message the other receives, so both
    logs show the same messages in the same order - agree on version, suite, randoms, master secret and all six keys, provided the certificate the
    client encrypted for belongs to the server's key. *)
Theorem C89_agreement {T} (Ec Es : env T) (Cc Cs : chan) (Hs : hashes) (ccfg scfg cfg' : config T) getcfg cache crn srn cs0 ss0 rc ns rs clog slog ch c0 c1 more x0 x1 xs priv p :
  world_ok Ec Hs -> world_ok Es Hs -> client_random_ok Ec crn -> hello_random_ok srn ->
  client_completes Ec Cc ccfg cache crn cs0 rc ns clog -> hr_resumed rc = false ->
  server_completes Es Cs scfg getcfg srn ss0 rs slog -> hr_resumed rs = false ->
  wire_ok clog -> wire clog = wire slog ->
  (* the server's encryption key is the one in the client's second certificate *)
  hello_read slog ch -> cfg_for scfg getcfg ch cfg' -> cf_certs cfg' = c0 :: c1 :: more -> ce_key c1 = Some priv ->
  hr_peer rc = x0 :: x1 :: xs -> g_pub x1 = PkSM2 p ->
  e_cv Es = e_cv Ec -> good_curve (e_cv Ec) -> tab_ok (e_cv Ec) p -> 1 <= sD priv <= sm2_n - 1 -> (pX p, pY p) = aff (smul (sD priv) pG) -> r_enc crn <> None ->
  hr_vers rc = hr_vers rs /\ hr_suite rc = hr_suite rs /\ hr_clientRandom rc = hr_clientRandom rs /\ hr_serverRandom rc = hr_serverRandom rs /\ hr_master rc = hr_master rs /\
  keys_of clog = keys_of slog /\ exists kb, keys_of clog = [kb].
Proof.
  intros Wc Ws ROc ROs HC FC HS FS WO EW HRd HCf HCe HK HP HG EV GC TB HD HX HE.
  assert (WOs : wire_ok slog) by (unfold wire_ok, transcript in *; rewrite <- EW; exact WO).
  destruct (C84_server_secrets Es Cs Hs Ws _ _ _ _ _ _ ROs HS FS WOs) as (ch' & cfg2 & ver & c0' & c1' & more' & ms & cts & pmss & kbs & HRd' & HCf' & HCe' & Su & _ & _ & _ & Ve & _ & CRs & SRs & _ & Ins & Tms & Ucts & Pms & Mas & Ks & Cuts).
  assert (ch' = ch) as ->.
  { destruct HRd as (m1 & r1 & E1 & _ & U1), HRd' as (m2 & r2 & E2 & _ & U2). rewrite E1 in E2. injection E2 as -> _. congruence. }
  assert (cfg2 = cfg') as ->. { unfold cfg_for in *. destruct getcfg; [|congruence]. destruct HCf as (x & Y1 & ->), HCf' as (y & Y2 & ->). rewrite Y1 in Y2. injection Y2 as ->. reflexivity. }
  rewrite HCe in HCe'. injection HCe' as <- <- <-.
  destruct (C84_server_hello Es Cs Hs Ws _ _ _ _ _ _ _ _ HS FS HRd HCf) as (e1 & m_sh & m_cert & srest & sh & ELs & Msh & _ & S1 & S2 & S3 & S4 & _).
  destruct (C86_client_flow Ec Cc Hs Wc _ _ _ _ _ _ _ HC FC) as (hc & shc & sk & rq & cv & HSe & HSr & Fl & _ & _ & V1 & R1 & _ & _ & _ & _ & _ & W1 & _ & _ & _ & _ & Q1 & Q2 & Q3 & Q4 & _).
  pose proof EW as EWf. destruct HSe as (m1 & crest & ELc & Mch). destruct HSr as (e2 & m2 & crest2 & ELc2 & _ & Ush). rewrite ELc in ELc2. injection ELc2 as <- ->.
  destruct HRd as (m3 & srest3 & ELs3 & _ & Uch). rewrite ELs in ELs3. injection ELs3 as -> <-.
  rewrite ELc, ELs in EW. cbn in EW. injection EW as -> -> EW'.
  destruct ROc as (RO1 & RO2 & RO3). destruct (RO1 _ R1) as [Bc Lc]. destruct (ROs _ SRs) as [Bs Ls].
  assert (VR : 0 <= hr_vers rs < 2 ^ 16) by (rewrite Ve; destruct ver as [| | |[|]|]; cbv; split; congruence).
  assert (HCe2 : ch_vers ch = ch_vers hc /\ ch_random ch = ch_random hc) by (eapply ch_same; [exact Mch|exact Uch|rewrite V1; lia|exact Lc]).
  destruct HCe2 as [CV1 CV2].
  assert (SHe : sh_vers shc = sh_vers sh /\ sh_random shc = sh_random sh /\ sh_suite shc = sh_suite sh).
  { eapply sh_same; [exact Msh|exact Ush|rewrite S1; exact VR|rewrite S2; exact Ls|rewrite S3, Su; lia|exact S4]. }
  destruct SHe as (SH1 & SH2 & SH3).
  assert (A1 : hr_vers rc = hr_vers rs) by congruence.
  assert (A2 : hr_suite rc = hr_suite rs) by congruence.
  assert (A3 : hr_clientRandom rc = hr_clientRandom rs) by congruence.
  assert (A4 : hr_serverRandom rc = hr_serverRandom rs) by congruence.
  assert (Vg : ver = GMSSL). { rewrite Q1 in A1. rewrite Ve in A1. destruct ver as [| | |[|]|]; cbv in A1; congruence. }
  destruct (C86_client_secrets Ec Cc Hs Wc _ _ _ _ _ _ _ (conj RO1 (conj RO2 RO3)) HC FC WO ltac:(congruence)) as (y0 & y1 & ys & p' & mc & ctc & pmsc & b & kbc & HP' & HG' & Inc & Mck & Rp & Epms & (enc & Een & Ect) & Mac & Kc & Cutc).
  rewrite HP in HP'. injection HP' as <- <- <-. rewrite HG in HG'. injection HG' as <-.
  (* the same ClientKeyExchange *)
  assert (Emk : mc = ms).
  { apply (once (wire clog) 16).
    - rewrite wire_types, Fl. apply client_flow_once; cbn; auto.
    - apply in_wire_send. exact Inc.
    - rewrite ELc. cbn. rewrite EW'. apply in_wire_recv in Ins. rewrite ELs in Ins. exact Ins.
    - exact (t_ckx _ _ Mck).
    - exact Tms. }
  subst mc. destruct (RO2 _ Rp) as [Bb Lb].
  assert (Ec2 : generateClientKeyExchange (e_cv Ec) (e_fuel Ec) (r_pms crn) (r_enc crn) VersionGMSSL p = Some (Ok (pmsc, ctc))).
  { unfold generateClientKeyExchange. rewrite Rp. change ([u8 (Z.shiftr VersionGMSSL 8); u8 VersionGMSSL] ++ b) with ([1; 1] ++ b). rewrite <- Epms, Een. cbn [option_map rbind]. rewrite Ect. reflexivity. }
  rewrite Rp in Ec2. destruct (r_enc crn) as [be|]; [|congruence].
  destruct (P_TLS_gmka.C58_same_pre_master_secret T (e_cv Ec) (mkPriv p (sD priv) (sDInv priv)) be b VersionGMSSL (e_fuel Ec) pmsc ctc GC TB HD HX Bb Lb ltac:(unfold VersionGMSSL; lia) Ec2) as (_ & _ & Dec).
  assert (Dec2 : processClientKeyExchange (e_cv Ec) (Some priv) ctc = Ok pmsc) by exact Dec.
  (* what the server read is what the client wrote *)
  assert (Ectt : ctc = cts).
  { destruct (P_TLS_gmka.C59_low_byte_partial T (e_cv Es) (ce_key c1) cts pmss) as [Ln _].
    { destruct (P_TLS_msg.C75_clientKeyExchange ms cts) as (t & ->).
      - apply wire_ok_recv. apply in_split in Ins as (a1 & a2 & ->). apply wire_ok_app in WOs as [_ WOs]. now apply wire_ok_cons in WOs as [WOs _].
      - exact Ucts.
      - apply in_split in Ins as (a1 & a2 & ->). apply wire_ok_app in WOs as [_ WOs]. apply wire_ok_cons in WOs as [WOs _]. apply wire_ok_recv in WOs. apply bytes_cons in WOs as [_ WOs]. now apply bytes_app in WOs as [_ WOs]. }
    { exact Pms. }
    assert (L2 : zlen ctc <= 257). { destruct (P_TLS_gmka.C59_low_byte_partial T (e_cv Ec) (Some priv) ctc pmsc) as [X _]; [|exact Dec2|exact X].
      unfold m_clientKeyExchange in Mck. apply fill_ok in Mck as (k & ->). apply in_wire_send in Inc. rewrite EWf in Inc. apply (wire_bytes _ _ WOs) in Inc.
      rewrite <- !app_assoc in Inc. apply bytes_app in Inc as [_ Inc]. apply bytes_app in Inc as [_ Inc]. now apply bytes_app in Inc as [Inc _]. }
    destruct (P_TLS_msg.C63_clientKeyExchange ctc ltac:(lia)) as (w & X1 & _ & X2). congruence. }
  subst cts. rewrite HK, EV in Pms. rewrite Dec2 in Pms. injection Pms as <-.
  assert (A5 : hr_master rc = hr_master rs) by (rewrite Mac, Mas, Vg, A3, A4; reflexivity).
  split; [exact A1|]. split; [exact A2|]. split; [exact A3|]. split; [exact A4|]. split; [exact A5|].
  split; [|eauto]. rewrite Kc, Ks. f_equal. rewrite Vg, <- A5, <- A3, <- A4 in Cuts.
  destruct Cutc as (C1 & C2 & C3 & C4 & C5 & C6 & C7), Cuts as (D1 & D2 & D3 & D4 & D5 & D6 & D7). rewrite C1 in D1.
  clear -C2 C3 C4 C5 C6 C7 D1 D2 D3 D4 D5 D6 D7.
  apply app_inj_len in D1 as [E1 D1]; [|congruence]. apply app_inj_len in D1 as [E2 D1]; [|congruence]. apply app_inj_len in D1 as [E3 D1]; [|congruence].
  apply app_inj_len in D1 as [E4 D1]; [|congruence]. apply app_inj_len in D1 as [E5 D1]; [|congruence].
  clear C2 C3 C4 C5 C6 C7 D2 D3 D4 D5 D6 D7. destruct kbc, kbs. cbn in *. subst. exact eq_refl.
Qed.
Print Assumptions C89_agreement.

(** ** C90.  Tampering is noticed *)
(** a handshake message on the wire: type, three length bytes, body *)
Definition framed (m : list Z) : Prop := exists t body, 0 <= zlen body < 2 ^ 24 /\ m = t :: be_bytes 3 (zlen body) ++ body.
Lemma cons_eq {A} (x y : A) l l' : x :: l = y :: l' -> x = y /\ l = l'. Proof. intros H. injection H. auto. Qed.
Lemma framed_inj a b ra rb : framed a -> framed b -> a ++ ra = b ++ rb -> a = b /\ ra = rb.
Proof.
  intros (ta & ba & La & ->) (tb & bb & Lb & ->) H. rewrite <- !app_comm_cons, <- !app_assoc in H. apply cons_eq in H as [-> H].
  apply app_inj_len in H as [H1 H2]; [|now rewrite !be_bytes_length].
  assert (E : zlen ba = zlen bb).
  { apply (f_equal be_val) in H1. rewrite !be_val_be_bytes in H1. change (256 ^ Z.of_nat 3) with (2 ^ 24) in H1. rewrite !Z.mod_small in H1 by assumption. exact H1. }
  apply app_inj_len in H2 as [-> ->]; [auto|]. unfold zlen in E. lia.
Qed.
Lemma framed_concat a : forall b, Forall framed a -> Forall framed b -> concat a = concat b -> a = b.
Proof.
  induction a as [|x a IH]; intros [|y b] Ha Hb H; [reflexivity|..].
  - inversion_clear Hb as [|? ? (t & bd & _ & ->) _]. discriminate.
  - inversion_clear Ha as [|? ? (t & bd & _ & ->) _]. discriminate.
  - inversion_clear Ha. inversion_clear Hb. cbn [concat] in H. apply framed_inj in H as [-> H]; [|assumption..]. f_equal. auto.
Qed.
Lemma client_last {T} (E : env T) C Hs cfg cache rn c r ns log : world_ok E Hs -> client_completes E C cfg cache rn c r ns log -> hr_resumed r = false ->
  exists pre m, log = pre ++ [EvRecv m] /\ mtype m = tFinished.
Proof.
  intros HW H HR. destruct (client_parts E C Hs HW _ _ _ _ _ _ _ H HR) as (hello & hello0 & session & chraw & m_sh & sh & su & f & h0 & lf & k & l_np & l_t & m_fin & m_sfin & CR & M1 & M2 & Em & Psh & Ev & Ms & Cp & Np & Al).
  destruct (crun_tail _ _ _ _ _ _ _ _ _ _ _ _ _ _ _ _ _ _ _ _ CR Np) as (_ & _ & _ & _ & T2 & _).
  exists ([EvSend chraw; EvRecv m_sh] ++ lf ++ [EvKeys k; EvSendCCS] ++ l_np ++ [EvSend m_fin] ++ l_t ++ [EvRecvCCS]), m_sfin. split; [|exact T2].
  rewrite (TLS_hs_client.cl_log _ _ _ _ _ _ _ _ _ _ _ _ _ _ _ _ _ _ _ _ CR). rewrite <- !app_assoc. reflexivity.
Qed.
Lemma server_last {T} (E : env T) C Hs cfg getcfg rn c r log : world_ok E Hs -> server_completes E C cfg getcfg rn c r log -> hr_resumed r = false ->
  exists pre m, log = pre ++ [EvSend m] /\ mtype m = tFinished /\ forall x, In (EvSend x) pre -> mtype x <> tFinished.
Proof.
  intros HW H HR. pose proof (C83_server_flow E C Hs HW _ _ _ _ _ _ H HR) as (ch & cfg' & _ & _ & FL).
  destruct (server_parts E C Hs HW _ _ _ _ _ _ H HR) as (hs & su & f & lf & k & l_np & l_t & m_fin & m_sfin & SR & _).
  exists ([EvRecv (ss_chraw hs)] ++ lf ++ [EvKeys k; EvRecvCCS] ++ l_np ++ [EvRecv m_fin] ++ l_t ++ [EvSendCCS]), m_sfin.
  assert (EL : log = ([EvRecv (ss_chraw hs)] ++ lf ++ [EvKeys k; EvRecvCCS] ++ l_np ++ [EvRecv m_fin] ++ l_t ++ [EvSendCCS]) ++ [EvSend m_sfin]).
  { rewrite (TLS_hs_server.sr_log _ _ _ _ _ _ _ _ _ _ _ _ _ _ SR). rewrite <- !app_assoc. reflexivity. }
  split; [exact EL|]. rewrite EL in FL. rewrite steps_app in FL. change (steps [EvSend m_sfin]) with [Out (mtype m_sfin)] in FL.
  match type of FL with steps ?p ++ _ = server_flow ?a ?b ?c ?d ?e => revert FL; generalize p, a, b, c, d, e end.
  clear. intros p a b c d e FL.
  assert (X : exists q, server_flow a b c d e = q ++ [Out 20] /\ ~ In (Out 20) q) by
    (destruct a, b, c, d, e; match goal with |- exists q, ?l = _ /\ _ => exists (removelast l) end; (split; [exact eq_refl|cbn; intuition discriminate])).
  destruct X as (q & EQ & NQ). rewrite EQ in FL. apply app_inj_tail in FL as [FP FT]. split; [now injection FT|].
  intros x Hx Tx. apply NQ. rewrite <- FP. apply in_flat_map. exists (EvSend x). split; [exact Hx|]. cbn. rewrite Tx. auto.
Qed.
(** If both ends hold the same master secret and the Finished message the client accepted is the one the server sent, nobody altered the handshake: both saw
    the same messages.  The only way out is that these two transcripts collide: the same SM3 digest, or the same 12 bytes of PRF output for two digests. *)
Theorem C90_tamper_evident {T} (Ec Es : env T) (Cc Cs : chan) (Hs : hashes) (ccfg scfg : config T) getcfg cache crn srn cs0 ss0 rc ns rs clog slog :
  world_ok Ec Hs -> world_ok Es Hs -> client_random_ok Ec crn -> hello_random_ok srn ->
  client_completes Ec Cc ccfg cache crn cs0 rc ns clog -> hr_resumed rc = false ->
  server_completes Es Cs scfg getcfg srn ss0 rs slog -> hr_resumed rs = false ->
  wire_ok clog -> wire_ok slog -> Forall framed (wire clog) -> Forall framed (wire slog) ->
  hr_master rc = hr_master rs ->
  (forall m, In (EvRecv m) clog -> mtype m = tFinished -> In (EvSend m) slog) ->
  wire clog = wire slog \/
  let tc := transcript (removelast clog) in let ts := transcript (removelast slog) in
  tc <> ts /\ (sm3 tc = sm3 ts \/ (sm3 tc <> sm3 ts /\ PRF Hs GMSSL 12 (hr_master rc) ascii_server_finished (sm3 tc) = PRF Hs GMSSL 12 (hr_master rc) ascii_server_finished (sm3 ts))).
Proof.
  intros Wc Ws ROc ROs HC FC HS FS WOc WOs Frc Frs EM Same.
  destruct (client_last _ _ _ _ _ _ _ _ _ _ Wc HC FC) as (cp & m & Ec1 & Tm). destruct (server_last _ _ _ _ _ _ _ _ _ Ws HS FS) as (sp & m' & Es1 & Tm' & Uniq).
  assert (m' = m) as ->.
  { assert (X : In (EvSend m) slog) by (apply Same; [rewrite Ec1; apply in_or_app; right; now left|exact Tm]). rewrite Es1 in X. apply in_app_iff in X as [X|[X|[]]]; [|now injection X].
    exfalso. exact (Uniq m X Tm). }
  destruct (C86_client_finished Ec Cc Hs Wc _ _ _ _ _ _ _ ROc HC FC WOc) as (_ & F1 & _). destruct (C83_server_finished Es Cs Hs Ws _ _ _ _ _ _ ROs HS FS WOs) as (_ & F2 & _).
  specialize (F1 cp m [] Ec1 Tm). specialize (F2 sp m [] Es1 Tm). rewrite F2 in F1. cbn [app skipn] in F1. rewrite <- EM in F1.
  assert (LX : removelast clog = cp /\ removelast slog = sp) by (rewrite Ec1, Es1, !removelast_last; auto). destruct LX as [-> ->].
  destruct (list_eq_dec Z.eq_dec (transcript cp) (transcript sp)) as [TE|TN].
  - left. apply framed_concat; [exact Frc|exact Frs|]. change (transcript clog = transcript slog). rewrite Ec1, Es1, !transcript_app, TE. reflexivity.
  - right. cbv zeta. split; [exact TN|]. destruct (list_eq_dec Z.eq_dec (sm3 (transcript cp)) (sm3 (transcript sp))) as [SE|SN]; [now left|right]. split; [exact SN|]. symmetry. exact F1.
Qed.
Print Assumptions C90_tamper_evident.

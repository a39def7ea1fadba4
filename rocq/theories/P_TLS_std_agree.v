(** C131, C132: an ordinary TLS client and server that complete the same handshake hold the same secrets; and what the Finished messages guarantee against an attacker. *)
From Verif Require Import GoBase GoLemmas BigBytes Asn1_model X509_spec SM2_model TLS_record_model TLS_prf_model TLS_prf_spec TLS_prf_proofs
  TLS_gmka_model TLS_ticket_model TLS_msg_model TLS_msg_proofs TLS_neg_model TLS_hs_model TLS_hs_proofs TLS_hs_bytes TLS_hs_spec TLS_std_model TLS_std_spec TLS_std_proofs TLS_std_server TLS_std_client
  P_TLS_hs_server P_TLS_hs_client P_TLS_hs_agree P_TLS_std_server P_TLS_std_server2 P_TLS_std_client P_TLS_std_client2.
From Verif Require X509_model P_TLS_msg.
Open Scope Z_scope.
#[local] Opaque PRF be_bytes client_finished server_finished.

(** ** What the hello messages carry at fixed places *)
Lemma ch_ext_sid m e l d r : ch_ext m e l d = Ok r -> ch_sessionId r = ch_sessionId m.
Proof.
  intros H. unfold ch_ext in H.
  repeat match type of H with (if ?c then _ else _) = _ => destruct c end;
    try solve [ropen H; injection H as <-; auto].
  apply rbind_ok in H as (? & _ & H). apply fails_ok in H as [_ H]. do 2 (apply rbind_ok in H as (? & _ & H)). apply fails_ok in H as [_ H].
  revert H. unfold wrun. apply (wloop_inv (fun c => ch_sessionId c = ch_sessionId m)); [|auto].
  clear. intros a d r Ha H. unfold sni_body in H. apply fails_ok in H as [_ H]. do 3 (apply rbind_ok in H as (? & _ & H)). apply fails_ok in H as [_ H].
  apply rbind_ok in H as (? & _ & H). destruct (x =? 0); ropen H; injection H as <-; exact Ha.
Qed.
Lemma ch_sid_len m d r : u_clientHello m d = Ok r -> zlen (ch_sessionId r) <= 32.
Proof.
  intros H. unfold u_clientHello in H. apply fails_ok in H as [_ H]. apply rbind_ok in H as (V & HV & H). apply rbind_ok in H as (R & HR & H).
  apply rbind_ok in H as (L & HL & H). apply fails_ok in H as [EL H]. apply rbind_ok in H as (I & HI & H).
  assert (LI : zlen I <= 32). { unfold sl in HI. apply rbind_ok in HI as (y & H1 & H2). apply sl_to_ok in H1 as [? ->]. apply sl_from_ok in H2 as [_ ->]. unfold zlen in *. rewrite skipn_length, firstn_length. apply orb_false_elim in EL as [EL _]. apply Z.ltb_ge in EL. lia. }
  enough (X : ch_sessionId r = I) by congruence.
  apply rbind_ok in H as (? & _ & H). apply fails_ok in H as [_ H].
  apply rbind_ok in H as (? & _ & H). apply fails_ok in H as [_ H]. do 2 (apply rbind_ok in H as (? & _ & H)). cbv zeta in H.
  apply rbind_ok in H as (? & _ & H). apply fails_ok in H as [_ H]. apply rbind_ok in H as (? & _ & H). apply fails_ok in H as [_ H].
  do 2 (apply rbind_ok in H as (? & _ & H)).
  match type of H with (if ?c then _ else _) = _ => destruct c end; [injection H as <-; auto|].
  apply fails_ok in H as [_ H]. do 2 (apply rbind_ok in H as (? & _ & H)). apply fails_ok in H as [_ H].
  revert H. unfold wrun. apply (wloop_inv (fun c => ch_sessionId c = I)); [|auto].
  intros a d' r' Ha. apply (ext_body_inv (fun c => ch_sessionId c = I) ch_ext); [|exact Ha]. intros m' e l d2 r2 H1 He. apply ch_ext_sid in He as ->. auto.
Qed.
Lemma sh_core2 m d r : u_serverHello m d = Ok r -> be16 d 4 = Ok (sh_vers r) /\ sl d 6 38 = Ok (sh_random r) /\
  exists L d', idx d 38 = Ok L /\ sl d 39 (39 + L) = Ok (sh_sessionId r) /\ sl_from d (39 + L) = Ok d' /\ be16 d' 0 = Ok (sh_suite r).
Proof.
  intros H. unfold u_serverHello in H. apply fails_ok in H as [_ H]. apply rbind_ok in H as (V & HV & H). apply rbind_ok in H as (R & HR & H).
  apply rbind_ok in H as (L & HL & H). apply fails_ok in H as [_ H]. apply rbind_ok in H as (I & HI & H). apply rbind_ok in H as (d' & Hd & H). apply fails_ok in H as [_ H].
  apply rbind_ok in H as (S & HS & H). do 2 (apply rbind_ok in H as (? & _ & H)). cbv zeta in H. rewrite HV, HR, HL.
  enough (X : sh_vers r = V /\ sh_random r = R /\ sh_suite r = S /\ sh_sessionId r = I).
  { destruct X as (-> & -> & -> & ->). split; [reflexivity|]. split; [reflexivity|]. exists L, d'. auto. }
  match type of H with (if ?c then _ else _) = _ => destruct c end; [injection H as <-; auto|].
  apply fails_ok in H as [_ H]. do 2 (apply rbind_ok in H as (? & _ & H)). apply fails_ok in H as [_ H].
  revert H. unfold wrun. apply (wloop_inv (fun c => sh_vers c = V /\ sh_random c = R /\ sh_suite c = S /\ sh_sessionId c = I)); [|auto].
  intros a e' r' Ha. apply (ext_body_inv (fun c => sh_vers c = V /\ sh_random c = R /\ sh_suite c = S /\ sh_sessionId c = I) sh_ext); [|exact Ha]. intros m' e l d2 r2 (H1 & H2 & H3 & H4) He. apply sh_ext_core in He as (-> & -> & -> & _ & ->). auto.
Qed.
Lemma sh_same2 m d r : m_serverHello m = Ok d -> u_serverHello sh_empty d = Ok r -> 0 <= sh_vers m < 2 ^ 16 -> length (sh_random m) = 32%nat -> 0 <= sh_suite m < 2 ^ 16 -> zlen (sh_sessionId m) < 256 ->
  sh_vers r = sh_vers m /\ sh_random r = sh_random m /\ sh_suite r = sh_suite m /\ sh_sessionId r = sh_sessionId m.
Proof.
  intros H1 H2 HV HR HS HI. apply sh_core2 in H2 as (H2 & H3 & L & d' & H4 & H5 & H6 & H7). unfold m_serverHello in H1. destruct (_ && _); [discriminate|]. cbv zeta in H1. apply fill_ok in H1 as (k & ->).
  assert (EU : u8 (zlen (sh_sessionId m)) = zlen (sh_sessionId m)) by (unfold u8; pose proof (zlen_nonneg (sh_sessionId m)); apply Z.mod_small; lia). rewrite EU in *. pose proof (zlen_nonneg (sh_sessionId m)) as N0. assert (LR : zlen (sh_random m) = 32) by (unfold zlen; now rewrite HR).
  rewrite <- !app_assoc in *. rewrite P_TLS_msg.copy32_id in * by exact HR.
  match type of H2 with be16 ([2] ++ b3 ?n ++ b2 ?v ++ sh_random m ++ [?l] ++ ?i ++ b2 ?s ++ ?rest) 4 = _ =>
    rewrite (be16_at _ ([2] ++ b3 n) v (sh_random m ++ [l] ++ i ++ b2 s ++ rest) 4) in H2; [|rewrite <- app_assoc; reflexivity|reflexivity|exact HV];
    rewrite (sl_at _ ([2] ++ b3 n ++ b2 v) (sh_random m) ([l] ++ i ++ b2 s ++ rest) 6 38) in H3; [|rewrite <- !app_assoc; reflexivity|reflexivity|unfold zlen; rewrite HR; reflexivity];
    rewrite (idx_at _ ([2] ++ b3 n ++ b2 v ++ sh_random m) l (i ++ b2 s ++ rest) 38) in H4; [|rewrite <- !app_assoc; reflexivity|unfold zlen; rewrite !app_length, HR; reflexivity];
    assert (L = l) as -> by congruence;
    rewrite (sl_at _ ([2] ++ b3 n ++ b2 v ++ sh_random m ++ [l]) i (b2 s ++ rest) 39) in H5; [|rewrite <- !app_assoc; reflexivity|unfold zlen; rewrite !app_length, HR; reflexivity|reflexivity];
    rewrite (sl_from_at _ ([2] ++ b3 n ++ b2 v ++ sh_random m ++ [l] ++ i) (b2 s ++ rest) (39 + l)) in H6; [|rewrite <- !app_assoc; reflexivity|rewrite !zlen_app, LR; change (zlen [2]) with 1; change (zlen (b3 n)) with 3; change (zlen (b2 v)) with 2; change (zlen [l]) with 1; lia];
    injection H6 as <-; rewrite (be16_at _ [] s rest 0) in H7; [|reflexivity|reflexivity|exact HS] end.
  repeat split; congruence.
Qed.

(** ** Full and abbreviated handshakes cannot be mistaken for each other, and a full one has one message of each of these types *)
Definition types_of (f : list step) : list Z := flat_map (fun s => match s with Out t | In_ t => [t] | _ => [] end) f.
Lemma std_flow_once a b c d e f : count_occ Z.eq_dec (types_of (std_client_flow a b c d e f)) 16 = 1%nat /\ count_occ Z.eq_dec (types_of (std_client_flow a true c d e f)) 12 = 1%nat.
Proof. destruct a, b, c, d, e, f; split; reflexivity. Qed.
Lemma full_not_short a b c d e f g h : types_of (std_client_flow a b c d e f) <> types_of (std_server_short_flow g h) /\ types_of (std_client_short_flow g h) <> types_of (std_server_flow a b c d e f).
Proof. destruct a, b, c, d, e, f, g, h; split; discriminate. Qed.
Lemma cut_eq kb kb' lens block : cut_into kb lens block -> cut_into kb' lens block -> kb = kb'.
Proof.
  destruct lens as [[m k] i]. intros (C1 & C2 & C3 & C4 & C5 & C6 & C7) (D1 & D2 & D3 & D4 & D5 & D6 & D7). rewrite C1 in D1. clear C1.
  apply app_inj_len in D1 as [E1 D1]; [|congruence]. apply app_inj_len in D1 as [E2 D1]; [|congruence]. apply app_inj_len in D1 as [E3 D1]; [|congruence].
  apply app_inj_len in D1 as [E4 D1]; [|congruence]. apply app_inj_len in D1 as [E5 D1]; [|congruence].
  clear C2 C3 C4 C5 C6 C7 D2 D3 D4 D5 D6 D7. destruct kb, kb'. cbn in *. subst. exact eq_refl.
Qed.
Lemma suite_lens_unique id l1 l2 : In (id, l1) suite_table -> In (id, l2) suite_table -> l1 = l2.
Proof.
  assert (X : forall l, In (id, l) suite_table -> l = suite_lens id).
  { intros l H. unfold suite_table in H. cbn [In] in H. repeat (destruct H as [H|H]; [injection H as <- <-; reflexivity|]); destruct H. }
  intros H1 H2. rewrite (X _ H1), (X _ H2). reflexivity.
Qed.
Lemma hello_read_unique log a b : hello_read log a -> hello_read log b -> a = b.
Proof. intros (m1 & r1 & E1 & _ & U1) (m2 & r2 & E2 & _ & U2). rewrite E1 in E2. injection E2 as -> _. congruence. Qed.

Section Agree.
Context {T : Type} (Ec Es : senv T) (Cc Cs : chan) (Hs : hashes) (H512 : list Z -> list Z) (Wc : std_world_ok Ec Hs H512) (Ws : std_world_ok Es Hs H512).

(** ** C131.  Agreement *)
(** whichever kind of handshake it was *)
Theorem C131_same_parameters ccfg addr cache crn pr c0 rc clog scfg getcfg srn s0 rs slog :
  std_client_completes Ec Cc ccfg addr cache crn pr c0 rc clog -> std_server_completes Es Cs scfg getcfg srn s0 rs slog ->
  hello_random_ok crn -> hello_random_ok srn -> 0 <= cf_max (s_cfg ccfg) < 2 ^ 16 -> wire clog = wire slog ->
  hr_resumed (cl_hr rc) = hr_resumed rs /\ hr_vers (cl_hr rc) = hr_vers rs /\ hr_suite (cl_hr rc) = hr_suite rs /\
  hr_clientRandom (cl_hr rc) = hr_clientRandom rs /\ hr_serverRandom (cl_hr rc) = hr_serverRandom rs.
Proof.
  intros HC HS ROc ROs MX EW. split.
  - destruct (hr_resumed (cl_hr rc)) eqn:RC, (hr_resumed rs) eqn:RS; try reflexivity; exfalso; apply (f_equal (map mtype)) in EW; rewrite !wire_types in EW.
    + destruct (C126_client_short_flow Ec Cc Hs H512 Wc _ _ _ _ _ _ _ _ HC RC) as (? & ? & _ & _ & F1). destruct (C121_server_flow Es Cs Hs H512 Ws _ _ _ _ _ _ HS RS) as (? & ? & ? & _ & _ & _ & F2).
      rewrite F1, F2 in EW. now apply full_not_short in EW.
    + destruct (C126_client_flow Ec Cc Hs H512 Wc _ _ _ _ _ _ _ _ HC RC) as (? & ? & ? & ? & ? & _ & _ & F1 & _). destruct (C121_server_short_flow Es Cs Hs H512 Ws _ _ _ _ _ _ HS RS) as (? & ? & ? & _ & _ & _ & F2).
      rewrite F1, F2 in EW. now apply full_not_short in EW.
  - destruct (C126_client_negotiation Ec Cc Hs H512 Wc _ _ _ _ _ _ _ _ HC) as (hc & shc & HSe & HSr & (V1 & R1 & _) & (_ & Q1 & _ & Q2 & _ & _ & Q3 & Q4) & _).
    destruct (C122_server_negotiation Es Cs Hs H512 Ws _ _ _ _ _ _ HS) as (ch & cfg' & ce & HRd & HCf & HCe & _ & S1 & SV & _ & _ & _ & _ & _ & _ & S2 & S3 & _).
    destruct (C122_server_hello Es Cs Hs H512 Ws _ _ _ _ _ _ HS) as (ch' & cfg2 & ce2 & m0 & m_sh & srest & st & HRd' & _ & _ & ELs & _ & Msh). pose proof (hello_read_unique _ _ _ HRd' HRd) as ->. cbv zeta in Msh.
    destruct HSe as (m1 & crest & ELc & Mch). destruct HSr as (e2 & m2 & crest2 & ELc2 & _ & Ush). rewrite ELc in ELc2. injection ELc2 as <- ->.
    destruct HRd as (m3 & srest3 & ELs3 & _ & Uch). rewrite ELs in ELs3. injection ELs3 as -> <-.
    rewrite ELc, ELs in EW. cbn in EW. injection EW as -> -> EW'.
    destruct (ROc _ R1) as [Bc Lc]. destruct (ROs _ S3) as [Bs Ls].
    assert (VR : 0 <= hr_vers rs < 2 ^ 16) by (cbn [In] in SV; lia).
    assert (VH : 0 <= ch_vers hc < 2 ^ 16) by (rewrite V1; unfold hi; destruct (Z.eq_dec _ _); lia).
    destruct (ch_same _ _ _ Mch Uch VH Lc) as [CV1 CV2].
    assert (SU : 0 <= hr_suite rs < 2 ^ 16).
    { assert (X : hr_suite rs = hr_suite rs) by reflexivity. destruct (C122_server_negotiation Es Cs Hs H512 Ws _ _ _ _ _ _ HS) as (x1 & x2 & x3 & _ & _ & _ & _ & _ & _ & _ & _ & _ & _ & US & _). destruct US as (US & _). revert US. clear. generalize (hr_suite rs). intros s H. revert H. unfold suite_table. cbn. lia. }
    pose proof (ch_sid_len _ _ _ Uch) as LS.
    eapply sh_same2 in Ush; [|exact Msh|cbn [sh_vers]; exact VR|cbn [sh_random]; exact Ls|cbn [sh_suite]; exact SU|cbn [sh_sessionId]; destruct (hr_resumed rs); [lia|reflexivity]].
    cbn [sh_vers sh_random sh_suite] in Ush. destruct Ush as (SH1 & SH2 & SH3 & _).
    split; [|split; [congruence|split; congruence]]. rewrite Q1, SH1. lia.
Qed.

(** what the cryptography must deliver: the server's key decrypts what was encrypted for the leaf certificate, and Diffie-Hellman commutes *)
Definition decrypts (leaf : gcert T) (ce : scertificate T) : Prop := forall k dec rnd m enc, g_pub leaf = PkRSA k -> k_dec (sc_key ce) = Some dec -> bytes m -> zlen m = 48 -> se_rsaenc Ec rnd k m = Ok enc ->
  zlen enc < 2 ^ 16 /\ dec enc = Ok m.
Definition dh_commutes : Prop := forall curve gc gs r1 r2 a A b B, group Ec curve = Some gc -> group Es curve = Some gs -> kx_gen gc r1 = Ok (a, A) -> kx_gen gs r2 = Ok (b, B) -> kx_shared gc a B = kx_shared gs b A.

Lemma u8_small x : 0 <= x < 256 -> u8 x = x. Proof. intros H. apply Z.mod_small. exact H. Qed.
(** A client and a server that complete a full handshake with each other agree on version, suite, randoms, master secret and all keys. *)
Theorem C131_agreement ccfg addr cache crn pr c0 rc clog scfg getcfg srn s0 rs slog :
  std_client_completes Ec Cc ccfg addr cache crn pr c0 rc clog -> std_server_completes Es Cs scfg getcfg srn s0 rs slog ->
  wire clog = wire slog -> wire_ok clog -> hr_resumed rs = false ->
  std_client_random_ok crn -> hello_random_ok srn -> groups_ok Ec -> groups_ok Es -> server_keys_ok Es scfg getcfg -> prior_ok pr -> 0 <= cf_max (s_cfg ccfg) < 2 ^ 16 ->
  (forall b, r_pms crn = Some b -> ecdhe_suite (hr_suite rs) = false -> length b = 46%nat) ->
  (forall ch cfg' ce leaf rest, hello_read slog ch -> scfg_for scfg getcfg ch cfg' -> certificate_for Es cfg' ch ce -> hr_peer (cl_hr rc) = leaf :: rest -> decrypts leaf ce) -> dh_commutes ->
  hr_vers (cl_hr rc) = hr_vers rs /\ hr_suite (cl_hr rc) = hr_suite rs /\ hr_clientRandom (cl_hr rc) = hr_clientRandom rs /\ hr_serverRandom (cl_hr rc) = hr_serverRandom rs /\
  hr_master (cl_hr rc) = hr_master rs /\ keys_of clog = keys_of slog /\ exists kb, keys_of clog = [kb].
Proof.
  intros HC HS EW WO RS ROc ROs GOc GOs KO PO MX R46 DK DH.
  assert (WOs : wire_ok slog) by (unfold wire_ok, transcript in *; rewrite <- EW; exact WO).
  destruct (C131_same_parameters _ _ _ _ _ _ _ _ _ _ _ _ _ _ HC HS (proj1 ROc) ROs MX EW) as (A0 & A1 & A2 & A3 & A4). rewrite RS in A0.
  assert (NV : hr_vers rs <> 0x0101 /\ hr_vers rs <> 0x0300).
  { destruct (C126_client_negotiation Ec Cc Hs H512 Wc _ _ _ _ _ _ _ _ HC) as (hc & shc & _ & _ & _ & (_ & _ & SV & _) & _). rewrite A1 in SV. cbn [In] in SV. lia. }
  destruct NV as [NV NV0].
  destruct (C128_client_secrets Ec Cc Hs H512 Wc _ _ _ _ _ _ _ _ HC A0 WO ROc GOc PO) as (hc & shc & leaf & xs & verc & lensc & kbc & mc & ctc & pmsc & _ & _ & HP & Vc & Lc & Kc & Cutc & Mac & Inc & Mck & Rsac & Ecdc).
  destruct (C124_server_secrets Es Cs Hs H512 Ws _ _ _ _ _ _ HS RS WOs ROs GOs KO NV) as (ch & cfg' & ce & ver & lens & kb & ms & cts & pmss & HRd & HCf & HCe & Vs & Ls & Ks & Cuts & Mas & Ins & Tms & Ucts & Rsas & Ecds).
  specialize (DK _ _ _ _ _ HRd HCf HCe HP).
  rewrite A1, A2 in *. assert (verc = ver) as -> by congruence. assert (lensc = lens) as -> by (eapply suite_lens_unique; eassumption).
  destruct (C126_client_flow Ec Cc Hs H512 Wc _ _ _ _ _ _ _ _ HC A0) as (fc & fs & f1 & f2 & f3 & _ & _ & Fl & _). rewrite A2 in Fl.
  assert (Emk : mc = ms).
  { apply (once (wire clog) 16).
    - rewrite wire_types, Fl. apply std_flow_once; exact true.
    - now apply in_wire_send.
    - rewrite EW. now apply in_wire_recv.
    - exact (t_ckx _ _ Mck).
    - exact Tms. }
  subst mc.
  assert (UC : u_clientKeyExchange ms = Ok cts).
  { destruct ms as [|t ms]; [discriminate|]. cbn [mtype] in Tms. subst t. cbn in Ucts. apply rmap_ok in Ucts as (x & Ucts & [= <-]). exact Ucts. }
  assert (EQ : zlen ctc < 2 ^ 24 -> ctc = cts) by (intros LC; destruct (P_TLS_msg.C63_clientKeyExchange ctc LC) as (w & X1 & _ & X2); congruence).
  assert (EP : pmsc = pmss).
  { destruct (ecdhe_suite (hr_suite rs)) eqn:EE.
    - destruct (Ecdc eq_refl) as (mk & key & curve & gc & point & alg & sig & params & kind & hash & priv & pub & Ik & Tk & Uk & (c1 & c0' & a1 & a0 & s1 & s0' & K1 & K2 & _ & _ & K3) & Gc & _ & _ & _ & _ & _ & _ & Gen & Ep & Ect).
      destruct (Ecds eq_refl) as (bef & curve2 & aft & gs & priv2 & pub2 & point2 & sign2 & kind2 & hash2 & alg2 & sig2 & mk2 & params2 & _ & _ & _ & Gs & Gen2 & P2 & _ & _ & _ & Ik2 & Mk2 & Ect2 & Ep2 & _).
      assert (mk = mk2) as <-.
      { apply (once (wire clog) 12).
        - rewrite wire_types, Fl. apply std_flow_once; exact true.
        - now apply in_wire_recv.
        - rewrite EW. now apply in_wire_send.
        - exact Tk.
        - exact (t_skx _ _ Mk2). }
      match type of Mk2 with m_serverKeyExchange ?k = _ => destruct (P_TLS_msg.C63_serverKeyExchange k) as (w & X1 & _ & X2) end.
      assert (EK := Uk). assert (w = mk) as -> by congruence. rewrite X2 in EK. injection EK as EK. rewrite K3, K2, P2 in EK. rewrite <- !app_assoc in EK. cbn [app] in EK. injection EK as E1 E2 E3 EK.
      assert (point = pub2 /\ curve = curve2) as [-> ->].
      { apply app_inj_len in EK as [EK _]; [|unfold zlen in E3; lia]. split; [now symmetry|]. subst c1 c0'. lia. }
      assert (LP : zlen pub < 256).
      { assert (KB : kex_bytes gc). { unfold group in Gc. destruct (curve2 =? 29); [injection Gc as <-; exact (proj1 GOc)|]. destruct (existsb _ _); [injection Gc as <-; apply (proj2 GOc)|discriminate]. }
        destruct KB as [_ KB]. destruct (KB _ _ _ Gen) as [_ X]. unfold zlen. lia. }
      rewrite Ect, Ect2 in EQ. specialize (EQ ltac:(rewrite zlen_cons; lia)). injection EQ as _ <-.
      rewrite Ep, Ep2. exact (DH _ _ _ _ _ _ _ _ _ Gc Gs Gen Gen2).
    - destruct (Rsac eq_refl) as (k & rnd & enc & G & Rp & Ep & Een & Ect). destruct (Rsas eq_refl) as (dec & Kd & Dd).
      assert (L48 : zlen pmsc = 48) by (rewrite Ep, zlen_app; unfold zlen at 2; rewrite (R46 _ Rp eq_refl); reflexivity).
      destruct (proj2 ROc _ Rp) as [Br _]. assert (Bp : bytes pmsc) by (rewrite Ep; apply bytes_app; split; [repeat (apply bytes_cons; split; [apply u8_byte|]); constructor|exact Br]).
      destruct (DK _ _ _ _ _ G Kd Bp L48 Een) as [Le Dec]. pose proof (zlen_nonneg enc).
      rewrite Ect in EQ. specialize (EQ ltac:(rewrite zlen_app; change (zlen [u8 (Z.shiftr (zlen enc) 8); u8 (zlen enc)]) with 2; lia)).
      destruct (Z.eqb_spec (hr_vers rs) 0x0300); [contradiction|]. destruct Dd as (b0 & b1 & enc2 & E2 & _ & D2). rewrite E2 in EQ. cbn [app] in EQ. injection EQ as _ _ <-. congruence. }
  subst pmss. assert (A5 : hr_master (cl_hr rc) = hr_master rs) by (rewrite Mac, Mas, A3, A4; reflexivity).
  split; [reflexivity|]. split; [reflexivity|]. split; [exact A3|]. split; [exact A4|]. split; [exact A5|]. split; [|eauto].
  rewrite Kc, Ks. f_equal. rewrite A3, A4, A5 in Cutc. exact (cut_eq _ _ _ _ Cutc Cuts).
Qed.

(** A resumed handshake: the same keys, if both ends remembered the same master secret *)
Theorem C131_resumed ccfg addr cache crn pr c0 rc clog scfg getcfg srn s0 rs slog :
  std_client_completes Ec Cc ccfg addr cache crn pr c0 rc clog -> std_server_completes Es Cs scfg getcfg srn s0 rs slog ->
  wire clog = wire slog -> wire_ok clog -> hr_resumed rs = true -> hello_random_ok crn -> hello_random_ok srn -> 0 <= cf_max (s_cfg ccfg) < 2 ^ 16 ->
  small (hr_master rs) -> hr_master (cl_hr rc) = hr_master rs ->
  hr_vers (cl_hr rc) = hr_vers rs /\ hr_suite (cl_hr rc) = hr_suite rs /\ keys_of clog = keys_of slog /\ exists kb, keys_of clog = [kb].
Proof.
  intros HC HS EW WO RS ROc ROs MX SM EM.
  assert (WOs : wire_ok slog) by (unfold wire_ok, transcript in *; rewrite <- EW; exact WO).
  destruct (C131_same_parameters _ _ _ _ _ _ _ _ _ _ _ _ _ _ HC HS ROc ROs MX EW) as (A0 & A1 & A2 & A3 & A4). rewrite RS in A0.
  assert (NV : hr_vers rs <> 0x0101).
  { destruct (C126_client_negotiation Ec Cc Hs H512 Wc _ _ _ _ _ _ _ _ HC) as (hc & shc & _ & _ & _ & (_ & _ & SV & _) & _). rewrite A1 in SV. cbn [In] in SV. lia. }
  destruct (C130_client_resumes Ec Cc Hs H512 Wc _ _ _ _ _ _ _ _ HC A0) as (hc & shc & s & _ & _ & _ & _ & _ & _ & _ & _ & _ & _ & M1 & _ & _ & XC).
  destruct (C125_server_resumes Es Cs Hs H512 Ws _ _ _ _ _ _ HS RS) as (ch & cfg' & ce & st & _ & _ & _ & _ & _ & _ & _ & _ & _ & _ & M2 & _ & _ & _ & _ & _ & XS).
  destruct XC as (ver & lens & kb & V1 & L1 & K1 & C1); [exact WO|exact ROc|rewrite <- M1, EM; exact SM|].
  destruct XS as (ver' & lens' & kb' & V2 & L2 & K2 & C2); [exact WOs|exact ROs|exact SM|exact NV|].
  rewrite A1, A2 in *. assert (ver' = ver) as -> by congruence. assert (lens' = lens) as -> by (eapply suite_lens_unique; eassumption).
  split; [reflexivity|]. split; [reflexivity|]. split; [|eauto]. rewrite K1, K2. f_equal. rewrite <- M1, EM, A3, A4 in C1. exact (cut_eq _ _ _ _ C1 C2).
Qed.

(** ** C132.  Tampering is noticed *)
Lemma steps_last l : forall q x, steps l = q ++ [x] -> exists pre e post, l = pre ++ e :: post /\ steps [e] = [x] /\ steps post = [] /\ steps pre = q.
Proof.
  induction l as [|e l IH] using rev_ind; intros q x H; [destruct q; discriminate|]. rewrite steps_app in H.
  destruct (steps [e]) as [|y [|z r]] eqn:EE.
  - rewrite app_nil_r in H. apply IH in H as (pre & e' & post & -> & H1 & H2 & H3). exists pre, e', (post ++ [e]). split; [now rewrite <- app_assoc|]. split; [exact H1|]. split; [now rewrite steps_app, H2, EE|exact H3].
  - apply app_inj_tail in H as [H1 H2]. subst. exists l, e, []. auto.
  - exfalso. destruct e; discriminate.
Qed.
Lemma wire_silent l : steps l = [] -> wire l = [].
Proof. intros H. pose proof (wire_types l) as X. rewrite H in X. destruct (wire l); [reflexivity|discriminate]. Qed.
Lemma recv_step e t : steps [e] = [In_ t] -> exists m, e = EvRecv m /\ mtype m = t. Proof. destruct e; try discriminate. intros [= <-]. eauto. Qed.
Lemma send_step e t : steps [e] = [Out t] -> exists m, e = EvSend m /\ mtype m = t. Proof. destruct e; try discriminate. intros [= <-]. eauto. Qed.
Lemma send_in_steps m l : In (EvSend m) l -> In (Out (mtype m)) (steps l). Proof. intros H. apply in_split in H as (a & b & ->). change (EvSend m :: b) with ([EvSend m] ++ b). rewrite !steps_app. apply in_or_app. right. now left. Qed.
Lemma before_last l pre e post m : l = pre ++ e :: post -> wire [e] = [m] -> wire post = [] -> transcript pre = concat (removelast (wire l)) /\ wire l = wire pre ++ [m].
Proof.
  intros -> H1 H2. change (e :: post) with ([e] ++ post). rewrite !wire_app, H1, H2, app_nil_r. split; [|reflexivity]. rewrite removelast_last. reflexivity.
Qed.

(** Full handshake.  If both ends hold the same master secret and the Finished message the client accepted is the one the server sent, nobody altered the handshake:
    both saw the same messages.  The only way out is that two different transcripts have the same verify data. *)
Theorem C132_tamper_evident ccfg addr cache crn pr c0 rc clog scfg getcfg srn s0 rs slog :
  std_client_completes Ec Cc ccfg addr cache crn pr c0 rc clog -> std_server_completes Es Cs scfg getcfg srn s0 rs slog -> hr_resumed (cl_hr rc) = false -> hr_resumed rs = false ->
  wire_ok clog -> wire_ok slog -> Forall framed (wire clog) -> Forall framed (wire slog) ->
  std_client_random_ok crn -> hello_random_ok srn -> groups_ok Ec -> groups_ok Es -> server_keys_ok Es scfg getcfg -> hr_vers rs <> 0x0101 ->
  hr_master (cl_hr rc) = hr_master rs -> (forall m, In (EvRecv m) clog -> mtype m = tFinished -> In (EvSend m) slog) ->
  wire clog = wire slog \/
  exists verc vers, version_of (hr_vers (cl_hr rc)) (sha384_suite (hr_suite (cl_hr rc))) = Some verc /\ version_of (hr_vers rs) (sha384_suite (hr_suite rs)) = Some vers /\
    let tc := concat (removelast (wire clog)) in let ts := concat (removelast (wire slog)) in
    tc <> ts /\ server_finished Hs verc (hr_master rs) tc = server_finished Hs vers (hr_master rs) ts.
Proof.
  intros HC HS FC FS WOc WOs Frc Frs ROc ROs GOc GOs KO NV EM Same.
  destruct (C126_client_flow Ec Cc Hs H512 Wc _ _ _ _ _ _ _ _ HC FC) as (hc & shc & st & rq & cv & _ & _ & Fl & _).
  destruct (C121_server_flow Es Cs Hs H512 Ws _ _ _ _ _ _ HS FS) as (ch & cfg' & ce & _ & _ & _ & Fs).
  assert (X1 : exists q, steps clog = q ++ [In_ 20]) by (rewrite Fl; unfold std_client_flow; eexists; rewrite !app_assoc; change ([InCCS; In_ tFinished]) with ([InCCS] ++ [In_ 20]); rewrite app_assoc; exact eq_refl).
  assert (X2 : exists q, steps slog = q ++ [Out 20] /\ ~ In (Out 20) q).
  { rewrite Fs. match goal with |- exists q, std_server_flow ?a ?b ?c ?d ?e ?f = _ /\ _ => generalize a, b, c, d, e, f end. clear. intros a b c d e f.
    destruct a, b, c, d, e, f; match goal with |- exists q, ?l = _ /\ _ => exists (removelast l) end; (split; [exact eq_refl|cbn; intuition discriminate]). }
  destruct X1 as (q1 & X1). destruct X2 as (q2 & X2 & N2).
  apply steps_last in X1 as (cp & ce' & cpost & E1 & T1 & P1 & _). apply steps_last in X2 as (sp & se' & spost & E2 & T2 & P2 & Q2).
  apply recv_step in T1 as (m & -> & Tm). apply send_step in T2 as (m' & -> & Tm'). apply wire_silent in P1 as W1. apply wire_silent in P2 as W2.
  assert (m' = m) as ->.
  { assert (X : In (EvSend m) slog) by (apply Same; [rewrite E1; apply in_or_app; right; now left|exact Tm]). rewrite E2 in X. apply in_app_iff in X as [X|[X|X]]; [exfalso|now injection X|exfalso].
    - apply N2. rewrite <- Q2, <- Tm. now apply send_in_steps.
    - apply send_in_steps in X. rewrite P2 in X. destruct X. }
  destruct (C126_client_finished Ec Cc Hs H512 Wc _ _ _ _ _ _ _ _ HC WOc ROc GOc ltac:(congruence)) as (verc & Vc & F1 & _).
  destruct (C121_server_finished Es Cs Hs H512 Ws _ _ _ _ _ _ HS WOs ROs GOs KO ltac:(congruence) NV) as (vers & Vs & _ & F2).
  specialize (F1 _ _ _ E1 Tm). specialize (F2 _ _ _ E2 Tm).
  destruct (before_last _ _ _ _ m E1 eq_refl W1) as [TC LC]. destruct (before_last _ _ _ _ m E2 eq_refl W2) as [TS LS]. rewrite TC in F1. rewrite TS, EM in *.
  assert (F3 : server_finished Hs verc (hr_master rs) (concat (removelast (wire clog))) = server_finished Hs vers (hr_master rs) (concat (removelast (wire slog)))).
  { rewrite <- F1. rewrite F2 at 1. match goal with |- skipn 4 (20 :: be_bytes 3 ?z ++ ?l) = _ => change (20 :: be_bytes 3 z ++ l) with ([20] ++ be_bytes 3 z ++ l); rewrite app_assoc; apply skipn_app_l; rewrite app_length, be_bytes_length; exact eq_refl end. }
  destruct (list_eq_dec Z.eq_dec (concat (removelast (wire clog))) (concat (removelast (wire slog)))) as [TE|TN].
  - left. rewrite LC, LS in *. rewrite !removelast_last in TE. apply Forall_app in Frc as [Frc _]. apply Forall_app in Frs as [Frs _]. f_equal. now apply framed_concat.
  - right. exists verc, vers. split; [exact Vc|]. split; [exact Vs|]. cbv zeta. split; [exact TN|exact F3].
Qed.

(** Abbreviated handshake: the last message goes the other way *)
Theorem C132_tamper_evident_resumed ccfg addr cache crn pr c0 rc clog scfg getcfg srn s0 rs slog :
  std_client_completes Ec Cc ccfg addr cache crn pr c0 rc clog -> std_server_completes Es Cs scfg getcfg srn s0 rs slog -> hr_resumed (cl_hr rc) = true -> hr_resumed rs = true ->
  wire_ok clog -> wire_ok slog -> Forall framed (wire clog) -> Forall framed (wire slog) ->
  std_client_random_ok crn -> hello_random_ok srn -> groups_ok Ec -> groups_ok Es -> server_keys_ok Es scfg getcfg -> hr_vers rs <> 0x0101 ->
  small (hr_master rs) -> hr_master (cl_hr rc) = hr_master rs -> (forall m, In (EvRecv m) slog -> mtype m = tFinished -> In (EvSend m) clog) ->
  wire clog = wire slog \/
  exists verc vers, version_of (hr_vers (cl_hr rc)) (sha384_suite (hr_suite (cl_hr rc))) = Some verc /\ version_of (hr_vers rs) (sha384_suite (hr_suite rs)) = Some vers /\
    let tc := concat (removelast (wire clog)) in let ts := concat (removelast (wire slog)) in
    tc <> ts /\ client_finished Hs verc (hr_master rs) tc = client_finished Hs vers (hr_master rs) ts.
Proof.
  intros HC HS FC FS WOc WOs Frc Frs ROc ROs GOc GOs KO NV SM EM Same.
  destruct (C126_client_short_flow Ec Cc Hs H512 Wc _ _ _ _ _ _ _ _ HC FC) as (hc & shc & _ & _ & Fl).
  destruct (C121_server_short_flow Es Cs Hs H512 Ws _ _ _ _ _ _ HS FS) as (ch & cfg' & st & _ & _ & _ & Fs).
  assert (X1 : exists q, steps slog = q ++ [In_ 20]) by (rewrite Fs; unfold std_server_short_flow; eexists; rewrite !app_assoc; exact eq_refl).
  assert (X2 : exists q, steps clog = q ++ [Out 20] /\ ~ In (Out 20) q).
  { rewrite Fl. match goal with |- exists q, std_client_short_flow ?a ?b = _ /\ _ => generalize a, b end. clear. intros a b.
    destruct a, b; match goal with |- exists q, ?l = _ /\ _ => exists (removelast l) end; (split; [exact eq_refl|cbn; intuition discriminate]). }
  destruct X1 as (q1 & X1). destruct X2 as (q2 & X2 & N2).
  apply steps_last in X1 as (cp & ce' & cpost & E1 & T1 & P1 & _). apply steps_last in X2 as (sp & se' & spost & E2 & T2 & P2 & Q2).
  apply recv_step in T1 as (m & -> & Tm). apply send_step in T2 as (m' & -> & Tm'). apply wire_silent in P1 as W1. apply wire_silent in P2 as W2.
  assert (m' = m) as ->.
  { assert (X : In (EvSend m) clog) by (apply Same; [rewrite E1; apply in_or_app; right; now left|exact Tm]). rewrite E2 in X. apply in_app_iff in X as [X|[X|X]]; [exfalso|now injection X|exfalso].
    - apply N2. rewrite <- Q2, <- Tm. now apply send_in_steps.
    - apply send_in_steps in X. rewrite P2 in X. destruct X. }
  destruct (C126_client_finished Ec Cc Hs H512 Wc _ _ _ _ _ _ _ _ HC WOc ROc GOc ltac:(intros _; rewrite EM; exact SM)) as (verc & Vc & _ & F2).
  destruct (C121_server_finished Es Cs Hs H512 Ws _ _ _ _ _ _ HS WOs ROs GOs KO ltac:(intros _; exact SM) NV) as (vers & Vs & F1 & _).
  specialize (F1 _ _ _ E1 Tm). specialize (F2 _ _ _ E2 Tm).
  destruct (before_last _ _ _ _ m E1 eq_refl W1) as [TC LC]. destruct (before_last _ _ _ _ m E2 eq_refl W2) as [TS LS]. rewrite TC in F1. rewrite TS, EM in *.
  assert (F3 : client_finished Hs vers (hr_master rs) (concat (removelast (wire slog))) = client_finished Hs verc (hr_master rs) (concat (removelast (wire clog)))).
  { rewrite <- F1. rewrite F2 at 1. match goal with |- skipn 4 (20 :: be_bytes 3 ?z ++ ?l) = _ => change (20 :: be_bytes 3 z ++ l) with ([20] ++ be_bytes 3 z ++ l); rewrite app_assoc; apply skipn_app_l; rewrite app_length, be_bytes_length; exact eq_refl end. }
  destruct (list_eq_dec Z.eq_dec (concat (removelast (wire clog))) (concat (removelast (wire slog)))) as [TE|TN].
  - left. rewrite LC, LS in *. rewrite !removelast_last in TE. apply Forall_app in Frc as [Frc _]. apply Forall_app in Frs as [Frs _]. f_equal. now apply framed_concat.
  - right. exists verc, vers. split; [exact Vc|]. split; [exact Vs|]. cbv zeta. split; [exact TN|now symmetry].
Qed.
End Agree.
Print Assumptions C131_agreement.
Print Assumptions C131_resumed.
Print Assumptions C132_tamper_evident.
Print Assumptions C132_tamper_evident_resumed.

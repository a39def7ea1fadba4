(** C145: exported keying material of a connection is the RFC 5705 value of its handshake, the same at both ends. *)
From Verif Require Import GoBase GoLemmas BigBytes Asn1_model X509_spec SM2_model TLS_record_model TLS_prf_model TLS_prf_spec TLS_prf_proofs
  TLS_gmka_model TLS_ticket_model TLS_msg_model TLS_msg_proofs TLS_neg_model TLS_hs_model TLS_hs_proofs TLS_hs_bytes TLS_hs_spec TLS_std_model TLS_std_spec TLS_std_proofs TLS_std_server TLS_std_client
  P_TLS_hs_server P_TLS_hs_client P_TLS_hs_agree P_TLS_std_server P_TLS_std_server2 P_TLS_std_client P_TLS_std_client2 P_TLS_std_agree P_TLS_std_example P_TLS_prf TLS_connstate_model.
Open Scope Z_scope.
#[local] Opaque PRF be_bytes ekmFromMasterSecret.
Definition reserved : list (list Z) := [ascii_client_finished; ascii_server_finished; ascii_master_secret; ascii_key_expansion].
(** the protocol of a connection with this version and suite; 0x0101 is GMSSL *)
Definition protocol (vers suite : Z) (v : version) : Prop := version_of vers (sha384_suite suite) = Some v \/ (vers = 0x0101 /\ v = GMSSL).

Lemma suite_sha384_spec id : suite_sha384 id = sha384_suite id.
Proof.
  apply Bool.eq_iff_eq_true. unfold suite_sha384. rewrite existsb_exists. split.
  - intros (su & I & H). apply andb_prop in H as [E F]. apply Z.eqb_eq in E. subst id. rewrite <- (proj1 (suite_facts su I)). exact F.
  - intros H. unfold sha384_suite in H. apply existsb_exists in H as (x & I & E). apply Z.eqb_eq in E. subst x. apply existsb_exists. cbn [In] in I. destruct I as [<-|[<-|[<-|[]]]]; vm_compute; reflexivity.
Qed.
Lemma protocol_vers vers suite v : protocol vers suite v -> vers = vers_of v /\ suite_sha384 suite = sha384_of v (suite_sha384 suite).
Proof.
  intros [H|[-> ->]]; [|split; reflexivity]. rewrite suite_sha384_spec. unfold version_of in H.
  destruct (Z.eqb_spec vers 0x0300) as [->|_]; [injection H as <-; split; reflexivity|]. destruct (Z.eqb_spec vers 0x0301) as [->|_]; [injection H as <-; split; reflexivity|].
  destruct (Z.eqb_spec vers 0x0302) as [->|_]; [injection H as <-; split; reflexivity|]. destruct (Z.eqb_spec vers 0x0303) as [->|_]; [injection H as <-; split; reflexivity|discriminate].
Qed.
Theorem C145_exported_material_partial : forall T L Hs, std_impl L Hs -> good_hashes Hs -> forall (r : hresult T) v label ctx len,
  protocol (hr_vers r) (hr_suite r) v -> bytes (hr_master r) -> zlen (hr_master r) < 2 ^ 60 ->
  bytes (hr_clientRandom r) -> bytes (hr_serverRandom r) -> length (hr_clientRandom r) = 32%nat -> length (hr_serverRandom r) = 32%nat ->
  bytes label -> zlen label < 2 ^ 58 -> ~ In label reserved -> (forall c, ctx = Some c -> bytes c /\ zlen c < 2 ^ 16) -> 0 <= len -> (v = SSL30 -> len <= 176) ->
  ExportKeyingMaterial L (ConnectionState (Some r) RenegotiateNever) label ctx len = Ok (PRF Hs v (Z.to_nat len) (hr_master r) label (exporter_seed (hr_clientRandom r) (hr_serverRandom r) ctx)).
Proof.
  intros T L Hs HL HG r v label ctx len HP B1 B2 B3 B4 B5 B6 B7 B8 NI HC HLn HS. destruct (protocol_vers _ _ _ HP) as [E1 E2].
  unfold ExportKeyingMaterial, ConnectionState. cbn [cs_ekm]. change (negb (RenegotiateNever =? RenegotiateNever)) with false. cbv iota. rewrite E2, E1. apply C57_exported_material; auto. split; assumption.
Qed.
(** reserved labels and connections that may renegotiate: an error *)
Theorem C145_refused : forall T L (r : hresult T) renegotiation label ctx len, In label reserved \/ renegotiation <> RenegotiateNever ->
  exists e, ExportKeyingMaterial L (ConnectionState (Some r) renegotiation) label ctx len = Err e.
Proof.
  intros T L r ren label ctx len H. unfold ExportKeyingMaterial, ConnectionState. cbn [cs_ekm]. destruct (Z.eqb_spec ren RenegotiateNever) as [E|E]; cbn [negb]; [|eauto].
  destruct H as [H|H]; [|contradiction]. exists 1. now apply C57_reserved_labels_refused.
Qed.
(** "ExportKeyingMaterial returns a value or an error": false for the state of a connection whose handshake is not complete *)
Theorem C145_incomplete_refuted : forall T L renegotiation label ctx len,
  cs_complete (ConnectionState (@None (hresult T)) renegotiation) = false /\ ExportKeyingMaterial L (ConnectionState (@None (hresult T)) renegotiation) label ctx len = Panic.
Proof. intros. split; reflexivity. Qed.
(** TLSUnique: the client's Finished (the first of a full handshake); nothing on a resumed connection *)
Theorem C145_tls_unique : forall T (r : hresult T) renegotiation,
  cs_unique (ConnectionState (Some r) renegotiation) = if hr_resumed r then None else Some (hr_clientFinished r).
Proof. intros T r ren. unfold ConnectionState. cbn [cs_unique]. destruct (hr_resumed r); reflexivity. Qed.

Section Agree.
Context {T : Type} (Ec Es : senv T) (Cc Cs : chan) (Hs : hashes) (H512 : list Z -> list Z) (Wc : std_world_ok Ec Hs H512) (Ws : std_world_ok Es Hs H512).
(** client and server of one completed handshake (C131's hypotheses) export the same bytes for every label, context and length, and the same errors *)
Theorem C145_both_ends ccfg addr cache crn pr c0 rc clog scfg getcfg srn s0 rs slog :
  std_client_completes Ec Cc ccfg addr cache crn pr c0 rc clog -> std_server_completes Es Cs scfg getcfg srn s0 rs slog ->
  wire clog = wire slog -> wire_ok clog -> hr_resumed rs = false ->
  std_client_random_ok crn -> hello_random_ok srn -> groups_ok Ec -> groups_ok Es -> server_keys_ok Es scfg getcfg -> prior_ok pr -> 0 <= cf_max (s_cfg ccfg) < 2 ^ 16 ->
  (forall b, r_pms crn = Some b -> ecdhe_suite (hr_suite rs) = false -> length b = 46%nat) ->
  (forall ch cfg' ce leaf rest, hello_read slog ch -> scfg_for scfg getcfg ch cfg' -> certificate_for Es cfg' ch ce -> hr_peer (cl_hr rc) = leaf :: rest -> decrypts Ec leaf ce) -> dh_commutes Ec Es ->
  forall L label ctx len,
  ExportKeyingMaterial L (ConnectionState (Some (cl_hr rc)) RenegotiateNever) label ctx len = ExportKeyingMaterial L (ConnectionState (Some rs) RenegotiateNever) label ctx len.
Proof.
  intros H1 H2 H3 H4 H5 H6 H7 H8 H9 H10 H11 H12 H13 H14 H15 L label ctx len.
  destruct (C131_agreement Ec Es Cc Cs Hs H512 Wc Ws ccfg addr cache crn pr c0 rc clog scfg getcfg srn s0 rs slog H1 H2 H3 H4 H5 H6 H7 H8 H9 H10 H11 H12 H13 H14 H15) as (A1 & A2 & A3 & A4 & A5 & _).
  unfold ExportKeyingMaterial, ConnectionState. cbn [cs_ekm]. change (negb (RenegotiateNever =? RenegotiateNever)) with false. cbv iota. now rewrite A1, A2, A3, A4, A5.
Qed.
(** TLSUnique is the same at both ends *)
Definition is20 (m : list Z) : bool := mtype m =? 20.
Definition fins (l : list event) : list (list Z) := filter is20 (wire l).
Lemma fins_count l : length (fins l) = count_occ Z.eq_dec (types_of (steps l)) 20.
Proof.
  unfold fins. replace (types_of (steps l)) with (map mtype (wire l)) by apply wire_types. induction (wire l) as [|m w IH]; [reflexivity|]. cbn [filter map count_occ]. unfold is20 at 1.
  destruct (Z.eqb_spec (mtype m) 20) as [E|E]; destruct (Z.eq_dec (mtype m) 20); try contradiction; cbn [length]; congruence.
Qed.
Lemma fins_two l A x B y : wire l = A ++ [x] ++ B ++ [y] -> mtype x = 20 -> mtype y = 20 -> length (fins l) = 2%nat -> fins l = [x; y].
Proof.
  unfold fins. intros -> Ex Ey H. rewrite !filter_app in *. cbn [filter] in *. unfold is20 in *. rewrite Ex, Ey in *. cbn [Z.eqb Pos.eqb] in *. rewrite !app_length in H. cbn [length] in H.
  destruct (filter _ A) as [|? ?]; cbn [length] in H; [|lia]. destruct (filter _ B) as [|? ?]; cbn [length] in H; [|lia]. reflexivity.
Qed.
Lemma two_client a b c d e f : count_occ Z.eq_dec (types_of (std_client_flow a b c d e f)) 20 = 2%nat. Proof. destruct a, b, c, d, e, f; reflexivity. Qed.
Lemma two_server a b c d e f : count_occ Z.eq_dec (types_of (std_server_flow a b c d e f)) 20 = 2%nat. Proof. destruct a, b, c, d, e, f; reflexivity. Qed.
Lemma m_finished_body v m : m_finished v = Ok m -> skipn 4 m = v.
Proof.
  unfold m_finished. set (b := [20; 0; 0; u8 (zlen v)]). assert (LB : length b = 4%nat) by reflexivity. clearbody b. unfold fill. destruct (Z.leb _ _); [|discriminate]. intros H.
  assert (EM : m = (b ++ v) ++ zeros (Z.to_nat (4 + zlen v - zlen (b ++ v)))) by congruence. clear H. subst m.
  replace (4 + zlen v - zlen (b ++ v)) with 0 by (rewrite zlen_app; unfold zlen; lia). change (zeros (Z.to_nat 0)) with (@nil Z). rewrite app_nil_r, skipn_app, LB. rewrite skipn_all2 by lia. reflexivity.
Qed.
Theorem C145_tls_unique_both_ends ccfg addr cache crn pr c0 rc clog scfg getcfg srn s0 rs slog :
  std_client_completes Ec Cc ccfg addr cache crn pr c0 rc clog -> std_server_completes Es Cs scfg getcfg srn s0 rs slog ->
  wire clog = wire slog -> hr_resumed (cl_hr rc) = false -> hr_resumed rs = false -> forall ren ren',
  cs_unique (ConnectionState (Some (cl_hr rc)) ren) = cs_unique (ConnectionState (Some rs) ren') /\ exists u, cs_unique (ConnectionState (Some rs) ren') = Some u.
Proof.
  intros HC HS EW RC RS ren ren'. rewrite !C145_tls_unique, RC, RS. split; [|eauto]. f_equal.
  destruct (C126_client_flow Ec Cc Hs H512 Wc _ _ _ _ _ _ _ _ HC RC) as (? & ? & ? & ? & ? & _ & _ & F1 & _). destruct (C121_server_flow Es Cs Hs H512 Ws _ _ _ _ _ _ HS RS) as (? & ? & ? & _ & _ & _ & F2).
  assert (N1 : length (fins clog) = 2%nat) by (rewrite fins_count, F1; apply two_client). assert (N2 : length (fins slog) = 2%nat) by (rewrite fins_count, F2; apply two_server). clear F1 F2.
  assert (K1 : exists m1 m2, fins clog = [m1; m2] /\ hr_clientFinished (cl_hr rc) = fin12 (skipn 4 m1)).
  { destruct (std_client_parts Ec Cc Hs H512 Wc _ _ _ _ _ _ _ _ HC) as (hello & session & chraw & m_sh & sh & su & vers & ver' & resumed & rest & EL0 & Em & Ht & Hu & _ & L1 & L2 & VI & Ev' & ES & SI & Sid & SO & SH & HB).
    destruct resumed; destruct HB as [XR HB].
    - exfalso. destruct HB as (k & l_np & l_t & m_fin & m_sfin & cfin & sfin & CR). congruence.
    - destruct HB as (f & lf & k & l_np & l_t & m_fin & m_sfin & cfin & sfin & CR). destruct (scu_res _ _ _ _ _ _ _ _ _ _ _ _ _ _ _ _ _ _ _ _ _ _ _ _ CR) as (_ & _ & _ & _ & _ & _ & _ & X1 & _).
      pose proof (scu_fin _ _ _ _ _ _ _ _ _ _ _ _ _ _ _ _ _ _ _ _ _ _ _ _ CR) as PF. pose proof (scu_sfin _ _ _ _ _ _ _ _ _ _ _ _ _ _ _ _ _ _ _ _ _ _ _ _ CR) as PS.
      exists m_fin, m_sfin. split; [|rewrite X1; f_equal; symmetry; now apply m_finished_body].
      apply (fins_two _ (wire ([EvSend chraw; EvRecv m_sh] ++ lf ++ [EvKeys k; EvSendCCS] ++ l_np)) m_fin (wire l_t)); [|exact (t_finished _ _ PF)|exact (parse_type _ _ _ PS)|exact N1].
      rewrite (scu_log _ _ _ _ _ _ _ _ _ _ _ _ _ _ _ _ _ _ _ _ _ _ _ _ CR). rewrite !wire_app. cbn [wire msg_of flat_map app]. rewrite <- ?app_assoc. cbn [app]. reflexivity. }
  assert (K2 : exists m1 m2, fins slog = [m1; m2] /\ hr_clientFinished rs = fin12 (skipn 4 m1)).
  { destruct HS as [c' H]. pose proof Ws as (HL & HG & _).
    apply (std_serverHandshake_inv Es Hs HL HG) in H as (hs & (s1 & HH) & [(st & su & k & l_np & l_t & m_sh & m_fin & m_sfin & cfin & sfin & _ & X & _)|(_ & _ & su & f & lf & k & l_np & l_t & m_fin & m_sfin & cfin & sfin & X1 & X2 & _ & SR)]); [congruence|].
    destruct (ssr_fin _ _ _ _ _ _ _ _ _ _ _ _ _ _ _ _ SR) as [PF XF]. pose proof (ssr_sfin _ _ _ _ _ _ _ _ _ _ _ _ _ _ _ _ SR) as PS.
    exists m_fin, m_sfin. split; [|rewrite XF; f_equal; exact (proj2 (parse_finished _ _ _ PF))].
    apply (fins_two _ (wire ([EvRecv (st_chraw hs)] ++ lf ++ [EvKeys k; EvRecvCCS] ++ l_np)) m_fin (wire l_t)); [|exact (parse_type _ _ _ PF)|exact (t_finished _ _ PS)|exact N2].
    rewrite (ssr_log _ _ _ _ _ _ _ _ _ _ _ _ _ _ _ _ SR). rewrite !wire_app. cbn [wire msg_of flat_map app]. rewrite <- ?app_assoc. cbn [app]. reflexivity. }
  destruct K1 as (m1 & m2 & E1 & ->). destruct K2 as (m3 & m4 & E2 & ->). assert (X : fins clog = fins slog) by (unfold fins; now rewrite EW). congruence.
Qed.
End Agree.
(** a GMSSL and a TLS 1.2 connection; the ends of a real handshake are in C121_C132_hyps, which meets the hypotheses of C145_both_ends *)
Theorem C145_hyps : exists L Hs, std_impl L Hs /\ good_hashes Hs /\
  (let r := @mkHR unit 0x0101 0xe013 (repeat 7 48) (repeat 1 32) (repeat 2 32) [] [] false [] [] (repeat 3 12) (repeat 4 12) in
   protocol (hr_vers r) (hr_suite r) GMSSL /\ bytes (hr_master r) /\ bytes (hr_clientRandom r) /\ bytes (hr_serverRandom r)) /\
  protocol 0x0303 0xc030 (TLS12 true) /\ protocol 0x0303 0xc02f (TLS12 false) /\ ~ In [69; 88; 80] reserved.
Proof.
  destruct C55_C56_C57_hyps as (HL & HG & _). eexists _, _. split; [exact HL|]. split; [exact HG|]. split.
  - cbv zeta. split; [right; split; reflexivity|]. split; [apply bytesb_spec; reflexivity|]. split; apply bytesb_spec; reflexivity.
  - split; [left; reflexivity|]. split; [left; reflexivity|]. intros [H|[H|[H|[H|[]]]]]; discriminate.
Qed.

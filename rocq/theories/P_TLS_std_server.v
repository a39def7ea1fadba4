(** Property theorems for the server's side of the ordinary TLS handshake (C121-C125).  [C] is the connection below the handshake: its operations
    are arbitrary functions of an arbitrary state, so every theorem covers every network, every peer and every fragmentation. *)
From Verif Require Import GoBase GoLemmas BigBytes Asn1_model X509_spec SM2_model TLS_record_model TLS_prf_model TLS_prf_spec TLS_prf_proofs
  TLS_gmka_model TLS_ticket_model TLS_msg_model TLS_msg_proofs TLS_neg_model TLS_hs_model TLS_hs_proofs TLS_hs_bytes TLS_hs_server TLS_hs_spec TLS_std_model TLS_std_spec
  TLS_std_proofs TLS_std_server.
From Verif Require X509_model P_TLS_neg P_TLS_prf P_TLS_msg.
From Verif Require Import P_TLS_hs_server.
Open Scope Z_scope.
#[local] Opaque fh_Write discardHandshakeBuffer clientSum serverSum PRF newFinishedHash hashForClientCertificate.

(** the hash a crypto.Hash number stands for *)
Definition hash_fn (Hs : hashes) (H512 : list Z -> list Z) (h : Z) : list Z -> list Z :=
  if h =? hSHA256 then SHA256 Hs else if h =? hSHA384 then SHA384 Hs else if h =? hSHA512 then H512 else SHA1 Hs.
(** the hashes of the standard library are the specified ones; the Diffie-Hellman groups deliver byte strings *)
Definition std_world_ok {T} (E : senv T) (Hs : hashes) (H512 : list Z -> list Z) : Prop :=
  std_impl (e_std (se E)) Hs /\ good_hashes Hs /\ implements (se_sha512 E) H512 (2 ^ 61).
Definition kex_bytes (k : kex) : Prop := (forall priv peer, small (kx_shared k priv peer)) /\ (forall rnd priv pub, kx_gen k rnd = Ok (priv, pub) -> bytes pub /\ (length pub < 256)%nat).
Definition groups_ok {T} (E : senv T) : Prop := kex_bytes (se_x25519 E) /\ forall id, kex_bytes (se_nist E id).
Definition group {T} (E : senv T) (curve : Z) : option kex := if curve =? 29 then Some (se_x25519 E) else if existsb (Z.eqb curve) [23; 24; 25] then Some (se_nist E curve) else None.
(** what the private keys decrypt to are byte strings *)
Definition key_bytes {T} (ce : scertificate T) : Prop := forall dec ct pms, k_dec (sc_key ce) = Some dec -> dec ct = Ok pms -> small pms.
Definition server_keys_ok {T} (E : senv T) (cfg : sconfig T) (getcfg : option (clientHello -> res (option (sconfig T)))) : Prop :=
  forall ch cfg' ce, scfg_for cfg getcfg ch cfg' -> certificate_for E cfg' ch ce -> key_bytes ce.
Lemma hash_ctor_ok {T} (E : senv T) Hs H512 h : std_world_ok E Hs H512 -> implements (hash_ctor E h) (hash_fn Hs H512 h) (2 ^ 61).
Proof.
  intros ((_ & I1 & I2 & I3 & _) & _ & I4). unfold hash_ctor, hash_fn. destruct (h =? hSHA256); [exact I2|]. destruct (h =? hSHA384); [exact I3|]. destruct (h =? hSHA512); [exact I4|exact I1].
Qed.
Lemma hash_slices_ok I H slices : implements I H (2 ^ 61) -> Forall bytes slices -> zlen (concat slices) < 2 ^ 61 -> hash_slices I slices = Ok (H (concat slices)).
Proof.
  intros HI HB HL. unfold hash_slices. destruct (o_new_rel _ _ HI) as (o & Eo & Ro). rewrite Eo. cbn [rbind].
  assert (X : forall sl o m, o_rel o H m -> Forall bytes sl -> o_rel (fold_left o_write sl o) H (m ++ concat sl)).
  { induction sl as [|x sl IH]; intros o' m R F; cbn [fold_left concat]; [now rewrite app_nil_r|]. inversion F; subst. rewrite app_assoc. apply IH; [|assumption]. now apply o_write_rel. }
  apply (X slices) in Ro; [|exact HB]. cbn [app] in Ro. destruct (o_sum_rel _ _ _ [] Ro HL) as (o' & E' & _). rewrite E'. reflexivity.
Qed.
Lemma SKX_hash_ok {T} (E : senv T) Hs H512 st h vers cr sr params : std_world_ok E Hs H512 -> bytes cr -> bytes sr -> bytes params -> zlen (cr ++ sr ++ params) < 2 ^ 61 ->
  (vers < VersionTLS12 -> st = signatureECDSA \/ st = signaturePKCS1v15) ->
  hashForServerKeyExchange E st h vers [cr; sr; params] = Ok (signed_params Hs vers (is_rsa_sig st) (hash_fn Hs H512 h) cr sr params).
Proof.
  intros HW B1 B2 B3 HL HT. unfold hashForServerKeyExchange, signed_params.
  assert (F : Forall bytes [cr; sr; params]) by (repeat (apply Forall_cons; [assumption|]); apply Forall_nil).
  assert (EC : concat [cr; sr; params] = cr ++ sr ++ params) by (cbn [concat]; now rewrite app_nil_r).
  pose proof HW as ((I0 & I1 & _) & _).
  change VersionTLS12 with 0x0303 in *. destruct (Z.leb_spec 0x0303 vers) as [HV|HV].
  - rewrite (hash_slices_ok _ _ _ (hash_ctor_ok E Hs H512 h HW) F); rewrite EC; [reflexivity|exact HL].
  - rewrite (hash_slices_ok _ _ _ I1 F), (hash_slices_ok _ _ _ I0 F) by (rewrite EC; exact HL). rewrite EC.
    destruct (HT HV) as [-> | ->]; reflexivity.
Qed.

Section Server.
Context {T : Type} (E : senv T) (C : chan) (Hs : hashes) (H512 : list Z -> list Z) (HW : std_world_ok E Hs H512).
(** a completed call and what it did on the connection *)
Definition std_server_completes (cfg : sconfig T) (getcfg : option (clientHello -> res (option (sconfig T)))) (rn : rnds) (c : CS C) (r : hresult T) (log : list event) : Prop :=
  exists c', std_serverHandshake E C cfg getcfg rn (c, []) = (HOk r, (c', log)).
Definition nonempty {A} (l : list A) : bool := match l with [] => false | _ => true end.

Lemma hello_of m ch : parse_msg 0 m = Ok (MClientHello ch) -> mtype m = tClientHello /\ u_clientHello ch_empty m = Ok ch.
Proof.
  intros P. pose proof (parse_type _ _ _ P) as Ht. split; [exact Ht|]. destruct m as [|t m]; [discriminate|]. cbn [mtype type_of] in Ht. subst t. cbn in P. apply rmap_ok in P as (a & P & [= <-]). exact P.
Qed.
Lemma nonempty_zlen {A} (l : list A) : (0 <? zlen l) = nonempty l.
Proof. destruct l; reflexivity. Qed.
(** a suite the selection loop found *)
Lemma selected ok prefer server client su : negotiate_suite cipherSuites ok prefer server client = Some su ->
  In su cipherSuites /\ ok su = true /\ In (su_id su) server /\ In (su_id su) client.
Proof.
  intros H. destruct (P_TLS_neg.C66_server_selection false ok prefer server client) as [X _]. apply X in H as (b & id & a & Ep & (I1 & I2 & I3 & I4) & _). rewrite I3.
  assert (I5 : In id (if prefer then server else client)) by (rewrite Ep; apply in_elt). destruct prefer; auto.
Qed.
Lemma std_full_steps hs su rn f lf : std_full_run E Hs hs su rn f [EvRecv (st_chraw hs)] lf -> mtype (st_chraw hs) = 1 -> In su cipherSuites ->
  steps ([EvRecv (st_chraw hs)] ++ lf) = [In_ tClientHello; Out tServerHello; Out tCertificate] ++ opt (sto_stapled hs) (Out tCertificateStatus) ++ opt (ecdhe_suite (su_id su)) (Out tServerKeyExchange) ++
    opt (sasks hs) (Out tCertificateRequest) ++ [Out tServerHelloDone] ++ opt (sasks hs) (In_ tCertificate) ++ [In_ tClientKeyExchange] ++ opt (nonempty (sf_certs f)) (In_ tCertificateVerify) /\
  keys_of lf = [].
Proof.
  intros HF H1 HS. destruct (tr_flow _ _ _ _ _ _ _ _ HF) as (m_sh & m_cert & l_st & skx & ka & l_skx & l_req & l_cc & m_ckx & l_cv & ct & pms & -> & Q1 & Q2 & Q3 & Q4 & Q5 & Q6 & Q7 & Q8 & Q9 & Q10 & Q11 & Q12).
  rewrite !steps_app, !keys_of_app. cbn [steps step_of flat_map app keys_of].
  rewrite H1, (t_serverHello _ _ Q1), (t_certificate _ _ Q2), (parse_type _ _ _ Q8).
  assert (S3 : steps l_st = opt (sto_stapled hs) (Out tCertificateStatus) /\ keys_of l_st = []).
  { destruct (sto_stapled hs); [destruct Q3 as (m & -> & Q3); cbn; now rewrite (t_status _ _ Q3)|now rewrite Q3]. }
  assert (S5 : steps l_skx = opt (ecdhe_suite (su_id su)) (Out tServerKeyExchange) /\ keys_of l_skx = []).
  { destruct (suite_facts _ HS) as (_ & _ & EE & _). rewrite <- EE. unfold std_generateSKX in Q4. destruct (has_flag su suiteECDHE); cbn [negb] in Q4.
    - destruct skx as [key|]; [destruct Q5 as (m & -> & Q5); cbn; now rewrite (t_skx _ _ Q5)|]. exfalso. revert Q4. destruct (_ =? 0); [discriminate|].
      destruct (if _ =? X25519 then _ else _) as [[priv pub]| |]; [|discriminate..]. cbn [rbind]. destruct (k_sign _); [|discriminate].
      destruct (pickSignatureAlgorithm _ _ _ _) as [[[? ?] ?]| |]; [|discriminate..]. cbn [rbind]. destruct (negb _); [discriminate|].
      destruct (hashForServerKeyExchange _ _ _ _ _); [|discriminate..]. cbn [rbind]. match goal with |- context [rbind ?x _] => destruct x; [|discriminate..] end. discriminate.
    - injection Q4 as <- _. rewrite Q5. split; reflexivity. }
  assert (S6 : steps l_req = opt (sasks hs) (Out tCertificateRequest) /\ keys_of l_req = []).
  { destruct (sasks hs); [destruct Q6 as (m & -> & Q6); unfold m_certificateRequest in Q6; cbn; now rewrite (fill_type _ _ _ _ Q6)|now rewrite Q6]. }
  assert (S7 : steps l_cc = opt (sasks hs) (In_ tCertificate) /\ keys_of l_cc = []).
  { destruct (sasks hs); [destruct Q7 as (m & -> & Q7 & _); cbn; now rewrite (parse_type _ _ _ Q7)|now destruct Q7 as (-> & _)]. }
  assert (S12 : steps l_cv = opt (nonempty (sf_certs f)) (In_ tCertificateVerify) /\ keys_of l_cv = []).
  { destruct (sf_certs f); [now rewrite Q12|]. destruct Q12 as (m & alg & sig & sch & st & h & dg & -> & Q12 & _). cbn. now rewrite (parse_type _ _ _ Q12). }
  destruct S3 as [S3 K3], S5 as [S5 K5], S6 as [S6 K6], S7 as [S7 K7], S12 as [S12 K12].
  unfold steps, keys_of in *. rewrite S3, S5, S6, S7, S12, K3, K5, K6, K7, K12. split; reflexivity.
Qed.

(** ** C121.  Order of the messages and the Finished values *)
(** A completed full handshake consists of exactly the prescribed messages in the prescribed order, with the optional ones exactly when the
    cipher suite, the ClientHello, the configuration and the client's certificates ask for them, and no alert. *)
Theorem C121_server_flow cfg getcfg rn c r log : std_server_completes cfg getcfg rn c r log -> hr_resumed r = false ->
  exists ch cfg' ce, hello_read log ch /\ scfg_for cfg getcfg ch cfg' /\ certificate_for E cfg' ch ce /\
    steps log = std_server_flow (ch_ocsp ch && nonempty (sc_ocsp ce)) (ecdhe_suite (hr_suite r)) (1 <=? cf_auth (s_cfg cfg')) (nonempty (hr_peer r))
                                (ch_npn ch && negb (nonempty (ch_alpn ch)) && nonempty (cf_protos (s_cfg cfg'))) (ch_ticketOn ch && negb (cf_noTickets (s_cfg cfg'))).
Proof.
  intros [c' H] HR. destruct HW as (HL & HG & _).
  apply (std_serverHandshake_inv E Hs HL HG) in H as (hs & (s0 & HH) & [(st & su & k & l_np & l_t & m_sh & m_fin & m_sfin & cfin & sfin & _ & X & _)|(_ & _ & su & f & lf & k & l_np & l_t & m_fin & m_sfin & cfin & sfin & X1 & X2 & _ & SR)]); [congruence|].
  apply std_server_hello_inv in HH as (random & _ & P & Cf & V & Cm & Rg & Rn & Ce & _ & _ & _ & _ & _ & SH & _). cbv zeta in SH.
  destruct (hello_of _ _ P) as [Ht Hu]. destruct (selected _ _ _ _ _ X1) as (SI & _).
  pose proof (ssr_log _ _ _ _ _ _ _ _ _ _ _ _ _ _ _ _ SR) as EL. pose proof (ssr_full _ _ _ _ _ _ _ _ _ _ _ _ _ _ _ _ SR) as HF.
  exists (st_ch hs), (st_cfg hs), (st_cert hs). split; [exists (st_chraw hs); eexists; split; [rewrite EL; reflexivity|auto]|]. split; [exact Cf|]. split; [exact Ce|].
  destruct (std_full_steps _ _ _ _ _ HF Ht SI) as [SF _].
  destruct (ssr_res _ _ _ _ _ _ _ _ _ _ _ _ _ _ _ _ SR) as (_ & -> & _ & _ & _ & -> & _).
  pose proof (ssr_np _ _ _ _ _ _ _ _ _ _ _ _ _ _ _ _ SR) as N. pose proof (ssr_t _ _ _ _ _ _ _ _ _ _ _ _ _ _ _ _ SR) as Tk.
  pose proof (parse_type _ _ _ (proj1 (ssr_fin _ _ _ _ _ _ _ _ _ _ _ _ _ _ _ _ SR))) as TF. pose proof (t_finished _ _ (ssr_sfin _ _ _ _ _ _ _ _ _ _ _ _ _ _ _ _ SR)) as TS.
  pose proof (tr_sh _ _ _ _ _ _ _ _ HF) as EH.
  assert (S1 : steps l_np = opt (sh_npn (sf_sh f)) (In_ tNextProtocol)). { destruct (sh_npn (sf_sh f)); [destruct N as (m & p & -> & N & _); cbn; now rewrite (parse_type _ _ _ N)|now destruct N as [-> _]]. }
  assert (S2 : steps l_t = opt (sh_ticketOn (sf_sh f)) (Out tNewSessionTicket)). { destruct (sh_ticketOn (sf_sh f)); [destruct Tk as (m & t & -> & Tk & _); cbn; now rewrite (t_ticket _ _ Tk)|now rewrite Tk]. }
  rewrite EL. rewrite (app_assoc [EvRecv (st_chraw hs)]). rewrite steps_app, SF, !steps_app, S1, S2. cbn [steps step_of flat_map app]. rewrite TF, TS.
  rewrite EH. cbn [std_full_sh set_sh_suite set_sh_ticketOn set_sh_ocsp sh_npn sh_ticketOn]. rewrite SH. cbn [sh_npn]. rewrite !nonempty_zlen.
  replace (negb (nonempty (ch_alpn (st_ch hs))) && ch_npn (st_ch hs) && nonempty (cf_protos (s_cfg (st_cfg hs))))
    with (ch_npn (st_ch hs) && negb (nonempty (ch_alpn (st_ch hs))) && nonempty (cf_protos (s_cfg (st_cfg hs)))) by (rewrite (andb_comm (ch_npn (st_ch hs))); reflexivity).
  unfold std_server_flow, sto_stapled, sasks. rewrite nonempty_zlen. cbn [type_of]. repeat (cbn [app]; rewrite <- app_assoc). reflexivity.
Qed.
(** A resumed handshake is the abbreviated one; a new ticket is sent exactly when the old one was encrypted under an old key. *)
Theorem C121_server_short_flow cfg getcfg rn c r log : std_server_completes cfg getcfg rn c r log -> hr_resumed r = true ->
  exists ch cfg' st, hello_read log ch /\ scfg_for cfg getcfg ch cfg' /\
    decryptTicket (e_aes (se E)) (e_sha256 (se E)) false (cf_keys (s_cfg cfg')) (ch_ticket ch) = Some st /\
    steps log = std_server_short_flow (ch_npn ch && negb (nonempty (ch_alpn ch)) && nonempty (cf_protos (s_cfg cfg'))) (ss_usedOldKey st).
Proof.
  intros [c' H] HR. destruct HW as (HL & HG & _).
  apply (std_serverHandshake_inv E Hs HL HG) in H as (hs & (s0 & HH) & [(st & su & k & l_np & l_t & m_sh & m_fin & m_sfin & cfin & sfin & X1 & _ & SR)|(X & _)]); [|congruence].
  apply std_server_hello_inv in HH as (random & _ & P & Cf & V & Cm & Rg & Rn & Ce & _ & _ & _ & _ & _ & SH & _). cbv zeta in SH.
  destruct (hello_of _ _ P) as [Ht Hu].
  pose proof (srr_log _ _ _ _ _ _ _ _ _ _ _ _ _ _ _ _ SR) as EL.
  exists (st_ch hs), (st_cfg hs), st. split; [exists (st_chraw hs); eexists; split; [rewrite EL; reflexivity|auto]|]. split; [exact Cf|].
  split. { unfold std_checkForResumption in X1. cbv zeta in X1. destruct (cf_noTickets (s_cfg (st_cfg hs))); [discriminate|]. destruct (decryptTicket _ _ _ _ _) as [st'|]; [|discriminate].
    repeat match type of X1 with (if ?b then _ else _) = _ => destruct b; [discriminate|] end. destruct (set_suite _ _ _ _); [|discriminate].
    repeat match type of X1 with (if ?b then _ else _) = _ => destruct b; [discriminate|] end. injection X1 as -> _. reflexivity. }
  pose proof (srr_np _ _ _ _ _ _ _ _ _ _ _ _ _ _ _ _ SR) as N. pose proof (srr_t _ _ _ _ _ _ _ _ _ _ _ _ _ _ _ _ SR) as Tk.
  pose proof (parse_type _ _ _ (proj1 (srr_fin _ _ _ _ _ _ _ _ _ _ _ _ _ _ _ _ SR))) as TF. pose proof (t_finished _ _ (srr_sfin _ _ _ _ _ _ _ _ _ _ _ _ _ _ _ _ SR)) as TS.
  pose proof (t_serverHello _ _ (srr_sh _ _ _ _ _ _ _ _ _ _ _ _ _ _ _ _ SR)) as TH.
  assert (S1 : steps l_np = opt (sh_npn (st_sh hs)) (In_ tNextProtocol)). { destruct (sh_npn (st_sh hs)); [destruct N as (m & p & -> & N & _); cbn; now rewrite (parse_type _ _ _ N)|now destruct N as [-> _]]. }
  assert (S2 : steps l_t = opt (ss_usedOldKey st) (Out tNewSessionTicket)). { destruct (ss_usedOldKey st); [destruct Tk as (m & t & -> & Tk & _); cbn; now rewrite (t_ticket _ _ Tk)|now rewrite Tk]. }
  rewrite EL, !steps_app, S1, S2. cbn [steps step_of flat_map app]. rewrite TF, TS, TH, Ht, SH. cbn [sh_npn]. rewrite !nonempty_zlen.
  replace (negb (nonempty (ch_alpn (st_ch hs))) && ch_npn (st_ch hs) && nonempty (cf_protos (s_cfg (st_cfg hs))))
    with (ch_npn (st_ch hs) && negb (nonempty (ch_alpn (st_ch hs))) && nonempty (cf_protos (s_cfg (st_cfg hs)))) by (rewrite (andb_comm (ch_npn (st_ch hs))); reflexivity).
  unfold std_server_short_flow. reflexivity.
Qed.

(** the pre-master secret is a byte string *)
Lemma pms_small ce vers su cfg rn ch sr skx ka ct pms : groups_ok E -> key_bytes ce -> std_generateSKX E cfg ce rn vers su ch sr = Ok (skx, ka) -> std_processCKX E ce vers su ka ct = Ok pms -> small pms.
Proof.
  intros [G1 G2] KB HG HP. unfold std_processCKX in HP. destruct (has_flag su suiteECDHE) eqn:EF; cbn [negb] in HP.
  - destruct ct as [|b0 point]; [discriminate|]. destruct (negb _); [discriminate|]. destruct (fst ka =? X25519).
    + destruct (negb _); [discriminate|]. injection HP as <-. apply G1.
    + unfold curveForCurveID in HP. destruct (_ || _); [|discriminate]. destruct (kx_point _ _); [|discriminate]. injection HP as <-. apply G2.
  - destruct ct as [|b0 [|b1 rest]]; [discriminate..|]. destruct (_ && _); [discriminate|]. destruct (k_dec (sc_key ce)) as [dec|] eqn:ED; [|discriminate]. eapply KB; eauto.
Qed.
Lemma hello_random m ch : bytes m -> parse_msg 0 m = Ok (MClientHello ch) -> bytes (ch_random ch) /\ length (ch_random ch) = 32%nat.
Proof. intros B P. apply hello_of in P as [_ P]. eapply ch_random_ok; eauto. Qed.

Ltac no_fin := unfold opt; let HX := fresh "HX" in intros HX; rewrite ?in_app_iff in HX; cbn in HX;
  repeat match type of HX with context [if ?b then _ else _] => destruct b end; cbn in HX; intuition discriminate.
(** Every Finished message the server took, or sent, in a completed handshake - full or resumed - carries the value the negotiated protocol prescribes
    for the master secret and all handshake messages before it. *)
Theorem C121_server_finished cfg getcfg rn c r log : std_server_completes cfg getcfg rn c r log -> wire_ok log -> hello_random_ok rn -> groups_ok E -> server_keys_ok E cfg getcfg ->
  (hr_resumed r = true -> small (hr_master r)) -> hr_vers r <> 0x0101 ->
  exists ver, version_of (hr_vers r) (sha384_suite (hr_suite r)) = Some ver /\
    (forall pre m post, log = pre ++ EvRecv m :: post -> mtype m = tFinished -> skipn 4 m = client_finished Hs ver (hr_master r) (transcript pre)) /\
    (forall pre m post, log = pre ++ EvSend m :: post -> mtype m = tFinished ->
       m = 20 :: be_bytes 3 (zlen (server_finished Hs ver (hr_master r) (transcript pre))) ++ server_finished Hs ver (hr_master r) (transcript pre)).
Proof.
  intros [c' H] WO RO GO KO SM NV. pose proof HW as (HL & HG & _).
  assert (FW : forall ver ms t m, small ms -> bytes t -> m_finished (server_finished Hs ver ms t) = Ok m -> m = 20 :: be_bytes 3 (zlen (server_finished Hs ver ms t)) ++ server_finished Hs ver ms t).
  { intros ver ms t m Sm Bt Hm. remember (server_finished Hs ver ms t) as v eqn:EV.
    assert (LV : (length v = 12 \/ length v = 36)%nat).
    { subst v. destruct ver as [| | |b|]; cbn [server_finished]; try (left; apply PRF_length). right. unfold ssl3_verify. rewrite app_length.
      assert (B36 : forall x k, 0 <= x < 256 -> bytes (repeat x k)) by (intros; apply bytes_repeat; unfold is_byte; lia).
      destruct HG as (G1 & G2 & _). destruct Sm as [Bs _].
      destruct (G1 (t ++ [83; 82; 86; 82] ++ ms ++ repeat 54 48)) as [Bi _]. { repeat (apply bytes_app; split; auto); [apply bytesb_spec; reflexivity|apply B36; lia]. }
      destruct (G2 (t ++ [83; 82; 86; 82] ++ ms ++ repeat 54 40)) as [Bj _]. { repeat (apply bytes_app; split; auto); [apply bytesb_spec; reflexivity|apply B36; lia]. }
      destruct (G1 (ms ++ repeat 92 48 ++ MD5 Hs (t ++ [83; 82; 86; 82] ++ ms ++ repeat 54 48))) as [_ ->]. { repeat (apply bytes_app; split; auto). apply B36; lia. }
      destruct (G2 (ms ++ repeat 92 40 ++ SHA1 Hs (t ++ [83; 82; 86; 82] ++ ms ++ repeat 54 40))) as [_ ->]. { repeat (apply bytes_app; split; auto). apply B36; lia. }
      reflexivity. }
    clear EV. unfold m_finished in Hm. assert (ZV : zlen v = 12 \/ zlen v = 36) by (unfold zlen; lia).
    unfold fill in Hm. replace (zlen ([20; 0; 0; u8 (zlen v)] ++ v)) with (zlen v + 4) in Hm by (unfold zlen; rewrite app_length; cbn [length]; lia).
    destruct ZV as [ZV|ZV]; rewrite ZV in *; cbn in Hm; injection Hm as <-; cbn; now rewrite app_nil_r. }
  apply (std_serverHandshake_inv E Hs HL HG) in H as (hs & (s0 & HH) & [(st & su & k & l_np & l_t & m_sh & m_fin & m_sfin & cfin & sfin & X1 & HR & SR)|(HR & _ & su & f & lf & k & l_np & l_t & m_fin & m_sfin & cfin & sfin & X1 & X2 & VV & SR)]);
  apply std_server_hello_inv in HH as (random & _ & P & Cf & V & Cm & Rg & Rn & Ce & _ & _ & _ & _ & _ & SH & _); cbv zeta in SH; destruct (hello_of _ _ P) as [Ht Hu].
  - (* resumed *)
    pose proof (srr_log _ _ _ _ _ _ _ _ _ _ _ _ _ _ _ _ SR) as EL. destruct (srr_res _ _ _ _ _ _ _ _ _ _ _ _ _ _ _ _ SR) as (R1 & R2 & R3 & _). rewrite R1, R2, R3 in *.
    assert (SI : In su cipherSuites).
    { unfold std_checkForResumption in X1. cbv zeta in X1. destruct (cf_noTickets _); [discriminate|]. destruct (decryptTicket _ _ _ _ _) as [st'|]; [|discriminate].
      repeat match type of X1 with (if ?b then _ else _) = _ => destruct b; [discriminate|] end. destruct (set_suite _ _ _ _) as [su'|] eqn:ES; [|discriminate].
      repeat match type of X1 with (if ?b then _ else _) = _ => destruct b; [discriminate|] end. injection X1 as _ ->. apply P_TLS_neg.set_suite_iff in ES as (_ & ES & _).
      clear -ES. revert ES. generalize (ss_cipherSuite st'). generalize cipherSuites. induction l as [|x l IH]; intros id H; cbn in H; [discriminate|]. destruct (_ =? _) in H; [injection H as ->; now left|right; eauto]. }
    destruct (suite_facts _ SI) as (ES & _). rewrite <- ES.
    destruct (srr_vers _ _ _ _ _ _ _ _ _ _ _ _ _ _ _ _ SR) as [V0|(ver & Ev)]; [congruence|]. exists ver. split; [exact Ev|].
    destruct (srr_val _ _ _ _ _ _ _ _ _ _ _ _ _ _ _ _ SR ver Ev WO (SM HR)) as [V1 V2].
    pose proof (srr_np _ _ _ _ _ _ _ _ _ _ _ _ _ _ _ _ SR) as N. pose proof (srr_t _ _ _ _ _ _ _ _ _ _ _ _ _ _ _ _ SR) as Tk.
    pose proof (proj1 (srr_fin _ _ _ _ _ _ _ _ _ _ _ _ _ _ _ _ SR)) as PF. pose proof (srr_sfin _ _ _ _ _ _ _ _ _ _ _ _ _ _ _ _ SR) as PS.
    pose proof (parse_type _ _ _ PF) as TF. pose proof (t_finished _ _ PS) as TS. pose proof (t_serverHello _ _ (srr_sh _ _ _ _ _ _ _ _ _ _ _ _ _ _ _ _ SR)) as TH.
    assert (S1 : steps l_np = opt (sh_npn (st_sh hs)) (In_ tNextProtocol)). { destruct (sh_npn (st_sh hs)); [destruct N as (m & p & -> & N & _); cbn; now rewrite (parse_type _ _ _ N)|now destruct N as [-> _]]. }
    assert (S2 : steps l_t = opt (ss_usedOldKey st) (Out tNewSessionTicket)). { destruct (ss_usedOldKey st); [destruct Tk as (m & t & -> & Tk & _); cbn; now rewrite (t_ticket _ _ Tk)|now rewrite Tk]. }
    set (A := [EvRecv (st_chraw hs); EvSend m_sh; EvKeys k] ++ l_t) in *.
    assert (E1 : log = (A ++ [EvSendCCS]) ++ EvSend m_sfin :: ([EvRecvCCS] ++ l_np ++ [EvRecv m_fin])) by (rewrite EL; unfold A; rewrite <- !app_assoc; reflexivity).
    assert (E2 : log = (A ++ [EvSendCCS; EvSend m_sfin; EvRecvCCS] ++ l_np) ++ EvRecv m_fin :: []) by (rewrite EL; unfold A; rewrite <- !app_assoc; reflexivity).
    assert (SA : steps A = [In_ tClientHello; Out tServerHello] ++ opt (ss_usedOldKey st) (Out tNewSessionTicket)). { unfold A. rewrite steps_app, S2. cbn [steps step_of flat_map app]. rewrite Ht, TH. reflexivity. }
    split.
    + intros pre m post Hl Hm.
      destruct (unique_event (recv_type tFinished) log (A ++ [EvSendCCS; EvSend m_sfin; EvRecvCCS] ++ l_np) [] pre post (EvRecv m_fin) (EvRecv m) E2) as (-> & Em & _); auto.
      * apply no_recv. rewrite !steps_app, SA, S1. cbn [steps step_of flat_map app]. no_fin.
      * intros HX. inversion HX.
      * exists m. auto.
      * injection Em as ->. destruct (parse_finished _ _ _ PF) as [_ <-]. rewrite V2. unfold A. rewrite <- !app_assoc. reflexivity.
    + intros pre m post Hl Hm.
      destruct (unique_event (send_type tFinished) log (A ++ [EvSendCCS]) ([EvRecvCCS] ++ l_np ++ [EvRecv m_fin]) pre post (EvSend m_sfin) (EvSend m) E1) as (-> & Em & _); auto.
      * apply no_send. rewrite !steps_app, SA. cbn [steps step_of flat_map app]. no_fin.
      * apply no_send. rewrite !steps_app, S1. cbn [steps step_of flat_map app]. no_fin.
      * exists m. auto.
      * injection Em as ->. unfold A. rewrite <- !app_assoc. rewrite V1 in PS. apply FW; [exact (SM HR)| |exact PS].
        rewrite E1 in WO. apply wire_ok_app in WO as [[WO _] _]. unfold A in WO. rewrite <- !app_assoc in WO. exact WO.
  - (* full *)
    pose proof (ssr_log _ _ _ _ _ _ _ _ _ _ _ _ _ _ _ _ SR) as EL. pose proof (ssr_full _ _ _ _ _ _ _ _ _ _ _ _ _ _ _ _ SR) as HF.
    destruct (ssr_res _ _ _ _ _ _ _ _ _ _ _ _ _ _ _ _ SR) as (R1 & R2 & R3 & _). rewrite R1, R2, R3 in *.
    destruct (selected _ _ _ _ _ X1) as (SI & _). destruct (suite_facts _ SI) as (ES & _). rewrite <- ES.
    destruct VV as [V0|(ver & Ev)]; [congruence|]. exists ver. split; [exact Ev|].
    pose proof (tr_sh _ _ _ _ _ _ _ _ HF) as ESH.
    assert (SR32 : sh_random (sf_sh f) = random). { rewrite ESH. cbn [std_full_sh set_sh_suite set_sh_ticketOn set_sh_ocsp sh_random]. rewrite SH. reflexivity. }
    destruct (RO _ Rn) as [RS1 RS2].
    assert (Bh : bytes (st_chraw hs)). { apply wire_ok_recv. eapply wire_ok_in; [exact WO|]. rewrite EL. now left. }
    destruct (hello_random _ _ Bh P) as [RC1 RC2].
    assert (SMM : small (sf_master f)).
    { destruct (tr_flow _ _ _ _ _ _ _ _ HF) as (m_sh & m_cert & l_st & skx & ka & l_skx & l_req & l_cc & m_ckx & l_cv & ct & pms & _ & _ & _ & _ & Q4 & _ & _ & _ & _ & Q9 & Q10 & _).
      pose proof (pms_small _ _ _ _ _ _ _ _ _ _ _ GO (KO _ _ _ Cf Ce) Q4 Q9) as SP. rewrite SR32 in Q10.
      destruct (master_std _ Hs HL HG _ _ _ _ _ _ SP RC1 RS1 RC2 RS2 Q10 ver Ev) as (_ & _ & _ & X). exact X. }
    destruct (ssr_val _ _ _ _ _ _ _ _ _ _ _ _ _ _ _ _ SR ver Ev WO SMM) as [V1 V2]. { intros h. eexists. apply (hash_ctor_ok E Hs H512 h HW). }
    destruct (std_full_steps _ _ _ _ _ HF Ht SI) as [SF _].
    pose proof (ssr_np _ _ _ _ _ _ _ _ _ _ _ _ _ _ _ _ SR) as N. pose proof (ssr_t _ _ _ _ _ _ _ _ _ _ _ _ _ _ _ _ SR) as Tk.
    pose proof (proj1 (ssr_fin _ _ _ _ _ _ _ _ _ _ _ _ _ _ _ _ SR)) as PF. pose proof (ssr_sfin _ _ _ _ _ _ _ _ _ _ _ _ _ _ _ _ SR) as PS.
    pose proof (parse_type _ _ _ PF) as TF. pose proof (t_finished _ _ PS) as TS.
    assert (S1 : steps l_np = opt (sh_npn (sf_sh f)) (In_ tNextProtocol)). { destruct (sh_npn (sf_sh f)); [destruct N as (m & p & -> & N & _); cbn; now rewrite (parse_type _ _ _ N)|now destruct N as [-> _]]. }
    assert (S2 : steps l_t = opt (sh_ticketOn (sf_sh f)) (Out tNewSessionTicket)). { destruct (sh_ticketOn (sf_sh f)); [destruct Tk as (m & t & -> & Tk & _); cbn; now rewrite (t_ticket _ _ Tk)|now rewrite Tk]. }
    set (A := [EvRecv (st_chraw hs)] ++ lf) in *.
    assert (E1 : log = (A ++ [EvKeys k; EvRecvCCS] ++ l_np) ++ EvRecv m_fin :: (l_t ++ [EvSendCCS; EvSend m_sfin])) by (rewrite EL; unfold A; rewrite <- !app_assoc; reflexivity).
    assert (E2 : log = (A ++ [EvKeys k; EvRecvCCS] ++ l_np ++ [EvRecv m_fin] ++ l_t ++ [EvSendCCS]) ++ EvSend m_sfin :: []) by (rewrite EL; unfold A; rewrite <- !app_assoc; reflexivity).
    split.
    + intros pre m post Hl Hm.
      destruct (unique_event (recv_type tFinished) log (A ++ [EvKeys k; EvRecvCCS] ++ l_np) (l_t ++ [EvSendCCS; EvSend m_sfin]) pre post (EvRecv m_fin) (EvRecv m) E1) as (-> & Em & _); auto.
      * apply no_recv. rewrite !steps_app, SF, S1. cbn [steps step_of flat_map app]. no_fin.
      * apply no_recv. rewrite !steps_app, S2. cbn [steps step_of flat_map app]. no_fin.
      * exists m. auto.
      * injection Em as ->. destruct (parse_finished _ _ _ PF) as [_ <-]. rewrite V1. unfold A. rewrite <- !app_assoc. reflexivity.
    + intros pre m post Hl Hm.
      destruct (unique_event (send_type tFinished) log (A ++ [EvKeys k; EvRecvCCS] ++ l_np ++ [EvRecv m_fin] ++ l_t ++ [EvSendCCS]) [] pre post (EvSend m_sfin) (EvSend m) E2) as (-> & Em & _); auto.
      * apply no_send. rewrite !steps_app, SF, S1, S2. cbn [steps step_of flat_map app]. no_fin.
      * intros HX. inversion HX.
      * exists m. auto.
      * injection Em as ->. unfold A. rewrite <- !app_assoc. rewrite V2 in PS. apply FW; [exact SMM| |exact PS].
        rewrite E2 in WO. apply wire_ok_app in WO as [[WO _] _]. unfold A in WO. rewrite <- !app_assoc in WO. exact WO.
Qed.
End Server.

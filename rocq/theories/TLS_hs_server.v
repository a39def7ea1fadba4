(** Inversion of the server's handshake: a completed call exchanged these messages and computed these values. *)
From Verif Require Import GoBase GoLemmas BigBytes Asn1_model X509_spec SM2_model SM3_spec TLS_record_model TLS_prf_model TLS_prf_spec TLS_prf_proofs
  TLS_gmka_model TLS_ticket_model TLS_msg_model TLS_neg_model TLS_hs_model TLS_hs_proofs TLS_hs_bytes.
From Verif Require X509_model.
Open Scope Z_scope.
#[local] Opaque sm3 fh_Write discardHandshakeBuffer clientSum serverSum.

(** ** The GM transcript hash *)
Section GMHash.
Context (L : stdlib) (Hs : hashes) (HL : std_impl L Hs) (HG : good_hashes Hs).
Definition gmh (d : bool) (t : list Z) (h : finishedHash) : Prop := fh_ok Hs GMSSL t d false false h.
Lemma gmh_new h : newFinishedHashGM = Ok h -> gmh false [] h.
Proof. intros E. destruct (newFinishedHashGM_ok L Hs HL HG) as (h' & E' & H). rewrite E in E'. injection E' as ->. exact H. Qed.
Lemma gmh_write d t h p h' : gmh d t h -> bytes p -> fh_Write h p = Ok h' -> gmh d (t ++ p) h'.
Proof. intros H B E. destruct (fh_Write_ok Hs GMSSL t d false false h p H B) as (x & E' & H'). rewrite E in E'. injection E' as <-. exact H'. Qed.
Lemma gmh_discard d t h : gmh d t h -> gmh true t (discardHandshakeBuffer h).
Proof. apply discard_ok. Qed.
Lemma gmh_client d t h secret v h' : gmh d t h -> zlen t < 2 ^ 59 -> small secret -> clientSum h secret = Ok (v, h') ->
  v = client_finished Hs GMSSL secret t /\ gmh d t h'.
Proof. intros H Ht Hsec E. destruct (clientSum_ok Hs HG GMSSL t d false false h secret H eq_refl Ht Hsec) as (x & E' & H'). rewrite E in E'. injection E' as -> <-. auto. Qed.
Lemma gmh_server d t h secret v h' : gmh d t h -> zlen t < 2 ^ 59 -> small secret -> serverSum h secret = Ok (v, h') ->
  v = server_finished Hs GMSSL secret t /\ gmh d t h'.
Proof. intros H Ht Hsec E. destruct (serverSum_ok Hs HG GMSSL t d false false h secret H eq_refl (fun _ => eq_refl) Ht Hsec) as (x & E' & H'). rewrite E in E'. injection E' as -> <-. auto. Qed.
Lemma gmh_certverify t h sigType I secret v h' : gmh false t h -> zlen t < 2 ^ 59 -> hashForClientCertificate L h sigType I secret = Ok (v, h') ->
  v = sm3 t /\ gmh false t h'.
Proof.
  intros H Ht E.
  assert (E2 : hashForClientCertificate L h sigType (std_sha1 L) [] = Ok (v, h')).
  { rewrite <- E. destruct H as [Ev Eb _ _ _ _]. unfold hashForClientCertificate. rewrite Ev, Eb. cbn. reflexivity. }
  pose proof HL as (I1 & I2 & _).
  destruct (hashForClientCertificate_ok L Hs HL HG GMSSL t false false h sigType (std_sha1 L) (SHA1 Hs) [] H eq_refl eq_refl I2 Ht) as (x & E' & H').
  { split; [constructor|reflexivity]. }
  rewrite E2 in E'. injection E' as -> <-. auto.
Qed.
End GMHash.
Lemma master_small L Hs v pms cr sr master : std_impl L Hs -> good_hashes Hs -> bytes pms -> length pms = 48%nat ->
  bytes cr -> bytes sr -> length cr = 32%nat -> length sr = 32%nat -> masterFromPreMasterSecret L v false pms cr sr = Ok master ->
  exists ver, v = vers_of ver /\ (ver <> TLS12 true) /\ master = PRF Hs ver 48 pms ascii_master_secret (cr ++ sr) /\ bytes master /\ length master = 48%nat.
Proof.
  intros HL HG B1 L1 B2 B3 L2 L3 H.
  assert (X : exists ver, v = vers_of ver /\ ver <> TLS12 true).
  { unfold masterFromPreMasterSecret, prfForVersion in H. apply rbind_ok in H as (prf & H1 & _). apply rbind_ok in H1 as (ph & H1 & _). unfold prfAndHashForVersion in H1.
    repeat match type of H1 with (if ?c then _ else _) = _ => let E := fresh "E" in destruct c eqn:E end; try discriminate.
    - exists SSL30. split; [apply Z.eqb_eq; exact E|discriminate].
    - apply orb_true_iff in E0 as [E0|E0]; apply Z.eqb_eq in E0; [exists TLS10|exists TLS11]; (split; [exact E0|discriminate]).
    - exists (TLS12 false). split; [apply Z.eqb_eq; exact E1|discriminate].
    - exists GMSSL. split; [apply Z.eqb_eq; exact E2|discriminate]. }
  destruct X as (ver & -> & NV). exists ver. split; [reflexivity|]. split; [exact NV|].
  assert (SP : small pms) by (split; [exact B1|unfold zlen; lia]).
  assert (LBL : zlen masterSecretLabel + zlen (cr ++ sr) < 2 ^ 59) by (unfold zlen; rewrite app_length, L2, L3; reflexivity).
  pose proof (prfForVersion_ok L Hs HL HG ver false 48 pms masterSecretLabel (cr ++ sr) SP) as X.
  replace (sha384_of ver false) with false in X by (destruct ver as [| | |[|]|]; try reflexivity; congruence).
  unfold masterFromPreMasterSecret in H. rewrite X in H; [|apply bytesb_spec; reflexivity|apply bytes_app; auto|exact LBL|intros; lia].
  injection H as <-. split; [reflexivity|]. split; [|apply PRF_length].
  apply PRF_bytes; auto; [apply bytesb_spec; reflexivity|apply bytes_app; auto|lia].
Qed.

Section ServerFull.
Context {T : Type} (E : env T) {C : chan} (Hs : hashes) (HL : std_impl (e_std E) Hs) (HG : good_hashes Hs).
Implicit Types s : hst C.

Definition ocsp_stapled (hs : shs (T := T)) : bool := ch_ocsp (ss_ch hs) && (0 <? zlen (ce_ocsp (ss_c0 hs))).
Definition full_sh (hs : shs (T := T)) (su : suite) : serverHello :=
  set_sh_suite (set_sh_ticketOn (set_sh_ocsp (ss_sh hs) (ocsp_stapled hs)) (ch_ticketOn (ss_ch hs) && negb (cf_noTickets (ss_cfg hs)))) (su_id su).
Definition asks (cfg : config T) : bool := RequestClientCert <=? cf_auth cfg.
(** what doFullHandshake did *)
Record sfull_run (hs : shs (T := T)) (su : suite) (rn : rnds) (f : sfull (T := T)) (l : list event) : Prop := mkSFR {
  fr_sh : sf_sh f = full_sh hs su;
  fr_flow : exists m_sh m_cert l_st skx m_skx l_req l_cc m_ckx l_cv ct pms,
    l = [EvSend m_sh; EvSend m_cert] ++ l_st ++ [EvSend m_skx] ++ l_req ++ [EvSend m_serverHelloDone] ++ l_cc ++ [EvRecv m_ckx] ++ l_cv /\
    m_serverHello (sf_sh f) = Ok m_sh /\ m_certificate (concat (map ce_chain (cf_certs (ss_cfg hs)))) = Ok m_cert /\
    (if ocsp_stapled hs then exists m, l_st = [EvSend m] /\ m_certificateStatus (1, ce_ocsp (ss_c0 hs)) = Ok m else l_st = []) /\
    ka_generateSKX E su (r_sign rn) (ss_c0 hs) (ss_c1 hs) (ch_random (ss_ch hs)) (sh_random (sf_sh f)) = HOk skx /\ m_serverKeyExchange skx = Ok m_skx /\
    (if asks (ss_cfg hs) then exists m, l_req = [EvSend m] /\
       m_certificateRequestGM [1; 64] (match cf_clientCAs (ss_cfg hs) with Some p => X509_model.Subjects p | None => [] end) = Ok m else l_req = []) /\
    (if asks (ss_cfg hs) then exists m, l_cc = [EvRecv m] /\ parse_msg (ss_v hs) m = Ok (MCertificate (sf_ders f)) /\
       client_certs_ok E (ss_cfg hs) (sf_ders f) (sf_certs f) (sf_chains f) /\
       (cf_auth (ss_cfg hs) = RequireAnyClientCert \/ cf_auth (ss_cfg hs) = RequireAndVerifyClientCert -> sf_ders f <> [])
     else l_cc = [] /\ sf_ders f = [] /\ sf_certs f = [] /\ sf_chains f = []) /\
    parse_msg (ss_v hs) m_ckx = Ok (MClientKeyExchange ct) /\ ka_processCKX E su (ss_c1 hs) ct = HOk pms /\
    masterFromPreMasterSecret (e_std E) (ss_v hs) false pms (ch_random (ss_ch hs)) (sh_random (sf_sh f)) = Ok (sf_master f) /\
    cf_keylog (ss_cfg hs) (ch_random (ss_ch hs)) (sf_master f) = None /\
    match sf_certs f with
    | [] => l_cv = []
    | c0 :: _ => exists m alg sig sigType digest, l_cv = [EvRecv m] /\ parse_msg (ss_v hs) m = Ok (MCertificateVerify alg sig) /\
        pickSignatureType (g_pub c0) alg (ss_v hs) = Some sigType /\ g_pub c0 <> PkOther /\
        verifyHandshakeSignature E sigType (g_pub c0) digest sig = Ok true /\
        (wire_ok (EvRecv (ss_chraw hs) :: l) ->
         digest = sm3 (transcript ([EvRecv (ss_chraw hs)] ++ [EvSend m_sh; EvSend m_cert] ++ l_st ++ [EvSend m_skx] ++ l_req ++ [EvSend m_serverHelloDone] ++ l_cc ++ [EvRecv m_ckx])))
    end;
  fr_hash : wire_ok (EvRecv (ss_chraw hs) :: l) -> gmh Hs true (transcript (EvRecv (ss_chraw hs) :: l)) (sf_h f) }.

Lemma tr1 m : transcript [EvRecv m] = m. Proof. unfold transcript. cbn. apply app_nil_r. Qed.
Lemma tr2 m : transcript [EvSend m] = m. Proof. unfold transcript. cbn. apply app_nil_r. Qed.
(** one more message *)
Lemma gmh_recv d l h m h' : gmh Hs d (transcript l) h -> bytes m -> fh_Write h m = Ok h' -> gmh Hs d (transcript (l ++ [EvRecv m])) h'.
Proof. intros. rewrite transcript_app, tr1. eapply gmh_write; eauto. Qed.
Lemma gmh_send d l h m h' : gmh Hs d (transcript l) h -> bytes m -> fh_Write h m = Ok h' -> gmh Hs d (transcript (l ++ [EvSend m])) h'.
Proof. intros. rewrite transcript_app, tr2. eapply gmh_write; eauto. Qed.
Lemma gmh_same d l l' h : gmh Hs d (transcript l) h -> wire l' = [] -> gmh Hs d (transcript (l ++ l')) h.
Proof. intros. rewrite transcript_app. unfold transcript at 2. rewrite H0. cbn [concat]. now rewrite app_nil_r. Qed.
Lemma wire_ok_in l e : wire_ok l -> In e l -> wire_ok [e].
Proof. intros H Hin. apply in_split in Hin as (a & b & ->). apply wire_ok_app in H as [_ H]. now apply wire_ok_cons in H as [H _]. Qed.

Lemma server_full_inv hs su rn f s s' : server_full E (C := C) hs su rn s = (HOk f, s') -> exists l, snd s' = snd s ++ l /\ sfull_run hs su rn f l.
Proof.
  unfold server_full. cbv zeta. fold (ocsp_stapled hs). fold (full_sh hs su). intros H.
  apply bind_ok in H as (h0 & s0 & H0 & H). prim H0. apply of_res_ok in H0. subst s0. cbv beta in H.
  set (h1 := if cf_auth (ss_cfg hs) =? NoClientCert then discardHandshakeBuffer h0 else h0) in H.
  apply bind_ok in H as (h2 & s2 & H2 & H). prim H2. subst s2. cbv beta in H.
  apply bind_ok in H as (h3 & s3 & H3 & H). apply emit_ok in H3 as (m_sh & Esh & W3 & H3). cbv beta in H.
  apply bind_ok in H as (h4 & s4 & H4 & H). apply emit_ok in H4 as (m_cert & Ecert & W4 & H4). cbv beta in H.
  apply bind_ok in H as (h5 & s5 & H5 & H). cbv beta in H.
  assert (X5 : exists l_st, snd s5 = snd s4 ++ l_st /\ (if ocsp_stapled hs then exists m, l_st = [EvSend m] /\ m_certificateStatus (1, ce_ocsp (ss_c0 hs)) = Ok m /\ fh_Write h4 m = Ok h5 else l_st = [] /\ h5 = h4)).
  { destruct (ocsp_stapled hs).
    - apply emit_ok in H5 as (m & Em & W5 & H5). exists [EvSend m]. split; [exact H5|]. eauto.
    - prim H5. subst. exists []. split; [now rewrite app_nil_r|auto]. }
  destruct X5 as (l_st & L5 & X5). clear H5.
  apply bind_ok in H as (skx & s6 & H6 & H). apply orfail_ok in H6 as [Eskx ->]. cbv beta in H.
  apply bind_ok in H as (h7 & s7 & H7 & H). apply emit_ok in H7 as (m_skx & Emskx & W7 & H7). cbv beta in H.
  apply bind_ok in H as (h8 & s8 & H8 & H). cbv beta in H.
  fold (asks (ss_cfg hs)) in H8, H.
  assert (X8 : exists l_req, snd s8 = snd s7 ++ l_req /\ (if asks (ss_cfg hs) then exists m, l_req = [EvSend m] /\
       m_certificateRequestGM [1; 64] (match cf_clientCAs (ss_cfg hs) with Some p => X509_model.Subjects p | None => [] end) = Ok m /\ fh_Write h7 m = Ok h8 else l_req = [] /\ h8 = h7)).
  { destruct (asks (ss_cfg hs)).
    - apply emit_ok in H8 as (m & Em & W8 & H8). exists [EvSend m]. split; [exact H8|]. eauto.
    - prim H8. subst. exists []. split; [now rewrite app_nil_r|auto]. }
  destruct X8 as (l_req & L8 & X8). clear H8.
  apply bind_ok in H as (h9 & s9 & H9 & H). apply emit_ok in H9 as (m_done & Edone & W9 & H9). injection Edone as <-. cbv beta in H.
  apply bind_ok in H as ([mm1 raw1] & s10 & H10 & H). apply readHandshake_ok in H10 as [P10 H10]. cbv beta in H. cbn [fst snd] in H.
  apply bind_ok in H as ([[[h11 mr11] ders] [[pub certs] chains]] & s11 & H11 & H). cbv beta iota in H.
  assert (X11 : exists l_cc mm2 raw2, mr11 = (mm2, raw2) /\ parse_msg (ss_v hs) raw2 = Ok mm2 /\ snd s11 = snd s9 ++ l_cc ++ [EvRecv raw2] /\
    (if asks (ss_cfg hs) then exists m, l_cc = [EvRecv m] /\ parse_msg (ss_v hs) m = Ok (MCertificate ders) /\
       client_certs_ok E (ss_cfg hs) ders certs chains /\
       (cf_auth (ss_cfg hs) = RequireAnyClientCert \/ cf_auth (ss_cfg hs) = RequireAndVerifyClientCert -> ders <> []) /\
       match certs with [] => pub = None | c0 :: _ => pub = Some (g_pub c0) /\ g_pub c0 <> PkOther end /\ fh_Write h9 m = Ok h11
     else l_cc = [] /\ ders = [] /\ certs = [] /\ chains = [] /\ h11 = h9)).
  { destruct (asks (ss_cfg hs)).
    - destruct mm1 as [| | | |ders1| | | | | | | | ]; try now apply unexpected_ok in H11.
      apply bind_ok in H11 as (hx & sx & Hx & H11). prim Hx. subst sx. cbv beta in H11.
      destruct ((zlen ders1 =? 0) && _) eqn:EZ; [now apply fail_with_ok in H11|].
      apply bind_ok in H11 as (p & sp & Hp & H11). apply processCerts_inv in Hp as (-> & HC & HP). cbv beta in H11.
      apply bind_ok in H11 as ([mm2 raw2] & sy & Hy & H11). apply readHandshake_ok in Hy as [P2 Hy]. cbv beta in H11.
      prim H11. subst s11. injection H11 as -> -> -> E1. destruct p as [[pub1 certs1] chains1]. injection E1 as -> -> ->. cbn [fst snd] in *.
      exists [EvRecv raw1], mm2, raw2. split; [reflexivity|]. split; [exact P2|]. split; [now rewrite Hy, H10, <- app_assoc|].
      exists raw1. split; [reflexivity|]. split; [exact P10|]. split; [exact HC|]. split; [|split; [exact HP|exact Hx]].
      intros HA ->. destruct HA as [HA|HA]; rewrite HA in EZ; discriminate EZ.
    - prim H11. subst s11. injection H11 as -> -> -> -> -> ->. exists [], mm1, raw1. repeat split; auto. }
  destruct X11 as (l_cc & mm2 & raw2 & -> & P11 & L11 & X11). clear H11 H10 P10 s10 mm1 raw1. cbn [fst snd] in H.
  destruct mm2 as [| | | | | | | | |ct| | | ]; try now apply unexpected_ok in H.
  apply bind_ok in H as (h12 & s12 & H12 & H). prim H12. subst s12. cbv beta in H.
  apply bind_ok in H as (pms & s13 & H13 & H). apply orfail_ok in H13 as [Epms ->]. cbv beta in H.
  apply bind_ok in H as (master & s14 & H14 & H). prim H14. apply of_res_ok in H14. subst s14. cbv beta in H.
  destruct (cf_keylog (ss_cfg hs) (ch_random (ss_ch hs)) master) eqn:EK; [now apply fail_with_ok in H|].
  apply bind_ok in H as (h15 & s15 & H15 & H). cbv beta in H. prim H. subst s' f. cbn [sf_sh sf_h sf_master sf_ders sf_certs sf_chains].
  assert (X15 : exists l_cv, snd s15 = snd s11 ++ l_cv /\ match certs with
    | [] => l_cv = [] /\ h15 = h12
    | c0 :: _ => exists m alg sig sigType digest h13, l_cv = [EvRecv m] /\ parse_msg (ss_v hs) m = Ok (MCertificateVerify alg sig) /\
        pickSignatureType (match pub with Some p => p | None => PkOther end) alg (ss_v hs) = Some sigType /\
        hashForClientCertificate (e_std E) h12 sigType (std_sha1 (e_std E)) master = Ok (digest, h13) /\
        verifyHandshakeSignature E sigType (match pub with Some p => p | None => PkOther end) digest sig = Ok true /\ fh_Write h13 m = Ok h15
    end).
  { destruct certs as [|c0 cr].
    - prim H15. subst. exists []. split; [now rewrite app_nil_r|auto].
    - apply bind_ok in H15 as ([mm raw] & sx & Hx & H15). apply readHandshake_ok in Hx as [Px Hx]. cbv beta in H15. cbn [fst snd] in H15.
      destruct mm as [| | | | | | | | | |alg sig| | ]; try now apply unexpected_ok in H15.
      destruct (pickSignatureType _ alg (ss_v hs)) as [sigType|] eqn:EPK; [|now apply fail_with_ok in H15].
      destruct (hashForClientCertificate (e_std E) h12 sigType (std_sha1 (e_std E)) master) as [[digest h13]| |] eqn:EH; [|now apply fail_with_ok in H15|now apply panic_ok in H15].
      apply bind_ok in H15 as (ok & sy & Hy & H15). prim Hy. apply of_res_ok in Hy. subst sy. cbv beta in H15.
      destruct ok; [|now apply fail_with_ok in H15]. prim H15. subst s15.
      exists [EvRecv raw]. split; [exact Hx|]. exists raw, alg, sig, sigType, digest, h13. repeat split; auto. }
  destruct X15 as (l_cv & L15 & X15). clear H15.
  set (l := [EvSend m_sh; EvSend m_cert] ++ l_st ++ [EvSend m_skx] ++ l_req ++ [EvSend m_serverHelloDone] ++ l_cc ++ [EvRecv raw2] ++ l_cv).
  exists l. split. { unfold l. rewrite L15, L11, H9, L8, H7, L5, H4, H3. rewrite <- !app_assoc. cbn [app]. reflexivity. }
  set (lk := [EvRecv (ss_chraw hs)] ++ [EvSend m_sh; EvSend m_cert] ++ l_st ++ [EvSend m_skx] ++ l_req ++ [EvSend m_serverHelloDone] ++ l_cc ++ [EvRecv raw2]).
  assert (ELK : EvRecv (ss_chraw hs) :: l = lk ++ l_cv). { unfold l, lk. rewrite <- !app_assoc. reflexivity. }
  (* the hash state after the ClientKeyExchange *)
  assert (HK : wire_ok (EvRecv (ss_chraw hs) :: l) -> exists d, gmh Hs d (transcript lk) h12 /\ (cf_auth (ss_cfg hs) <> NoClientCert -> d = false)).
  { intros WO.
    assert (BIN : forall m, In (EvSend m) lk -> bytes m).
    { intros m Hin. apply wire_ok_send. eapply wire_ok_in; [exact WO|]. rewrite ELK. apply in_or_app. auto. }
    assert (BIR : forall m, In (EvRecv m) lk -> bytes m).
    { intros m Hin. apply wire_ok_recv. eapply wire_ok_in; [exact WO|]. rewrite ELK. apply in_or_app. auto. }
    set (d := cf_auth (ss_cfg hs) =? NoClientCert). exists d. split; [|intros HN; unfold d; now apply Z.eqb_neq].
    assert (G1 : gmh Hs d [] h1).
    { unfold h1, d. destruct (cf_auth (ss_cfg hs) =? NoClientCert); [eapply gmh_discard|]; eapply gmh_new; eauto. }
    assert (G2 : gmh Hs d (transcript [EvRecv (ss_chraw hs)]) h2).
    { apply (gmh_recv d [] h1); auto. apply BIR. unfold lk. apply in_or_app. left. now left. }
    eapply (gmh_send d _ _ m_sh _ G2) in W3; [|apply BIN; unfold lk; cbn; tauto].
    eapply (gmh_send d _ _ m_cert _ W3) in W4; [|apply BIN; unfold lk; cbn; tauto].
    assert (G5 : gmh Hs d (transcript ((([EvRecv (ss_chraw hs)] ++ [EvSend m_sh]) ++ [EvSend m_cert]) ++ l_st)) h5).
    { destruct (ocsp_stapled hs).
      - destruct X5 as (m & -> & _ & W5). apply (gmh_send d _ h4); auto. apply BIN. unfold lk. cbn. tauto.
      - destruct X5 as [-> ->]. apply gmh_same; auto. }
    eapply (gmh_send d _ _ m_skx _ G5) in W7; [|apply BIN; unfold lk; rewrite !in_app_iff; cbn; tauto].
    assert (G8 : gmh Hs d (transcript ((((([EvRecv (ss_chraw hs)] ++ [EvSend m_sh]) ++ [EvSend m_cert]) ++ l_st) ++ [EvSend m_skx]) ++ l_req)) h8).
    { destruct (asks (ss_cfg hs)).
      - destruct X8 as (m & -> & _ & W8). apply (gmh_send d _ h7); auto. apply BIN. unfold lk. rewrite !in_app_iff. cbn. tauto.
      - destruct X8 as [-> ->]. apply gmh_same; auto. }
    eapply (gmh_send d _ _ m_serverHelloDone _ G8) in W9; [|apply bytesb_spec; reflexivity].
    assert (G11 : gmh Hs d (transcript ((((((([EvRecv (ss_chraw hs)] ++ [EvSend m_sh]) ++ [EvSend m_cert]) ++ l_st) ++ [EvSend m_skx]) ++ l_req) ++ [EvSend m_serverHelloDone]) ++ l_cc)) h11).
    { destruct (asks (ss_cfg hs)).
      - destruct X11 as (m & -> & _ & _ & _ & _ & W11). apply (gmh_recv d _ h9); auto. apply BIR. unfold lk. rewrite !in_app_iff. cbn. tauto.
      - destruct X11 as (-> & _ & _ & _ & ->). apply gmh_same; auto. }
    eapply (gmh_recv d _ _ raw2 _ G11) in H12; [|apply BIR; unfold lk; rewrite !in_app_iff; cbn; tauto].
    rewrite <- !app_assoc in H12. unfold lk. exact H12. }
  assert (XD : match certs with
    | [] => l_cv = []
    | c0 :: _ => exists m alg sig sigType digest, l_cv = [EvRecv m] /\ parse_msg (ss_v hs) m = Ok (MCertificateVerify alg sig) /\
        pickSignatureType (g_pub c0) alg (ss_v hs) = Some sigType /\ g_pub c0 <> PkOther /\
        verifyHandshakeSignature E sigType (g_pub c0) digest sig = Ok true /\
        (wire_ok (EvRecv (ss_chraw hs) :: l) -> digest = sm3 (transcript lk))
    end /\ (wire_ok (EvRecv (ss_chraw hs) :: l) -> gmh Hs true (transcript (EvRecv (ss_chraw hs) :: l)) (discardHandshakeBuffer h15))).
  { destruct certs as [|c0 crest].
    - destruct X15 as [-> ->]. split; [reflexivity|]. intros WO. destruct (HK WO) as (d & HK1 & _).
      rewrite ELK, app_nil_r. eapply gmh_discard; eauto.
    - destruct X15 as (m & alg & sig & sigType & digest & h13 & -> & Pcv & Pk & EH & EV & W13).
      assert (HPUB : pub = Some (g_pub c0) /\ g_pub c0 <> PkOther /\ asks (ss_cfg hs) = true).
      { destruct (asks (ss_cfg hs)); [|destruct X11 as (_ & _ & Ec & _); discriminate Ec]. destruct X11 as (? & _ & _ & _ & _ & [? ?] & _). auto. }
      destruct HPUB as (-> & NPO & HAsk).
      assert (HA : cf_auth (ss_cfg hs) <> NoClientCert).
      { unfold asks, RequestClientCert, NoClientCert in *. apply Z.leb_le in HAsk. lia. }
      assert (HD : wire_ok (EvRecv (ss_chraw hs) :: l) -> digest = sm3 (transcript lk) /\ gmh Hs false (transcript lk) h13).
      { intros WO. destruct (HK WO) as (d & HK1 & HD). rewrite (HD HA) in HK1. eapply (gmh_certverify (e_std E) Hs HL HG); [exact HK1| |exact EH].
        rewrite ELK in WO. apply wire_ok_app in WO as [[_ WO] _]. exact WO. }
      split.
      + exists m, alg, sig, sigType, digest. repeat split; auto. intros WO. apply HD. exact WO.
      + intros WO. destruct (HD WO) as [_ G]. rewrite ELK. eapply gmh_discard. eapply gmh_recv; [exact G| |exact W13].
        apply wire_ok_recv. eapply wire_ok_in; [exact WO|]. rewrite ELK. apply in_or_app. right. now left. }
  destruct XD as [XD XH].
  constructor; cbn [sf_sh sf_h sf_master sf_ders sf_certs sf_chains]; [reflexivity| |exact XH].
  exists m_sh, m_cert, l_st, skx, m_skx, l_req, l_cc, raw2, l_cv, ct, pms.
  split; [reflexivity|]. split; [exact Esh|]. split; [exact Ecert|].
  split. { destruct (ocsp_stapled hs); [destruct X5 as (m & ? & ? & _); eauto|tauto]. }
  split; [exact Eskx|]. split; [exact Emskx|].
  split. { destruct (asks (ss_cfg hs)); [destruct X8 as (m & ? & ? & _); eauto|tauto]. }
  split. { destruct (asks (ss_cfg hs)); [|tauto]. destruct X11 as (m & ? & ? & ? & ? & _). exists m. auto. }
  split; [exact P11|]. split; [exact Epms|]. split; [exact H14|]. split; [exact EK|]. exact XD.
Qed.
End ServerFull.

(** ** Finished messages, tickets, keys *)
Section Tail.
Context {T : Type} (E : env T) {C : chan} (Hs : hashes) (HL : std_impl (e_std E) Hs) (HG : good_hashes Hs).
Implicit Types s : hst C.
Lemma server_readFinished_inv vers npn h master s s' h' verify proto : server_readFinished C vers npn h master s = (HOk (h', verify, proto), s') ->
  exists l_np m_fin, snd s' = snd s ++ [EvRecvCCS] ++ l_np ++ [EvRecv m_fin] /\ parse_msg vers m_fin = Ok (MFinished verify) /\
    (if npn then exists m p, l_np = [EvRecv m] /\ parse_msg vers m = Ok (MNextProto p) /\ proto = Some p else l_np = [] /\ proto = None) /\
    (forall d l, gmh Hs d (transcript l) h -> wire_ok (l ++ [EvRecvCCS] ++ l_np ++ [EvRecv m_fin]) -> small master ->
       verify = client_finished Hs GMSSL master (transcript (l ++ [EvRecvCCS] ++ l_np)) /\
       gmh Hs d (transcript (l ++ [EvRecvCCS] ++ l_np ++ [EvRecv m_fin])) h').
Proof.
  unfold server_readFinished. intros H. bnd H. prim E0. rename E0 into L0.
  apply bind_ok in H as ([h1 proto1] & s1 & H1 & H). cbv beta iota in H.
  assert (X1 : exists l_np, snd s1 = snd s0 ++ l_np /\ (if npn then exists m p, l_np = [EvRecv m] /\ parse_msg vers m = Ok (MNextProto p) /\ proto1 = Some p /\ fh_Write h m = Ok h1
                                   else l_np = [] /\ proto1 = None /\ h1 = h)).
  { destruct npn.
    - apply bind_ok in H1 as ([mm raw] & sx & Hx & H1). apply readHandshake_ok in Hx as [Px Hx]. cbv beta in H1. cbn [fst snd] in H1.
      destruct mm as [| | | | | | | | | | |p| ]; try now apply unexpected_ok in H1.
      bnd H1. prim E0. prim H1. subst. injection H1 as -> ->. exists [EvRecv raw]. split; [exact Hx|]. exists raw, p. auto.
    - prim H1. subst. injection H1 as -> ->. exists []. split; [now rewrite app_nil_r|auto]. }
  destruct X1 as (l_np & L1 & X1). clear H1.
  apply bind_ok in H as ([mm raw] & s2 & H2 & H). apply readHandshake_ok in H2 as [P2 L2]. cbv beta in H. cbn [fst snd] in H.
  destruct mm as [| | | | | | | | | | | |vd]; try now apply unexpected_ok in H.
  apply bind_ok in H as ([v h2] & s3 & H3 & H). prim H3. apply of_res_ok in H3. subst s3. cbv beta iota in H.
  destruct (beqb v vd) eqn:EB; [|now apply fail_with_ok in H]. apply beqb_eq in EB. subst vd.
  bnd H. prim E0. prim H. subst. injection H as -> -> ->. rename E0 into W.
  exists l_np, raw. split; [rewrite L2, L1, L0, <- !app_assoc; reflexivity|]. split; [exact P2|].
  split. { destruct npn; [destruct X1 as (m & p & ? & ? & ? & _); eauto|tauto]. }
  intros d l G WO Sm.
  assert (WO2 : wire_ok (l ++ [EvRecvCCS] ++ l_np)) by (rewrite !app_assoc in WO; apply wire_ok_app in WO as [WO _]; rewrite <- app_assoc in WO; exact WO).
  assert (G1 : gmh Hs d (transcript (l ++ [EvRecvCCS] ++ l_np)) h1).
  { apply (gmh_same Hs d l [EvRecvCCS]) in G; [|reflexivity]. rewrite app_assoc. destruct npn.
    - destruct X1 as (m & p & -> & _ & _ & W1). eapply gmh_recv; [exact G| |exact W1].
      apply wire_ok_recv. eapply wire_ok_in; [exact WO2|]. rewrite !in_app_iff. cbn. tauto.
    - destruct X1 as (-> & _ & ->). apply gmh_same; auto. }
  eapply (gmh_client Hs HG) in H3; [|exact G1|exact (proj2 WO2)|exact Sm]. destruct H3 as [-> G2]. split; [reflexivity|].
  replace (l ++ [EvRecvCCS] ++ l_np ++ [EvRecv raw]) with ((l ++ [EvRecvCCS] ++ l_np) ++ [EvRecv raw]) by (now rewrite <- !app_assoc).
  eapply gmh_recv; [exact G2| |exact W]. apply wire_ok_recv. eapply wire_ok_in; [exact WO|]. rewrite !in_app_iff. cbn. tauto.
Qed.
Lemma sendSessionTicket_inv cfg rn on vers id master ders h s s' h' : sendSessionTicket E C cfg rn on vers id master ders h s = (HOk h', s') ->
  exists l_t, snd s' = snd s ++ l_t /\
    (if on then exists m t, l_t = [EvSend m] /\ m_newSessionTicket t = Ok m /\
        encryptTicket (e_aes E) (e_sha256 E) (r_iv rn) (cf_keys cfg) (mkSS vers id master ders false) = Ok t
     else l_t = []) /\
    (forall d l, gmh Hs d (transcript l) h -> wire_ok (l ++ l_t) -> gmh Hs d (transcript (l ++ l_t)) h').
Proof.
  unfold sendSessionTicket. intros H. destruct on; cbn [negb] in H.
  - bnd H. prim E0. apply of_res_ok in E0. subst s0. apply emit_ok in H as (m & Em & W & Lg). exists [EvSend m]. split; [exact Lg|]. split; [exists m, a; auto|].
    intros d l G WO. eapply gmh_send; [exact G| |exact W]. apply wire_ok_app in WO as [_ WO]. now apply wire_ok_send.
  - prim H. subst. exists []. split; [now rewrite app_nil_r|]. split; [reflexivity|]. intros d l G _. now apply gmh_same.
Qed.
Lemma server_sendFinished_inv h master s s' h' vd : server_sendFinished C h master s = (HOk (h', vd), s') ->
  exists m, snd s' = snd s ++ [EvSendCCS; EvSend m] /\ m_finished vd = Ok m /\
    (forall d l, gmh Hs d (transcript l) h -> wire_ok l -> small master -> vd = server_finished Hs GMSSL master (transcript l)).
Proof.
  unfold server_sendFinished. intros H. bnd H. prim E0.
  apply bind_ok in H as ([v h2] & s3 & H3 & H). prim H3. apply of_res_ok in H3. subst s3. cbv beta iota in H.
  bnd H. apply emit_ok in E1 as (m & Em & W & Lg). prim H. subst. injection H as -> ->. exists m.
  split; [rewrite Lg, E0, <- app_assoc; reflexivity|]. split; [exact Em|].
  intros d l G [_ WO] Sm. eapply (gmh_server Hs HG) in H3; [|exact G|exact WO|exact Sm]. tauto.
Qed.
Lemma server_keys_inv vers master cr sr s u s' : server_keys E C vers master cr sr s = (HOk u, s') ->
  exists k, snd s' = snd s ++ [EvKeys k] /\ gm_keys (e_std E) vers master cr sr = HOk k.
Proof. unfold server_keys. intros H. bnd H. prim E0. subst. prim H. eauto. Qed.

(** ** The whole full handshake *)
Record server_run (hs : shs (T := T)) (su : suite) (rn : rnds) (r : hresult T) (log : list event) (f : sfull (T := T)) (lf : list event) (k : keyblock)
    (l_np l_t : list event) (m_fin m_sfin : list Z) : Prop := mkSR {
  sr_log : log = [EvRecv (ss_chraw hs)] ++ lf ++ [EvKeys k; EvRecvCCS] ++ l_np ++ [EvRecv m_fin] ++ l_t ++ [EvSendCCS; EvSend m_sfin];
  sr_full : sfull_run E Hs hs su rn f lf;
  sr_keys : gm_keys (e_std E) (ss_v hs) (sf_master f) (ch_random (ss_ch hs)) (sh_random (sf_sh f)) = HOk k;
  sr_fin : parse_msg (ss_v hs) m_fin = Ok (MFinished (hr_clientFinished r));
  sr_np : if sh_npn (sf_sh f) then exists m p, l_np = [EvRecv m] /\ parse_msg (ss_v hs) m = Ok (MNextProto p) /\ hr_proto r = p else l_np = [] /\ hr_proto r = ss_proto hs;
  sr_t : if sh_ticketOn (sf_sh f) then exists m t, l_t = [EvSend m] /\ m_newSessionTicket t = Ok m /\
        encryptTicket (e_aes E) (e_sha256 E) (r_iv rn) (cf_keys (ss_cfg hs)) (mkSS (ss_v hs) (su_id su) (sf_master f) (sf_ders f) false) = Ok t else l_t = [];
  sr_val : wire_ok log -> small (sf_master f) ->
     hr_clientFinished r = client_finished Hs GMSSL (sf_master f) (transcript ([EvRecv (ss_chraw hs)] ++ lf ++ [EvKeys k; EvRecvCCS] ++ l_np)) /\
     m_finished (server_finished Hs GMSSL (sf_master f) (transcript ([EvRecv (ss_chraw hs)] ++ lf ++ [EvKeys k; EvRecvCCS] ++ l_np ++ [EvRecv m_fin] ++ l_t))) = Ok m_sfin;
  sr_sfin : exists vd, m_finished vd = Ok m_sfin;
  sr_res : hr_vers r = ss_v hs /\ hr_suite r = su_id su /\ hr_master r = sf_master f /\ hr_clientRandom r = ch_random (ss_ch hs) /\ hr_serverRandom r = sh_random (sf_sh f) /\
     hr_peer r = sf_certs f /\ hr_chains r = sf_chains f /\ hr_serverName r = ch_sni (ss_ch hs) }.
(** the server resumed *)
Definition server_resumed (hs : shs (T := T)) (r : hresult T) : Prop :=
  exists st su, checkForResumption E hs = Some (st, su) /\ hr_resumed r = true /\ hr_master r = ss_masterSecret st /\ hr_vers r = ss_v hs /\ hr_suite r = su_id su.

Lemma serverHandshake_inv cfg getcfg rn c r c' log : serverHandshakeGM E C cfg getcfg rn (c, []) = (HOk r, (c', log)) ->
  exists hs, (exists s0, server_hello (C := C) cfg getcfg rn (c, []) = (HOk hs, s0)) /\
   (server_resumed hs r \/
    (hr_resumed r = false /\ checkForResumption E hs = None /\
     exists su f lf k l_np l_t m_fin m_sfin,
       negotiate_suite gmCipherSuites (gm_suite_ok (ss_v hs)) (cf_prefer (ss_cfg hs)) (getCipherSuites (cf_suites (ss_cfg hs))) (ch_suites (ss_ch hs)) = Some su /\
       bad_fallback (ch_suites (ss_ch hs)) (ch_vers (ss_ch hs)) (maxVersion (cf_max (ss_cfg hs))) = false /\
       server_run hs su rn r log f lf k l_np l_t m_fin m_sfin)).
Proof.
  unfold serverHandshakeGM. intros H. apply bind_ok in H as (hs & s0 & H0 & H). cbv beta zeta in H.
  exists hs. split; [eauto|]. apply server_hello_inv in H0 as (random & L0 & _). cbn [snd app] in L0.
  destruct (checkForResumption E hs) as [[st su]|] eqn:ER.
  - left. apply bind_ok in H as ([[[sh h] certs] chains] & s1 & H1 & H). cbv beta iota zeta in H.
    bnd H. bnd H. apply bind_ok in H as ([h2 sfin] & s4 & H4 & H). cbv beta iota in H.
    apply bind_ok in H as ([[h3 v3] proto] & s5 & H5 & H). cbv beta iota in H.
    prim H. subst. exists st, su. cbn. auto 10.
  - right. apply bind_ok in H as (su & s1 & H1 & H). cbv beta in H.
    assert (X1 : negotiate_suite gmCipherSuites (gm_suite_ok (ss_v hs)) (cf_prefer (ss_cfg hs)) (getCipherSuites (cf_suites (ss_cfg hs))) (ch_suites (ss_ch hs)) = Some su /\
       bad_fallback (ch_suites (ss_ch hs)) (ch_vers (ss_ch hs)) (maxVersion (cf_max (ss_cfg hs))) = false /\ s1 = s0).
    { unfold server_suite in H1. destruct (negotiate_suite _ _ _ _ _) as [su'|]; [|now apply fail_with_ok in H1].
      destruct (bad_fallback _ _ _); [now apply fail_with_ok in H1|]. prim H1. subst. auto. }
    destruct X1 as (X1 & X2 & ->). clear H1.
    apply bind_ok in H as (f & s2 & H2 & H). cbv beta in H.
    apply (server_full_inv E Hs HL HG) in H2 as (lf & L2 & HF).
    apply bind_ok in H as (u3 & s3 & H3 & H). apply server_keys_inv in H3 as (k & L3 & EK). cbv beta in H.
    apply bind_ok in H as ([[h4 cfin] proto] & s4 & H4 & H). cbv beta iota in H.
    apply server_readFinished_inv in H4 as (l_np & m_fin & L4 & P4 & N4 & V4).
    apply bind_ok in H as (h5 & s5 & H5 & H). cbv beta in H. apply sendSessionTicket_inv in H5 as (l_t & L5 & T5 & V5).
    apply bind_ok in H as ([h6 sfin] & s6 & H6 & H). cbv beta in H. apply server_sendFinished_inv in H6 as (m_sfin & L6 & M6 & V6).
    prim H. subst s6 r. cbn [snd] in L6.
    split; [reflexivity|]. split; [reflexivity|]. exists su, f, lf, k, l_np, l_t, m_fin, m_sfin. split; [exact X1|]. split; [exact X2|].
    assert (EL : log = [EvRecv (ss_chraw hs)] ++ lf ++ [EvKeys k; EvRecvCCS] ++ l_np ++ [EvRecv m_fin] ++ l_t ++ [EvSendCCS; EvSend m_sfin]).
    { rewrite L6, L5, L4, L3, L2, L0, <- !app_assoc. reflexivity. }
    constructor; auto; cbn [hr_clientFinished hr_proto hr_vers hr_suite hr_master hr_clientRandom hr_serverRandom hr_peer hr_chains hr_serverName].
    + destruct (sh_npn (sf_sh f)).
      * destruct N4 as (m & p & ? & ? & ->). exists m, p. auto.
      * destruct N4 as [-> ->]. auto.
    + intros WO Sm.
      set (l1 := EvRecv (ss_chraw hs) :: lf).
      set (l2 := [EvRecvCCS] ++ l_np ++ [EvRecv m_fin]).
      assert (EL1 : log = ((l1 ++ [EvKeys k]) ++ l2) ++ l_t ++ [EvSendCCS; EvSend m_sfin]) by (rewrite EL; unfold l1, l2; rewrite <- !app_assoc; reflexivity).
      rewrite EL1 in WO.
      pose proof (wire_ok_app _ _ WO) as [W1 _]. pose proof (wire_ok_app _ _ W1) as [W2 _]. pose proof (wire_ok_app _ _ W2) as [W3 _].
      pose proof (fr_hash _ _ _ _ _ _ _ HF W3) as G1. apply (gmh_same Hs true l1 [EvKeys k]) in G1; [|reflexivity].
      destruct (V4 true (l1 ++ [EvKeys k]) G1 W1 Sm) as [-> G2].
      assert (W4 : wire_ok (((l1 ++ [EvKeys k]) ++ l2) ++ l_t)).
      { apply (fun H => proj1 (wire_ok_app _ [EvSendCCS; EvSend m_sfin] H)). rewrite <- (app_assoc ((l1 ++ [EvKeys k]) ++ l2)). exact WO. }
      pose proof (V5 true _ G2 W4) as G3. pose proof (V6 true _ G3 W4 Sm) as EQ.
      split; [unfold l1; rewrite <- !app_assoc; reflexivity|].
      rewrite EQ in M6. rewrite <- M6. apply f_equal, f_equal, f_equal. unfold l1, l2. rewrite <- !app_assoc. reflexivity.
    + eauto.
    + repeat split.
Qed.
End Tail.

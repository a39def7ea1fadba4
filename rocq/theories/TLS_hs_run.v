(** Forward runs of the handshake on a script of incoming messages: which inputs make a call complete.  The record layer is the simplest one: what
    arrives is a list fixed in advance, and every write succeeds. *)
From Verif Require Import GoBase GoLemmas BigBytes Asn1_model X509_spec SM2_model SM3_spec TLS_record_model TLS_prf_model TLS_prf_spec TLS_prf_proofs
  TLS_gmka_model TLS_ticket_model TLS_msg_model TLS_msg_proofs TLS_neg_model TLS_hs_model TLS_hs_proofs TLS_hs_bytes TLS_hs_server TLS_hs_client TLS_hs_spec.
From Verif Require X509_model.
Open Scope Z_scope.
#[local] Opaque sm3 fh_Write discardHandshakeBuffer clientSum serverSum PRF newFinishedHashGM m_clientHello m_serverHello m_certificate m_serverKeyExchange
  m_clientKeyExchange m_finished m_certificateRequestGM m_certificateVerify generateServerKeyExchange processClientKeyExchange processServerKeyExchange
  generateClientKeyExchange masterFromPreMasterSecret gm_keys parse_msg getCipherSuites.

Inductive item := IMsg (m : list Z) | ICCS.
Definition script : chan := mkChan (list item)
  (fun i => match i with IMsg m :: r => (HOk m, r) | _ => (HErr 0, i) end)
  (fun i => match i with ICCS :: r => (HOk tt, r) | _ => (HErr 0, i) end)
  (fun _ _ i => (HOk tt, i)) (fun _ i => i) (fun _ _ i => i) (fun _ _ _ i => i).
(** what the other end finds when it reads *)
Definition outbox (l : list event) : list item := flat_map (fun e => match e with EvSend m => [IMsg m] | EvSendCCS => [ICCS] | _ => [] end) l.

Notation MS := (M script).
Lemma bind_run {A B} (m : MS A) (k : A -> MS B) s a s1 : m s = (HOk a, s1) -> bind m k s = k a s1.
Proof. unfold bind. now intros ->. Qed.
Lemma lift_run {A} (r : hres A) a s : r = HOk a -> lift (C := script) r s = (HOk a, s). Proof. unfold lift. now intros ->. Qed.
Lemma res_run {A} (r : res A) a s : r = Ok a -> lift (C := script) (of_res r) s = (HOk a, s). Proof. now intros ->. Qed.
Lemma orfail_run {A} al (r : hres A) a s : r = HOk a -> orfail (C := script) al r s = (HOk a, s). Proof. now intros ->. Qed.
Lemma read_run v m msg i l : parse_msg v m = Ok msg -> readHandshake (C := script) v (IMsg m :: i, l) = (HOk (msg, m), (i, l ++ [EvRecv m])).
Proof. intros H. unfold readHandshake, bind, recv_raw. cbn [script cn_read fst snd]. rewrite H. reflexivity. Qed.
Lemma ccs_run i l : recv_ccs (C := script) (ICCS :: i, l) = (HOk tt, (i, l ++ [EvRecvCCS])). Proof. reflexivity. Qed.
Lemma sendccs_run i l : send_ccs (C := script) (i, l) = (HOk tt, (i, l ++ [EvSendCCS])). Proof. reflexivity. Qed.
Lemma send_run m i l : send (C := script) m (i, l) = (HOk tt, (i, l ++ [EvSend m])). Proof. reflexivity. Qed.
Lemma wr_run h m h' s : fh_Write h m = Ok h' -> wr (C := script) h m s = (HOk h', s). Proof. unfold wr. apply res_run. Qed.
Lemma emit_run h r m h' i l : r = Ok m -> fh_Write h m = Ok h' -> emit (C := script) h r (i, l) = (HOk h', (i, l ++ [EvSend m])).
Proof. intros -> H. unfold emit. rewrite (bind_run _ _ _ m (i, l)) by reflexivity. rewrite (bind_run _ _ _ h' (i, l)) by now apply wr_run. reflexivity. Qed.

(** parsing by type *)
Lemma p_ch v m x : mtype m = 1 -> u_clientHello ch_empty m = Ok x -> parse_msg v m = Ok (MClientHello x).
Proof. destruct m as [|t m]; [discriminate|]. cbn [mtype]. intros -> H. Transparent parse_msg. cbn [parse_msg Z.eqb Pos.eqb]. now rewrite H. Qed.
Lemma p_sh v m x : mtype m = 2 -> u_serverHello sh_empty m = Ok x -> parse_msg v m = Ok (MServerHello x).
Proof. destruct m as [|t m]; [discriminate|]. cbn [mtype]. intros -> H. cbn [parse_msg Z.eqb Pos.eqb]. now rewrite H. Qed.
Lemma p_cert v m x : mtype m = 11 -> u_certificate m = Ok x -> parse_msg v m = Ok (MCertificate x).
Proof. destruct m as [|t m]; [discriminate|]. cbn [mtype]. intros -> H. cbn [parse_msg Z.eqb Pos.eqb]. now rewrite H. Qed.
Lemma p_skx v m x : mtype m = 12 -> u_serverKeyExchange m = Ok x -> parse_msg v m = Ok (MServerKeyExchange x).
Proof. destruct m as [|t m]; [discriminate|]. cbn [mtype]. intros -> H. cbn [parse_msg Z.eqb Pos.eqb]. now rewrite H. Qed.
Lemma p_req v m x : mtype m = 13 -> u_certificateRequestGM m = Ok x -> parse_msg v m = Ok (MCertificateRequest x).
Proof. destruct m as [|t m]; [discriminate|]. cbn [mtype]. intros -> H. cbn [parse_msg Z.eqb Pos.eqb]. now rewrite H. Qed.
Lemma p_done v : parse_msg v m_serverHelloDone = Ok MServerHelloDone. Proof. reflexivity. Qed.
Lemma p_ckx v m x : mtype m = 16 -> u_clientKeyExchange m = Ok x -> parse_msg v m = Ok (MClientKeyExchange x).
Proof. destruct m as [|t m]; [discriminate|]. cbn [mtype]. intros -> H. cbn [parse_msg Z.eqb Pos.eqb]. now rewrite H. Qed.
Lemma p_cv v m a s : mtype m = 15 -> u_certificateVerify (VersionTLS12 <=? v) 0 m = Ok (a, s) -> parse_msg v m = Ok (MCertificateVerify a s).
Proof. destruct m as [|t m]; [discriminate|]. cbn [mtype]. intros -> H. cbn [parse_msg Z.eqb Pos.eqb]. now rewrite H. Qed.
Lemma p_fin v m x : mtype m = 20 -> u_finished m = Ok x -> parse_msg v m = Ok (MFinished x).
Proof. destruct m as [|t m]; [discriminate|]. cbn [mtype]. intros -> H. cbn [parse_msg Z.eqb Pos.eqb]. now rewrite H. Qed.
#[global] Opaque parse_msg.

Ltac run t := erewrite bind_run; [|t]; cbv beta iota.
Ltac ccn := rewrite ?concat_app; cbn [concat app]; repeat (rewrite ?app_nil_r, <- ?app_assoc; cbn [app concat]); reflexivity.
Section Run.
Context {T : Type} (E : env T) (Hs : hashes) (HL : std_impl (e_std E) Hs) (HG : good_hashes Hs).
Notation gmh := (gmh Hs).
Lemma gmh_fwd d t h p : gmh d t h -> bytes p -> exists h', fh_Write h p = Ok h' /\ gmh d (t ++ p) h'.
Proof. apply fh_Write_ok. Qed.

Lemma gmh_eq d t t' h : gmh d t h -> t = t' -> gmh d t' h. Proof. now intros H <-. Qed.
(** the client of a handshake, as the server sees it *)
Record cauth := mkCA { ca_ders : list (list Z); ca_certs : list (gcert T); ca_chains : list (list cert); ca_alg : Z; ca_sig : list Z; ca_type : Z; ca_pub : pubk T;
                       ca_mreq : list Z; ca_mcert : list Z; ca_mcv : list Z }.
(** what the server has to find when it asks for a certificate; [t]: the transcript before CertificateVerify *)
Definition server_takes (cfg : config T) (vers : Z) (t : list Z) (a : option cauth) : Prop :=
  match a with
  | None => cf_auth cfg = NoClientCert
  | Some a => RequestClientCert <= cf_auth cfg /\ m_certificateRequestGM [1; 64] (match cf_clientCAs cfg with Some p => X509_model.Subjects p | None => [] end) = Ok (ca_mreq a) /\
      parse_msg vers (ca_mcert a) = Ok (MCertificate (ca_ders a)) /\ ca_ders a <> [] /\ parse_all E (ca_ders a) = Some (ca_certs a) /\
      (exists c0 rest, ca_certs a = c0 :: rest /\ g_pub c0 = ca_pub a /\ ca_pub a <> PkOther /\
         if VerifyClientCertIfGiven <=? cf_auth cfg
         then exists roots, match cf_clientCAs cfg with Some p => Some p | None => e_sysroots E end = Some roots /\ x509_verify E (client_verify_opts cfg roots rest) c0 = Some (ca_chains a)
         else ca_chains a = []) /\
      cf_verifyPeer cfg = None /\ parse_msg vers (ca_mcv a) = Ok (MCertificateVerify (ca_alg a) (ca_sig a)) /\
      pickSignatureType (ca_pub a) (ca_alg a) vers = Some (ca_type a) /\ verifyHandshakeSignature E (ca_type a) (ca_pub a) (sm3 t) (ca_sig a) = Ok true /\
      bytes (ca_mreq a) /\ bytes (ca_mcert a) /\ bytes (ca_mcv a)
  end.
Definition a_req (a : option cauth) := match a with None => [] | Some a => [ca_mreq a] end.
Definition a_cert (a : option cauth) := match a with None => [] | Some a => [ca_mcert a] end.
Definition a_cv (a : option cauth) := match a with None => [] | Some a => [ca_mcv a] end.
Definition a_certs (a : option cauth) := match a with None => [] | Some a => ca_certs a end.

Lemma processCerts_run cfg vers t a i l : server_takes cfg vers t (Some a) ->
  processCertsFromClient E (C := script) cfg (ca_ders a) (i, l) = (HOk (Some (ca_pub a), ca_certs a, ca_chains a), (i, l)).
Proof.
  intros (_ & _ & _ & _ & HP & (c0 & rest & EC & EP & NP & HV) & VP & _). unfold processCertsFromClient. rewrite HP, EC, VP.
  run ltac:(instantiate (1 := (i, l)); instantiate (1 := ca_chains a)).
  - rewrite EP. destruct (ca_pub a); try reflexivity. congruence.
  - destruct (VerifyClientCertIfGiven <=? cf_auth cfg); [|now rewrite HV]. destruct HV as (roots & -> & HV). cbv zeta. unfold client_verify_opts in HV. rewrite HV. reflexivity.
Qed.

Lemma server_full_run (hs : shs (T := T)) su rn a sh m_sh m_cert key m_skx m_ckx ct pms master i l :
  su_id su = ECC -> ch_ocsp (ss_ch hs) = false ->
  sh = set_sh_suite (set_sh_ticketOn (set_sh_ocsp (ss_sh hs) false) (ch_ticketOn (ss_ch hs) && negb (cf_noTickets (ss_cfg hs)))) (su_id su) ->
  m_serverHello sh = Ok m_sh -> m_certificate (concat (map ce_chain (cf_certs (ss_cfg hs)))) = Ok m_cert ->
  generateServerKeyExchange (e_cv E) (r_sign rn) (ce_key (ss_c0 hs)) (ce_chain (ss_c1 hs)) (ch_random (ss_ch hs)) (sh_random sh) = Ok key -> m_serverKeyExchange key = Ok m_skx ->
  parse_msg (ss_v hs) m_ckx = Ok (MClientKeyExchange ct) -> processClientKeyExchange (e_cv E) (ce_key (ss_c1 hs)) ct = Ok pms ->
  masterFromPreMasterSecret (e_std E) (ss_v hs) false pms (ch_random (ss_ch hs)) (sh_random sh) = Ok master -> cf_keylog (ss_cfg hs) (ch_random (ss_ch hs)) master = None ->
  bytes (ss_chraw hs) -> bytes m_sh -> bytes m_cert -> bytes m_skx -> bytes m_ckx ->
  let pre := [ss_chraw hs; m_sh; m_cert; m_skx] ++ a_req a ++ [m_serverHelloDone] ++ a_cert a ++ [m_ckx] in
  server_takes (ss_cfg hs) (ss_v hs) (concat pre) a -> zlen (concat pre) < 2 ^ 59 ->
  exists h f, server_full E (C := script) hs su rn (map IMsg (a_cert a ++ [m_ckx] ++ a_cv a) ++ i, l) =
      (HOk f, (i, l ++ map EvSend ([m_sh; m_cert; m_skx] ++ a_req a ++ [m_serverHelloDone]) ++ map EvRecv (a_cert a ++ [m_ckx] ++ a_cv a))) /\
    sf_sh f = sh /\ sf_h f = h /\ sf_master f = master /\ gmh true (concat (pre ++ a_cv a)) h.
Proof.
  intros HS HO Esh M1 M2 M3 M4 P1 P2 P3 KL B0 B1 B2 B3 B4 pre HA HLn. unfold server_full. rewrite HO. cbn [andb]. rewrite <- Esh. cbv zeta.
  destruct (newFinishedHashGM_ok (e_std E) Hs HL HG) as (h0 & N0 & G0).
  run ltac:(apply res_run; exact N0).
  set (h1 := if cf_auth (ss_cfg hs) =? NoClientCert then discardHandshakeBuffer h0 else h0).
  set (d := match a with None => true | Some _ => false end).
  assert (G1 : gmh d [] h1).
  { unfold h1, d. destruct a as [a|]; cbn in HA; [destruct HA as [HA _]; destruct (Z.eqb_spec (cf_auth (ss_cfg hs)) NoClientCert) as [EN|_]; [exfalso; rewrite EN in HA; now apply HA|exact G0]|].
    rewrite HA. cbn. now apply gmh_discard with (d := false). }
  clearbody h1. clear G0 N0 h0.
  destruct (gmh_fwd _ _ _ _ G1 B0) as (h2 & W2 & G2). run ltac:(apply wr_run; exact W2).
  destruct (gmh_fwd _ _ _ _ G2 B1) as (h3 & W3 & G3). run ltac:(apply emit_run; [exact M1|exact W3]).
  destruct (gmh_fwd _ _ _ _ G3 B2) as (h4 & W4 & G4). run ltac:(apply emit_run; [exact M2|exact W4]).
  run ltac:(reflexivity).
  run ltac:(apply orfail_run; unfold ka_generateSKX; rewrite HS, Z.eqb_refl; rewrite M3; exact eq_refl).
  destruct (gmh_fwd _ _ _ _ G4 B3) as (h5 & W5 & G5). run ltac:(apply emit_run; [exact M4|exact W5]).
  assert (SR : exists h6, (forall i l, (if RequestClientCert <=? cf_auth (ss_cfg hs) then emit (C := script) h5 (m_certificateRequestGM [1; 64] (match cf_clientCAs (ss_cfg hs) with Some p => X509_model.Subjects p | None => [] end)) else ret h5) (i, l) =
             (HOk h6, (i, l ++ map EvSend (a_req a)))) /\ gmh d (concat ([ss_chraw hs; m_sh; m_cert; m_skx] ++ a_req a)) h6).
  { destruct a as [a|]; cbn in HA |- *.
    - destruct HA as (A1 & A2 & _ & _ & _ & _ & _ & _ & _ & _ & Br & _). destruct (gmh_fwd _ _ _ _ G5 Br) as (h6 & W6 & G6). exists h6. split.
      + intros i0 l0. destruct (Z.leb_spec RequestClientCert (cf_auth (ss_cfg hs))); [|lia]. now apply emit_run.
      + rewrite <- !app_assoc in G6. cbn [app] in G6. rewrite app_nil_r. exact G6.
    - exists h5. split; [intros; rewrite HA, app_nil_r; reflexivity|]. rewrite app_nil_r. rewrite <- !app_assoc in G5. exact G5. }
  destruct SR as (h6 & W6 & G6). run ltac:(apply W6). clear W6.
  assert (Bd : bytes m_serverHelloDone) by (apply bytesb_spec; reflexivity).
  destruct (gmh_fwd _ _ _ _ G6 Bd) as (h7 & W7 & G7). run ltac:(apply emit_run; [reflexivity|exact W7]).
  (* the client's flight *)
  rewrite <- !app_assoc. cbn [app].
  set (L1 := l ++ EvSend m_sh :: EvSend m_cert :: EvSend m_skx :: map EvSend (a_req a) ++ [EvSend m_serverHelloDone]).
  assert (SF : exists h8, forall (K : finishedHash * (hmsg * list Z) * list (list Z) * (option (pubk T) * list (gcert T) * list (list cert)) -> MS (sfull (T := T))),
     bind (readHandshake (C := script) (ss_v hs)) (fun mr => bind (if RequestClientCert <=? cf_auth (ss_cfg hs) then
           match fst mr with
           | MCertificate ders =>
               let! h := wr h7 (snd mr) in
               (if (zlen ders =? 0) && ((cf_auth (ss_cfg hs) =? RequireAnyClientCert) || (cf_auth (ss_cfg hs) =? RequireAndVerifyClientCert))
                then fail_with alertBadCertificate eNoClientCert
                else
                  let! p := processCertsFromClient E (ss_cfg hs) ders in
                  let! mr := readHandshake (ss_v hs) in
                  ret (h, mr, ders, p))
           | _ => unexpected
           end
         else ret (h7, mr, [], (None, [], []))) K) (map IMsg (a_cert a ++ [m_ckx] ++ a_cv a) ++ i, L1) =
     K (h8, (MClientKeyExchange ct, m_ckx), match a with None => [] | Some a => ca_ders a end, match a with None => (None, [], []) | Some a => (Some (ca_pub a), ca_certs a, ca_chains a) end)
       (map IMsg (a_cv a) ++ i, L1 ++ map EvRecv (a_cert a ++ [m_ckx])) /\ gmh d (concat ([ss_chraw hs; m_sh; m_cert; m_skx] ++ a_req a ++ [m_serverHelloDone] ++ a_cert a)) h8).
  { destruct a as [a|].
    - assert (HA' := HA). cbn in HA. destruct HA as (A1 & _ & A3 & A4 & _ & _ & _ & _ & _ & _ & _ & Bc & _). destruct (gmh_fwd _ _ _ _ G7 Bc) as (h8 & W8 & G8). exists h8. intros K. split.
      + cbn [a_cert a_cv app map]. run ltac:(apply read_run; exact A3). destruct (Z.leb_spec RequestClientCert (cf_auth (ss_cfg hs))); [|lia]. cbn [fst snd].
        run ltac:(run ltac:(apply wr_run; exact W8)).
        2: { destruct (Z.eqb_spec (zlen (ca_ders a)) 0) as [EZ|]; [destruct (ca_ders a) as [|d0 dr]; [congruence|rewrite zlen_cons in EZ; pose proof (zlen_nonneg dr); lia]|]. cbn [andb].
             run ltac:(eapply processCerts_run; exact HA'). run ltac:(apply read_run; exact P1). reflexivity. }
        rewrite <- app_assoc. reflexivity.
      + eapply gmh_eq; [exact G8|]. cbn [a_req a_cert]. ccn.
    - exists h7. intros K. split.
      + cbn [a_cert a_cv app map]. run ltac:(apply read_run; exact P1). cbn in HA. rewrite HA. cbn [Z.leb]. reflexivity.
      + eapply gmh_eq; [exact G7|]. cbn [a_req a_cert]. ccn. }
  destruct SF as (h8 & SF). assert (G8 := proj2 (SF (fun _ => throw 0))).
  destruct (gmh_fwd _ _ _ _ G8 B4) as (h9 & W9 & G9).
  assert (Epre : concat ([ss_chraw hs; m_sh; m_cert; m_skx] ++ a_req a ++ [m_serverHelloDone] ++ a_cert a) ++ m_ckx = concat pre).
  { unfold pre. ccn. }
  rewrite Epre in G9. clearbody pre.
  destruct a as [a|].
  - assert (HA' := HA). cbn in HA. destruct HA as (A1 & _ & A3 & A4 & A5 & (c0 & rest & A6 & A7 & _) & _ & A8 & A9 & A10 & _ & _ & Bv).
    change d with false in *.
    assert (HC : exists h10, hashForClientCertificate (e_std E) h9 (ca_type a) (std_sha1 (e_std E)) master = Ok (sm3 (concat pre), h10) /\ gmh false (concat pre) h10).
    { assert (X : exists v h10, hashForClientCertificate (e_std E) h9 (ca_type a) (std_sha1 (e_std E)) master = Ok (v, h10)).
      { pose proof HL as (_ & I2 & _).
        destruct (hashForClientCertificate_ok (e_std E) Hs HL HG GMSSL (concat pre) false false h9 (ca_type a) (std_sha1 (e_std E)) (SHA1 Hs) [] G9 eq_refl eq_refl I2 HLn) as (x & E' & H').
        { split; [constructor|reflexivity]. }
        exists (sm3 (concat pre)), x. rewrite <- E'. destruct G9 as [Ev Eb _ _ _ _]. unfold hashForClientCertificate. rewrite Ev, Eb. cbn. reflexivity. }
      destruct X as (v & h10 & X). destruct (gmh_certverify _ _ HL HG _ _ _ _ _ _ _ G9 HLn X) as [-> G10]. eauto. }
    destruct HC as (h10 & H10 & G10).
    destruct (gmh_fwd _ _ _ _ G10 Bv) as (h11 & W11 & G11).
    eexists _, _. split; [|split; [|split; [|split]]].
    + rewrite (proj1 (SF _)). cbn [fst snd]. cbv beta iota zeta.
      run ltac:(apply wr_run; exact W9). run ltac:(apply orfail_run; unfold ka_processCKX; rewrite HS, Z.eqb_refl; rewrite P2; exact eq_refl).
      run ltac:(apply res_run; exact P3). rewrite KL. rewrite A6.
      cbn [a_cv map app]. run ltac:(run ltac:(apply read_run; exact A8)).
      2: { cbn [fst snd]. rewrite A9, H10. run ltac:(apply res_run; exact A10). apply wr_run. exact W11. }
      unfold ret. apply f_equal. apply f_equal. unfold L1. cbn [a_cert a_req map app]. rewrite ?map_app. repeat (rewrite <- ?app_assoc; cbn [app map]). reflexivity.
    + reflexivity.
    + reflexivity.
    + reflexivity.
    + rewrite concat_app. cbn [a_cv concat]. rewrite app_nil_r. eapply gmh_discard. exact G11.
  - eexists _, _. split; [|split; [|split; [|split]]].
    + rewrite (proj1 (SF _)). cbn [fst snd]. cbv beta iota zeta.
      run ltac:(apply wr_run; exact W9). run ltac:(apply orfail_run; unfold ka_processCKX; rewrite HS, Z.eqb_refl; rewrite P2; exact eq_refl).
      run ltac:(apply res_run; exact P3). rewrite KL. run ltac:(reflexivity).
      unfold ret. apply f_equal. apply f_equal. unfold L1. cbn [a_cert a_req a_cv map app]. repeat (rewrite <- ?app_assoc; cbn [app map]). reflexivity.
    + reflexivity.
    + reflexivity.
    + reflexivity.
    + cbn [a_cv]. rewrite app_nil_r. eapply gmh_discard. exact G9.
Qed.

(** keys, Finished messages, no ticket *)
Lemma server_readFinished_run v h t d master vd m i l : gmh d t h -> zlen t < 2 ^ 59 -> small master -> vd = client_finished Hs GMSSL master t -> parse_msg v m = Ok (MFinished vd) -> bytes m ->
  exists h', server_readFinished script v false h master (ICCS :: IMsg m :: i, l) = (HOk (h', vd, None), (i, l ++ [EvRecvCCS; EvRecv m])) /\ gmh d (t ++ m) h'.
Proof.
  intros G Hl SM -> P B. unfold server_readFinished. run ltac:(apply ccs_run). run ltac:(reflexivity). run ltac:(apply read_run; exact P). cbn [fst snd].
  destruct (clientSum_ok Hs HG GMSSL t d false false h master G eq_refl Hl SM) as (h1 & E1 & G1). run ltac:(apply res_run; exact E1). rewrite beqb_refl.
  destruct (gmh_fwd _ _ _ _ G1 B) as (h2 & W2 & G2). run ltac:(apply wr_run; exact W2). exists h2. split; [|exact G2]. unfold ret. rewrite <- !app_assoc. reflexivity.
Qed.
Lemma server_sendFinished_run h t d master m i l : gmh d t h -> zlen t < 2 ^ 59 -> small master -> m_finished (server_finished Hs GMSSL master t) = Ok m -> bytes m ->
  exists h', server_sendFinished script h master (i, l) = (HOk (h', server_finished Hs GMSSL master t), (i, l ++ [EvSendCCS; EvSend m])) /\ gmh d (t ++ m) h'.
Proof.
  intros G Hl SM Mf B. unfold server_sendFinished. run ltac:(apply sendccs_run).
  destruct (serverSum_ok Hs HG GMSSL t d false false h master G eq_refl (fun _ => eq_refl) Hl SM) as (h1 & E1 & G1). run ltac:(apply res_run; exact E1). cbv iota.
  destruct (gmh_fwd _ _ _ _ G1 B) as (h2 & W2 & G2). run ltac:(apply emit_run; [exact Mf|exact W2]). exists h2. split; [|exact G2]. unfold ret. rewrite <- !app_assoc. reflexivity.
Qed.
Lemma client_sendFinished_run cfg sh h t d master m i l : sh_npn sh = false -> gmh d t h -> zlen t < 2 ^ 59 -> small master -> m_finished (client_finished Hs GMSSL master t) = Ok m -> bytes m ->
  exists h', client_sendFinished (T := T) script cfg sh h master (i, l) = (HOk (h', client_finished Hs GMSSL master t, None), (i, l ++ [EvSendCCS; EvSend m])) /\ gmh d (t ++ m) h'.
Proof.
  intros Np G Hl SM Mf B. unfold client_sendFinished. rewrite Np. run ltac:(apply sendccs_run). run ltac:(reflexivity).
  destruct (clientSum_ok Hs HG GMSSL t d false false h master G eq_refl Hl SM) as (h1 & E1 & G1). cbv iota. run ltac:(apply res_run; exact E1). cbv iota.
  destruct (gmh_fwd _ _ _ _ G1 B) as (h2 & W2 & G2). run ltac:(apply emit_run; [exact Mf|exact W2]). exists h2. split; [|exact G2]. unfold ret. rewrite <- !app_assoc. reflexivity.
Qed.
Lemma client_readFinished_run h t d master vd m i l : gmh d t h -> zlen t < 2 ^ 59 -> small master -> vd = server_finished Hs GMSSL master t -> parse_msg VersionGMSSL m = Ok (MFinished vd) -> bytes m ->
  exists h', client_readFinished script h master (ICCS :: IMsg m :: i, l) = (HOk (h', vd), (i, l ++ [EvRecvCCS; EvRecv m])).
Proof.
  intros G Hl SM -> P B. unfold client_readFinished. run ltac:(apply ccs_run). run ltac:(apply read_run; exact P). cbn [fst snd].
  destruct (serverSum_ok Hs HG GMSSL t d false false h master G eq_refl (fun _ => eq_refl) Hl SM) as (h1 & E1 & G1). run ltac:(apply res_run; exact E1). rewrite beqb_refl.
  destruct (gmh_fwd _ _ _ _ G1 B) as (h2 & W2 & G2). run ltac:(apply wr_run; exact W2). exists h2. unfold ret. rewrite <- !app_assoc. reflexivity.
Qed.

(** the client's certificates *)
Lemma check_certs_run cs ders j i l : Forall2 (fun d c => e_parse E d = Some c) ders cs -> Forall (fun c => exists p, g_pub c = PkSM2 p) cs ->
  (forall k c, nth_error cs k = Some c -> (k + j = 0)%nat -> ku_sign (keyUsage (g_cert c)) = true) ->
  (forall k c, nth_error cs k = Some c -> (k + j = 1)%nat -> ku_enc (keyUsage (g_cert c)) = true) ->
  check_certs E (C := script) j ders (i, l) = (HOk cs, (i, l)).
Proof.
  intros HF. revert j. induction HF as [|d c ders cs Hd HF IH]; intros j HP H0 H1; [reflexivity|]. cbn [check_certs]. rewrite Hd. inversion_clear HP as [|? ? [p Hp] HP']. rewrite Hp.
  cbv zeta.
  assert (X0 : (j =? 0)%nat && ((keyUsage (g_cert c) =? 0) || (Z.land (keyUsage (g_cert c)) (Z.lor KeyUsageDigitalSignature (Z.land (keyUsage (g_cert c)) KeyUsageContentCommitment)) =? 0)) = false).
  { destruct (Nat.eqb_spec j 0) as [->|]; [|reflexivity]. specialize (H0 0%nat c eq_refl eq_refl). unfold ku_sign in H0. apply negb_true_iff in H0. exact H0. }
  assert (X1 : (j =? 1)%nat && ((keyUsage (g_cert c) =? 0) || (Z.land (keyUsage (g_cert c)) (Z.lor (Z.lor KeyUsageDataEncipherment KeyUsageKeyEncipherment) KeyUsageKeyAgreement) =? 0)) = false).
  { destruct (Nat.eqb_spec j 1) as [->|]; [|reflexivity]. specialize (H1 0%nat c eq_refl eq_refl). unfold ku_enc in H1. apply negb_true_iff in H1. exact H1. }
  rewrite X0, X1. run ltac:(apply IH; [exact HP'|intros k xx Hk Ek; apply (H0 (Datatypes.S k) xx Hk); lia|intros k xx Hk Ek; apply (H1 (Datatypes.S k) xx Hk); lia]). reflexivity.
Qed.
(** every certificate verifies with the ones between the second and itself as intermediates *)
Fixpoint all_verify (cfg : config T) (j : nat) (inter : X509_model.pool) (cs : list (gcert T)) : Prop :=
  match cs with
  | [] => True
  | c :: cs => x509_verify E (X509_model.mkOpts (cf_serverName cfg) (cf_time cfg) (Some inter) (client_roots cfg) []) c <> None /\
      all_verify cfg (j + 1) (if (j <? 2)%nat then inter else X509_model.AddCert inter (g_cert c)) cs
  end.
Lemma verify_certs_run cfg cs : forall j inter ch i l, all_verify cfg j inter cs -> exists chains, verify_certs E (C := script) cfg (client_roots cfg) j inter cs ch (i, l) = (HOk chains, (i, l)).
Proof.
  induction cs as [|c cs IH]; intros j inter ch i l H; [eexists; reflexivity|]. cbn [verify_certs]. destruct H as [H1 H2].
  destruct (x509_verify E _ c) as [chains|]; [|congruence]. apply IH. exact H2.
Qed.

(** the server, as the client sees it; the certificate the client answers with *)
Record creply := mkRP { rp_cr : certRequest; rp_ce : certificate T; rp_key : privkey T; rp_sig : list Z }.
Definition client_gives (cfg : config T) (rn : rnds) (t : list Z) (a : option cauth) (rp : option creply) : Prop :=
  match a, rp with
  | None, None => True
  | Some a, Some rp => parse_msg VersionGMSSL (ca_mreq a) = Ok (MCertificateRequest (rp_cr rp)) /\
      (forall i l, client_getCertificate E script cfg (cr_cas (rp_cr rp)) (i, l) = (HOk (Some (rp_ce rp)), (i, l))) /\
      ce_chain (rp_ce rp) = ca_ders a /\ ca_ders a <> [] /\ m_certificate (ca_ders a) = Ok (ca_mcert a) /\ ce_key (rp_ce rp) = Some (rp_key rp) /\
      PrivSign (e_cv E) (r_sign rn) (rp_key rp) (sm3 t) = Ok (rp_sig rp) /\ m_certificateVerify false (0, rp_sig rp) = Ok (ca_mcv a) /\
      bytes (ca_mreq a) /\ bytes (ca_mcert a) /\ bytes (ca_mcv a)
  | _, _ => False
  end.
Lemma client_sum t d h : gmh d t h -> zlen t < 2 ^ 59 -> exists oc, o_sum (fh_client h) [] = Ok (sm3 t, oc) /\
   gmh d t (mkFH oc (fh_server h) (fh_clientMD5 h) (fh_serverMD5 h) (fh_buffer h) (fh_version h) (fh_prf h)).
Proof.
  intros G Hl. pose proof G as [Ev Eb Ep Bt Hc Hsv]. destruct Hc as [(m & Hm & Em) HM]. specialize (Em eq_refl). subst m.
  destruct (o_sum_rel _ _ _ [] Hm) as (o' & E' & R'); [lia|]. exists o'. split; [exact E'|]. eapply gmh_osum; eauto.
Qed.

Lemma client_full_run cfg rn hello sh su a rp h t d m_cert ders x0 x1 xs m_skx key p pms ct m_ckx master i l :
  su_id su = ECC -> gmh d t h ->
  parse_msg VersionGMSSL m_cert = Ok (MCertificate ders) -> Forall2 (fun d c => e_parse E d = Some c) ders (x0 :: x1 :: xs) -> Forall (fun c => exists p, g_pub c = PkSM2 p) (x0 :: x1 :: xs) ->
  ku_sign (keyUsage (g_cert x0)) = true -> ku_enc (keyUsage (g_cert x1)) = true ->
  (cf_skip cfg = false -> all_verify cfg 0 X509_model.NewCertPool (x0 :: x1 :: xs)) -> cf_verifyPeer cfg = None ->
  parse_msg VersionGMSSL m_skx = Ok (MServerKeyExchange key) -> g_pub x1 = PkSM2 p ->
  processServerKeyExchange (e_cv E) (ch_random hello) (sh_random sh) (raw (g_cert x1)) (match g_pub x0 with PkSM2 p => Some p | _ => None end) key = Ok tt ->
  generateClientKeyExchange (e_cv E) (e_fuel E) (r_pms rn) (r_enc rn) (ch_vers hello) p = Some (Ok (pms, ct)) -> m_clientKeyExchange ct = Ok m_ckx ->
  masterFromPreMasterSecret (e_std E) VersionGMSSL false pms (ch_random hello) (sh_random sh) = Ok master -> cf_keylog cfg (ch_random hello) master = None ->
  bytes m_cert -> bytes m_skx -> bytes m_ckx ->
  let pre := [m_cert; m_skx] ++ a_req a ++ [m_serverHelloDone] ++ a_cert a ++ [m_ckx] in
  client_gives cfg rn (t ++ concat pre) a rp -> zlen (t ++ concat pre) < 2 ^ 59 ->
  exists f, client_full E (C := script) cfg rn hello sh su h (map IMsg ([m_cert; m_skx] ++ a_req a ++ [m_serverHelloDone]) ++ i, l) =
      (HOk f, (i, l ++ map EvRecv ([m_cert; m_skx] ++ a_req a ++ [m_serverHelloDone]) ++ map EvSend (a_cert a ++ [m_ckx] ++ a_cv a))) /\
    cf_master f = master /\ cf_peer f = x0 :: x1 :: xs /\ gmh true (t ++ concat (pre ++ a_cv a)) (cf_h f).
Proof.
  intros HS G0 P1 HF HP K0 K1 HV VP P2 Px1 P3 GK M1 PM KL B1 B2 B3 pre HA HLn. unfold client_full. cbn [app map].
  run ltac:(apply read_run; exact P1). cbn [fst snd].
  assert (Ln : zlen ders = 2 + zlen xs). { assert (X : length ders = length (x0 :: x1 :: xs)) by (clear -HF; induction HF; cbn; auto). unfold zlen. rewrite X. cbn [length]. lia. }
  pose proof (zlen_nonneg xs). destruct (Z.eqb_spec (zlen ders) 0); [lia|]. destruct (Z.ltb_spec (zlen ders) 2); [lia|].
  destruct (gmh_fwd _ _ _ _ G0 B1) as (h1 & W1 & G1). run ltac:(apply wr_run; exact W1).
  run ltac:(apply check_certs_run; [exact HF|exact HP|intros [|k] c Hk Ek; [cbn in Hk; injection Hk as <-; exact K0|lia]|intros [|[|k]] c Hk Ek; [lia|cbn in Hk; injection Hk as <-; exact K1|lia]]).
  assert (X : forall i l, exists chains, (if cf_skip cfg then ret [] else verify_certs E cfg (client_roots cfg) 0 X509_model.NewCertPool (x0 :: x1 :: xs) []) (i, l) = (HOk chains, (i, l)) :> hres (list (list cert)) * hst script).
  { intros i0 l0. destruct (cf_skip cfg); [exists []; reflexivity|]. apply verify_certs_run. auto. }
  edestruct X as (chains & VX). run ltac:(exact VX). clear X VX. rewrite VP.
  run ltac:(apply read_run; exact P2). cbn [fst snd].
  destruct (gmh_fwd _ _ _ _ G1 B2) as (h2 & W2 & G2).
  assert (Bd : bytes m_serverHelloDone) by (apply bytesb_spec; reflexivity).
  destruct a as [a|], rp as [rp|]; try contradiction HA.
  - destruct HA as (A1 & A2 & A3 & A4 & A5 & A6 & A7 & A8 & Br & Bc & Bv). cbn [a_req a_cert a_cv map app].
    run ltac:(run ltac:(apply wr_run; exact W2); run ltac:(apply orfail_run; unfold ka_processSKX; rewrite HS, Z.eqb_refl, P3; cbn [rbind of_res]; exact eq_refl); run ltac:(apply read_run; exact A1); reflexivity).
    cbv iota beta. cbn [fst snd].
    destruct (gmh_fwd _ _ _ _ G2 Br) as (h3 & W3 & G3).
    run ltac:(run ltac:(apply wr_run; exact W3); run ltac:(apply A2); run ltac:(apply read_run; apply p_done); reflexivity).
    cbv iota beta. cbn [fst snd].
    destruct (gmh_fwd _ _ _ _ G3 Bd) as (h4 & W4 & G4). run ltac:(apply wr_run; exact W4).
    destruct (gmh_fwd _ _ _ _ G4 Bc) as (h5 & W5 & G5). run ltac:(apply emit_run; [rewrite A3; exact A5|exact W5]).
    run ltac:(apply orfail_run; unfold ka_generateCKX; rewrite HS, Z.eqb_refl, Px1, GK; exact eq_refl). cbv iota.
    destruct (gmh_fwd _ _ _ _ G5 B3) as (h6 & W6 & G6). run ltac:(apply emit_run; [exact M1|exact W6]).
    assert (Et : ((((((t ++ m_cert) ++ m_skx) ++ ca_mreq a) ++ m_serverHelloDone) ++ ca_mcert a) ++ m_ckx) = t ++ concat pre) by (unfold pre; cbn [a_req a_cert]; ccn).
    rewrite Et in G6. destruct (client_sum _ _ _ G6 HLn) as (oc & E7 & G7).
    destruct (gmh_fwd _ _ _ _ G7 Bv) as (h8 & W8 & G8).
    destruct (ce_chain (rp_ce rp)) as [|q qs] eqn:Eq; [congruence|]. rewrite A6.
    run ltac:(run ltac:(apply res_run; exact E7); cbv iota; run ltac:(apply orfail_run; rewrite A7; exact eq_refl); apply emit_run; [exact A8|exact W8]).
    run ltac:(apply res_run; exact PM). rewrite KL. eexists. split; [|split; [|split]].
    + unfold ret. apply f_equal. apply f_equal. repeat (rewrite <- ?app_assoc; cbn [app map]). reflexivity.
    + reflexivity.
    + reflexivity.
    + cbn [cf_h]. eapply gmh_discard. eapply gmh_eq; [exact G8|]. cbn [a_cv]. rewrite concat_app. ccn.
  - cbn [a_req a_cert a_cv map app].
    run ltac:(run ltac:(apply wr_run; exact W2); run ltac:(apply orfail_run; unfold ka_processSKX; rewrite HS, Z.eqb_refl, P3; cbn [rbind of_res]; exact eq_refl); run ltac:(apply read_run; apply p_done); reflexivity).
    cbv iota beta. cbn [fst snd]. run ltac:(reflexivity). cbv iota beta. cbn [fst snd].
    destruct (gmh_fwd _ _ _ _ G2 Bd) as (h4 & W4 & G4). run ltac:(apply wr_run; exact W4). run ltac:(reflexivity).
    run ltac:(apply orfail_run; unfold ka_generateCKX; rewrite HS, Z.eqb_refl, Px1, GK; exact eq_refl). cbv iota.
    destruct (gmh_fwd _ _ _ _ G4 B3) as (h6 & W6 & G6). run ltac:(apply emit_run; [exact M1|exact W6]). run ltac:(reflexivity).
    run ltac:(apply res_run; exact PM). rewrite KL. eexists. split; [|split; [|split]].
    + unfold ret. apply f_equal. apply f_equal. repeat (rewrite <- ?app_assoc; cbn [app map]). reflexivity.
    + reflexivity.
    + reflexivity.
    + cbn [cf_h]. eapply gmh_discard. eapply gmh_eq; [exact G6|]. unfold pre. cbn [a_cv a_req a_cert]. ccn.
Qed.

(** ** Whole handshakes *)
(** the ClientHello of a client without session cache, and the ServerHello that answers it *)
Definition honest_ch (cr : list Z) (suites : list Z) : clientHello := mkCH VersionGMSSL cr [] suites [0] false [] false false [] [] false [] [] [] false [].
Definition honest_sh (sr : list Z) : serverHello := mkSH VersionGMSSL sr [] ECC 0 false [] false [] false [] false [].

Lemma no_ticket_no_resumption (hs : shs (T := T)) : ch_ticket (ss_ch hs) = [] -> checkForResumption E hs = None.
Proof. intros H. unfold checkForResumption. destruct (cf_noTickets _); [reflexivity|]. rewrite H. reflexivity. Qed.

Lemma server_hello_run (cfg : config T) rn cr suites sr chraw c0 c1 more i l :
  parse_msg 0 chraw = Ok (MClientHello (honest_ch cr suites)) -> mutualVersion (cf_min cfg) (cf_max cfg) VersionGMSSL = Some VersionGMSSL -> r_hello rn = Some sr ->
  cf_certs cfg = c0 :: c1 :: more ->
  server_hello (C := script) cfg None rn (IMsg chraw :: i, l) =
    (HOk (mkShs cfg VersionGMSSL (honest_ch cr suites) chraw (mkSH VersionGMSSL sr [] 0 0 false [] false [] false [] false []) [] c0 c1), (i, l ++ [EvRecv chraw])).
Proof.
  intros Pch MV RH CE. unfold server_hello. run ltac:(apply read_run; exact Pch). run ltac:(reflexivity).
  unfold honest_ch; cbn [ch_vers]. rewrite MV. run ltac:(reflexivity). cbn [ch_comp existsb Z.eqb orb negb]. rewrite RH. cbn [ch_reneg ch_alpn ch_npn ch_scts ch_renegOn andb].
  change (0 <? zlen (@nil Z)) with false. change (0 <? zlen (@nil (list Z))) with false. cbv iota. run ltac:(reflexivity). cbn [andb negb]. rewrite CE. reflexivity.
Qed.
Lemma server_run (cfg : config T) rn cr suites sr chraw c0 c1 more su a m_sh m_cert key m_skx m_ckx ct pms master kb m_cfin m_sfin i :
  parse_msg 0 chraw = Ok (MClientHello (honest_ch cr suites)) -> mutualVersion (cf_min cfg) (cf_max cfg) VersionGMSSL = Some VersionGMSSL -> r_hello rn = Some sr ->
  cf_certs cfg = c0 :: c1 :: more ->
  negotiate_suite gmCipherSuites (gm_suite_ok VersionGMSSL) (cf_prefer cfg) (getCipherSuites (cf_suites cfg)) suites = Some su -> su_id su = ECC ->
  bad_fallback suites VersionGMSSL (maxVersion (cf_max cfg)) = false ->
  m_serverHello (honest_sh sr) = Ok m_sh -> m_certificate (concat (map ce_chain (cf_certs cfg))) = Ok m_cert ->
  generateServerKeyExchange (e_cv E) (r_sign rn) (ce_key c0) (ce_chain c1) cr sr = Ok key -> m_serverKeyExchange key = Ok m_skx ->
  parse_msg VersionGMSSL m_ckx = Ok (MClientKeyExchange ct) -> processClientKeyExchange (e_cv E) (ce_key c1) ct = Ok pms ->
  masterFromPreMasterSecret (e_std E) VersionGMSSL false pms cr sr = Ok master -> cf_keylog cfg cr master = None -> small master ->
  gm_keys (e_std E) VersionGMSSL master cr sr = HOk kb ->
  bytes chraw -> bytes m_sh -> bytes m_cert -> bytes m_skx -> bytes m_ckx ->
  let pre := [chraw; m_sh; m_cert; m_skx] ++ a_req a ++ [m_serverHelloDone] ++ a_cert a ++ [m_ckx] in
  server_takes cfg VersionGMSSL (concat pre) a -> zlen (concat (pre ++ a_cv a) ++ m_cfin) < 2 ^ 59 ->
  parse_msg VersionGMSSL m_cfin = Ok (MFinished (client_finished Hs GMSSL master (concat (pre ++ a_cv a)))) -> bytes m_cfin ->
  m_finished (server_finished Hs GMSSL master (concat (pre ++ a_cv a) ++ m_cfin)) = Ok m_sfin -> bytes m_sfin ->
  exists r, serverHandshakeGM E script cfg None rn (map IMsg (chraw :: a_cert a ++ [m_ckx] ++ a_cv a) ++ ICCS :: IMsg m_cfin :: i, []) =
      (HOk r, (i, EvRecv chraw :: map EvSend ([m_sh; m_cert; m_skx] ++ a_req a ++ [m_serverHelloDone]) ++ map EvRecv (a_cert a ++ [m_ckx] ++ a_cv a) ++
                  [EvKeys kb; EvRecvCCS; EvRecv m_cfin; EvSendCCS; EvSend m_sfin])) /\
    hr_resumed r = false /\ hr_master r = master /\ hr_vers r = VersionGMSSL /\ hr_suite r = ECC /\ hr_clientRandom r = cr /\ hr_serverRandom r = sr.
Proof.
  intros Pch MV RH CE NS HS NF M1 M2 M3 M4 P1 P2 P3 KL SM GK B0 B1 B2 B3 B4 pre HA HLn Pf Bf Mf Bs. unfold serverHandshakeGM.
  set (hs := mkShs cfg VersionGMSSL (honest_ch cr suites) chraw (mkSH VersionGMSSL sr [] 0 0 false [] false [] false [] false []) [] c0 c1).
  cbn [map app].
  run ltac:(eapply server_hello_run; eassumption). fold hs.
  rewrite no_ticket_no_resumption by reflexivity.
  run ltac:(unfold server_suite; cbn [hs ss_v ss_cfg ss_ch honest_ch ch_suites ch_vers]; rewrite NS, NF; reflexivity).
  destruct (server_full_run hs su rn a (honest_sh sr) m_sh m_cert key m_skx m_ckx ct pms master (ICCS :: IMsg m_cfin :: i) [EvRecv chraw]) as (h & f & RF & F1 & F2 & F3 & G); try assumption; try reflexivity.
  { cbn. rewrite HS. reflexivity. }
  { cbn [hs ss_chraw]. change (zlen (concat pre) < 2 ^ 59). rewrite concat_app, !zlen_app in HLn. pose proof (zlen_nonneg (concat (a_cv a))). pose proof (zlen_nonneg m_cfin). lia. }
  run ltac:(exact RF). cbn [hs ss_ch honest_ch ch_random ss_v ss_cfg]. rewrite F1, F2, F3. cbn [honest_sh sh_random sh_npn sh_ticketOn].
  run ltac:(unfold server_keys; rewrite (bind_run _ _ _ kb _ (lift_run _ _ _ GK)); reflexivity).
  assert (LN : zlen (concat (pre ++ a_cv a)) < 2 ^ 59) by (rewrite zlen_app in HLn; pose proof (zlen_nonneg m_cfin); lia).
  edestruct server_readFinished_run as (h1 & R1 & G1); [exact G|exact LN|exact SM|reflexivity|exact Pf|exact Bf|].
  run ltac:(apply R1). unfold sendSessionTicket. cbn [negb]. run ltac:(reflexivity).
  edestruct server_sendFinished_run as (h2 & R2 & G2); [exact G1|exact HLn|exact SM|exact Mf|exact Bs|].
  run ltac:(apply R2). eexists. split.
  { unfold ret. apply f_equal. apply f_equal. cbn [fst snd]. repeat (rewrite <- ?app_assoc; cbn [app map]). reflexivity. }
  cbn. repeat split; try reflexivity; assumption.
Qed.

Lemma client_run_full (cfg : config T) rn cr suites sr chraw su a rp m_sh m_cert ders x0 x1 xs key p m_skx ct pms m_ckx master kb m_cfin m_sfin i :
  makeClientHelloGM cfg rn = Ok (honest_ch cr suites) -> m_clientHello (honest_ch cr suites) = Ok chraw ->
  parse_msg VersionGMSSL m_sh = Ok (MServerHello (honest_sh sr)) -> mutualCipherSuiteGM suites ECC = Some su -> su_id su = ECC ->
  parse_msg VersionGMSSL m_cert = Ok (MCertificate ders) -> Forall2 (fun d c => e_parse E d = Some c) ders (x0 :: x1 :: xs) -> Forall (fun c => exists p, g_pub c = PkSM2 p) (x0 :: x1 :: xs) ->
  ku_sign (keyUsage (g_cert x0)) = true -> ku_enc (keyUsage (g_cert x1)) = true ->
  (cf_skip cfg = false -> all_verify cfg 0 X509_model.NewCertPool (x0 :: x1 :: xs)) -> cf_verifyPeer cfg = None ->
  parse_msg VersionGMSSL m_skx = Ok (MServerKeyExchange key) -> g_pub x1 = PkSM2 p ->
  processServerKeyExchange (e_cv E) cr sr (raw (g_cert x1)) (match g_pub x0 with PkSM2 p => Some p | _ => None end) key = Ok tt ->
  generateClientKeyExchange (e_cv E) (e_fuel E) (r_pms rn) (r_enc rn) VersionGMSSL p = Some (Ok (pms, ct)) -> m_clientKeyExchange ct = Ok m_ckx ->
  masterFromPreMasterSecret (e_std E) VersionGMSSL false pms cr sr = Ok master -> cf_keylog cfg cr master = None -> small master ->
  gm_keys (e_std E) VersionGMSSL master cr sr = HOk kb ->
  bytes chraw -> bytes m_sh -> bytes m_cert -> bytes m_skx -> bytes m_ckx ->
  let pre := [chraw; m_sh; m_cert; m_skx] ++ a_req a ++ [m_serverHelloDone] ++ a_cert a ++ [m_ckx] in
  client_gives cfg rn (concat pre) a rp -> zlen (concat (pre ++ a_cv a) ++ m_cfin) < 2 ^ 59 ->
  m_finished (client_finished Hs GMSSL master (concat (pre ++ a_cv a))) = Ok m_cfin -> bytes m_cfin ->
  parse_msg VersionGMSSL m_sfin = Ok (MFinished (server_finished Hs GMSSL master (concat (pre ++ a_cv a) ++ m_cfin))) -> bytes m_sfin ->
  exists r, clientHandshakeGM E script cfg None rn (map IMsg ([m_sh; m_cert; m_skx] ++ a_req a ++ [m_serverHelloDone]) ++ ICCS :: IMsg m_sfin :: i, []) =
      (HOk (r, None), (i, EvSend chraw :: map EvRecv ([m_sh; m_cert; m_skx] ++ a_req a ++ [m_serverHelloDone]) ++ map EvSend (a_cert a ++ [m_ckx] ++ a_cv a) ++
                  [EvKeys kb; EvSendCCS; EvSend m_cfin; EvRecvCCS; EvRecv m_sfin])) /\
    hr_resumed r = false /\ hr_master r = master /\ hr_vers r = VersionGMSSL /\ hr_suite r = ECC /\ hr_clientRandom r = cr /\ hr_serverRandom r = sr /\ hr_peer r = x0 :: x1 :: xs.
Proof.
  intros MK M0 Psh MS HS P1 HF HP K0 K1 HV VP P2 Px1 P3 GKx M1 PM KL SM GK B0 B1 B2 B3 B4 pre HA HLn Mf Bf Pf Bs. unfold clientHandshakeGM.
  run ltac:(reflexivity). run ltac:(apply res_run; exact MK). run ltac:(apply res_run; reflexivity).
  run ltac:(apply res_run; exact M0). run ltac:(apply send_run). cbn [map app].
  run ltac:(apply read_run; exact Psh). cbn [fst snd]. cbn [honest_sh sh_vers sh_suite honest_ch ch_suites]. rewrite Z.eqb_refl. cbn [negb]. rewrite MS.
  run ltac:(unfold processServerHello; cbn; reflexivity).
  destruct (newFinishedHashGM_ok (e_std E) Hs HL HG) as (h0 & N0 & G0). run ltac:(apply res_run; exact N0). cbn [orb].
  match goal with |- context [if ?b then discardHandshakeBuffer h0 else h0] => set (h1 := if b then discardHandshakeBuffer h0 else h0); assert (G1 : exists d, gmh d [] h1) end.
  { unfold h1. match goal with |- context [if ?b then _ else _] => destruct b end; [|eauto]. exists true. now apply gmh_discard with (d := false). }
  clearbody h1. destruct G1 as [d G1].
  destruct (gmh_fwd _ _ _ _ G1 B0) as (h2 & W2 & G2). run ltac:(apply wr_run; exact W2).
  destruct (gmh_fwd _ _ _ _ G2 B1) as (h3 & W3 & G3). run ltac:(apply wr_run; exact W3).
  assert (Et : forall z, (([] ++ chraw) ++ m_sh) ++ concat ([m_cert; m_skx] ++ z) = concat ([chraw; m_sh; m_cert; m_skx] ++ z)) by (intros z; ccn).
  assert (Ea : zlen (concat pre) < 2 ^ 59). { rewrite concat_app, !zlen_app in HLn. pose proof (zlen_nonneg (concat (a_cv a))). pose proof (zlen_nonneg m_cfin). lia. }
  edestruct (client_full_run cfg rn (honest_ch cr suites) (honest_sh sr) su a rp h3 (([] ++ chraw) ++ m_sh) d m_cert ders x0 x1 xs m_skx key p pms ct m_ckx master (ICCS :: IMsg m_sfin :: i) ([] ++ [EvSend chraw] ++ [EvRecv m_sh])) as (f & RF & F1 & F2 & G); try eassumption.
  { rewrite Et. exact HA. } { rewrite Et. exact Ea. }
  cbn [map app] in RF. run ltac:(exact RF). rewrite F1. assert (G' : gmh true (concat (pre ++ a_cv a)) (cf_h f)) by (eapply gmh_eq; [exact G|]; unfold pre; ccn). clear G. rename G' into G.
  cbn [honest_sh sh_random sh_npn sh_ticketOn honest_ch ch_random].
  run ltac:(unfold client_keys; rewrite (bind_run _ _ _ kb _ (lift_run _ _ _ GK)); reflexivity).
  assert (LN : zlen (concat (pre ++ a_cv a)) < 2 ^ 59) by (rewrite zlen_app in HLn; pose proof (zlen_nonneg m_cfin); lia).
  edestruct (client_sendFinished_run cfg (honest_sh sr)) as (h4 & R4 & G4); [reflexivity|exact G|exact LN|exact SM|exact Mf|exact Bf|].
  run ltac:(apply R4). unfold readSessionTicket. cbn [sh_ticketOn negb]. run ltac:(reflexivity).
  edestruct client_readFinished_run as (h5 & R5); [exact G4|exact HLn|exact SM|reflexivity|exact Pf|exact Bs|].
  run ltac:(apply R5). eexists. split.
  { unfold ret. apply f_equal. apply f_equal. cbn [fst snd]. repeat (rewrite <- ?app_assoc; cbn [app map]). reflexivity. }
  cbn. repeat split; try reflexivity; assumption.
Qed.
End Run.

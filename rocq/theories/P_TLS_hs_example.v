(** A concrete run: a client and a server with SM2 keys complete the handshake.  It meets the hypotheses of C83-C91. *)
From Verif Require Import GoBase GoLemmas BigBytes X509_spec Prime_cert SM2_curve_spec SM2_group SM2_jac SM2_spec SM2_model SM2_proofs SM3_spec TLS_record_model TLS_prf_model TLS_prf_spec TLS_prf_proofs
  TLS_gmka_model TLS_ticket_model TLS_msg_model TLS_neg_model TLS_hs_model TLS_hs_proofs TLS_hs_spec TLS_hs_run P_TLS_hs_server P_TLS_hs_client P_TLS_hs_agree P_TLS_hs_run.
From Verif Require X509_model P_SM2 P_TLS_msg P_TLS_gmka P_TLS_prf.
Open Scope Z_scope.

Definition xHs : hashes := mkHashes (fun m => be_bytes 16 (be_val m)) (fun m => be_bytes 20 (be_val m)) (fun m => sm3 m) (fun m => be_bytes 48 (be_val m)).
Definition xL : stdlib := mkStd (P_TLS_prf.listI (MD5 xHs) 64) (P_TLS_prf.listI (SHA1 xHs) 64) (P_TLS_prf.listI (SHA256 xHs) 64) (P_TLS_prf.listI (SHA384 xHs) 128).
(** key pair d = 1, three certificates with this key: signing, encryption, client; issued by a root of the same key *)
Definition xpub : pubkey unit := mkPub sm2_gx sm2_gy None.
Definition xkey : privkey unit := mkPriv xpub 1 None.
Definition xcert (der : list Z) (usage : Z) (ca : bool) : gcert unit :=
  mkG (mkCert der [77; last der 0] [9] [7] [] [] 3 0 100 0 [] [] ca ca (-1) usage true [0] 0 true [[97; 46; 98]] [] []) (PkSM2 xpub) true.
Definition xroot : gcert unit := mkG (mkCert [48; 9] [9] [9] [7] [] [] 3 0 100 0 [] [] true true (-1) 0 true [] 0 false [] [] []) (PkSM2 xpub) true.
Definition xparse (der : list Z) : option (gcert unit) :=
  match der with [48; 1] => Some (xcert der 1 false) | [48; 2] => Some (xcert der 4 false) | [48; 3] => Some (xcert der 1 false) | _ => None end.
Definition xE : env unit := mkEnv cv_std xL (fun _ _ => []) sm3 xparse (fun _ _ => true) [] (fun _ _ => true) None (fun _ _ _ _ => false) (fun _ => []) (fun _ => false) (fun _ => HErr 0) 1.
Definition xrn (b : Z) : rnds := mkRnd (Some (repeat b 32)) (Some []) None (Some (repeat b 46)) (Some []) None.
Definition xpool : X509_model.pool := X509_model.AddCert X509_model.NewCertPool (g_cert xroot).
Definition xce (der : list Z) : certificate unit := mkCE [der] (Some xkey) None [] [].
Definition xscfg (auth : Z) : config unit := mkCfg 0 0 None false [] [xce [48; 1]; xce [48; 2]] auth (Some xpool) None [] false 50 false [] None None (fun _ _ => None).
Definition xccfg : config unit := mkCfg 0 0 None false [] [xce [48; 3]] 0 None (Some xpool) [97; 46; 98] false 50 false [] None None (fun _ _ => None).
Definition xx0 := xcert [48; 1] 1 false. Definition xx1 := xcert [48; 2] 4 false. Definition xy0 := xcert [48; 3] 1 false.

Lemma xworld : world_ok xE xHs.
Proof.
  split; [|split; [|exact cv_std_mult_range]].
  - cbn [e_std xE]. unfold xL. split; [apply P_TLS_prf.listI_ok|]; split; [apply P_TLS_prf.listI_ok|]; split; [apply P_TLS_prf.listI_ok|]; split; [apply P_TLS_prf.listI_ok|]; repeat split.
  - split; [|split; [|split]]; intros m Hm; cbn [xHs MD5 SHA1 SHA256 SHA384]; (split; [apply be_bytes_bytes || apply sm3_good, Hm|apply be_bytes_length || apply sm3_good, Hm]).
Qed.
Lemma xserver auth : server_ready xE (xscfg auth) (xrn 7) (repeat 7 32) [] (xce [48; 1]) (xce [48; 2]) xkey xkey [48; 2].
Proof.
  assert (KO : key_ok xkey) by apply P_SM2.C13_hyps.
  constructor.
  - exists []. reflexivity.
  - exists [48; 1]. reflexivity.
  - exists []. reflexivity.
  - split; [reflexivity|]. split; [exact KO|]. left. reflexivity.
  - split; [reflexivity|]. destruct KO as (K1 & K2 & _). split; [lia|]. split; [exact K2|]. left. reflexivity.
  - reflexivity.
  - split; [reflexivity|]. split; [apply bytesb_spec; reflexivity|reflexivity].
  - reflexivity.
  - split; [|reflexivity]. change (sent_certs (xscfg auth)) with [[48; 1]; [48; 2]]. apply Forall_cons; [|apply Forall_cons; [|apply Forall_nil]]; (split; [apply bytesb_spec; reflexivity|split; [discriminate || reflexivity|reflexivity]]).
  - reflexivity.
Qed.
Lemma xk : k_of_bytes [] = 1.
Proof. unfold k_of_bytes. change (be_val []) with 0. rewrite Z.mod_0_l by (pose proof n_gt3; lia). reflexivity. Qed.
(** the nonce k = 1 gives a key stream that is not zero *)
Lemma xkdf : kdf_usable (smul 1 (smul 1 pG)) 48.
Proof.
  right. rewrite !smul_1. intros H. assert (X : hd 0 (kdf (shared_bytes pG) 48) =? 0 = true) by (rewrite H; reflexivity). revert X. vm_compute. discriminate.
Qed.
Lemma xverify : all_verify xE xccfg 0 X509_model.NewCertPool [xx0; xx1].
Proof. cbn [all_verify]. split; [vm_compute; discriminate|]. split; [vm_compute; discriminate|exact I]. Qed.
Lemma xclient auth : client_ready xE xccfg (xrn 8) (repeat 8 32) (repeat 8 46) [] (sent_certs (xscfg auth)) xkey xkey [48; 2] xx0 xx1 [].
Proof.
  change (sent_certs (xscfg auth)) with [[48; 1]; [48; 2]]. constructor.
  - right. discriminate.
  - split; [reflexivity|]. split; [apply bytesb_spec; reflexivity|reflexivity].
  - split; [reflexivity|]. split; [apply bytesb_spec; reflexivity|reflexivity].
  - split; [reflexivity|]. split; [cbn; lia|]. rewrite xk. cbn [xkey sD]. exact xkdf.
  - constructor; [reflexivity|]. constructor; [reflexivity|]. constructor.
  - apply Forall_cons; [exists xpub; reflexivity|]. apply Forall_cons; [exists xpub; reflexivity|]. apply Forall_nil.
  - split; [reflexivity|]. split; reflexivity.
  - split; [left; reflexivity|left; reflexivity].
  - intros _. exact xverify.
  - reflexivity.
  - reflexivity.
  - reflexivity.
Qed.
Lemma xpicks auth : picks_ecc (cf_prefer (xscfg auth)) (getCipherSuites (cf_suites (xscfg auth))) (getCipherSuites (cf_suites xccfg)).
Proof. split; [left; reflexivity|]. exists [], [0xe011]. split; [reflexivity|]. split; intros []. Qed.

(** C91's hypotheses, without and with a client certificate *)
Theorem C91_hyps : world_ok xE xHs /\ good_curve (e_cv xE) /\ server_ready xE (xscfg NoClientCert) (xrn 7) (repeat 7 32) [] (xce [48; 1]) (xce [48; 2]) xkey xkey [48; 2] /\
  client_ready xE xccfg (xrn 8) (repeat 8 32) (repeat 8 46) [] (sent_certs (xscfg NoClientCert)) xkey xkey [48; 2] xx0 xx1 [] /\
  picks_ecc (cf_prefer (xscfg NoClientCert)) (getCipherSuites (cf_suites (xscfg NoClientCert))) (getCipherSuites (cf_suites xccfg)) /\ cf_auth (xscfg NoClientCert) = NoClientCert.
Proof. split; [exact xworld|]. split; [exact cv_std_good|]. split; [apply xserver|]. split; [apply xclient|]. split; [apply xpicks|reflexivity]. Qed.
Theorem C91_mutual_hyps : exists chains, client_cert_ready xE xE xccfg (xscfg RequireAndVerifyClientCert) (xrn 8) (xce [48; 3]) xkey [] xy0 [] chains.
Proof.
  destruct (x509_verify xE (client_verify_opts (xscfg RequireAndVerifyClientCert) xpool []) xy0) as [chains|] eqn:EV; [|exfalso; revert EV; vm_compute; discriminate].
  exists chains. constructor.
  - cbn. unfold RequestClientCert, RequireAndVerifyClientCert. lia.
  - change (asked_cas (xscfg RequireAndVerifyClientCert)) with [[9]]. split; [|apply Forall_cons; [apply bytesb_spec; reflexivity|apply Forall_nil]].
    unfold P_TLS_msg.cr_ok. cbn [cr_types cr_sigs cr_cas]. split; [apply bytesb_spec; reflexivity|]. split; [cbn; lia|]. repeat split; try (cbn; lia); try constructor; try constructor; try (apply bytesb_spec; reflexivity); try (cbn; lia).
  - reflexivity.
  - cbn [xce ce_chain]. split; [discriminate|]. split; [apply Forall_cons; [split; [apply bytesb_spec; reflexivity|split; [discriminate || reflexivity|reflexivity]]|apply Forall_nil]|reflexivity].
  - split; [reflexivity|]. split; [apply P_SM2.C13_hyps|]. split; [left; reflexivity|reflexivity].
  - split; [constructor; [reflexivity|constructor]|reflexivity].
  - cbn. exists xpool. split; [reflexivity|exact EV].
  - reflexivity.
Qed.
(** the server's signature in this run has two non-zero numbers *)
Lemma xsign : match Sign (e_cv xE) (Some []) xkey (repeat 8 32 ++ repeat 7 32 ++ [u8 (Z.shiftr (zlen [48; 2]) 16); u8 (Z.shiftr (zlen [48; 2]) 8); u8 (zlen [48; 2])] ++ [48; 2]) with
  | Ok (r, s) => negb (r =? 0) && negb (s =? 0) | _ => false end = true.
Proof. vm_compute. exact eq_refl. Qed.
Theorem C91_example : exists clog slog rc rs, completed_together xE xE xccfg (xscfg NoClientCert) (xrn 8) (xrn 7) xx0 xx1 [] clog slog rc rs /\ Forall fits (wire clog).
Proof.
  destruct C91_hyps as (H1 & H2 & H3 & H4 & H5 & H6). destruct (C91_completes xE xE xHs _ _ _ _ _ _ _ _ _ _ _ _ _ _ _ _ _ H1 H1 eq_refl H2 H3 H4 H5 H6) as (r & s & SG & H).
  pose proof xsign as X. rewrite SG in X. apply andb_prop in X as [X1 X2]. destruct H as (clog & slog & rc & rs & HC & HZ); [intros ->; discriminate X1|intros ->; discriminate X2|]. exists clog, slog, rc, rs. split; [exact HC|]. apply HZ. split; [discriminate|]. change (sent_certs (xscfg NoClientCert)) with [[48; 1]; [48; 2]]. discriminate.
Qed.
(** the hypotheses of C83-C90: completed, not resumed handshakes on both sides, whose messages are the same, are byte strings and are framed *)
Theorem C83_C90_hyps : exists clog slog rc rs cc sc, world_ok xE xHs /\ client_random_ok xE (xrn 8) /\ hello_random_ok (xrn 7) /\
  client_completes xE script xccfg None (xrn 8) cc rc None clog /\ hr_resumed rc = false /\
  server_completes xE script (xscfg NoClientCert) None (xrn 7) sc rs slog /\ hr_resumed rs = false /\
  wire_ok clog /\ wire_ok slog /\ wire clog = wire slog /\ Forall framed (wire clog) /\ hr_peer rc = [xx0; xx1] /\ g_pub xx1 = PkSM2 xpub /\
  cf_certs (xscfg NoClientCert) = [xce [48; 1]; xce [48; 2]] /\ ce_key (xce [48; 2]) = Some xkey /\ r_enc (xrn 8) <> None.
Proof.
  destruct C91_example as (clog & slog & rc & rs & (H1 & H2 & H3 & H4 & H5 & H6 & H7 & H8 & _) & _). exists clog, slog, rc, rs, (outbox slog), (outbox clog).
  assert (RO : forall b, is_byte b -> hello_random_ok (xrn b)) by (intros b Hb x Hx; injection Hx as <-; split; [do 32 (apply bytes_cons; split; [exact Hb|]); constructor|reflexivity]).
  split; [exact xworld|]. split. { split; [apply RO; split; reflexivity || discriminate|]. split; [|discriminate]. intros x Hx. injection Hx as <-. split; [apply bytesb_spec; reflexivity|reflexivity]. }
  split; [apply RO; split; reflexivity || discriminate|]. split; [eexists; exact H1|]. split; [exact H3|]. split; [eexists; exact H2|]. split; [exact H4|]. split; [exact H6|].
  split; [unfold wire_ok, transcript in *; rewrite <- H5; exact H6|]. split; [exact H5|]. split; [exact H7|]. split; [exact H8|]. repeat (split; [reflexivity|]). discriminate.
Qed.

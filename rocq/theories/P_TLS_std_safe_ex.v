(** Ends that meet the hypotheses of C133 and C134, against every list of messages the peer may send. *)
From Verif Require Import GoBase GoLemmas BigBytes X509_spec SM2_model TLS_record_model TLS_prf_model TLS_prf_spec TLS_prf_proofs
  TLS_gmka_model TLS_ticket_model TLS_msg_model TLS_msg_proofs TLS_neg_model TLS_hs_model TLS_hs_proofs TLS_hs_spec TLS_hs_run TLS_hs_safe TLS_std_model TLS_std_spec TLS_std_server
  P_TLS_std_server P_TLS_std_server2 P_TLS_std_example P_TLS_std_safe P_TLS_std_safe2.
From Verif Require X509_model P_TLS_ticket P_TLS_msg P_TLS_hs_crash P_TLS_hs_safe.
Open Scope Z_scope.

(** an RSA and an ECDSA certificate with keys whose signatures are byte strings for every digest *)
Definition pkey (p : pubk unit) : skey unit := mkKey p (Some (fun st h _ _ => Ok [u8 st; u8 h; 1])) (match p with PkRSA _ => Some (fun ct => if zlen ct <? 20 then Err 0 else Ok (repeat 3 48)) | _ => None end).
Definition pce (der : list Z) (p : pubk unit) : scertificate unit := mkSC [der] (pkey p) None [1; 2] [[3]].
Lemma pce_ok der p : bytes der -> 1 <= zlen der <= 100 -> presentable (pce der p).
Proof.
  intros B L. split.
  - split; [constructor; [|constructor]; split; [exact B|cbn; lia]|]. cbn [pce sc_chain]. unfold sum_len. cbn [fold_left]. change (zlen [der]) with 1. change (2 ^ 24) with 16777216. lia.
  - intros sign ty h rnd d. cbn [pce sc_key pkey k_sign]. intros [= <-]. split; [|reflexivity]. apply bytes_cons; split; [apply u8_byte|]. apply bytes_cons; split; [apply u8_byte|]. apply bytes_cons; split; [unfold is_byte; lia|constructor].
Qed.
Definition ykex_total : forall k rnd, k = se_x25519 yE \/ (exists id, k = se_nist yE id) -> kx_gen k rnd <> Panic.
Proof. intros k rnd H. assert (k = ykex) as -> by (destruct H as [->|[id ->]]; reflexivity). cbn. destruct rnd as [[|b l]|]; discriminate. Qed.

(** a server with versions SSL 3.0 to TLS 1.2, two certificates, client authentication, ALPN, OCSP staple, SCTs and tickets *)
Definition safe_server : sconfig unit :=
  mkSCfg (mkCfg 0x0300 0 None true [[104; 50]] [] 4 (Some ypool) None [] false 50 false [mkTK (repeat 1 16) (repeat 2 16) (repeat 3 16)] None None (fun _ _ => None)) [pce [48; 1] (PkRSA [1]); pce [48; 2] (PkECDSA [2])] None None [] None.
Theorem C133_hyps : std_server_sane yE safe_server None (yrn 7 []) /\ forall sent, fst (std_serverHandshake yE P_TLS_hs_crash.any_server safe_server None (yrn 7 []) (sent, [])) <> HPanic.
Proof.
  assert (S : std_server_sane yE safe_server None (yrn 7 [])).
  { constructor.
    - intros b [= <-]. split; [apply bytesb_spec; reflexivity|reflexivity].
    - intros b [= <-]. split; [apply bytesb_spec; reflexivity|reflexivity].
    - split; [exact ygroups|exact ykex_total].
    - intros k b. split; [reflexivity|apply bytesb_spec; reflexivity].
    - intros m _. apply yh_ok.
    - discriminate.
    - intros ch cfg' ->. split; cbn; lia.
    - intros ch cfg' ->. cbn [safe_server s_cfg cf_protos]. split; [constructor; [apply bytesb_spec; reflexivity|constructor]|]. split; [constructor; [split; [apply bytesb_spec; reflexivity|cbn; lia]|constructor]|reflexivity].
    - intros ch cfg' p -> [= <-]. split; [|reflexivity]. change (X509_model.Subjects ypool) with [[9]]. constructor; [apply bytesb_spec; reflexivity|constructor].
    - intros ch cfg' -> _. split; [discriminate|]. constructor; [|constructor]. split; [apply bytesb_spec; reflexivity|]. split; [apply bytesb_spec; reflexivity|reflexivity].
    - intros ch cfg' ce -> HC. unfold certificate_for in HC. cbn [getCertificate safe_server s_getCert s_certs s_byName option_map] in HC. injection HC as <-.
      split; [apply pce_ok; [apply bytesb_spec; reflexivity|cbn; lia]|]. split; [split; [apply bytesb_spec; reflexivity|reflexivity]|]. split; [split; [constructor; [apply bytesb_spec; reflexivity|constructor]|reflexivity]|].
      split.
      + intros dec ct pms. cbn [pce sc_key pkey k_dec]. intros [= <-]. destruct (_ <? _); [discriminate|]. intros [= <-]. split; [apply bytesb_spec; reflexivity|reflexivity].
      + intros dec ct. cbn [pce sc_key pkey k_dec]. intros [= <-]. destruct (_ <? _); discriminate. }
  split; [exact S|]. intros sent. apply (C133_no_client_crashes_the_server yE P_TLS_hs_crash.any_server yHs (yh 64)); [exact yworld|exact P_TLS_hs_crash.any_server_ok|exact S].
Qed.
(** a client that offers the ECDHE suites only, with a cached session and a client certificate *)
Definition safe_client : sconfig unit :=
  mkSCfg (mkCfg 0 0 (Some [0xcca9; 0xc02f; 0xc02b; 0xc014; 0xc00a]) false [[104; 49]; [104; 50]] [] 0 None (Some ypool) [97; 46; 98] false 50 false [] None None (fun _ _ => None)) [pce [48; 1] (PkRSA [1])] None None [] None.
Definition safe_session : csession unit := mkCSess [1; 2; 3] 0x0303 0xc02f (repeat 4 48) [ycert [48; 1] (PkRSA [1])] [].
Theorem C134_hyps : std_client_sane yE safe_client (Some (Some safe_session)) (yrn 8 [1; 2]) None /\
  forall sent, fst (std_clientHandshake yE P_TLS_hs_crash.any_server safe_client [] (Some (Some safe_session)) (yrn 8 [1; 2]) None (sent, [])) <> HPanic.
Proof.
  assert (S : std_client_sane yE safe_client (Some (Some safe_session)) (yrn 8 [1; 2]) None).
  { constructor.
    - cbn [safe_client s_cfg cf_max]. lia.
    - split; [|reflexivity]. intros id Hi _. change (cfg_cipherSuites (cf_suites (s_cfg safe_client))) with [0xcca9; 0xc02f; 0xc02b; 0xc014; 0xc00a] in Hi. repeat (destruct Hi as [<-|Hi]; [reflexivity|]). destruct Hi.
    - intros b [= <-]. split; [apply bytesb_spec; reflexivity|reflexivity].
    - intros b [= <-]. split; [apply bytesb_spec; reflexivity|cbn; lia].
    - split; [apply bytesb_spec|]; reflexivity.
    - reflexivity.
    - constructor; [apply bytesb_spec; reflexivity|]. constructor; [apply bytesb_spec; reflexivity|constructor].
    - split; [exact ygroups|exact ykex_total].
    - intros ce [<-|[]]. apply pce_ok; [apply bytesb_spec; reflexivity|cbn; lia].
    - discriminate.
    - intros s [= <-]. split; [apply bytesb_spec; reflexivity|]. split; [reflexivity|]. split; [apply bytesb_spec; reflexivity|reflexivity].
    - discriminate. }
  split; [exact S|]. intros sent. apply (C134_no_server_crashes_the_client yE P_TLS_hs_crash.any_server yHs (yh 64)); [exact yworld|exact P_TLS_hs_crash.any_server_ok|exact S].
Qed.



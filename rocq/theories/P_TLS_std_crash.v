(** C133, C134 refuted: ordinary TLS ends that a peer can crash. *)
From Verif Require Import GoBase GoLemmas BigBytes X509_spec SM2_model TLS_record_model TLS_prf_model TLS_prf_spec TLS_prf_proofs
  TLS_gmka_model TLS_ticket_model TLS_msg_model TLS_neg_model TLS_hs_model TLS_hs_proofs TLS_hs_spec TLS_hs_run TLS_std_model TLS_std_spec
  P_TLS_std_server P_TLS_std_server2 P_TLS_std_client P_TLS_std_client2 P_TLS_std_agree P_TLS_std_example.
From Verif Require X509_model.
Open Scope Z_scope.

Definition crashes {A B} (r : hres A * B) : bool := match fst r with HPanic => true | _ => false end.
Lemma crashes_ok {A B} (r : hres A * B) : crashes r = true -> fst r = HPanic.
Proof. unfold crashes. destruct (fst r); congruence. Qed.

(** ** C133: one ClientHello.  The lowest version of a Config that sets none is 0x0101 (GMSSL), so any version number from 0x0102 to 0x02ff counts as negotiated; newFinishedHash
    (prf.go:136-138) then panics with "unknown version". *)
Definition bad_hello (v : Z) : clientHello := mkCH v (repeat 9 32) [] [0x002f] [0] false [] false false [] [] false [] [] [] false [].
Definition bad_hello_msg : list Z := Eval vm_compute in match m_clientHello (bad_hello 0x0200) with Ok m => m | _ => [] end.
(** a server with an RSA certificate and nothing else configured *)
Definition plain_server : sconfig unit :=
  mkSCfg (mkCfg 0 0 None false [] [] 0 None None [] false 50 false [mkTK (repeat 1 16) (repeat 2 16) (repeat 3 16)] None None (fun _ _ => None)) [yce [48; 1] (PkRSA [1]) 1] None None [] None.
Lemma plain_server_crashes : crashes (std_serverHandshake yE script plain_server None (yrn 7 []) ([IMsg bad_hello_msg], [])) = true.
Proof. vm_compute. exact eq_refl. Qed.
Theorem C133_default_server_refuted : cf_min (s_cfg plain_server) = 0 /\ cf_max (s_cfg plain_server) = 0 /\ m_clientHello (bad_hello 0x0200) = Ok bad_hello_msg /\
  fst (std_serverHandshake yE script plain_server None (yrn 7 []) ([IMsg bad_hello_msg], [])) = HPanic.
Proof. split; [reflexivity|]. split; [reflexivity|]. split; [vm_compute; exact eq_refl|]. apply crashes_ok. exact plain_server_crashes. Qed.

(** ** C134: ServerHello with an RSA suite, an ECDSA certificate the client accepts, ServerHelloDone: key_agreement.go:77 asserts that the key is an RSA key (as CVE-2021-34558 in crypto/tls) *)
Definition plain_client : sconfig unit :=
  mkSCfg (mkCfg 0 0 None false [] [] 0 None (Some ypool) [97; 46; 98] false 50 false [] None None (fun _ _ => None)) [] None None [] None.
Definition ecdsa_flight : list item := Eval vm_compute in
  match m_serverHello (mkSH 0x0303 (repeat 4 32) [] 0x002f 0 false [] false [] false [] false []), m_certificate [[48; 2]] with
  | Ok a, Ok b => [IMsg a; IMsg b; IMsg m_serverHelloDone] | _, _ => [] end.
Lemma plain_client_crashes : crashes (std_clientHandshake yE script plain_client [] None (yrn 8 []) None (ecdsa_flight, [])) = true.
Proof. vm_compute. exact eq_refl. Qed.
Theorem C134_default_client_refuted : cf_suites (s_cfg plain_client) = None /\ cf_skip (s_cfg plain_client) = false /\
  fst (std_clientHandshake yE script plain_client [] None (yrn 8 []) None (ecdsa_flight, [])) = HPanic.
Proof. split; [reflexivity|]. split; [reflexivity|]. apply crashes_ok. exact plain_client_crashes. Qed.
(** ... and a client whose GetClientCertificate returns (nil, nil), documented as forbidden (common.go), when the server asks for a certificate *)
Definition nil_cert_client : sconfig unit :=
  mkSCfg (mkCfg 0 0 None false [] [] 0 None (Some ypool) [97; 46; 98] false 50 false [] None None (fun _ _ => None)) [] None None [] (Some (fun _ _ => Ok None)).
Definition request_flight : list item := Eval vm_compute in
  match m_serverHello (mkSH 0x0303 (repeat 4 32) [] 0x002f 0 false [] false [] false [] false []), m_certificate [[48; 1]], m_certificateRequest true (TLS_msg_model.mkCR [1] [0x0401] []) with
  | Ok a, Ok b, Ok c => [IMsg a; IMsg b; IMsg c; IMsg m_serverHelloDone] | _, _, _ => [] end.
Lemma nil_cert_crashes : crashes (std_clientHandshake yE script nil_cert_client [] None (yrn 8 []) None (request_flight, [])) = true.
Proof. vm_compute. exact eq_refl. Qed.
Theorem C134_nil_certificate_refuted : fst (std_clientHandshake yE script nil_cert_client [] None (yrn 8 []) None (request_flight, [])) = HPanic.
Proof. apply crashes_ok. exact nil_cert_crashes. Qed.

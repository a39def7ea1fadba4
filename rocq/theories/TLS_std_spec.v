(** Specification vocabulary for the ordinary TLS handshake: protocol versions, cipher suite parameters, flows.  Independent of the model. *)
From Verif Require Import GoBase GoLemmas TLS_prf_spec TLS_hs_model TLS_hs_proofs TLS_hs_spec.
Open Scope Z_scope.

(** the protocol a version number stands for; [sha384]: the cipher suite prescribes SHA-384 *)
Definition version_of (vers : Z) (sha384 : bool) : option version :=
  if vers =? 0x0300 then Some SSL30 else if vers =? 0x0301 then Some TLS10 else if vers =? 0x0302 then Some TLS11 else if vers =? 0x0303 then Some (TLS12 sha384) else None.
(** RFC 5288, 5289: the suites whose PRF is based on SHA-384 *)
Definition sha384_suite (id : Z) : bool := existsb (Z.eqb id) [0xc030; 0xc02c; 0x009d].
(** (id, MAC key length, key length, IV length) of the registered suites the code knows *)
Definition suite_table : list (Z * (nat * nat * nat)) :=
  [ (0xcca8, (0, 32, 12)%nat); (0xcca9, (0, 32, 12)%nat); (0xc02f, (0, 16, 4)%nat); (0xc02b, (0, 16, 4)%nat); (0xc030, (0, 32, 4)%nat); (0xc02c, (0, 32, 4)%nat);
    (0xc023, (32, 16, 16)%nat); (0xc009, (20, 16, 16)%nat); (0xc014, (20, 32, 16)%nat); (0xc00a, (20, 32, 16)%nat);
    (0x009c, (0, 16, 4)%nat); (0x009d, (0, 32, 4)%nat); (0x003c, (32, 16, 16)%nat); (0x002f, (20, 16, 16)%nat); (0x0035, (20, 32, 16)%nat); (0xc012, (20, 24, 8)%nat);
    (0x000a, (20, 24, 8)%nat); (0x0005, (20, 16, 0)%nat); (0xc011, (20, 16, 0)%nat); (0xc007, (20, 16, 0)%nat) ].
(** ECDHE key exchange; ECDSA certificates; TLS 1.2 only *)
Definition ecdhe_suite (id : Z) : bool := existsb (Z.eqb id) [0xcca8; 0xcca9; 0xc02f; 0xc02b; 0xc030; 0xc02c; 0xc023; 0xc009; 0xc014; 0xc00a; 0xc012; 0xc011; 0xc007].
Definition ecdsa_suite (id : Z) : bool := existsb (Z.eqb id) [0xcca9; 0xc02b; 0xc02c; 0xc023; 0xc009; 0xc00a; 0xc007].
Definition tls12_suite (id : Z) : bool := existsb (Z.eqb id) [0xcca8; 0xcca9; 0xc02f; 0xc02b; 0xc030; 0xc02c; 0xc023; 0x009c; 0x009d; 0x003c].
(** the installed keys are the key block, cut in the order of RFC 5246 6.3 *)
Definition cut_into (kb : keyblock) (lens : nat * nat * nat) (block : list Z) : Prop :=
  let '(m, k, i) := lens in
  block = kb_clientMAC kb ++ kb_serverMAC kb ++ kb_clientKey kb ++ kb_serverKey kb ++ kb_clientIV kb ++ kb_serverIV kb /\
  length (kb_clientMAC kb) = m /\ length (kb_serverMAC kb) = m /\ length (kb_clientKey kb) = k /\ length (kb_serverKey kb) = k /\
  length (kb_clientIV kb) = i /\ length (kb_serverIV kb) = i.
Definition block_len (lens : nat * nat * nat) : nat := let '(m, k, i) := lens in (2 * m + 2 * k + 2 * i)%nat.
(** flows seen by the server: full ([st] status, [sk] server key exchange, [rq] certificate request, [cv] certificate verify, [np] next protocol,
    [tk] ticket) and abbreviated *)
Definition std_server_flow (st sk rq cv np tk : bool) : list step :=
  [In_ tClientHello; Out tServerHello; Out tCertificate] ++ opt st (Out tCertificateStatus) ++ opt sk (Out tServerKeyExchange) ++ opt rq (Out tCertificateRequest) ++ [Out tServerHelloDone] ++
  opt rq (In_ tCertificate) ++ [In_ tClientKeyExchange] ++ opt cv (In_ tCertificateVerify) ++ [InCCS] ++ opt np (In_ tNextProtocol) ++ [In_ tFinished] ++
  opt tk (Out tNewSessionTicket) ++ [OutCCS; Out tFinished].
Definition std_server_short_flow (np tk : bool) : list step :=
  [In_ tClientHello; Out tServerHello] ++ opt tk (Out tNewSessionTicket) ++ [OutCCS; Out tFinished; InCCS] ++ opt np (In_ tNextProtocol) ++ [In_ tFinished].
(** ... and by the client *)
Definition std_client_flow (st sk rq cv np tk : bool) : list step :=
  [Out tClientHello; In_ tServerHello; In_ tCertificate] ++ opt st (In_ tCertificateStatus) ++ opt sk (In_ tServerKeyExchange) ++ opt rq (In_ tCertificateRequest) ++ [In_ tServerHelloDone] ++
  opt rq (Out tCertificate) ++ [Out tClientKeyExchange] ++ opt cv (Out tCertificateVerify) ++ [OutCCS] ++ opt np (Out tNextProtocol) ++ [Out tFinished] ++
  opt tk (In_ tNewSessionTicket) ++ [InCCS; In_ tFinished].
Definition std_client_short_flow (np tk : bool) : list step :=
  [Out tClientHello; In_ tServerHello] ++ opt tk (In_ tNewSessionTicket) ++ [InCCS; In_ tFinished; OutCCS] ++ opt np (Out tNextProtocol) ++ [Out tFinished].
(** what a client certificate's key signs: RFC 5246 7.4.8, RFC 4346 7.4.8, SSL 3.0 5.6.8.  [rsa]: PKCS#1 v1.5 signature; [H]: the hash of the chosen algorithm *)
Definition signed_transcript (Hs : hashes) (ver : version) (rsa : bool) (H : list Z -> list Z) (master t : list Z) : list Z :=
  match ver with
  | SSL30 => ssl3_verify Hs t [] master
  | TLS10 | TLS11 => if rsa then MD5 Hs t ++ SHA1 Hs t else SHA1 Hs t
  | TLS12 _ => H t
  | GMSSL => []
  end.
(** what the server's key signs in a ServerKeyExchange: RFC 4492 5.4, RFC 5246 7.4.3 *)
Definition signed_params (Hs : hashes) (vers : Z) (rsa : bool) (H : list Z -> list Z) (cr sr params : list Z) : list Z :=
  let d := cr ++ sr ++ params in
  if 0x0303 <=? vers then H d else if rsa then MD5 Hs d ++ SHA1 Hs d else SHA1 Hs d.

(** RFC 5246 7.4.1.4.1, RFC 8446 4.2.3: (scheme, (signature kind, hash)).  Kinds as in the code's constants: PKCS#1 v1.5, RSA-PSS, ECDSA; hashes by their crypto.Hash
    number: SHA-1 3, SHA-256 5, SHA-384 6, SHA-512 7 *)
Inductive sig_kind := KPkcs1 | KPss | KEcdsa.
Definition scheme_table : list (Z * (sig_kind * Z)) :=
  [ (0x0201, (KPkcs1, 3)); (0x0401, (KPkcs1, 5)); (0x0501, (KPkcs1, 6)); (0x0601, (KPkcs1, 7)); (0x0804, (KPss, 5)); (0x0805, (KPss, 6)); (0x0806, (KPss, 7));
    (0x0203, (KEcdsa, 3)); (0x0403, (KEcdsa, 5)); (0x0503, (KEcdsa, 6)); (0x0603, (KEcdsa, 7)) ].
(** which scheme a handshake signature uses.  [rsa]: the key is RSA (else ECDSA); [offered]: the schemes the verifier declared ([] = none declared); the hash is irrelevant
    below TLS 1.2 *)
Definition scheme_ok (vers : Z) (rsa : bool) (offered : list Z) (alg : Z) (kind : sig_kind) (hash : Z) : Prop :=
  match kind with KEcdsa => rsa = false | _ => rsa = true end /\
  (vers < 0x0303 -> kind <> KPss) /\
  (0x0303 <= vers -> match offered with [] => hash = 3 /\ kind <> KPss | _ => In alg offered /\ In (alg, (kind, hash)) scheme_table end).

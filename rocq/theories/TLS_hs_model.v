(** Model of the GM/T 0024 handshake (default build, two certificates): /repo/tls/gm_handshake_server_double.go, gm_handshake_client_double.go,
    the GM path of clientHandshake (handshake_client.go:95-187), the message switch of readHandshake (conn.go:978-1024), auth.go and the
    client side of ecdheKeyAgreementGM (gm_key_agreement.go:197-289).
    - The record layer is a parameter [chan] (operations on a state); [TLS_hs_conn.v] instantiates it with the record layer model.
      Output buffering (c.buffering, c.flush) is not modelled: a record is written when writeRecord is called.
    - A received message keeps the bytes it arrived in (Go caches them in the field raw and marshal returns them), a sent one is encoded.
    - Only the first handshake of a connection is modelled (c.handshakes == 0).
    - Certificate parsing, the signature check of x509 certificates, RSA and ECDSA, X25519 and the NIST curves, AES and the standard
      library's hashes, and the callbacks of Config are parameters.  fmt.Println calls are omitted. *)
From Verif Require Import GoBase GoLemmas BigBytes Asn1_model X509_spec SM2_model TLS_record_model TLS_prf_model TLS_gmka_model
  TLS_ticket_model TLS_msg_model TLS_neg_model.
From Verif Require X509_model.
Open Scope Z_scope.

(** ** Results: a Go call returns a value, returns an error, panics, or does not return *)
Inductive hres (A : Type) := HOk (a : A) | HErr (e : Z) | HPanic | HLoop.
Arguments HOk {A} a. Arguments HErr {A} e. Arguments HPanic {A}. Arguments HLoop {A}.
Definition of_res {A} (r : res A) : hres A := match r with Ok a => HOk a | Err e => HErr e | Panic => HPanic end.

(** ** The keys installed by establishKeys *)
Record keyblock := mkKB { kb_clientMAC : list Z; kb_serverMAC : list Z; kb_clientKey : list Z; kb_serverKey : list Z; kb_clientIV : list Z; kb_serverIV : list Z }.

(** ** The record layer under the handshake *)
Record chan := mkChan {
  CS : Type;
  cn_read : CS -> hres (list Z) * CS;             (* readHandshake, conn.go:950-977: the bytes of the next complete message *)
  cn_ccs : CS -> hres unit * CS;                  (* readRecord(recordTypeChangeCipherSpec), then c.in.err *)
  cn_write : Z -> list Z -> CS -> hres unit * CS; (* writeRecord *)
  cn_alert : Z -> CS -> CS;                       (* sendAlert *)
  cn_vers : Z -> bool -> CS -> CS;                (* c.vers, c.haveVers *)
  cn_keys : bool -> Z -> keyblock -> CS -> CS     (* prepareCipherSpec on both halves; the bool is c.isClient *)
}.
(** what happened on the connection, in order *)
Inductive event := EvSend (msg : list Z) | EvRecv (msg : list Z) | EvSendCCS | EvRecvCCS | EvKeys (k : keyblock) | EvAlert (a : Z).

Section Monad.
Context (C : chan).
Definition hst : Type := (CS C * list event)%type.
Definition M (A : Type) : Type := hst -> hres A * hst.
Definition ret {A} (a : A) : M A := fun s => (HOk a, s).
Definition throw {A} (e : Z) : M A := fun s => (HErr e, s).
Definition panic {A} : M A := fun s => (HPanic, s).
Definition bind {A B} (m : M A) (k : A -> M B) : M B := fun s =>
  match m s with (HOk a, s') => k a s' | (HErr e, s') => (HErr e, s') | (HPanic, s') => (HPanic, s') | (HLoop, s') => (HLoop, s') end.
Definition lift {A} (r : hres A) : M A := fun s => (r, s).
Definition alert (a : Z) : M unit := fun s => (HOk tt, (cn_alert C a (fst s), snd s ++ [EvAlert a])).
Definition setvers (v : Z) (have : bool) : M unit := fun s => (HOk tt, (cn_vers C v have (fst s), snd s)).
Definition setkeys (isClient : bool) (v : Z) (k : keyblock) : M unit := fun s => (HOk tt, (cn_keys C isClient v k (fst s), snd s ++ [EvKeys k])).
Definition recv_raw : M (list Z) := fun s =>
  match cn_read C (fst s) with (HOk m, c) => (HOk m, (c, snd s ++ [EvRecv m])) | (r, c) => (r, (c, snd s)) end.
Definition recv_ccs : M unit := fun s =>
  match cn_ccs C (fst s) with (HOk _, c) => (HOk tt, (c, snd s ++ [EvRecvCCS])) | (r, c) => (r, (c, snd s)) end.
Definition send (msg : list Z) : M unit := fun s =>
  match cn_write C recordTypeHandshake msg (fst s) with (HOk _, c) => (HOk tt, (c, snd s ++ [EvSend msg])) | (r, c) => (r, (c, snd s)) end.
Definition send_ccs : M unit := fun s =>
  match cn_write C recordTypeChangeCipherSpec [1] (fst s) with (HOk _, c) => (HOk tt, (c, snd s ++ [EvSendCCS])) | (r, c) => (r, (c, snd s)) end.
End Monad.
Arguments ret {C A}. Arguments throw {C A}. Arguments panic {C A}. Arguments bind {C A B}. Arguments lift {C A}. Arguments alert {C}.
Arguments setvers {C}. Arguments setkeys {C}. Arguments recv_raw {C}. Arguments recv_ccs {C}. Arguments send {C}. Arguments send_ccs {C}.
Notation "'let!' x := m 'in' k" := (bind m (fun x => k)) (at level 200, x name, m at level 200, k at level 200).
Notation "m ;;; k" := (bind m (fun _ => k)) (at level 100, k at level 200, right associativity).

(** alert.go *)
Definition alertHandshakeFailure : Z := 40. Definition alertBadCertificate : Z := 42. Definition alertUnsupportedCertificate : Z := 43.
Definition alertIllegalParameter : Z := 47. Definition alertInsufficientSecurity : Z := 71. Definition alertInappropriateFallback : Z := 86.
(** errors, by what they report *)
Definition eUnexpectedMessage : Z := 100. Definition eVersion : Z := 101. Definition eCompression : Z := 102. Definition eRenegotiation : Z := 103.
Definition eCertCount : Z := 104. Definition eNoSuite : Z := 105. Definition eFallback : Z := 106. Definition eNoClientCert : Z := 107.
Definition eBadCert : Z := 108. Definition eUnsupportedKey : Z := 109. Definition eSignature : Z := 110. Definition eFinished : Z := 111.
Definition eConfig : Z := 112. Definition eExtension : Z := 113. Definition eSession : Z := 114. Definition eRand : Z := 115. Definition eKeyUsage : Z := 116.
Definition eKeyType : Z := 117. Definition eSigAlg : Z := 118. Definition eCurve : Z := 119.
(** ClientAuthType, common.go:191-197 *)
Definition NoClientCert : Z := 0. Definition RequestClientCert : Z := 1. Definition RequireAnyClientCert : Z := 2.
Definition VerifyClientCertIfGiven : Z := 3. Definition RequireAndVerifyClientCert : Z := 4.

(** ** Messages: the switch of readHandshake, conn.go:978-1024 (with config.GMSupport != nil); [vers] = c.vers *)
Inductive hmsg :=
| MHelloRequest | MClientHello (m : clientHello) | MServerHello (m : serverHello) | MNewSessionTicket (t : list Z) | MCertificate (cs : list (list Z))
| MCertificateRequest (m : certRequest) | MCertificateStatus (m : Z * list Z) | MServerKeyExchange (k : list Z) | MServerHelloDone
| MClientKeyExchange (ct : list Z) | MCertificateVerify (alg : Z) (sig : list Z) | MNextProto (p : list Z) | MFinished (vd : list Z).
Definition rmap {A B} (f : A -> B) (r : res A) : res B := match r with Ok a => Ok (f a) | Err e => Err e | Panic => Panic end.
Definition parse_msg (vers : Z) (raw : list Z) : res hmsg :=
  match raw with
  | [] => Panic
  | t :: _ =>
      if t =? 0 then rmap (fun _ => MHelloRequest) (u_helloRequest raw)
      else if t =? 1 then rmap MClientHello (u_clientHello ch_empty raw)
      else if t =? 2 then rmap MServerHello (u_serverHello sh_empty raw)
      else if t =? 4 then rmap MNewSessionTicket (u_newSessionTicket raw)
      else if t =? 11 then rmap MCertificate (u_certificate raw)
      else if t =? 13 then rmap MCertificateRequest (u_certificateRequestGM raw)
      else if t =? 22 then rmap MCertificateStatus (u_certificateStatus raw)
      else if t =? 12 then rmap MServerKeyExchange (u_serverKeyExchange raw)
      else if t =? 14 then rmap (fun _ => MServerHelloDone) (u_serverHelloDone raw)
      else if t =? 16 then rmap MClientKeyExchange (u_clientKeyExchange raw)
      else if t =? 15 then rmap (fun m => MCertificateVerify (fst m) (snd m)) (u_certificateVerify (VersionTLS12 <=? vers) 0 raw)
      else if t =? 67 then rmap MNextProto (u_nextProto raw)
      else if t =? 20 then rmap MFinished (u_finished raw)
      else Err 0
  end.
(** conn.go:950-1025 readHandshake: the message and its bytes *)
Definition readHandshake {C} (vers : Z) : M C (hmsg * list Z) :=
  let! raw := recv_raw in
  match parse_msg vers raw with
  | Ok m => ret (m, raw)
  | Err _ => alert alertUnexpectedMessage;;; throw eUnexpectedMessage
  | Panic => panic
  end.
(** c.sendAlert(alertUnexpectedMessage); return unexpectedMessageError(..) *)
Definition unexpected {C A} : M C A := alert alertUnexpectedMessage;;; throw eUnexpectedMessage.
(** c.sendAlert(a); return err *)
Definition fail_with {C A} (a e : Z) : M C A := alert a;;; throw e.
(** err from a callee, after c.sendAlert(a) *)
Definition orfail {C A} (a : Z) (r : hres A) : M C A :=
  match r with HOk x => ret x | HErr e => fail_with a e | HPanic => lift HPanic | HLoop => lift HLoop end.

(** ** Certificates and configuration *)
(** x509.Certificate: the fields of [cert] plus PublicKey and (PublicKeyAlgorithm == x509.SM2) *)
Inductive pubk (T : Type) := PkSM2 (p : pubkey T) | PkECDSA (k : list Z) | PkRSA (k : list Z) | PkOther.
Arguments PkSM2 {T} p. Arguments PkECDSA {T} k. Arguments PkRSA {T} k. Arguments PkOther {T}.
Record gcert (T : Type) := mkG { g_cert : cert; g_pub : pubk T; g_sm2alg : bool }.
Arguments mkG {T}. Arguments g_cert {T}. Arguments g_pub {T}. Arguments g_sm2alg {T}.
(** tls.Certificate, common.go:811-829; ce_key: None is a key that implements neither crypto.Signer nor crypto.Decrypter *)
Record certificate (T : Type) := mkCE { ce_chain : list (list Z); ce_key : option (privkey T); ce_leaf : option (gcert T); ce_ocsp : list Z; ce_scts : list (list Z) }.
Arguments mkCE {T}. Arguments ce_chain {T}. Arguments ce_key {T}. Arguments ce_leaf {T}. Arguments ce_ocsp {T}. Arguments ce_scts {T}.
(** Config, common.go:373-530 (the fields the GM handshake reads); cf_keys = config.ticketKeys() after serverInit *)
Record config (T : Type) := mkCfg {
  cf_min : Z; cf_max : Z; cf_suites : option (list Z); cf_prefer : bool; cf_protos : list (list Z);
  cf_certs : list (certificate T); cf_auth : Z; cf_clientCAs : option X509_model.pool; cf_rootCAs : option X509_model.pool; cf_serverName : list Z; cf_skip : bool;
  cf_time : Z; cf_noTickets : bool; cf_keys : list ticketKey;
  cf_verifyPeer : option (list (list Z) -> list (list cert) -> option Z);             (* VerifyPeerCertificate: Some e = error *)
  cf_getClientCert : option (list (list Z) -> res (option (certificate T)));          (* GetClientCertificate on AcceptableCAs; Ok None = nil *)
  cf_keylog : list Z -> list Z -> option Z }.                                         (* writeKeyLog *)
Arguments mkCfg {T}. Arguments cf_min {T}. Arguments cf_max {T}. Arguments cf_suites {T}. Arguments cf_prefer {T}. Arguments cf_protos {T}. Arguments cf_certs {T}.
Arguments cf_auth {T}. Arguments cf_clientCAs {T}. Arguments cf_rootCAs {T}. Arguments cf_serverName {T}. Arguments cf_skip {T}. Arguments cf_time {T}.
Arguments cf_noTickets {T}. Arguments cf_keys {T}. Arguments cf_verifyPeer {T}. Arguments cf_getClientCert {T}. Arguments cf_keylog {T}.
(** the world outside the handshake code *)
Record env (T : Type) := mkEnv {
  e_cv : curve T; e_std : stdlib; e_aes : list Z -> list Z -> list Z; e_sha256 : list Z -> list Z;
  e_parse : list Z -> option (gcert T);                           (* x509.ParseCertificate *)
  e_checksig : cert -> cert -> bool; e_entrust : list Z;          (* see X509_model *)
  e_host : cert -> list Z -> bool;                                (* c.VerifyHostname(h) == nil, see X509_model *)
  e_sysroots : option X509_model.pool;                            (* the platform's roots *)
  e_othersig : Z -> pubk T -> list Z -> list Z -> bool;           (* RSA / ECDSA verification: signature type, key, digest, signature *)
  e_md5sha1 : list Z -> list Z;                                   (* key_agreement.go:92-101 md5SHA1Hash *)
  e_onSM2 : list Z -> bool;                                       (* elliptic.Unmarshal(sm2.P256(), b) returns a point *)
  e_ecdh : Z -> hres (list Z * list Z);                           (* X25519 / P-256 / P-384 / P-521 with the peer point: preMasterSecret, serialized *)
  e_fuel : nat }.                                                 (* passes of sm2.Encrypt's loop before giving up *)
Arguments mkEnv {T}. Arguments e_cv {T}. Arguments e_std {T}. Arguments e_aes {T}. Arguments e_sha256 {T}. Arguments e_parse {T}. Arguments e_checksig {T}.
Arguments e_entrust {T}. Arguments e_host {T}. Arguments e_sysroots {T}. Arguments e_othersig {T}. Arguments e_md5sha1 {T}. Arguments e_onSM2 {T}. Arguments e_ecdh {T}. Arguments e_fuel {T}.
(** what config.rand() delivers to each caller (None: the reader failed) *)
Record rnds := mkRnd { r_hello : option (list Z); r_sign : option (list Z); r_iv : option (list Z); r_pms : option (list Z); r_enc : option (list Z); r_sid : option (list Z) }.

(** x509 verification: certs[0].Verify(opts); None is an error.  One more unit of fuel than intermediates suffices (C38). *)
Definition x509_verify {T} (E : env T) (o : X509_model.options) (c : gcert T) : option (list (list cert)) :=
  match X509_model.Verify (e_checksig E) (e_entrust E) (S (length (match X509_model.o_inter o with Some p => X509_model.certs p | None => [] end)))
                          (e_host E (g_cert c) (X509_model.o_dns o)) o (g_cert c) with
  | Some (Some chains) => Some chains
  | _ => None
  end.
Fixpoint parse_all {T} (E : env T) (ders : list (list Z)) : option (list (gcert T)) :=
  match ders with
  | [] => Some []
  | d :: ders => match e_parse E d with None => None | Some c => match parse_all E ders with None => None | Some cs => Some (c :: cs) end end
  end.

(** ** auth.go *)
Definition signatureRSAPSS : Z := 18. Definition signatureSM2 : Z := 19.
(** common.go:142-151 *)
Definition supportedSignatureAlgorithms : list Z := [0x0401; 0x0403; 0x0501; 0x0503; 0x0601; 0x0603; 0x0201; 0x0203].
(** common.go:975-986 *)
Definition signatureFromScheme (a : Z) : Z :=
  if existsb (Z.eqb a) [0x0201; 0x0401; 0x0501; 0x0601] then signaturePKCS1v15
  else if existsb (Z.eqb a) [0x0804; 0x0805; 0x0806] then signatureRSAPSS
  else if existsb (Z.eqb a) [0x0203; 0x0403; 0x0503; 0x0603] then signatureECDSA else 0.
(** auth.go:25-74 pickSignatureAlgorithm with peerSigAlgs = [alg]: the signature type (the hash is not used under GMSSL, see prf.go:322-352).
    A key that is none of the three kinds cannot reach the loop with a supported algorithm: it fails either way. *)
Definition pickSignatureType {T} (pub : pubk T) (alg vers : Z) : option Z :=
  if vers <? VersionTLS12 then
    match pub with PkRSA _ => Some signaturePKCS1v15 | PkECDSA _ => Some signatureECDSA | PkSM2 _ => Some signatureSM2 | PkOther => None end
  else if negb (existsb (Z.eqb alg) supportedSignatureAlgorithms) then None
  else
    let sigType := signatureFromScheme alg in
    match pub with
    | PkRSA _ => if (sigType =? signaturePKCS1v15) || (sigType =? signatureRSAPSS) then Some sigType else None
    | PkECDSA _ | PkSM2 _ => if sigType =? signatureECDSA then Some sigType else None
    | PkOther => None
    end.
(** auth.go:78-124 verifyHandshakeSignature: the type must fit the key *)
Definition verifyHandshakeSignature {T} (E : env T) (sigType : Z) (pub : pubk T) (digest sig : list Z) : res bool :=
  if sigType =? signatureECDSA then Ok (match pub with PkECDSA _ => e_othersig E sigType pub digest sig | _ => false end)
  else if (sigType =? signaturePKCS1v15) || (sigType =? signatureRSAPSS) then Ok (match pub with PkRSA _ => e_othersig E sigType pub digest sig | _ => false end)
  else if sigType =? signatureSM2 then match pub with PkSM2 p => PubVerify (e_cv E) p digest sig | _ => Ok false end
  else Ok false.

(** ** Key agreement.  Suites: GMTLS_SM2_WITH_SM4_SM3 (eccKeyAgreementGM) and GMTLS_ECDHE_SM2_WITH_SM4_SM3 (ecdheKeyAgreementGM) *)
Definition ECC : Z := 0xe013. Definition ECDHE : Z := 0xe011.
(** gm_key_agreement.go:69-70, 311-338 *)
Definition ka_generateSKX {T} (E : env T) (s : suite) (draw : option (list Z)) (signCert cipherCert : certificate T) (cr sr : list Z) : hres (list Z) :=
  if su_id s =? ECC then of_res (generateServerKeyExchange (e_cv E) draw (ce_key signCert) (ce_chain cipherCert) cr sr)
  else HPanic.                                              (* panic("") *)
(** gm_key_agreement.go:165-166, 340-366 *)
Definition ka_processCKX {T} (E : env T) (s : suite) (cipherCert : certificate T) (ct : list Z) : hres (list Z) :=
  if su_id s =? ECC then of_res (processClientKeyExchange (e_cv E) (ce_key cipherCert) ct)
  else HPanic.                                              (* panic("") *)
(** gm_key_agreement.go:197-240 ecdheKeyAgreementGM.processServerKeyExchange with ka.version = VersionGMSSL: the curve id.
    The error of pickSignatureAlgorithm is overwritten, so for an unsupported key the signature type is 0 and verification fails. *)
Definition ecdhe_processSKX {T} (E : env T) (cr sr : list Z) (pub : pubk T) (key : list Z) : res Z :=
  match key with
  | k0 :: k1 :: k2 :: k3 :: _ =>
      if negb (k0 =? 3) then Err eCurve
      else if zlen key <? k3 + 4 then Err errServerKeyExchange
      else
        let params := firstn (Z.to_nat (4 + k3)) key in
        let sig := skipn (Z.to_nat (4 + k3)) key in
        match sig with
        | s0 :: s1 :: sig' =>
            if negb (e_onSM2 E (skipn 4 params)) then Err errServerKeyExchange
            else if negb (256 * s0 + s1 + 2 =? zlen sig) then Err errServerKeyExchange
            else
              let sigType := match pickSignatureType pub 0 VersionGMSSL with Some t => t | None => 0 end in
              let digest := e_md5sha1 E (cr ++ sr ++ params) in        (* an ECDSA key would use SHA-1: the GM client only takes SM2 certificates *)
              do ok <- verifyHandshakeSignature E sigType pub digest sig';
              if ok then Ok (256 * k1 + k2) else Err eSignature
        | _ => Err errServerKeyExchange
        end
  | _ => Err errServerKeyExchange
  end.
(** the client's key agreement state: ka.curveid after processServerKeyExchange (0 before) *)
Definition ka_processSKX {T} (E : env T) (s : suite) (cr sr : list Z) (certs : list (gcert T)) (key : list Z) : res Z :=
  match certs with
  | c0 :: c1 :: _ =>
      if su_id s =? ECC then
        do _ <- processServerKeyExchange (e_cv E) cr sr (raw (g_cert c1)) (match g_pub c0 with PkSM2 p => Some p | _ => None end) key; Ok 0
      else ecdhe_processSKX E cr sr (g_pub c0) key
  | _ => Panic                                             (* peerCertificates[1] *)
  end.
(** gm_key_agreement.go:242-289 and 408-430 generateClientKeyExchange: preMasterSecret, ckx.ciphertext *)
Definition ka_generateCKX {T} (E : env T) (s : suite) (curveid vers : Z) (rn : rnds) (certs : list (gcert T)) : hres (list Z * list Z) :=
  match certs with
  | _ :: c1 :: _ =>
      if su_id s =? ECC then
        match g_pub c1 with
        | PkSM2 p => match generateClientKeyExchange (e_cv E) (e_fuel E) (r_pms rn) (r_enc rn) vers p with Some r => of_res r | None => HLoop end
        | _ => HPanic                                      (* type assertion *)
        end
      else if curveid =? 0 then HErr eCurve
      else if (curveid =? 29) || (curveid =? 23) || (curveid =? 24) || (curveid =? 25) then
        match e_ecdh E curveid with
        | HOk (pms, ser) => HOk (pms, u8 (zlen ser) :: ser)
        | r => match r with HErr e => HErr e | HPanic => HPanic | _ => HLoop end
        end
      else HPanic                                          (* panic("internal error") *)
  | _ => HPanic
  end.

(** keysFromMasterSecret for the GM suites (macLen 32, keyLen 16, ivLen 16: gm_support.go:119-122) *)
Definition gm_keys (L : stdlib) (vers : Z) (master cr sr : list Z) : hres keyblock :=
  match keysFromMasterSecret L vers false master cr sr 32 16 16 with
  | Ok (cm, sm, ck, sk, ci, si) => HOk (mkKB cm sm ck sk ci si)
  | Err e => HErr e | Panic => HPanic
  end.

(** ** What a completed handshake leaves in the Conn *)
Record hresult (T : Type) := mkHR { hr_vers : Z; hr_suite : Z; hr_master : list Z; hr_clientRandom : list Z; hr_serverRandom : list Z;
  hr_peer : list (gcert T); hr_chains : list (list cert); hr_resumed : bool; hr_proto : list Z; hr_serverName : list Z;
  hr_clientFinished : list Z; hr_serverFinished : list Z }.
Arguments mkHR {T}. Arguments hr_vers {T}. Arguments hr_suite {T}. Arguments hr_master {T}. Arguments hr_clientRandom {T}. Arguments hr_serverRandom {T}.
Arguments hr_peer {T}. Arguments hr_chains {T}. Arguments hr_resumed {T}. Arguments hr_proto {T}. Arguments hr_serverName {T}. Arguments hr_clientFinished {T}. Arguments hr_serverFinished {T}.

(** ** Server *)
Section Server.
Context {T : Type} (E : env T) (C : chan).

(** gm_handshake_server_double.go:110-246 readClientHello, up to checkForResumption.  [getcfg] = Config.GetConfigForClient *)
Record shs := mkShs { ss_cfg : config T; ss_v : Z; ss_ch : clientHello; ss_chraw : list Z; ss_sh : serverHello; ss_proto : list Z; ss_c0 : certificate T; ss_c1 : certificate T }.
Definition server_hello (cfg : config T) (getcfg : option (clientHello -> res (option (config T)))) (rn : rnds) : M C shs :=
  let! mr := readHandshake 0 in
  let '(msg, raw) := mr in
  match msg with
  | MClientHello ch =>
      let! cfg := match getcfg with
              | None => ret cfg
              | Some f => let! r := orfail alertInternalError (of_res (f ch)) in ret (match r with Some c => c | None => cfg end)
              end in
      match mutualVersion (cf_min cfg) (cf_max cfg) (ch_vers ch) with
      | None => fail_with alertProtocolVersion eVersion
      | Some v =>
          setvers v true;;;
          if negb (existsb (Z.eqb 0) (ch_comp ch)) then fail_with alertHandshakeFailure eCompression
          else match r_hello rn with
          | None => fail_with alertInternalError eRand
          | Some random =>
              if 0 <? zlen (ch_reneg ch) then fail_with alertHandshakeFailure eRenegotiation
              else
                let! alpn := (if 0 <? zlen (ch_alpn ch) then
                            let! sf := lift (of_res (mutualProtocol (ch_alpn ch) (cf_protos cfg))) in
                            ret (if snd sf then [] else fst sf)
                          else ret []) in
                let npn := negb (0 <? zlen (ch_alpn ch)) && ch_npn ch && (0 <? zlen (cf_protos cfg)) in
                match cf_certs cfg with
                | c0 :: c1 :: _ =>
                    let sh := mkSH v random [] 0 0 npn (if npn then cf_protos cfg else []) false (if ch_scts ch then ce_scts c0 else [])
                                   false [] (ch_renegOn ch) alpn in
                    ret (mkShs cfg v ch raw sh alpn c0 c1)
                | _ => fail_with alertInternalError eCertCount
                end
          end
      end
  | _ => unexpected
  end.

(** gm_handshake_server_double.go:249-295 checkForResumption *)
Definition checkForResumption (h : shs) : option (sessionState * suite) :=
  let cfg := ss_cfg h in
  if cf_noTickets cfg then None
  else match decryptTicket (e_aes E) (e_sha256 E) (cf_noTickets cfg) (cf_keys cfg) (ch_ticket (ss_ch h)) with
  | None => None
  | Some st =>
      if negb (ss_v h =? ss_vers st) then None
      else if negb (existsb (Z.eqb (ss_cipherSuite st)) (ch_suites (ss_ch h))) then None
      else match set_suite gmCipherSuites (gm_suite_ok (ss_vers st)) (ss_cipherSuite st) (cfg_cipherSuites (cf_suites cfg)) with
      | None => None
      | Some su =>
          let hasCerts := negb (zlen (ss_certificates st) =? 0) in
          let need := (cf_auth cfg =? RequireAnyClientCert) || (cf_auth cfg =? RequireAndVerifyClientCert) in
          if need && negb hasCerts then None
          else if hasCerts && (cf_auth cfg =? NoClientCert) then None
          else Some (st, su)
      end
  end.
(** gm_handshake_server_double.go:213-246: the cipher suite *)
Definition server_suite (h : shs) : M C suite :=
  match negotiate_suite gmCipherSuites (gm_suite_ok (ss_v h)) (cf_prefer (ss_cfg h)) (getCipherSuites (cf_suites (ss_cfg h))) (ch_suites (ss_ch h)) with
  | None => fail_with alertHandshakeFailure eNoSuite
  | Some su => if bad_fallback (ch_suites (ss_ch h)) (ch_vers (ss_ch h)) (maxVersion (cf_max (ss_cfg h))) then fail_with alertInappropriateFallback eFallback
               else ret su
  end.

(** gm_handshake_server_double.go:627-688 processCertsFromClient: the public key of the leaf, the certificates, the chains *)
Definition processCertsFromClient (cfg : config T) (ders : list (list Z)) : M C (option (pubk T) * list (gcert T) * list (list cert)) :=
  match parse_all E ders with
  | None => fail_with alertBadCertificate eBadCert
  | Some certs =>
      let! chains := match certs with
                 | c0 :: rest =>
                     if VerifyClientCertIfGiven <=? cf_auth cfg then
                       match (match cf_clientCAs cfg with Some p => Some p | None => e_sysroots E end) with
                       | None => fail_with alertBadCertificate eBadCert
                       | Some roots =>
                           let inter := fold_left X509_model.AddCert (map g_cert rest) X509_model.NewCertPool in
                           match x509_verify E (X509_model.mkOpts [] (cf_time cfg) (Some inter) roots [2]) c0 with   (* ExtKeyUsageClientAuth *)
                           | None => fail_with alertBadCertificate eBadCert
                           | Some chains => ret chains
                           end
                       end
                     else ret []
                 | [] => ret []
                 end in
      match (match cf_verifyPeer cfg with Some f => f ders chains | None => None end) with
      | Some e => fail_with alertBadCertificate e
      | None =>
          match certs with
          | [] => ret (None, [], chains)
          | c0 :: _ => match g_pub c0 with
                       | PkOther => fail_with alertUnsupportedCertificate eUnsupportedKey
                       | pub => ret (Some pub, certs, chains)
                       end
          end
      end
  end.

Definition wr (h : finishedHash) (msg : list Z) : M C finishedHash := lift (of_res (fh_Write h msg)).
Definition enc (r : res (list Z)) : M C (list Z) := lift (of_res r).
(** write a handshake message into the transcript and send it *)
Definition emit (h : finishedHash) (r : res (list Z)) : M C finishedHash :=
  let! msg := enc r in let! h := wr h msg in send msg;;; ret h.

(** gm_handshake_server_double.go:325-514 doFullHandshake: the ServerHello sent, transcript, master secret, client certificates *)
Record sfull := mkSF { sf_sh : serverHello; sf_h : finishedHash; sf_master : list Z; sf_ders : list (list Z); sf_certs : list (gcert T); sf_chains : list (list cert) }.
Definition server_full (hs : shs) (su : suite) (rn : rnds) : M C sfull :=
  let cfg := ss_cfg hs in let ch := ss_ch hs in let vers := ss_v hs in
  let ocsp := ch_ocsp ch && (0 <? zlen (ce_ocsp (ss_c0 hs))) in
  let sh := set_sh_suite (set_sh_ticketOn (set_sh_ocsp (ss_sh hs) ocsp) (ch_ticketOn ch && negb (cf_noTickets cfg))) (su_id su) in
  let! h := lift (of_res newFinishedHashGM) in
  let h := if cf_auth cfg =? NoClientCert then discardHandshakeBuffer h else h in
  let! h := wr h (ss_chraw hs) in
  let! h := emit h (m_serverHello sh) in
  let! h := emit h (m_certificate (concat (map ce_chain (cf_certs cfg)))) in
  let! h := (if ocsp then emit h (m_certificateStatus (1, ce_ocsp (ss_c0 hs))) else ret h) in
  let! key := orfail alertHandshakeFailure (ka_generateSKX E su (r_sign rn) (ss_c0 hs) (ss_c1 hs) (ch_random ch) (sh_random sh)) in
  let! h := emit h (m_serverKeyExchange key) in
  let! h := (if RequestClientCert <=? cf_auth cfg then
           emit h (m_certificateRequestGM [1; 64] (match cf_clientCAs cfg with Some p => X509_model.Subjects p | None => [] end))
         else ret h) in
  let! h := emit h (Ok m_serverHelloDone) in
  let! mr := readHandshake vers in
  let! r := (if RequestClientCert <=? cf_auth cfg then
           match fst mr with
           | MCertificate ders =>
               let! h := wr h (snd mr) in
               (if (zlen ders =? 0) && ((cf_auth cfg =? RequireAnyClientCert) || (cf_auth cfg =? RequireAndVerifyClientCert))
                then fail_with alertBadCertificate eNoClientCert
                else
                  let! p := processCertsFromClient cfg ders in
                  let! mr := readHandshake vers in
                  ret (h, mr, ders, p))
           | _ => unexpected
           end
         else ret (h, mr, [], (None, [], []))) in
  let '(h, mr, ders, (pub, certs, chains)) := r in
  match fst mr with
  | MClientKeyExchange ct =>
      let! h := wr h (snd mr) in
      let! pms := orfail alertHandshakeFailure (ka_processCKX E su (ss_c1 hs) ct) in
      let! master := lift (of_res (masterFromPreMasterSecret (e_std E) vers false pms (ch_random ch) (sh_random sh))) in
      match cf_keylog cfg (ch_random ch) master with
      | Some e => fail_with alertInternalError e
      | None =>
          let! h := (match certs with
                 | [] => ret h
                 | _ =>
                     let! mr := readHandshake vers in
                     match fst mr with
                     | MCertificateVerify alg sig =>
                         match pickSignatureType (match pub with Some p => p | None => PkOther end) alg vers with
                         | None => fail_with alertIllegalParameter eSigAlg
                         | Some sigType =>
                             match hashForClientCertificate (e_std E) h sigType (std_sha1 (e_std E)) master with
                             | Ok (digest, h) =>
                                 let! ok := lift (of_res (verifyHandshakeSignature E sigType (match pub with Some p => p | None => PkOther end) digest sig)) in
                                 if ok then wr h (snd mr) else fail_with alertBadCertificate eSignature
                             | Err _ => fail_with alertBadCertificate eSignature
                             | Panic => panic
                             end
                         end
                     | _ => unexpected
                     end
                 end) in
          ret (mkSF sh (discardHandshakeBuffer h) master ders certs chains)
      end
  | _ => unexpected
  end.

(** gm_handshake_server_double.go:516-541 establishKeys *)
Definition server_keys (vers : Z) (master cr sr : list Z) : M C unit :=
  let! k := lift (gm_keys (e_std E) vers master cr sr) in setkeys false vers k.
(** gm_handshake_server_double.go:543-586 readFinished: transcript, the client's verify data, the protocol of a NextProtocol message *)
Definition server_readFinished (vers : Z) (npn : bool) (h : finishedHash) (master : list Z) : M C (finishedHash * list Z * option (list Z)) :=
  recv_ccs;;;
  let! hp := (if npn then
            let! mr := readHandshake vers in
            match fst mr with MNextProto p => let! h := wr h (snd mr) in ret (h, Some p) | _ => unexpected end
          else ret (h, None)) in
  let '(h, proto) := hp in
  let! mr := readHandshake vers in
  match fst mr with
  | MFinished vd =>
      let! vh := lift (of_res (clientSum h master)) in
      let '(verify, h) := vh in
      if beqb verify vd then let! h := wr h (snd mr) in ret (h, verify, proto)
      else fail_with alertHandshakeFailure eFinished
  | _ => unexpected
  end.
(** gm_handshake_server_double.go:588-613 sendSessionTicket *)
Definition sendSessionTicket (cfg : config T) (rn : rnds) (on : bool) (vers id : Z) (master : list Z) (ders : list (list Z)) (h : finishedHash) : M C finishedHash :=
  if negb on then ret h
  else
    let! t := lift (of_res (encryptTicket (e_aes E) (e_sha256 E) (r_iv rn) (cf_keys cfg) (mkSS vers id master ders false))) in
    emit h (m_newSessionTicket t).
(** gm_handshake_server_double.go:615-633 sendFinished *)
Definition server_sendFinished (h : finishedHash) (master : list Z) : M C (finishedHash * list Z) :=
  send_ccs;;;
  let! vh := lift (of_res (serverSum h master)) in
  let '(vd, h) := vh in
  let! h := emit h (m_finished vd) in ret (h, vd).
(** gm_handshake_server_double.go:297-323 doResumeHandshake.  The transcript is hashed with newFinishedHash(c.vers), as in the code. *)
Definition server_resume (hs : shs) (st : sessionState) (su : suite) : M C (serverHello * finishedHash * list (gcert T) * list (list cert)) :=
  let sh := set_sh_suite (set_sh_ticketOn (set_sh_sessionId (ss_sh hs) (ch_sessionId (ss_ch hs))) (ss_usedOldKey st)) (su_id su) in
  let! h := lift (of_res (newFinishedHash (e_std E) (ss_v hs) false)) in
  let! h := wr (discardHandshakeBuffer h) (ss_chraw hs) in
  let! h := emit h (m_serverHello sh) in
  if 0 <? zlen (ss_certificates st) then
    let! p := processCertsFromClient (ss_cfg hs) (ss_certificates st) in
    let '(_, certs, chains) := p in ret (sh, h, certs, chains)
  else ret (sh, h, [], []).

(** gm_handshake_server_double.go:38-106 serverHandshakeGM.  c.serverFinished after a full handshake stays zero (sendFinished(nil)),
    and so does c.clientFinished after a resumed one (readFinished(nil)). *)
Definition serverHandshakeGM (cfg : config T) (getcfg : option (clientHello -> res (option (config T)))) (rn : rnds) : M C (hresult T) :=
  let! hs := server_hello cfg getcfg rn in
  let ch := ss_ch hs in let vers := ss_v hs in
  match checkForResumption hs with
  | Some (st, su) =>
      let! r := server_resume hs st su in
      let '(sh, h, certs, chains) := r in
      let master := ss_masterSecret st in
      server_keys vers master (ch_random ch) (sh_random sh);;;
      (* certsFromClient is hs.sessionState.certificates when there are any *)
      let! h := sendSessionTicket (ss_cfg hs) rn (sh_ticketOn sh) vers (su_id su) master (ss_certificates st) h in
      let! hv := server_sendFinished h master in
      let '(h, sfin) := hv in
      let! f := server_readFinished vers (sh_npn sh) h master in
      let '(_, _, proto) := f in
      ret (mkHR vers (su_id su) master (ch_random ch) (sh_random sh) certs chains true
                (match proto with Some p => p | None => ss_proto hs end) (ch_sni ch) (zeros 12) sfin)
  | None =>
      let! su := server_suite hs in
      let! f := server_full hs su rn in
      let sh := sf_sh f in
      server_keys vers (sf_master f) (ch_random ch) (sh_random sh);;;
      let! r := server_readFinished vers (sh_npn sh) (sf_h f) (sf_master f) in
      let '(h, cfin, proto) := r in
      let! h := sendSessionTicket (ss_cfg hs) rn (sh_ticketOn sh) vers (su_id su) (sf_master f) (sf_ders f) h in
      server_sendFinished h (sf_master f);;;
      ret (mkHR vers (su_id su) (sf_master f) (ch_random ch) (sh_random sh) (sf_certs f) (sf_chains f) false
                (match proto with Some p => p | None => ss_proto hs end) (ch_sni ch) cfin (zeros 12))
  end.
End Server.
Arguments server_hello {T C}. Arguments server_full {T} E {C}. Arguments server_suite {T C}. Arguments wr {C}. Arguments enc {C}. Arguments emit {C}.
Arguments serverHandshakeGM {T} E C. Arguments processCertsFromClient {T} E {C}.

(** ** Client *)
(** ClientSessionState, common.go:264-273 *)
Record csession (T : Type) := mkCSess { cs_ticket : list Z; cs_vers : Z; cs_suite : Z; cs_master : list Z; cs_certs : list (gcert T); cs_chains : list (list cert) }.
Arguments mkCSess {T}. Arguments cs_ticket {T}. Arguments cs_vers {T}. Arguments cs_suite {T}. Arguments cs_master {T}. Arguments cs_certs {T}. Arguments cs_chains {T}.
Section Client.
Context {T : Type} (E : env T) (C : chan).

(** gm_handshake_client_double.go:33-62 makeClientHelloGM *)
Definition makeClientHelloGM (cfg : config T) (rn : rnds) : res clientHello :=
  if (zlen (cf_serverName cfg) =? 0) && negb (cf_skip cfg) then Err eConfig
  else
    let suites := filter (fun id => existsb (fun s => su_id s =? id) gmCipherSuites) (getCipherSuites (cf_suites cfg)) in
    match r_hello rn with
    | None => Err eRand
    | Some random => Ok (mkCH VersionGMSSL random [] suites [0] false [] false false [] [] false [] [] [] false [])
    end.
(** handshake_client.go:123-166: the session to offer.  [cache]: None = no ClientSessionCache or tickets disabled, Some = result of Get *)
Definition offered_session (cfg : config T) (cache : option (option (csession T))) (hello : clientHello) : option (csession T) :=
  match cache with
  | Some (Some s) =>
      if existsb (Z.eqb (cs_suite s)) (ch_suites hello) && (minVersion (cf_min cfg) <=? cs_vers s) && (cs_vers s <=? maxVersion (cf_max cfg))
      then Some s else None
  | _ => None
  end.
Definition complete_hello (cfg : config T) (cache : option (option (csession T))) (rn : rnds) (hello : clientHello) : res (clientHello * option (csession T)) :=
  let hello := match cache with None => hello | Some _ => set_ch_ticketOn hello true end in
  match offered_session cfg cache hello with
  | None => Ok (hello, None)
  | Some s => match r_sid rn with
              | None => Err eRand
              | Some sid => Ok (set_ch_sessionId (set_ch_ticket hello (cs_ticket s)) sid, Some s)
              end
  end.

(** gm_handshake_client_double.go:407-482 processServerHello: the session that is resumed, if any.  The client never offers NPN or ALPN. *)
Definition processServerHello (hello : clientHello) (sh : serverHello) (su : suite) (session : option (csession T)) : M C (option (csession T)) :=
  if negb (sh_comp sh =? 0) then fail_with alertUnexpectedMessage eCompression
  else if sh_renegOn sh && negb (zlen (sh_reneg sh) =? 0) then fail_with alertHandshakeFailure eRenegotiation
  else if negb (ch_npn hello) && sh_npn sh then fail_with alertHandshakeFailure eExtension
  else if negb (0 <? zlen (ch_alpn hello)) && (0 <? zlen (sh_alpn sh)) then fail_with alertHandshakeFailure eExtension
  else if sh_npn sh && (0 <? zlen (sh_alpn sh)) then fail_with alertHandshakeFailure eExtension
  else match session with
  | None => ret None
  | Some s =>
      if negb (beqb (sh_sessionId sh) (ch_sessionId hello)) then ret None       (* hello.sessionId is non-nil when a session is offered *)
      else if negb (cs_vers s =? VersionGMSSL) then fail_with alertHandshakeFailure eSession
      else if negb (cs_suite s =? su_id su) then fail_with alertHandshakeFailure eSession
      else ret (Some s)
  end.

(** x509.go:596-606 *)
Definition KeyUsageDigitalSignature : Z := 1. Definition KeyUsageContentCommitment : Z := 2. Definition KeyUsageKeyEncipherment : Z := 4.
Definition KeyUsageDataEncipherment : Z := 8. Definition KeyUsageKeyAgreement : Z := 16.
(** gm_handshake_client_double.go:201-231: parse each certificate, require an SM2 key and, for the first two, the key usage *)
Fixpoint check_certs (i : nat) (ders : list (list Z)) : M C (list (gcert T)) :=
  match ders with
  | [] => ret []
  | d :: ders =>
      match e_parse E d with
      | None => fail_with alertBadCertificate eBadCert
      | Some c =>
          match g_pub c with
          | PkSM2 _ =>
              let ku := keyUsage (g_cert c) in
              if (i =? 0)%nat && ((ku =? 0) || (Z.land ku (Z.lor KeyUsageDigitalSignature (Z.land ku KeyUsageContentCommitment)) =? 0))
              then fail_with alertInsufficientSecurity eKeyUsage
              else if (i =? 1)%nat && ((ku =? 0) || (Z.land ku (Z.lor (Z.lor KeyUsageDataEncipherment KeyUsageKeyEncipherment) KeyUsageKeyAgreement) =? 0))
              then fail_with alertInsufficientSecurity eKeyUsage
              else let! cs := check_certs (i + 1) ders in ret (c :: cs)
          | _ => fail_with alertUnsupportedCertificate eKeyType
          end
      end
  end.
(** gm_handshake_client_double.go:233-262: every certificate is verified; the third and later ones then become intermediates for the ones after.
    c.verifiedChains keeps the chains of the last one. *)
Fixpoint verify_certs (cfg : config T) (roots : X509_model.pool) (i : nat) (inter : X509_model.pool) (cs : list (gcert T)) (chains : list (list cert)) : M C (list (list cert)) :=
  match cs with
  | [] => ret chains
  | c :: cs =>
      match x509_verify E (X509_model.mkOpts (cf_serverName cfg) (cf_time cfg) (Some inter) roots []) c with
      | None => fail_with alertBadCertificate eBadCert
      | Some chains => verify_certs cfg roots (i + 1) (if (i <? 2)%nat then inter else X509_model.AddCert inter (g_cert c)) cs chains
      end
  end.
Definition client_roots (cfg : config T) : X509_model.pool := match cf_rootCAs cfg with Some p => p | None => X509_model.NewCertPool end.

(** gm_handshake_client_double.go:577-642 getCertificate; None = nil pointer *)
Fixpoint chain_matches (leaf : option (gcert T)) (j : nat) (cas : list (list Z)) (ders : list (list Z)) : res bool :=
  match ders with
  | [] => Ok false
  | d :: ders =>
      match (if (j =? 0)%nat then match leaf with Some l => Some l | None => e_parse E d end else e_parse E d) with
      | None => Err eBadCert
      | Some x =>
          if negb (g_sm2alg x) then Ok false                (* continue findCert *)
          else match cas with
          | [] => Ok true
          | _ => if existsb (beqb (rawIssuer (g_cert x))) cas then Ok true else chain_matches leaf (j + 1) cas ders
          end
      end
  end.
Fixpoint find_chain (cas : list (list Z)) (certs : list (certificate T)) : res (certificate T) :=
  match certs with
  | [] => Ok (mkCE [] None None [] [])
  | ce :: certs => do b <- chain_matches (ce_leaf ce) 0 cas (ce_chain ce); if b then Ok ce else find_chain cas certs
  end.
(** on an error the caller (line 313) sends the alert as well, so a certificate that does not parse is announced twice *)
Definition client_getCertificate (cfg : config T) (cas : list (list Z)) : M C (option (certificate T)) :=
  match cf_getClientCert cfg with
  | Some f => orfail alertInternalError (of_res (f cas))
  | None => match find_chain cas (cf_certs cfg) with
            | Ok c => ret (Some c)
            | Err e => alert alertInternalError;;; fail_with alertInternalError e
            | Panic => panic
            end
  end.
(** the type switch on certs[0].PublicKey (lines 271-277) accepts every SM2 key *)
Record cfull := mkCF { cf_h : finishedHash; cf_master : list Z; cf_peer : list (gcert T); cf_chains : list (list cert) }.
(** gm_handshake_client_double.go:161-379 doFullHandshake *)
Definition client_full (cfg : config T) (rn : rnds) (hello : clientHello) (sh : serverHello) (su : suite) (h : finishedHash) : M C cfull :=
  let! mr := readHandshake VersionGMSSL in
  match fst mr with
  | MCertificate ders =>
      if zlen ders =? 0 then unexpected
      else if zlen ders <? 2 then fail_with alertInsufficientSecurity eCertCount
      else
        let! h := wr h (snd mr) in
        let! certs := check_certs 0 ders in
        let! chains := (if cf_skip cfg then ret [] else verify_certs cfg (client_roots cfg) 0 X509_model.NewCertPool certs []) in
        match (match cf_verifyPeer cfg with Some f => f ders chains | None => None end) with
        | Some e => fail_with alertBadCertificate e
        | None =>
            let! mr := readHandshake VersionGMSSL in
            let! r := match fst mr with
                      | MServerKeyExchange key =>
                          let! h := wr h (snd mr) in
                          let! curveid := orfail alertUnexpectedMessage (of_res (ka_processSKX E su (ch_random hello) (sh_random sh) certs key)) in
                          let! mr := readHandshake VersionGMSSL in
                          ret (h, curveid, mr)
                      | _ => ret (h, 0, mr)
                      end in
            let '(h, curveid, mr) := r in
            let! r := match fst mr with
                      | MCertificateRequest cr =>
                          let! h := wr h (snd mr) in
                          let! chain := client_getCertificate cfg (cr_cas cr) in
                          let! mr := readHandshake VersionGMSSL in
                          ret (h, true, chain, mr)
                      | _ => ret (h, false, None, mr)
                      end in
            let '(h, requested, chain, mr) := r in
            match fst mr with
            | MServerHelloDone =>
                let! h := wr h (snd mr) in
                let! h := (if requested then
                             match chain with
                             | None => panic                       (* chainToSend.Certificate *)
                             | Some c => emit h (m_certificate (ce_chain c))
                             end
                           else ret h) in
                let! k := orfail alertInternalError (ka_generateCKX E su curveid (ch_vers hello) rn certs) in
                let '(pms, ct) := k in
                let! h := emit h (m_clientKeyExchange ct) in
                let! h := match chain with
                          | Some c =>
                              match ce_chain c with
                              | [] => ret h
                              | _ =>
                                  match ce_key c with
                                  | None => fail_with alertInternalError eKeyType
                                  | Some key =>
                                      let! d := lift (of_res (o_sum (fh_client h) [])) in
                                      let '(digest, oc) := d in
                                      let h := mkFH oc (fh_server h) (fh_clientMD5 h) (fh_serverMD5 h) (fh_buffer h) (fh_version h) (fh_prf h) in
                                      let! sig := orfail alertInternalError (of_res (PrivSign (e_cv E) (r_sign rn) key digest)) in
                                      emit h (m_certificateVerify false (0, sig))
                                  end
                              end
                          | None => ret h
                          end in
                let! master := lift (of_res (masterFromPreMasterSecret (e_std E) VersionGMSSL false pms (ch_random hello) (sh_random sh))) in
                match cf_keylog cfg (ch_random hello) master with
                | Some e => fail_with alertInternalError e
                | None => ret (mkCF (discardHandshakeBuffer h) master certs chains)
                end
            | _ => unexpected
            end
        end
  | _ => unexpected
  end.

(** gm_handshake_client_double.go:381-402 establishKeys *)
Definition client_keys (master cr sr : list Z) : M C unit :=
  let! k := lift (gm_keys (e_std E) VersionGMSSL master cr sr) in setkeys true VersionGMSSL k.
(** gm_handshake_client_double.go:545-573 sendFinished *)
Definition client_sendFinished (cfg : config T) (sh : serverHello) (h : finishedHash) (master : list Z) : M C (finishedHash * list Z * option (list Z)) :=
  send_ccs;;;
  let! hp := (if sh_npn sh then
                let! sf := lift (of_res (mutualProtocol (cf_protos cfg) (sh_protos sh))) in
                let! h := emit h (m_nextProto (fst sf)) in ret (h, Some (fst sf))
              else ret (h, None)) in
  let '(h, proto) := hp in
  let! vh := lift (of_res (clientSum h master)) in
  let '(vd, h) := vh in
  let! h := emit h (m_finished vd) in ret (h, vd, proto).
(** gm_handshake_client_double.go:516-543 readSessionTicket: the new session *)
Definition readSessionTicket (sh : serverHello) (su : suite) (master : list Z) (peer : list (gcert T)) (chains : list (list cert)) (h : finishedHash) : M C (finishedHash * option (csession T)) :=
  if negb (sh_ticketOn sh) then ret (h, None)
  else
    let! mr := readHandshake VersionGMSSL in
    match fst mr with
    | MNewSessionTicket t => let! h := wr h (snd mr) in ret (h, Some (mkCSess t VersionGMSSL (su_id su) master peer chains))
    | _ => unexpected
    end.
(** gm_handshake_client_double.go:484-514 readFinished *)
Definition client_readFinished (h : finishedHash) (master : list Z) : M C (finishedHash * list Z) :=
  recv_ccs;;;
  let! mr := readHandshake VersionGMSSL in
  match fst mr with
  | MFinished vd =>
      let! vh := lift (of_res (serverSum h master)) in
      let '(verify, h) := vh in
      if beqb verify vd then let! h := wr h (snd mr) in ret (h, verify)
      else fail_with alertHandshakeFailure eFinished
  | _ => unexpected
  end.

(** clientHandshake (handshake_client.go:95-187) on the GM path and clientHandshakeStateGM.handshake (gm_handshake_client_double.go:66-149):
    the connection's state and the session to put into the cache *)
Definition clientHandshakeGM (cfg : config T) (cache : option (option (csession T))) (rn : rnds) : M C (hresult T * option (csession T)) :=
  setvers VersionGMSSL false;;;
  let! hello := lift (of_res (makeClientHelloGM cfg rn)) in
  let! hc := lift (of_res (complete_hello cfg cache rn hello)) in
  let '(hello, session) := hc in
  let! chraw := enc (m_clientHello hello) in
  send chraw;;;
  let! mr := readHandshake VersionGMSSL in
  match fst mr with
  | MServerHello sh =>
      if negb (sh_vers sh =? VersionGMSSL) then fail_with alertProtocolVersion eVersion
      else match mutualCipherSuiteGM (ch_suites hello) (sh_suite sh) with
      | None => fail_with alertHandshakeFailure eNoSuite
      | Some su =>
          let! resumed := processServerHello hello sh su session in
          let! h := lift (of_res newFinishedHashGM) in
          let nocerts := match cf_certs cfg, cf_getClientCert cfg with [], None => true | _, _ => false end in
          let h := if (match resumed with Some _ => true | None => false end) || nocerts then discardHandshakeBuffer h else h in
          let! h := wr h chraw in
          let! h := wr h (snd mr) in
          match resumed with
          | Some s =>
              let master := cs_master s in
              client_keys master (ch_random hello) (sh_random sh);;;
              let! ht := readSessionTicket sh su master (cs_certs s) (cs_chains s) h in
              let '(h, ns) := ht in
              let! hv := client_readFinished h master in
              let '(h, sfin) := hv in
              let! hf := client_sendFinished cfg sh h master in
              let '(_, cfin, proto) := hf in
              ret (mkHR VersionGMSSL (su_id su) master (ch_random hello) (sh_random sh) (cs_certs s) (cs_chains s) true
                        (match proto with Some p => p | None => sh_alpn sh end) [] cfin sfin, match cache with None => None | Some _ => ns end)
          | None =>
              let! f := client_full cfg rn hello sh su h in
              let master := cf_master f in
              client_keys master (ch_random hello) (sh_random sh);;;
              let! hf := client_sendFinished cfg sh (cf_h f) master in
              let '(h, cfin, proto) := hf in
              let! ht := readSessionTicket sh su master (cf_peer f) (cf_chains f) h in
              let '(h, ns) := ht in
              let! hv := client_readFinished h master in
              let '(_, sfin) := hv in
              ret (mkHR VersionGMSSL (su_id su) master (ch_random hello) (sh_random sh) (cf_peer f) (cf_chains f) false
                        (match proto with Some p => p | None => sh_alpn sh end) [] cfin sfin, match cache with None => None | Some _ => ns end)
          end
      end
  | _ => unexpected
  end.
End Client.
Arguments client_full {T} E {C}. Arguments check_certs {T} E {C}. Arguments verify_certs {T} E {C}. Arguments clientHandshakeGM {T} E C.
Arguments processServerHello {T C}.

(** Model of the ordinary TLS handshake (SSL 3.0 to TLS 1.2): /repo/tls/handshake_server.go, handshake_client.go, key_agreement.go, auth.go,
    and the parts of common.go, cipher_suites.go and prf.go they use.  Same conventions as TLS_hs_model.v (record layer = parameter [chan],
    log of events, output buffering and fmt.Println left out).  Unlike TLS_hs_model.v this covers renegotiation on the client side
    (c.handshakes > 0): the state left by the previous handshake is an argument.
    RSA, ECDSA, X25519, the NIST curves, certificate parsing, net.ParseIP and the callbacks of Config are parameters.
    Not modelled: c.scts, c.ocspResponse, c.clientProtocolFallback (they are only copied from messages), the symmetric ciphers behind establishKeys
    (only the keys), the ClientHelloInfo record (callbacks receive the ClientHello). *)
From Verif Require Import GoBase GoLemmas BigBytes Asn1_model X509_spec SM2_model TLS_record_model TLS_prf_model TLS_gmka_model
  TLS_ticket_model TLS_msg_model TLS_neg_model TLS_hs_model.
From Verif Require X509_model.
Open Scope Z_scope.

(** ** The world *)
(** one elliptic-curve Diffie-Hellman group: key generation from the random source (private key, encoded public key), the check of an encoded
    peer point, and the shared secret (private key, encoded peer point) *)
Record kex := mkKex { kx_gen : option (list Z) -> res (list Z * list Z); kx_point : list Z -> bool; kx_shared : list Z -> list Z -> list Z }.
Record senv (T : Type) := mkSEnv {
  se : env T;
  se_verify : Z -> Z -> pubk T -> list Z -> list Z -> bool;        (* ecdsa.Verify, rsa.VerifyPKCS1v15, rsa.VerifyPSS: type, hash, key, digest, signature *)
  se_sha512 : hashI;
  se_alg : gcert T -> Z;                                            (* Certificate.PublicKeyAlgorithm *)
  se_x25519 : kex; se_nist : Z -> kex;                              (* curve25519; elliptic.P256 / P384 / P521 *)
  se_rsaenc : option (list Z) -> list Z -> list Z -> res (list Z);  (* rsa.EncryptPKCS1v15: random, key, message *)
  se_isIP : list Z -> bool;                                         (* net.ParseIP(s) != nil *)
  se_lower : list Z -> list Z }.                                    (* strings.ToLower *)
Arguments mkSEnv {T}. Arguments se {T}. Arguments se_verify {T}. Arguments se_sha512 {T}. Arguments se_alg {T}. Arguments se_x25519 {T}. Arguments se_nist {T}.
Arguments se_rsaenc {T}. Arguments se_isIP {T}. Arguments se_lower {T}.
(** a PrivateKey: Public(), Sign if it is a crypto.Signer (signature type, hash, random, digest), Decrypt if it is a crypto.Decrypter
    (always called with PKCS1v15DecryptOptions{SessionKeyLen: 48}) *)
Record skey (T : Type) := mkKey { k_pub : pubk T; k_sign : option (Z -> Z -> option (list Z) -> list Z -> res (list Z)); k_dec : option (list Z -> res (list Z)) }.
Arguments mkKey {T}. Arguments k_pub {T}. Arguments k_sign {T}. Arguments k_dec {T}.
(** tls.Certificate, common.go:811-829 *)
Record scertificate (T : Type) := mkSC { sc_chain : list (list Z); sc_key : skey T; sc_leaf : option (gcert T); sc_ocsp : list Z; sc_scts : list (list Z) }.
Arguments mkSC {T}. Arguments sc_chain {T}. Arguments sc_key {T}. Arguments sc_leaf {T}. Arguments sc_ocsp {T}. Arguments sc_scts {T}.
(** Config: the fields shared with the GM handshake (its cf_certs and cf_getClientCert are not used here) and the ones only used here *)
Record sconfig (T : Type) := mkSCfg {
  s_cfg : config T; s_certs : list (scertificate T); s_byName : option (list Z -> option (scertificate T));
  s_getCert : option (clientHello -> option (scertificate T) * option Z); s_curves : list Z;
  s_getClientCert : option (list (list Z) -> list Z -> res (option (scertificate T))) }.
Arguments mkSCfg {T}. Arguments s_cfg {T}. Arguments s_certs {T}. Arguments s_byName {T}. Arguments s_getCert {T}. Arguments s_curves {T}. Arguments s_getClientCert {T}.

(** common.go:702-709 *)
Definition X25519 : Z := 29.
Definition curvePreferences (l : list Z) : list Z := match l with [] => [29; 23; 24; 25] | _ => l end.
(** cipher_suites.go:79-108: macLen, keyLen, ivLen *)
Definition suite_lens (id : Z) : nat * nat * nat :=
  if (id =? 0xcca8) || (id =? 0xcca9) then (0, 32, 12)%nat
  else if (id =? 0xc02f) || (id =? 0xc02b) || (id =? 0x009c) then (0, 16, 4)%nat
  else if (id =? 0xc030) || (id =? 0xc02c) || (id =? 0x009d) then (0, 32, 4)%nat
  else if (id =? 0xc023) || (id =? 0x003c) then (32, 16, 16)%nat
  else if (id =? 0xc009) || (id =? 0x002f) then (20, 16, 16)%nat
  else if (id =? 0xc014) || (id =? 0xc00a) || (id =? 0x0035) then (20, 32, 16)%nat
  else if (id =? 0xc012) || (id =? 0x000a) then (20, 24, 8)%nat
  else (20, 16, 0)%nat.
Definition su_sha384 (s : suite) : bool := has_flag s suiteSHA384.

(** ** auth.go.  crypto.Hash values: SHA1 3, SHA256 5, SHA384 6, SHA512 7, MD5SHA1 8 *)
Definition hSHA1 : Z := 3. Definition hSHA256 : Z := 5. Definition hSHA384 : Z := 6. Definition hSHA512 : Z := 7. Definition hMD5SHA1 : Z := 8.
(** prf.go:184-197 lookupTLSHash *)
Definition lookupTLSHash (a : Z) : option Z :=
  if existsb (Z.eqb a) [0x0201; 0x0203] then Some hSHA1
  else if existsb (Z.eqb a) [0x0401; 0x0804; 0x0403] then Some hSHA256
  else if existsb (Z.eqb a) [0x0501; 0x0805; 0x0503] then Some hSHA384
  else if existsb (Z.eqb a) [0x0601; 0x0806; 0x0603] then Some hSHA512 else None.
(** auth.go:25-74 pickSignatureAlgorithm: (sigAlg, sigType, hashFunc).  SM2WITHSM3 is a SignatureScheme of common.go. *)
Definition SM2WITHSM3 : Z := 0x0204.  (* common.go:244 *)
Fixpoint pick_loop {T} (pub : pubk T) (peer our : list Z) : res (Z * Z * Z) :=
  match peer with
  | [] => Err eSigAlg
  | a :: peer =>
      if negb (existsb (Z.eqb a) our) then pick_loop pub peer our
      else match lookupTLSHash a with
      | None => Panic
      | Some h =>
          let st := signatureFromScheme a in
          match pub with
          | PkRSA _ => if (st =? signaturePKCS1v15) || (st =? signatureRSAPSS) then Ok (a, st, h) else pick_loop pub peer our
          | PkECDSA _ | PkSM2 _ => if st =? signatureECDSA then Ok (a, st, h) else pick_loop pub peer our
          | PkOther => Err eUnsupportedKey
          end
      end
  end.
Definition pickSignatureAlgorithm {T} (pub : pubk T) (peer our : list Z) (vers : Z) : res (Z * Z * Z) :=
  if (vers <? VersionTLS12) || (zlen peer =? 0) then
    match pub with
    | PkRSA _ => if vers <? VersionTLS12 then Ok (0, signaturePKCS1v15, hMD5SHA1) else Ok (0x0201, signaturePKCS1v15, hSHA1)
    | PkECDSA _ => Ok (0x0203, signatureECDSA, hSHA1)
    | PkSM2 _ => Ok (SM2WITHSM3, signatureSM2, hSHA1)
    | PkOther => Err eUnsupportedKey
    end
  else pick_loop pub peer our.
(** auth.go:78-124 verifyHandshakeSignature *)
Definition std_verify {T} (E : senv T) (sigType hash : Z) (pub : pubk T) (digest sig : list Z) : res bool :=
  if sigType =? signatureECDSA then Ok (match pub with PkECDSA _ => se_verify E sigType hash pub digest sig | _ => false end)
  else if (sigType =? signaturePKCS1v15) || (sigType =? signatureRSAPSS) then Ok (match pub with PkRSA _ => se_verify E sigType hash pub digest sig | _ => false end)
  else if sigType =? signatureSM2 then match pub with PkSM2 p => PubVerify (e_cv (se E)) p digest sig | _ => Ok false end
  else Ok false.
(** hashFunc.New(): the constructor (only called for the four hashes of lookupTLSHash) *)
Definition hash_ctor {T} (E : senv T) (h : Z) : hashI :=
  if h =? hSHA256 then std_sha256 (e_std (se E)) else if h =? hSHA384 then std_sha384 (e_std (se E)) else if h =? hSHA512 then se_sha512 E else std_sha1 (e_std (se E)).

(** ** key_agreement.go *)
(** key_agreement.go:88-94, 98-107 sha1Hash, md5SHA1Hash, and hashFunc.New(); Write each; Sum *)
Definition hash_slices (I : hashI) (slices : list (list Z)) : res (list Z) :=
  do o <- o_new I; do r <- o_sum (fold_left o_write slices o) []; Ok (fst r).
(** key_agreement.go:112-125 hashForServerKeyExchange *)
Definition hashForServerKeyExchange {T} (E : senv T) (sigType hash vers : Z) (slices : list (list Z)) : res (list Z) :=
  if VersionTLS12 <=? vers then hash_slices (hash_ctor E hash) slices
  else if sigType =? signatureECDSA then hash_slices (std_sha1 (e_std (se E))) slices
  else do a <- hash_slices (std_md5 (e_std (se E))) slices; do b <- hash_slices (std_sha1 (e_std (se E))) slices; Ok (a ++ b).
(** key_agreement.go:127-139 curveForCurveID *)
Definition curveForCurveID {T} (E : senv T) (id : Z) : option kex :=
  if (id =? 23) || (id =? 24) || (id =? 25) then Some (se_nist E id) else None.
(** the key agreement object: curveid and private key (server) or peer's public value (client); (0, []) initially and for RSA *)
Definition kastate : Type := (Z * list Z)%type.
Definition is_rsa_sig (t : Z) : bool := (t =? signaturePKCS1v15) || (t =? signatureRSAPSS).
(** key_agreement.go:166-175: the first preferred curve the client supports *)
Definition pick_curve (preferred client : list Z) : Z := match find (fun c => existsb (Z.eqb c) client) preferred with Some c => c | None => 0 end.
(** key_agreement.go:28-31 and 161-255 generateServerKeyExchange: skx.key (None: nil message) and the key agreement object.
    cipher_suites.go:79-108: ecdheRSAKA / ecdheECDSAKA / rsaKA follow the flags. *)
Definition std_generateSKX {T} (E : senv T) (cfg : sconfig T) (ce : scertificate T) (rn : rnds) (vers : Z) (su : suite) (ch : clientHello) (sr : list Z) : res (option (list Z) * kastate) :=
  if negb (has_flag su suiteECDHE) then Ok (None, (0, []))
  else
    let curveid := pick_curve (curvePreferences (s_curves cfg)) (ch_curves ch) in
    if curveid =? 0 then Err eCurve
    else
      do kp <- (if curveid =? X25519 then kx_gen (se_x25519 E) (r_pms rn)
                else match curveForCurveID E curveid with None => Err eCurve | Some k => kx_gen k (r_pms rn) end);
      let '(priv, pub) := kp in
      let params := [3; u8 (Z.shiftr curveid 8); u8 curveid; u8 (zlen pub)] ++ pub in
      match k_sign (sc_key ce) with
      | None => Err eKeyType
      | Some sign =>
          do p <- pickSignatureAlgorithm (k_pub (sc_key ce)) (ch_sigalgs ch) supportedSignatureAlgorithms vers;
          let '(alg, st, h) := p in
          if negb (Bool.eqb (is_rsa_sig st) (negb (has_flag su suiteECDSA))) then Err eKeyType
          else
            do digest <- hashForServerKeyExchange E st h vers [ch_random ch; sr; params];
            do sig <- sign st h (r_sign rn) digest;
            Ok (Some (params ++ (if VersionTLS12 <=? vers then [u8 (Z.shiftr alg 8); u8 alg] else []) ++ [u8 (Z.shiftr (zlen sig) 8); u8 (zlen sig)] ++ sig),
                (curveid, priv))
      end.
(** key_agreement.go:33-61 and 257-285 processClientKeyExchange *)
Definition std_processCKX {T} (E : senv T) (ce : scertificate T) (vers : Z) (su : suite) (ka : kastate) (ct : list Z) : res (list Z) :=
  if negb (has_flag su suiteECDHE) then
    match ct with
    | b0 :: b1 :: rest =>
        if negb (vers =? VersionSSL30) && negb (256 * b0 + b1 =? zlen ct - 2) then Err errClientKeyExchange
        else match k_dec (sc_key ce) with
             | None => Err eKeyType
             | Some dec => dec (if vers =? VersionSSL30 then ct else rest)
             end
    | _ => Err errClientKeyExchange
    end
  else
    match ct with
    | [] => Err errClientKeyExchange
    | b0 :: point =>
        if negb (b0 =? zlen ct - 1) then Err errClientKeyExchange
        else if fst ka =? X25519 then
          if negb (zlen ct =? 33) then Err errClientKeyExchange else Ok (kx_shared (se_x25519 E) (snd ka) point)
        else match curveForCurveID E (fst ka) with
             | None => Panic
             | Some k => if kx_point k point then Ok (kx_shared k (snd ka) point) else Err errClientKeyExchange
             end
    end.
(** key_agreement.go:63-65 and 287-344 processServerKeyExchange: the key agreement object afterwards *)
Definition std_processSKX {T} (E : senv T) (vers : Z) (su : suite) (ch : clientHello) (sr : list Z) (pub : pubk T) (key : list Z) : res kastate :=
  if negb (has_flag su suiteECDHE) then Err eUnexpectedMessage
  else
    match key with
    | k0 :: k1 :: k2 :: k3 :: _ =>
        if negb (k0 =? 3) then Err eCurve
        else if zlen key <? k3 + 4 then Err errServerKeyExchange
        else
          let curveid := 256 * k1 + k2 in
          let params := firstn (Z.to_nat (4 + k3)) key in
          let publicKey := skipn 4 params in
          let sig := skipn (Z.to_nat (4 + k3)) key in
          if zlen sig <? 2 then Err errServerKeyExchange
          else
            do _ <- (if curveid =? X25519 then (if negb (zlen publicKey =? 32) then Err eCurve else Ok tt)
                     else match curveForCurveID E curveid with
                          | None => Err eCurve
                          | Some k => if kx_point k publicKey then Ok tt else Err errServerKeyExchange
                          end);
            do as_ <- (if VersionTLS12 <=? vers then
                         match sig with
                         | a0 :: a1 :: sig => if zlen sig <? 2 then Err errServerKeyExchange else Ok (256 * a0 + a1, sig)
                         | _ => Panic
                         end
                       else Ok (0, sig));
            let '(alg, sig) := as_ in
            do p <- pickSignatureAlgorithm pub [alg] (ch_sigalgs ch) vers;
            let '(_, st, h) := p in
            if negb (Bool.eqb (is_rsa_sig st) (negb (has_flag su suiteECDSA))) then Err errServerKeyExchange
            else
              match sig with
              | s0 :: s1 :: sig' =>
                  if negb (256 * s0 + s1 + 2 =? zlen sig) then Err errServerKeyExchange
                  else
                    do digest <- hashForServerKeyExchange E st h vers [ch_random ch; sr; params];
                    do ok <- std_verify E st h pub digest sig';
                    if ok then Ok (curveid, publicKey) else Err eSignature
              | _ => Panic
              end
    | _ => Err errServerKeyExchange
    end.
(** key_agreement.go:67-85 and 346-402 generateClientKeyExchange: preMasterSecret and ckx.ciphertext *)
Definition std_generateCKX {T} (E : senv T) (rn : rnds) (su : suite) (ka : kastate) (helloVers : Z) (pub : pubk T) : res (list Z * list Z) :=
  if negb (has_flag su suiteECDHE) then
    match r_pms rn with
    | None => Err eRand
    | Some rnd =>
        let pms := [u8 (Z.shiftr helloVers 8); u8 helloVers] ++ rnd in
        match pub with
        | PkRSA k => do enc <- se_rsaenc E (r_enc rn) k pms; Ok (pms, [u8 (Z.shiftr (zlen enc) 8); u8 (zlen enc)] ++ enc)
        | _ => Panic                                       (* cert.PublicKey.( *rsa.PublicKey ) *)
        end
    end
  else if fst ka =? 0 then Err eCurve
  else
    match (if fst ka =? X25519 then Some (se_x25519 E) else curveForCurveID E (fst ka)) with
    | None => Panic                                        (* panic("internal error") *)
    | Some k =>
        do kp <- kx_gen k (r_pms rn);
        let '(priv, ser) := kp in
        Ok (kx_shared k priv (snd ka), [u8 (zlen ser)] ++ ser)
    end.

(** ** Messages: the switch of readHandshake, conn.go:978-1024, with config.GMSupport == nil *)
Definition parse_std (vers : Z) (raw : list Z) : res hmsg :=
  match raw with
  | [] => Panic
  | t :: _ => if t =? 13 then rmap MCertificateRequest (u_certificateRequest (VersionTLS12 <=? vers) raw) else parse_msg vers raw
  end.
Definition readS {C} (vers : Z) : M C (hmsg * list Z) :=
  let! raw := recv_raw in
  match parse_std vers raw with
  | Ok m => ret (m, raw)
  | Err _ => alert alertUnexpectedMessage;;; throw eUnexpectedMessage
  | Panic => panic
  end.
(** establishKeys: handshake_server.go:520-544, handshake_client.go:543-566 *)
Definition std_keys (L : stdlib) (vers : Z) (su : suite) (master cr sr : list Z) : hres keyblock :=
  let '(m, k, i) := suite_lens (su_id su) in
  match keysFromMasterSecret L vers (su_sha384 su) master cr sr m k i with
  | Ok (cm, sm, ck, sk, ci, si) => HOk (mkKB cm sm ck sk ci si)
  | Err e => HErr e | Panic => HPanic
  end.
(** c.clientFinished and c.serverFinished are [12]byte: copy(out, verify) *)
Definition fin12 (v : list Z) : list Z := firstn 12 v.

(** ** Server *)
Section Server.
Context {T : Type} (E : senv T) (C : chan).
Record sths := mkSH' { st_cfg : sconfig T; st_v : Z; st_ch : clientHello; st_chraw : list Z; st_sh : serverHello; st_proto : list Z; st_cert : scertificate T;
  st_ell : bool; st_ecdsa : bool; st_rsaSign : bool; st_rsaDec : bool }.
(** handshake_server.go:110-246 readClientHello, up to checkForResumption *)
Definition std_server_hello (cfg : sconfig T) (getcfg : option (clientHello -> res (option (sconfig T)))) (rn : rnds) : M C sths :=
  let! mr := readS 0 in
  let '(msg, raw) := mr in
  match msg with
  | MClientHello ch =>
      let! cfg := match getcfg with
              | None => ret cfg
              | Some f => let! r := orfail alertInternalError (of_res (f ch)) in ret (match r with Some c => c | None => cfg end)
              end in
      match mutualVersion (cf_min (s_cfg cfg)) (cf_max (s_cfg cfg)) (ch_vers ch) with
      | None => fail_with alertProtocolVersion eVersion
      | Some v =>
          setvers v true;;;
          let ell := existsb (fun c => existsb (Z.eqb c) (curvePreferences (s_curves cfg))) (ch_curves ch) && existsb (Z.eqb 0) (ch_points ch) in
          if negb (existsb (Z.eqb 0) (ch_comp ch)) then fail_with alertHandshakeFailure eCompression
          else match r_hello rn with
          | None => fail_with alertInternalError eRand
          | Some random =>
              if negb (zlen (ch_reneg ch) =? 0) then fail_with alertHandshakeFailure eRenegotiation
              else
                let! alpn := (if 0 <? zlen (ch_alpn ch) then
                            let! sf := lift (of_res (mutualProtocol (ch_alpn ch) (cf_protos (s_cfg cfg)))) in
                            ret (if snd sf then [] else fst sf)
                          else ret []) in
                let npn := negb (0 <? zlen (ch_alpn ch)) && ch_npn ch && (0 <? zlen (cf_protos (s_cfg cfg))) in
                match getCertificate (se_lower E) (option_map (fun f => f ch) (s_getCert cfg)) (s_certs cfg) (s_byName cfg) (ch_sni ch) with
                | (_, Some e) => fail_with alertInternalError e
                | (None, None) => panic
                | (Some ce, None) =>
                    let k := sc_key ce in
                    let signer := match k_sign k with Some _ => true | None => false end in
                    let decrypter := match k_dec k with Some _ => true | None => false end in
                    let ecdsa := signer && match k_pub k with PkECDSA _ => true | _ => false end in
                    let rsaSign := signer && match k_pub k with PkRSA _ => true | _ => false end in
                    let rsaDec := decrypter && match k_pub k with PkRSA _ => true | _ => false end in
                    if (signer && negb (ecdsa || rsaSign)) || (decrypter && negb rsaDec) then fail_with alertInternalError eKeyType
                    else
                      let sh := mkSH v random [] 0 0 npn (if npn then cf_protos (s_cfg cfg) else []) false (if ch_scts ch then sc_scts ce else [])
                                     false [] (ch_renegOn ch) alpn in
                      ret (mkSH' cfg v ch raw sh alpn ce ell ecdsa rsaSign rsaDec)
                end
          end
      end
  | _ => unexpected
  end.
Definition st_ok (h : sths) (version : Z) : suite -> bool := std_suite_ok (st_ell h) (st_ecdsa h) (st_rsaSign h) (st_rsaDec h) version.
(** handshake_server.go:288-334 checkForResumption.  hs.suite may stay set when it returns false; the selection loop then overwrites it, because
    the suite it found is offered by the client, supported by the configuration and acceptable. *)
Definition std_checkForResumption (h : sths) : option (sessionState * suite) :=
  let cfg := s_cfg (st_cfg h) in
  if cf_noTickets cfg then None
  else match decryptTicket (e_aes (se E)) (e_sha256 (se E)) (cf_noTickets cfg) (cf_keys cfg) (ch_ticket (st_ch h)) with
  | None => None
  | Some st =>
      if negb (st_v h =? ss_vers st) then None
      else if negb (existsb (Z.eqb (ss_cipherSuite st)) (ch_suites (st_ch h))) then None
      else match set_suite cipherSuites (st_ok h (ss_vers st)) (ss_cipherSuite st) (cfg_cipherSuites (cf_suites cfg)) with
      | None => None
      | Some su =>
          let hasCerts := negb (zlen (ss_certificates st) =? 0) in
          let need := (cf_auth cfg =? RequireAnyClientCert) || (cf_auth cfg =? RequireAndVerifyClientCert) in
          if need && negb hasCerts then None
          else if hasCerts && (cf_auth cfg =? NoClientCert) then None
          else Some (st, su)
      end
  end.
(** handshake_server.go:252-285: the cipher suite *)
Definition std_suite (h : sths) : M C suite :=
  match negotiate_suite cipherSuites (st_ok h (st_v h)) (cf_prefer (s_cfg (st_cfg h))) (cfg_cipherSuites (cf_suites (s_cfg (st_cfg h)))) (ch_suites (st_ch h)) with
  | None => fail_with alertHandshakeFailure eNoSuite
  | Some su => if bad_fallback (ch_suites (st_ch h)) (ch_vers (st_ch h)) (maxVersion (cf_max (s_cfg (st_cfg h)))) then fail_with alertInappropriateFallback eFallback
               else ret su
  end.
(** handshake_server.go:659-722 processCertsFromClient: as in the GM handshake, except that an SM2 key is refused *)
Definition std_processCerts (cfg : config T) (ders : list (list Z)) : M C (option (pubk T) * list (gcert T) * list (list cert)) :=
  let! p := processCertsFromClient (se E) cfg ders in
  match fst (fst p) with
  | Some (PkSM2 _) => fail_with alertUnsupportedCertificate eUnsupportedKey
  | _ => ret p
  end.
(** handshake_server.go:361-518 doFullHandshake *)
Definition std_server_full (hs : sths) (su : suite) (rn : rnds) : M C (sfull (T := T)) :=
  let cfg := s_cfg (st_cfg hs) in let ch := st_ch hs in let vers := st_v hs in let ce := st_cert hs in
  let ocsp := ch_ocsp ch && (0 <? zlen (sc_ocsp ce)) in
  let sh := set_sh_suite (set_sh_ticketOn (set_sh_ocsp (st_sh hs) ocsp) (ch_ticketOn ch && negb (cf_noTickets cfg))) (su_id su) in
  let! h := lift (of_res (newFinishedHash (e_std (se E)) vers (su_sha384 su))) in
  let h := if cf_auth cfg =? NoClientCert then discardHandshakeBuffer h else h in
  let! h := wr h (st_chraw hs) in
  let! h := emit h (m_serverHello sh) in
  let! h := emit h (m_certificate (sc_chain ce)) in
  let! h := (if ocsp then emit h (m_certificateStatus (1, sc_ocsp ce)) else ret h) in
  let! sk := orfail alertHandshakeFailure (of_res (std_generateSKX E (st_cfg hs) ce rn vers su ch (sh_random sh))) in
  let '(skx, ka) := sk in
  let! h := (match skx with Some key => emit h (m_serverKeyExchange key) | None => ret h end) in
  let! h := (if RequestClientCert <=? cf_auth cfg then
           emit h (m_certificateRequest (VersionTLS12 <=? vers)
                    (TLS_msg_model.mkCR [1; 64] (if VersionTLS12 <=? vers then supportedSignatureAlgorithms else [])
                                        (match cf_clientCAs cfg with Some p => X509_model.Subjects p | None => [] end)))
         else ret h) in
  let! h := emit h (Ok m_serverHelloDone) in
  let! mr := readS vers in
  let! r := (if RequestClientCert <=? cf_auth cfg then
           match fst mr with
           | MCertificate ders =>
               let! h := wr h (snd mr) in
               (if (zlen ders =? 0) && ((cf_auth cfg =? RequireAnyClientCert) || (cf_auth cfg =? RequireAndVerifyClientCert))
                then fail_with alertBadCertificate eNoClientCert
                else
                  let! p := std_processCerts cfg ders in
                  let! mr := readS vers in
                  ret (h, mr, ders, p))
           | _ => unexpected
           end
         else ret (h, mr, [], (None, [], []))) in
  let '(h, mr, ders, (pub, certs, chains)) := r in
  match fst mr with
  | MClientKeyExchange ct =>
      let! h := wr h (snd mr) in
      let! pms := orfail alertHandshakeFailure (of_res (std_processCKX E ce vers su ka ct)) in
      let! master := lift (of_res (masterFromPreMasterSecret (e_std (se E)) vers (su_sha384 su) pms (ch_random ch) (sh_random sh))) in
      match cf_keylog cfg (ch_random ch) master with
      | Some e => fail_with alertInternalError e
      | None =>
          let! h := (match certs with
                 | [] => ret h
                 | _ =>
                     let! mr := readS vers in
                     match fst mr with
                     | MCertificateVerify alg sig =>
                         let pub := match pub with Some p => p | None => PkOther end in
                         let! p := orfail alertIllegalParameter (of_res (pickSignatureAlgorithm pub [alg] supportedSignatureAlgorithms vers)) in
                         let '(_, sigType, hash) := p in
                         match hashForClientCertificate (e_std (se E)) h sigType (hash_ctor E hash) master with
                         | Ok (digest, h) =>
                             let! ok := lift (of_res (std_verify E sigType hash pub digest sig)) in
                             if ok then wr h (snd mr) else fail_with alertBadCertificate eSignature
                         | Err _ => fail_with alertBadCertificate eSignature
                         | Panic => panic
                         end
                     | _ => unexpected
                     end
                 end) in
          ret (mkSF sh (discardHandshakeBuffer h) master ders certs chains)
      end
  | _ => unexpected
  end.
(** handshake_server.go:520-544 establishKeys *)
Definition std_server_keys (vers : Z) (su : suite) (master cr sr : list Z) : M C unit :=
  let! k := lift (std_keys (e_std (se E)) vers su master cr sr) in setkeys false vers k.
(** handshake_server.go:546-588 readFinished *)
Definition std_server_readFinished (vers : Z) (npn : bool) (h : finishedHash) (master : list Z) : M C (finishedHash * list Z * option (list Z)) :=
  recv_ccs;;;
  let! hp := (if npn then
            let! mr := readS vers in
            match fst mr with MNextProto p => let! h := wr h (snd mr) in ret (h, Some p) | _ => unexpected end
          else ret (h, None)) in
  let '(h, proto) := hp in
  let! mr := readS vers in
  match fst mr with
  | MFinished vd =>
      let! vh := lift (of_res (clientSum h master)) in
      let '(verify, h) := vh in
      if beqb verify vd then let! h := wr h (snd mr) in ret (h, verify, proto)
      else fail_with alertHandshakeFailure eFinished
  | _ => unexpected
  end.
(** handshake_server.go:336-359 doResumeHandshake *)
Definition std_server_resume (hs : sths) (st : sessionState) (su : suite) : M C (serverHello * finishedHash * list (gcert T) * list (list cert)) :=
  let sh := set_sh_suite (set_sh_ticketOn (set_sh_sessionId (st_sh hs) (ch_sessionId (st_ch hs))) (ss_usedOldKey st)) (su_id su) in
  let! h := lift (of_res (newFinishedHash (e_std (se E)) (st_v hs) (su_sha384 su))) in
  let! h := wr (discardHandshakeBuffer h) (st_chraw hs) in
  let! h := emit h (m_serverHello sh) in
  if 0 <? zlen (ss_certificates st) then
    let! p := std_processCerts (s_cfg (st_cfg hs)) (ss_certificates st) in
    let '(_, certs, chains) := p in ret (sh, h, certs, chains)
  else ret (sh, h, [], []).
(** handshake_server.go:39-106 serverHandshake; sendSessionTicket (590-617) and sendFinished (619-641) are the same code as in the GM handshake.
    c.serverFinished after a full handshake and c.clientFinished after a resumed one stay zero. *)
Definition std_serverHandshake (cfg : sconfig T) (getcfg : option (clientHello -> res (option (sconfig T)))) (rn : rnds) : M C (hresult T) :=
  let! hs := std_server_hello cfg getcfg rn in
  let ch := st_ch hs in let vers := st_v hs in let base := s_cfg (st_cfg hs) in
  match std_checkForResumption hs with
  | Some (st, su) =>
      let! r := std_server_resume hs st su in
      let '(sh, h, certs, chains) := r in
      let master := ss_masterSecret st in
      std_server_keys vers su master (ch_random ch) (sh_random sh);;;
      let! h := sendSessionTicket (se E) C base rn (sh_ticketOn sh) vers (su_id su) master (ss_certificates st) h in
      let! hv := server_sendFinished C h master in
      let '(h, sfin) := hv in
      let! f := std_server_readFinished vers (sh_npn sh) h master in
      let '(_, _, proto) := f in
      ret (mkHR vers (su_id su) master (ch_random ch) (sh_random sh) certs chains true
                (match proto with Some p => p | None => st_proto hs end) (ch_sni ch) (zeros 12) (fin12 sfin))
  | None =>
      let! su := std_suite hs in
      let! f := std_server_full hs su rn in
      let sh := sf_sh f in
      std_server_keys vers su (sf_master f) (ch_random ch) (sh_random sh);;;
      let! r := std_server_readFinished vers (sh_npn sh) (sf_h f) (sf_master f) in
      let '(h, cfin, proto) := r in
      let! h := sendSessionTicket (se E) C base rn (sh_ticketOn sh) vers (su_id su) (sf_master f) (sf_ders f) h in
      server_sendFinished C h (sf_master f);;;
      ret (mkHR vers (su_id su) (sf_master f) (ch_random ch) (sh_random sh) (sf_certs f) (sf_chains f) false
                (match proto with Some p => p | None => st_proto hs end) (ch_sni ch) (fin12 cfin) (zeros 12))
  end.
End Server.
Arguments std_server_hello {T} E {C}. Arguments std_server_full {T} E {C}. Arguments std_suite {T C}. Arguments std_serverHandshake {T} E C. Arguments std_processCerts {T} E {C}.
Arguments std_server_resume {T} E {C}. Arguments std_server_keys {T} E {C}. Arguments std_server_readFinished {C}.

(** ** Client *)
(** the state the previous handshake left in the Conn (c.handshakes > 0) *)
Record prior (T : Type) := mkPrior { pr_clientFinished : list Z; pr_serverFinished : list Z; pr_secure : bool; pr_peer : list (gcert T); pr_chains : list (list cert); pr_proto : list Z }.
Arguments mkPrior {T}. Arguments pr_clientFinished {T}. Arguments pr_serverFinished {T}. Arguments pr_secure {T}. Arguments pr_peer {T}. Arguments pr_chains {T}. Arguments pr_proto {T}.
(** what clientHandshake leaves: the connection's state, c.secureRenegotiation, and the call sessionCache.Put(key, session) *)
Record sclient (T : Type) := mkSCl { cl_hr : hresult T; cl_secure : bool; cl_put : option (list Z * csession T) }.
Arguments mkSCl {T}. Arguments cl_hr {T}. Arguments cl_secure {T}. Arguments cl_put {T}.
Section Client.
Context {T : Type} (E : senv T) (C : chan).
(** handshake_client.go:870-885 hostnameInSNI *)
Fixpoint last_percent (i : nat) (s : list Z) (found : nat) : nat :=
  match s with [] => found | c :: s => last_percent (i + 1) s (if c =? 37 then i else found) end.
Definition hostnameInSNI (name : list Z) : list Z :=
  let host := match name with
              | 91 :: r => match rev name with 93 :: _ => firstn (length r - 1) r | _ => name end       (* [ and ] ; the one-byte name cannot end with ] *)
              | _ => name
              end in
  let i := last_percent 0 host 0 in                                                                     (* 0 also when there is no % *)
  let host := if (0 <? i)%nat then firstn i host else host in
  if se_isIP E host then [] else trim_dots name.
(** handshake_client.go:33-91 makeClientHello *)
Definition makeClientHello (cfg : sconfig T) (rn : rnds) : res clientHello :=
  let c := s_cfg cfg in
  if (zlen (cf_serverName c) =? 0) && negb (cf_skip c) then Err eConfig
  else if existsb (fun p => (zlen p =? 0) || (255 <? zlen p)) (cf_protos c) then Err eConfig
  else if 0xffff <? fold_left (fun a p => a + (1 + zlen p)) (cf_protos c) 0 then Err eConfig
  else
    let vers := maxVersion (cf_max c) in
    let suites := filter (fun id => existsb (fun s => (su_id s =? id) && negb ((vers <? VersionTLS12) && has_flag s suiteTLS12)) cipherSuites)
                         (cfg_cipherSuites (cf_suites c)) in
    match r_hello rn with
    | None => Err eRand
    | Some random =>
        Ok (mkCH vers random [] suites [0] (0 <? zlen (cf_protos c)) (hostnameInSNI (cf_serverName c)) true true (curvePreferences (s_curves cfg)) [0]
                 false [] (if VersionTLS12 <=? vers then supportedSignatureAlgorithms else []) [] true (cf_protos c))
    end.
(** handshake_client.go:575-658 processServerHello: c.secureRenegotiation, and the session that is resumed, if any *)
Definition std_processServerHello (pr : option (prior T)) (vers : Z) (hello : clientHello) (sh : serverHello) (su : suite) (session : option (csession T)) : M C (bool * option (csession T)) :=
  if negb (sh_comp sh =? 0) then fail_with alertUnexpectedMessage eCompression
  else if match pr with None => sh_renegOn sh && negb (zlen (sh_reneg sh) =? 0) | Some _ => false end then fail_with alertHandshakeFailure eRenegotiation
  else if match pr with Some p => pr_secure p && negb (beqb (sh_reneg sh) (pr_clientFinished p ++ pr_serverFinished p)) | None => false end
  then fail_with alertHandshakeFailure eRenegotiation
  else
    let secure := match pr with Some p => pr_secure p | None => sh_renegOn sh end in
    if negb (ch_npn hello) && sh_npn sh then fail_with alertHandshakeFailure eExtension
    else if negb (0 <? zlen (ch_alpn hello)) && (0 <? zlen (sh_alpn sh)) then fail_with alertHandshakeFailure eExtension
    else if sh_npn sh && (0 <? zlen (sh_alpn sh)) then fail_with alertHandshakeFailure eExtension
    else match session with
    | None => ret (secure, None)
    | Some s =>
        if negb (beqb (sh_sessionId sh) (ch_sessionId hello)) then ret (secure, None)
        else if negb (cs_vers s =? vers) then fail_with alertHandshakeFailure eSession
        else if negb (cs_suite s =? su_id su) then fail_with alertHandshakeFailure eSession
        else ret (secure, Some s)
    end.
(** handshake_client.go:760-840 getCertificate *)
Fixpoint std_chain_matches (rsaAvail ecdsaAvail : bool) (leaf : option (gcert T)) (j : nat) (cas : list (list Z)) (ders : list (list Z)) : res bool :=
  match ders with
  | [] => Ok false
  | d :: ders =>
      match (if (j =? 0)%nat then match leaf with Some l => Some l | None => e_parse (se E) d end else e_parse (se E) d) with
      | None => Err eBadCert
      | Some x =>
          if negb ((rsaAvail && (se_alg E x =? 1)) || (ecdsaAvail && (se_alg E x =? 3))) then Ok false       (* continue findCert *)
          else match cas with
          | [] => Ok true
          | _ => if existsb (beqb (rawIssuer (g_cert x))) cas then Ok true else std_chain_matches rsaAvail ecdsaAvail leaf (j + 1) cas ders
          end
      end
  end.
Fixpoint std_find_chain (rsaAvail ecdsaAvail : bool) (cas : list (list Z)) (certs : list (scertificate T)) : res (scertificate T) :=
  match certs with
  | [] => Ok (mkSC [] (mkKey PkOther None None) None [] [])
  | ce :: certs => do b <- (if negb rsaAvail && negb ecdsaAvail then Ok false else std_chain_matches rsaAvail ecdsaAvail (sc_leaf ce) 0 cas (sc_chain ce));
                   if b then Ok ce else std_find_chain rsaAvail ecdsaAvail cas certs
  end.
(** handshake_client.go:748 *)
Definition tls11SignatureSchemes : list Z := [0x0403; 0x0503; 0x0603; 0x0401; 0x0501; 0x0601; 0x0201].
Definition std_getCertificate (cfg : sconfig T) (vers : Z) (cr : certRequest) : M C (option (scertificate T)) :=
  let rsaAvail := existsb (Z.eqb 1) (cr_types cr) in
  let ecdsaAvail := existsb (Z.eqb 64) (cr_types cr) in
  match s_getClientCert cfg with
  | Some f =>
      let schemes := if VersionTLS12 <=? vers then cr_sigs cr
                     else
                       let l := if ecdsaAvail then tls11SignatureSchemes else skipn 3 tls11SignatureSchemes in
                       if rsaAvail then l else firstn (length l - 4) l in
      orfail alertInternalError (of_res (f (cr_cas cr) schemes))
  | None => match std_find_chain rsaAvail ecdsaAvail (cr_cas cr) (s_certs cfg) with
            | Ok c => ret (Some c)
            | Err e => alert alertInternalError;;; fail_with alertInternalError e
            | Panic => panic
            end
  end.
(** handshake_client.go:333-382: the server's certificates; peerCertificates, verifiedChains *)
Definition std_server_certs (cfg : sconfig T) (pr : option (prior T)) (ders : list (list Z)) : M C (list (gcert T) * list (list cert)) :=
  let base := s_cfg cfg in
  match pr with
  | None =>
      match parse_all (se E) ders with
      | None => fail_with alertBadCertificate eBadCert
      | Some certs =>
          match certs with
          | [] => panic
          | c0 :: rest =>
              let! chains := (if cf_skip base then ret []
                              else match (match cf_rootCAs base with Some p => Some p | None => e_sysroots (se E) end) with
                                   | None => fail_with alertBadCertificate eBadCert
                                   | Some roots =>
                                       let inter := fold_left X509_model.AddCert (map g_cert rest) X509_model.NewCertPool in
                                       match x509_verify (se E) (X509_model.mkOpts (cf_serverName base) (cf_time base) (Some inter) roots []) c0 with
                                       | None => fail_with alertBadCertificate eBadCert
                                       | Some chains => ret chains
                                       end
                                   end) in
              match (match cf_verifyPeer base with Some f => f ders chains | None => None end) with
              | Some e => fail_with alertBadCertificate e
              | None => match g_pub c0 with
                        | PkRSA _ | PkECDSA _ => ret (certs, chains)
                        | _ => fail_with alertUnsupportedCertificate eKeyType
                        end
              end
          end
      end
  | Some p =>
      match pr_peer p, ders with
      | c0 :: _, d0 :: _ => if beqb (raw (g_cert c0)) d0 then ret (pr_peer p, pr_chains p) else fail_with alertBadCertificate eBadCert
      | _, _ => panic                                       (* c.peerCertificates[0] *)
      end
  end.
(** handshake_client.go:319-541 doFullHandshake *)
Definition std_client_full (cfg : sconfig T) (rn : rnds) (pr : option (prior T)) (vers : Z) (hello : clientHello) (sh : serverHello) (su : suite) (h : finishedHash) : M C (cfull (T := T)) :=
  let base := s_cfg cfg in
  let! mr := readS vers in
  match fst mr with
  | MCertificate ders =>
      if zlen ders =? 0 then unexpected
      else
        let! h := wr h (snd mr) in
        let! cc := std_server_certs cfg pr ders in
        let '(certs, chains) := cc in
        let leafpub := match certs with c0 :: _ => g_pub c0 | [] => PkOther end in
        let! mr := readS vers in
        let! r := match fst mr with
                  | MCertificateStatus _ =>
                      if negb (sh_ocsp sh) then fail_with alertUnexpectedMessage eUnexpectedMessage
                      else let! h := wr h (snd mr) in let! mr := readS vers in ret (h, mr)
                  | _ => ret (h, mr)
                  end in
        let '(h, mr) := r in
        let! r := match fst mr with
                  | MServerKeyExchange key =>
                      let! h := wr h (snd mr) in
                      let! ka := orfail alertUnexpectedMessage (of_res (std_processSKX E vers su hello (sh_random sh) leafpub key)) in
                      let! mr := readS vers in
                      ret (h, ka, mr)
                  | _ => ret (h, (0, []), mr)
                  end in
        let '(h, ka, mr) := r in
        let! r := match fst mr with
                  | MCertificateRequest cr =>
                      let! h := wr h (snd mr) in
                      let! chain := std_getCertificate cfg vers cr in
                      let! mr := readS vers in
                      ret (h, Some cr, chain, mr)
                  | _ => ret (h, None, None, mr)
                  end in
        let '(h, requested, chain, mr) := r in
        match fst mr with
        | MServerHelloDone =>
            let! h := wr h (snd mr) in
            let! h := (match requested with
                       | Some _ =>
                           match chain with
                           | None => panic                       (* chainToSend.Certificate *)
                           | Some c => emit h (m_certificate (sc_chain c))
                           end
                       | None => ret h
                       end) in
            let! k := orfail alertInternalError (of_res (std_generateCKX E rn su ka (ch_vers hello) leafpub)) in
            let '(pms, ct) := k in
            let! h := emit h (m_clientKeyExchange ct) in
            let! h := match chain with
                      | Some c =>
                          match sc_chain c with
                          | [] => ret h
                          | _ =>
                              match k_sign (sc_key c) with
                              | None => fail_with alertInternalError eKeyType
                              | Some sign =>
                                  let peer := match requested with Some cr => cr_sigs cr | None => [] end in
                                  let! p := orfail alertInternalError (of_res (pickSignatureAlgorithm (k_pub (sc_key c)) peer (ch_sigalgs hello) vers)) in
                                  let '(alg, sigType, hash) := p in
                                  let! dh := orfail alertInternalError (of_res (hashForClientCertificate (e_std (se E)) h sigType (hash_ctor E hash) [])) in
                                  let '(digest, h) := dh in
                                  let! sig := orfail alertInternalError (of_res (sign sigType hash (r_sign rn) digest)) in
                                  emit h (m_certificateVerify (VersionTLS12 <=? vers) (alg, sig))
                              end
                          end
                      | None => ret h
                      end in
            let! master := lift (of_res (masterFromPreMasterSecret (e_std (se E)) vers (su_sha384 su) pms (ch_random hello) (sh_random sh))) in
            match cf_keylog base (ch_random hello) master with
            | Some e => fail_with alertInternalError e
            | None => ret (mkCF (discardHandshakeBuffer h) master certs chains)
            end
        | _ => unexpected
        end
  | _ => unexpected
  end.
(** handshake_client.go:543-566 establishKeys *)
Definition std_client_keys (vers : Z) (su : suite) (master cr sr : list Z) : M C unit :=
  let! k := lift (std_keys (e_std (se E)) vers su master cr sr) in setkeys true vers k.
(** handshake_client.go:691-720 readSessionTicket *)
Definition std_readSessionTicket (vers : Z) (sh : serverHello) (su : suite) (master : list Z) (peer : list (gcert T)) (chains : list (list cert)) (h : finishedHash) : M C (finishedHash * option (csession T)) :=
  if negb (sh_ticketOn sh) then ret (h, None)
  else
    let! mr := readS vers in
    match fst mr with
    | MNewSessionTicket t => let! h := wr h (snd mr) in ret (h, Some (mkCSess t vers (su_id su) master peer chains))
    | _ => unexpected
    end.
(** handshake_client.go:660-689 readFinished *)
Definition std_client_readFinished (vers : Z) (h : finishedHash) (master : list Z) : M C (finishedHash * list Z) :=
  recv_ccs;;;
  let! mr := readS vers in
  match fst mr with
  | MFinished vd =>
      let! vh := lift (of_res (serverSum h master)) in
      let '(verify, h) := vh in
      if beqb verify vd then let! h := wr h (snd mr) in ret (h, verify)
      else fail_with alertHandshakeFailure eFinished
  | _ => unexpected
  end.
(** handshake_client.go:95-187 clientHandshake (config.GMSupport == nil) and 191-288 handshake; sendFinished (722-744) is the same code as in the
    GM handshake.  [cache]: None = no ClientSessionCache or tickets disabled, Some = result of Get; [addr] = c.conn.RemoteAddr().String().
    c.clientProtocol keeps the value of the previous handshake when nothing is negotiated. *)
Definition std_clientHandshake (cfg : sconfig T) (addr : list Z) (cache : option (option (csession T))) (rn : rnds) (pr : option (prior T)) : M C (sclient T) :=
  let base := s_cfg cfg in
  let! hello := lift (of_res (makeClientHello cfg rn)) in
  let hello := match pr with Some p => set_ch_reneg hello (pr_clientFinished p) | None => hello end in
  let cacheKey := match pr with Some _ => [] | None => if 0 <? zlen (cf_serverName base) then cf_serverName base else addr end in
  let! hc := lift (of_res (complete_hello base (match pr, cache with Some _, Some _ => Some None | _, c => c end) rn hello)) in
  let '(hello, session) := hc in
  let! chraw := enc (m_clientHello hello) in
  send chraw;;;
  let! mr := readS 0 in                    (* a ServerHello is parsed the same way for every version *)
  match fst mr with
  | MServerHello sh =>
      match pickTLSVersion (cf_min base) (cf_max base) (sh_vers sh) with
      | None => fail_with alertProtocolVersion eVersion
      | Some vers =>
          setvers vers true;;;
          match mutualCipherSuite (ch_suites hello) (sh_suite sh) with
          | None => fail_with alertHandshakeFailure eNoSuite
          | Some su =>
              let! sr := std_processServerHello pr vers hello sh su session in
              let '(secure, resumed) := sr in
              let! h := lift (of_res (newFinishedHash (e_std (se E)) vers (su_sha384 su))) in
              let nocerts := match s_certs cfg, s_getClientCert cfg with [], None => true | _, _ => false end in
              let h := if (match resumed with Some _ => true | None => false end) || nocerts then discardHandshakeBuffer h else h in
              let! h := wr h chraw in
              let! h := wr h (snd mr) in
              let proto0 := if 0 <? zlen (sh_alpn sh) then sh_alpn sh else match pr with Some p => pr_proto p | None => [] end in
              let put := fun ns => match cache, ns with Some _, Some s => Some (cacheKey, s) | _, _ => None end in
              match resumed with
              | Some s =>
                  let master := cs_master s in
                  std_client_keys vers su master (ch_random hello) (sh_random sh);;;
                  let! ht := std_readSessionTicket vers sh su master (cs_certs s) (cs_chains s) h in
                  let '(h, ns) := ht in
                  let! hv := std_client_readFinished vers h master in
                  let '(h, sfin) := hv in
                  let! hf := client_sendFinished C base sh h master in
                  let '(_, cfin, proto) := hf in
                  ret (mkSCl (mkHR vers (su_id su) master (ch_random hello) (sh_random sh) (cs_certs s) (cs_chains s) true
                                   (match proto with Some p => p | None => proto0 end) [] (fin12 cfin) (fin12 sfin)) secure (put ns))
              | None =>
                  let! f := std_client_full cfg rn pr vers hello sh su h in
                  let master := cf_master f in
                  std_client_keys vers su master (ch_random hello) (sh_random sh);;;
                  let! hf := client_sendFinished C base sh (cf_h f) master in
                  let '(h, cfin, proto) := hf in
                  let! ht := std_readSessionTicket vers sh su master (cf_peer f) (cf_chains f) h in
                  let '(h, ns) := ht in
                  let! hv := std_client_readFinished vers h master in
                  let '(_, sfin) := hv in
                  ret (mkSCl (mkHR vers (su_id su) master (ch_random hello) (sh_random sh) (cf_peer f) (cf_chains f) false
                                   (match proto with Some p => p | None => proto0 end) [] (fin12 cfin) (fin12 sfin)) secure (put ns))
              end
          end
      end
  | _ => unexpected
  end.
End Client.
Arguments std_client_full {T} E {C}. Arguments std_clientHandshake {T} E C. Arguments std_processServerHello {T C}. Arguments std_server_certs {T} E {C}.
Arguments std_getCertificate {T} E {C}. Arguments std_client_keys {T} E {C}. Arguments std_readSessionTicket {T C}. Arguments std_client_readFinished {C}.

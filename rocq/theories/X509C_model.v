(** Model of /repo/x509/x509.go: creating, parsing and checking certificates, certificate requests and CRLs.
    encoding/asn1 is modelled concretely (Asn1_model.v, Asn1_go.v); an OBJECT IDENTIFIER is represented by its DER contents.
    Parameters (standard library): the encodings of distinguished names (pkix.Name <-> contents of an RDNSequence) and of
    times, the hash functions other than SM3, RSA/DSA/ECDSA verification, elliptic.Marshal/Unmarshal for the NIST curves.
    A crypto.Signer is a record of its Public() and Sign methods.  Error codes: 2 InsecureAlgorithmError, 3 ErrUnsupportedAlgorithm,
    4 ConstraintViolationError, 1 every other error. *)
From Verif Require Import GoBase GoLemmas BigBytes Asn1_model Asn1_go SM3_model NT Prime_cert SM2_curve_spec SM2_spec SM2_model Keys_model.
Open Scope Z_scope.

(** ** Constants *)
(** x509.go:189-210 SignatureAlgorithm (iota) *)
Definition UnknownSignatureAlgorithm := 0. Definition MD2WithRSA := 1. Definition MD5WithRSA := 2. Definition SHA1WithRSA := 3.
Definition SHA256WithRSA := 4. Definition SHA384WithRSA := 5. Definition SHA512WithRSA := 6. Definition DSAWithSHA1 := 7.
Definition DSAWithSHA256 := 8. Definition ECDSAWithSHA1 := 9. Definition ECDSAWithSHA256 := 10. Definition ECDSAWithSHA384 := 11.
Definition ECDSAWithSHA512 := 12. Definition SHA256WithRSAPSS := 13. Definition SHA384WithRSAPSS := 14. Definition SHA512WithRSAPSS := 15.
Definition SM2WithSM3 := 16. Definition SM2WithSHA1 := 17. Definition SM2WithSHA256 := 18.
(** x509.go:212-219 isRSAPSS *)
Definition isRSAPSS (a : Z) : bool := (a =? SHA256WithRSAPSS) || (a =? SHA384WithRSAPSS) || (a =? SHA512WithRSAPSS).
(** x509.go:257-263 PublicKeyAlgorithm (iota) *)
Definition UnknownPublicKeyAlgorithm := 0. Definition RSA := 1. Definition DSA := 2. Definition ECDSA := 3. Definition SM2 := 4.
(** crypto.Hash values; 255 is SM3 (x509.go:45) *)
Definition hMD5 := 2. Definition hSHA1 := 3. Definition hSHA256 := 5. Definition hSHA384 := 6. Definition hSHA512 := 7. Definition hSM3 := 255.
(** x509.go:318-347, as DER contents *)
Definition oidSignatureMD2WithRSA : list Z := [42;134;72;134;247;13;1;1;2].
Definition oidSignatureMD5WithRSA : list Z := [42;134;72;134;247;13;1;1;4].
Definition oidSignatureSHA1WithRSA : list Z := [42;134;72;134;247;13;1;1;5].
Definition oidSignatureSHA256WithRSA : list Z := [42;134;72;134;247;13;1;1;11].
Definition oidSignatureSHA384WithRSA : list Z := [42;134;72;134;247;13;1;1;12].
Definition oidSignatureSHA512WithRSA : list Z := [42;134;72;134;247;13;1;1;13].
Definition oidSignatureRSAPSS : list Z := [42;134;72;134;247;13;1;1;10].
Definition oidSignatureDSAWithSHA1 : list Z := [42;134;72;206;56;4;3].
Definition oidSignatureDSAWithSHA256 : list Z := [96;134;72;1;101;3;4;3;2].
Definition oidSignatureECDSAWithSHA1 : list Z := [42;134;72;206;61;4;1].
Definition oidSignatureECDSAWithSHA256 : list Z := [42;134;72;206;61;4;3;2].
Definition oidSignatureECDSAWithSHA384 : list Z := [42;134;72;206;61;4;3;3].
Definition oidSignatureECDSAWithSHA512 : list Z := [42;134;72;206;61;4;3;4].
Definition oidSHA256 : list Z := [96;134;72;1;101;3;4;2;1].
Definition oidSHA384 : list Z := [96;134;72;1;101;3;4;2;2].
Definition oidSHA512 : list Z := [96;134;72;1;101;3;4;2;3].
Definition oidMGF1 : list Z := [42;134;72;134;247;13;1;1;8].
Definition oidISOSignatureSHA1WithRSA : list Z := [43;14;3;2;29].
Definition oidSignatureSM2WithSM3 : list Z := [42;129;28;207;85;1;131;117].
Definition oidSignatureSM2WithSHA1 : list Z := [42;129;28;207;85;1;131;118].
Definition oidSignatureSM2WithSHA256 : list Z := [42;129;28;207;85;1;131;119].
(** x509.go:349-374 signatureAlgorithmDetails: (algo, oid, pubKeyAlgo, hash) *)
Definition signatureAlgorithmDetails : list (Z * list Z * Z * Z) :=
  [(MD2WithRSA, oidSignatureMD2WithRSA, RSA, 0); (MD5WithRSA, oidSignatureMD5WithRSA, RSA, hMD5);
   (SHA1WithRSA, oidSignatureSHA1WithRSA, RSA, hSHA1); (SHA1WithRSA, oidISOSignatureSHA1WithRSA, RSA, hSHA1);
   (SHA256WithRSA, oidSignatureSHA256WithRSA, RSA, hSHA256); (SHA384WithRSA, oidSignatureSHA384WithRSA, RSA, hSHA384);
   (SHA512WithRSA, oidSignatureSHA512WithRSA, RSA, hSHA512); (SHA256WithRSAPSS, oidSignatureRSAPSS, RSA, hSHA256);
   (SHA384WithRSAPSS, oidSignatureRSAPSS, RSA, hSHA384); (SHA512WithRSAPSS, oidSignatureRSAPSS, RSA, hSHA512);
   (DSAWithSHA1, oidSignatureDSAWithSHA1, DSA, hSHA1); (DSAWithSHA256, oidSignatureDSAWithSHA256, DSA, hSHA256);
   (ECDSAWithSHA1, oidSignatureECDSAWithSHA1, ECDSA, hSHA1); (ECDSAWithSHA256, oidSignatureECDSAWithSHA256, ECDSA, hSHA256);
   (ECDSAWithSHA384, oidSignatureECDSAWithSHA384, ECDSA, hSHA384); (ECDSAWithSHA512, oidSignatureECDSAWithSHA512, ECDSA, hSHA512);
   (SM2WithSM3, oidSignatureSM2WithSM3, SM2, hSM3); (SM2WithSHA1, oidSignatureSM2WithSHA1, SM2, hSHA1);
   (SM2WithSHA256, oidSignatureSM2WithSHA256, SM2, hSHA256)].
Definition NullBytes : list Z := [5;0].
Definition der_algid (a : list Z * list Z) : list Z := der_tlv 48 (der_tlv 6 (fst a) ++ snd a).
(** crypto.Hash.Size *)
Definition hash_size (h : Z) : Z := if h =? hSHA256 then 32 else if h =? hSHA384 then 48 else 64.
(** x509.go:376-424 rsaPSSParameters (trailer field 1 is the default and is omitted) *)
Definition rsaPSSParameters (hashFunc : Z) : list Z :=
  let hashOID := if hashFunc =? hSHA256 then oidSHA256 else if hashFunc =? hSHA384 then oidSHA384 else oidSHA512 in
  let hash := der_algid (hashOID, NullBytes) in
  der_tlv 48 (der_tlv 160 hash ++ der_tlv 161 (der_algid (oidMGF1, hash)) ++ der_tlv 162 (der_int (hash_size hashFunc))).
(** x509.go:376-387: the same, read *)
Record pss := mkPss { ps_hash : list Z * list Z; ps_mgf : list Z * list Z; ps_salt : Z; ps_trailer : Z }.
Definition must {A} (r : res (option A * list Z)) : res (A * list Z) :=
  do x <- r; match fst x with Some v => Ok (v, snd x) | None => Err 1 end.
Definition p_pss (c : list Z) : res pss :=
  do h <- must (explicit 0 48 p_alg c); do m <- must (explicit 1 48 p_alg (snd h)); do s <- must (explicit 2 2 p_int64 (snd m));
  do t <- explicit 3 2 p_int64 (snd s);
  Ok (mkPss (fst h) (fst m) (fst s) (match fst t with Some v => v | None => 1 end)).
(** x509.go:426-479 getSignatureAlgorithmFromAI *)
Definition getSignatureAlgorithmFromAI (ai : list Z * list Z) : Z :=
  if negb (beqb (fst ai) oidSignatureRSAPSS) then
    match find (fun d => beqb (fst ai) (snd (fst (fst d)))) signatureAlgorithmDetails with
    | Some d => fst (fst (fst d))
    | None => UnknownSignatureAlgorithm
    end
  else match req 48 p_pss (snd ai) with
       | Ok (params, _) =>
           match req 48 p_alg (snd (ps_mgf params)) with
           | Ok (mgf1, _) =>
               if negb (beqb (snd (ps_hash params)) NullBytes) || negb (beqb (fst (ps_mgf params)) oidMGF1) ||
                  negb (beqb (fst mgf1) (fst (ps_hash params))) || negb (beqb (snd mgf1) NullBytes) || negb (ps_trailer params =? 1)
               then UnknownSignatureAlgorithm
               else if beqb (fst (ps_hash params)) oidSHA256 && (ps_salt params =? 32) then SHA256WithRSAPSS
               else if beqb (fst (ps_hash params)) oidSHA384 && (ps_salt params =? 48) then SHA384WithRSAPSS
               else if beqb (fst (ps_hash params)) oidSHA512 && (ps_salt params =? 64) then SHA512WithRSAPSS
               else UnknownSignatureAlgorithm
           | _ => UnknownSignatureAlgorithm
           end
       | _ => UnknownSignatureAlgorithm
       end.
(** x509.go:502-512 getPublicKeyAlgorithmFromOID *)
Definition getPublicKeyAlgorithmFromOID (oid : list Z) : Z :=
  if beqb oid oidPublicKeyRSA then RSA else if beqb oid oidPublicKeyDSA then DSA
  else if beqb oid oidPublicKeyECDSA then ECDSA else UnknownPublicKeyAlgorithm.
(** x509.go:559-574 oidFromNamedCurve *)
Definition oidFromNamedCurve (c : ncurve) : option (list Z) :=
  match c with SM2C => Some oidNamedCurveSm2 | NIST 0 => Some oidNamedCurveP224 | NIST 1 => Some oidNamedCurveP256
  | NIST 2 => Some oidNamedCurveP384 | NIST 3 => Some oidNamedCurveP521 | NIST _ => None end.
(** x509.go:576-589 KeyUsage bits *)
Definition KeyUsageCertSign : Z := 32.
(** x509.go:600-649: the extended key usages, position = value of the ExtKeyUsage constant *)
Definition extKeyUsageOIDs : list (list Z) :=
  [[85;29;37;0]; [43;6;1;5;5;7;3;1]; [43;6;1;5;5;7;3;2]; [43;6;1;5;5;7;3;3]; [43;6;1;5;5;7;3;4]; [43;6;1;5;5;7;3;5]; [43;6;1;5;5;7;3;6];
   [43;6;1;5;5;7;3;7]; [43;6;1;5;5;7;3;8]; [43;6;1;5;5;7;3;9]; [43;6;1;4;1;130;55;10;3;3]; [96;134;72;1;134;248;66;4;1]].
Fixpoint index_of (o : list Z) (l : list (list Z)) (i : Z) : option Z :=
  match l with [] => None | x :: t => if beqb o x then Some i else index_of o t (i + 1) end.
Definition extKeyUsageFromOID (o : list Z) : option Z := index_of o extKeyUsageOIDs 0.
Definition oidFromExtKeyUsage (u : Z) : option (list Z) := if u <? 0 then None else nth_error extKeyUsageOIDs (Z.to_nat u).
(** x509.go:1524-1540 extension identifiers *)
Definition oidExtensionSubjectKeyId : list Z := [85;29;14]. Definition oidExtensionKeyUsage : list Z := [85;29;15].
Definition oidExtensionExtendedKeyUsage : list Z := [85;29;37]. Definition oidExtensionAuthorityKeyId : list Z := [85;29;35].
Definition oidExtensionBasicConstraints : list Z := [85;29;19]. Definition oidExtensionSubjectAltName : list Z := [85;29;17].
Definition oidExtensionCertificatePolicies : list Z := [85;29;32]. Definition oidExtensionNameConstraints : list Z := [85;29;30].
Definition oidExtensionCRLDistributionPoints : list Z := [85;29;31]. Definition oidExtensionAuthorityInfoAccess : list Z := [43;6;1;5;5;7;1;1].
Definition oidAuthorityInfoAccessOcsp : list Z := [43;6;1;5;5;7;48;1]. Definition oidAuthorityInfoAccessIssuers : list Z := [43;6;1;5;5;7;48;2].
(** x509.go:2130 *)
Definition oidExtensionRequest : list Z := [42;134;72;134;247;13;1;9;14].
(** x509.go:800-838 *)
Definition entrustBrokenSPKI : list Z :=
  [48;130;1;34;48;13;6;9;42;134;72;134;247;13;1;1;1;5;0;3;130;1;15;0;48;130;1;10;2;130;1;1;0;151;163;45;60;158;222;5;
   218;19;194;17;141;157;142;227;127;199;75;126;90;159;179;255;98;171;115;200;40;107;186;16;100;130;135;19;205;87;24;255;40;206;192;230;14;6;145;80;
   41;131;209;242;195;42;219;216;219;78;4;204;0;235;139;182;150;220;188;170;250;82;119;4;193;219;25;228;174;156;253;60;139;3;239;77;188;26;3;101;
   249;193;177;63;114;134;242;56;170;25;174;16;136;120;40;218;117;195;61;2;130;2;156;185;193;101;119;118;36;76;152;247;109;49;56;251;219;254;219;55;
   2;118;161;24;151;166;204;222;32;9;73;54;36;105;66;246;228;55;98;241;89;109;169;60;237;52;156;163;142;219;220;58;215;247;10;111;239;46;216;213;
   147;90;122;237;8;73;104;226;65;227;90;144;193;134;85;252;81;67;157;224;178;196;103;180;203;50;49;37;240;84;159;75;209;111;219;212;221;252;175;94;
   108;120;144;149;222;202;58;72;185;121;60;155;25;214;117;5;160;249;136;215;193;232;165;9;228;26;21;220;135;35;170;178;117;140;99;37;135;216;248;61;
   166;194;204;102;255;165;102;104;85;2;3;1;0;1].

(** ** Values *)
(** pkix.Extension *)
Record ext := mkExt { ex_id : list Z; ex_crit : bool; ex_val : list Z }.
(** crypto.PublicKey: *sm2.PublicKey, *ecdsa.PublicKey, *rsa.PublicKey, *dsa.PublicKey, nil, anything else *)
Inductive xkey := XSM2 (c : ncurve) (x y : Z) | XEC (c : ncurve) (x y : Z) | XRSA (n e : Z) | XDSA (p q g y : Z) | XNil | XOther.

Section X509C.
Variable nm tm : Type.                                   (* pkix.Name, time.Time *)
Variable enc_name : nm -> res (list Z).                  (* contents of Marshal(name.ToRDNSequence()) *)
Variable dec_name : list Z -> res nm.                    (* Unmarshal of RDNSequence contents, FillFromRDNSequence *)
Variable enc_time : tm -> res (bool * list Z).           (* GeneralizedTime?, contents of Marshal(t.UTC()) *)
Variable dec_time : bool -> list Z -> res tm.            (* asn1 parseGeneralizedTime (true) / parseUTCTime (false) *)
Variable zero_name : nm.
Variable zero_time : tm -> bool.                         (* is it time.Time{}? *)
Variable hashf : Z -> list Z -> list Z.                  (* hash functions other than SM3 *)
Variable rsa_verify : bool -> Z -> Z -> Z -> list Z -> list Z -> bool.    (* pss?, n, e, hash, digest, signature *)
Variable dsa_verify : Z -> Z -> Z -> Z -> list Z -> Z -> Z -> bool.
Variable ecdsa_verify : ncurve -> Z -> Z -> list Z -> Z -> Z -> bool.
Variable nist_unm : nat -> list Z -> option (Z * Z).     (* elliptic.Unmarshal, NIST curves *)
Variable nist_mar : nat -> Z -> Z -> list Z.             (* elliptic.Marshal, NIST curves *)
Variable T : Type.
Variable cv : curve T.                                   (* sm2.P256() *)
Variable sm2_verify_nist : nat -> Z -> Z -> list Z -> Z -> Z -> res bool.  (* sm2.Verify of a key on another curve *)

(** the fields parseCertificate fills from the extensions *)
Record exs := mkX { x_ku : Z; x_bcv : bool; x_isca : bool; x_mpl : Z; x_mplz : bool; x_dns : list (list Z); x_email : list (list Z);
  x_ip : list (list Z); x_perm : list (list Z); x_excl : list (list Z); x_permcrit : bool; x_crldp : list (list Z); x_aki : list Z;
  x_eku : list Z; x_ueku : list (list Z); x_ski : list Z; x_pol : list (list Z); x_ocsp : list (list Z); x_iss : list (list Z);
  x_unh : list (list Z) }.
Definition x0 : exs := mkX 0 false false 0 false [] [] [] [] [] false [] [] [] [] [] [] [] [] [].
(** x509.go:664-760 Certificate *)
Record xcert := mkC { c_raw : list Z; c_rawTBS : list Z; c_rawSPKI : list Z; c_rawSubject : list Z; c_rawIssuer : list Z;
  c_sig : list Z; c_sigAlg : Z; c_pubAlg : Z; c_pub : xkey; c_version : Z; c_serial : option Z; c_issuer : nm; c_subject : nm;
  c_nb : tm; c_na : tm; c_exts : list ext; c_extra : list ext; c_x : exs }.
(** crypto.Signer: Public(), whether it is a *sm2.PrivateKey, Sign(rand, digest, opts) with opts = (hash, PSS?) *)
Record signer := mkSigner { sg_pub : xkey; sg_sm2priv : bool; sg_sign : list Z -> Z -> bool -> res (list Z) }.

(** ** Public keys *)
(** elliptic.Marshal / Unmarshal by curve (the SM2 curve: Keys_model.v) *)
Definition ec_marshal (c : ncurve) (x y : Z) : list Z := match c with SM2C => ellMarshal x y | NIST i => nist_mar i x y end.
Definition ec_unmarshal (c : ncurve) (d : list Z) : option (Z * Z) := match c with SM2C => ellUnmarshal d | NIST i => nist_unm i d end.
(** x509.go:74-118 marshalPublicKey: the key octets and the AlgorithmIdentifier *)
Definition marshalPublicKey (pub : xkey) : res (list Z * (list Z * list Z)) :=
  match pub with
  | XSM2 c x y | XEC c x y =>
      match oidFromNamedCurve c with
      | None => Err 1
      | Some oid => Ok (ec_marshal c x y, (oidPublicKeyECDSA, der_tlv 6 oid))
      end
  | XRSA n e => Ok (der_tlv 48 (der_int n ++ der_int e), (oidPublicKeyRSA, NullBytes))
  | _ => Err 1
  end.
(** publicKeyInfo: Raw, algorithm, key bits *)
Record spki := mkSpki { k_raw : list Z; k_alg : list Z * list Z; k_bits : Z * list Z }.
Definition p_spki_content (c : list Z) : res ((list Z * list Z) * (Z * list Z)) :=
  do a <- req 48 p_alg c; do b <- req 3 p_bits (snd a); Ok (fst a, fst b).
Definition p_spki (b : list Z) : res (spki * list Z) :=
  do r <- with_full (req 48 p_spki_content) b; Ok (mkSpki (snd (fst r)) (fst (fst (fst r))) (snd (fst (fst r))), snd r).
Definition p_two {A B} (p : list Z -> res (A * list Z)) (q : list Z -> res (B * list Z)) (c : list Z) : res (A * B) :=
  do a <- p c; do b <- q (snd a); Ok (fst a, fst b).
(** x509.go:1014-1126 parsePublicKey *)
Definition parse_ec (params : list Z) (d : list Z) : res (ncurve * (Z * Z)) :=
  do oid <- whole (req 6 p_oid_content) params;
  match namedCurveFromOID oid with
  | None => Err 1
  | Some c => match ec_unmarshal c d with None => Err 1 | Some xy => Ok (c, xy) end
  end.
Definition parsePublicKey (algo : Z) (k : spki) : res xkey :=
  let asn1Data := RightAlign (k_bits k) in
  let params := snd (k_alg k) in
  if algo =? SM2 then do r <- parse_ec params asn1Data; Ok (XSM2 (fst r) (fst (snd r)) (snd (snd r)))
  else if algo =? RSA then
    if negb (beqb params NullBytes) then Err 1
    else do p <- whole (req 48 (p_two (req 2 int_value) (req 2 p_int64))) asn1Data;
         if (fst p <=? 0) || (snd p <=? 0) then Err 1 else Ok (XRSA (fst p) (snd p))
  else if algo =? DSA then
    do y <- whole (req 2 int_value) asn1Data;
    do p <- whole (req 48 (fun c => do a <- req 2 int_value c; do b <- p_two (req 2 int_value) (req 2 int_value) (snd a); Ok (fst a, b))) params;
    if (y <=? 0) || (fst p <=? 0) || (fst (snd p) <=? 0) || (snd (snd p) <=? 0) then Err 1
    else Ok (XDSA (fst p) (fst (snd p)) (snd (snd p)) y)
  else if algo =? ECDSA then do r <- parse_ec params asn1Data; Ok (XEC (fst r) (fst (snd r)) (snd (snd r)))
  else Ok XNil.
(** x509.go:1195-1200 (and 64-69): the key algorithm of a SubjectPublicKeyInfo *)
Definition keyAlgorithm (a : list Z * list Z) : Z :=
  let algo := getPublicKeyAlgorithmFromOID (fst a) in
  if (algo =? ECDSA) && beqb (snd a) (der_tlv 6 oidNamedCurveSm2) then SM2 else algo.
(** x509.go:55-72 ParsePKIXPublicKey, all key types *)
Definition ParsePKIXPublicKeyX (der : list Z) : res xkey :=
  do k <- whole p_spki der;
  let algo := keyAlgorithm (k_alg k) in
  if algo =? UnknownPublicKeyAlgorithm then Err 1 else parsePublicKey algo k.
(** x509.go:120-143 MarshalPKIXPublicKey, all key types *)
Definition der_spki (k : list Z * (list Z * list Z)) : list Z := der_tlv 48 (der_algid (snd k) ++ der_bits (fst k)).
Definition MarshalPKIXPublicKeyX (pub : xkey) : res (list Z) := do k <- marshalPublicKey pub; Ok (der_spki k).

(** ** Checking signatures *)
(** x509.go:874-892: the hash an algorithm calls for *)
Definition hash_of (algo : Z) : res Z :=
  if algo =? SM2WithSM3 then Ok hSM3
  else if (algo =? SHA1WithRSA) || (algo =? DSAWithSHA1) || (algo =? ECDSAWithSHA1) || (algo =? SM2WithSHA1) then Ok hSHA1
  else if (algo =? SHA256WithRSA) || (algo =? SHA256WithRSAPSS) || (algo =? DSAWithSHA256) || (algo =? ECDSAWithSHA256) || (algo =? SM2WithSHA256) then Ok hSHA256
  else if (algo =? SHA384WithRSA) || (algo =? SHA384WithRSAPSS) || (algo =? ECDSAWithSHA384) then Ok hSHA384
  else if (algo =? SHA512WithRSA) || (algo =? SHA512WithRSAPSS) || (algo =? ECDSAWithSHA512) then Ok hSHA512
  else if (algo =? MD2WithRSA) || (algo =? MD5WithRSA) then Err 2 else Err 3.
Definition digest_of (h : Z) (m : list Z) : res (list Z) := if h =? hSM3 then SumSM3 m else Ok (hashf h m).
(** asn1.Unmarshal into a struct of two integers, no trailing data, both positive (907-914, 926-933, 940-947) *)
Definition sig_ints (signature : list Z) : res (Z * Z) :=
  do rs <- whole (req 48 (p_two (req 2 int_value) (req 2 int_value))) signature;
  if (fst rs <=? 0) || (snd rs <=? 0) then Err 1 else Ok rs.
Definition ok_if (b : bool) : res unit := if b then Ok tt else Err 1.
(** sm2.Verify: the curve methods are those of pub.Curve *)
Definition sm2Verify (c : ncurve) (x y : Z) (m : list Z) (r s : Z) : res bool :=
  match c with SM2C => Verify cv (mkPub x y None) m r s | NIST i => sm2_verify_nist i x y m r s end.
(** x509.go:870-960 checkSignature.  hashType is 0 for SM2WithSM3 (878). *)
Definition checkSignature (algo : Z) (signed signature : list Z) (publicKey : xkey) : res unit :=
  do h <- hash_of algo;
  do digest <- digest_of h signed;
  let hashType := if algo =? SM2WithSM3 then 0 else h in
  match publicKey with
  | XSM2 c x y => do rs <- sig_ints signature; do v <- sm2Verify c x y signed (fst rs) (snd rs); ok_if v
  | XRSA n e => ok_if (rsa_verify (isRSAPSS algo) n e hashType digest signature)
  | XDSA p q g y => do rs <- sig_ints signature; ok_if (dsa_verify p q g y digest (fst rs) (snd rs))
  | XEC c x y => do rs <- sig_ints signature; ok_if (ecdsa_verify c x y digest (fst rs) (snd rs))
  | _ => Err 3
  end.
(** x509.go:866-868 Certificate.CheckSignature *)
Definition CheckSignature (c : xcert) (algo : Z) (signed signature : list Z) : res unit := checkSignature algo signed signature (c_pub c).
(** x509.go:842-864 CheckSignatureFrom *)
Definition CheckSignatureFrom (c parent : xcert) : res unit :=
  let px := c_x parent in
  if (((c_version parent =? 3) && negb (x_bcv px)) || (x_bcv px && negb (x_isca px))) && negb (beqb (c_rawSPKI c) entrustBrokenSPKI) then Err 4
  else if negb (x_ku px =? 0) && (Z.land (x_ku px) KeyUsageCertSign =? 0) then Err 4
  else if c_pubAlg parent =? UnknownPublicKeyAlgorithm then Err 3
  else CheckSignature parent (c_sigAlg c) (c_rawTBS c) (c_sig c).

(** ** Parsing certificates *)
Definition p_ext_content (c : list Z) : res ext :=
  do i <- req 6 p_oid_content c; do k <- opt 1 p_bool (snd i); do v <- req 4 p_id (snd k);
  Ok (mkExt (fst i) (match fst k with Some b => b | None => false end) (fst v)).
Definition p_exts (c : list Z) : res (list ext) := seq_of (req 48 p_ext_content) c.
Definition p_time (b : list Z) : res (tm * list Z) :=
  match b with 24 :: _ => req 24 (dec_time true) b | _ => req 23 (dec_time false) b end.
Definition p_validity (c : list Z) : res (tm * tm) := p_two p_time p_time c.
(** x509.go:156-169 tbsCertificate *)
Record tbs := mkTbs { b_version : Z; b_serial : Z; b_alg : list Z * list Z; b_issuer : list Z; b_nb : tm; b_na : tm; b_subject : list Z;
                      b_spki : spki; b_exts : list ext }.
Definition p_tbs_content (c : list Z) : res tbs :=
  do v <- explicit 0 2 p_int64 c;
  do s <- req 2 int_value (snd v);
  do a <- req 48 p_alg (snd s);
  do i <- any (snd a);
  do d <- req 48 p_validity (snd i);
  do j <- any (snd d);
  do k <- p_spki (snd j);
  do u <- opt 129 p_bits (snd k);
  do w <- opt 130 p_bits (snd u);
  do e <- explicit 3 48 p_exts (snd w);
  Ok (mkTbs (match fst v with Some z => z | None => 0 end) (fst s) (fst a) (r_full (fst i)) (fst (fst d)) (snd (fst d)) (r_full (fst j)) (fst k)
        (match fst e with Some l => l | None => [] end)).
(** x509.go:149-154 certificate: Raw, the TBS with its Raw, the outer algorithm, the signature bits *)
Record certificate := mkCertificate { i_raw : list Z; i_tbs : tbs; i_rawTBS : list Z; i_alg : list Z * list Z; i_sig : Z * list Z }.
Definition p_certificate_content (c : list Z) : res (tbs * list Z * (list Z * list Z) * (Z * list Z)) :=
  do t <- with_full (req 48 p_tbs_content) c; do a <- req 48 p_alg (snd t); do s <- req 3 p_bits (snd a);
  Ok (fst t, fst a, fst s).
Definition p_certificate (b : list Z) : res (certificate * list Z) :=
  do r <- with_full (req 48 p_certificate_content) b;
  let '(t, rt, a, s) := fst (fst r) in Ok (mkCertificate (snd (fst r)) t rt a s, snd r).

(** x509.go:1128-1182 parseSANExtension: (DNS names, email addresses, IP addresses).  Only the tag number of each element is looked at. *)
Definition san := (list (list Z) * list (list Z) * list (list Z))%type.
Definition add_san (s : san) (v : raw) : res san :=
  let '(d, e, i) := s in
  if r_tag v =? 1 then Ok (d, e ++ [r_bytes v], i)
  else if r_tag v =? 2 then Ok (d ++ [r_bytes v], e, i)
  else if r_tag v =? 7 then if (length (r_bytes v) =? 4)%nat || (length (r_bytes v) =? 16)%nat then Ok (d, e, i ++ [r_bytes v]) else Err 1
  else Ok s.
Fixpoint san_loop (fuel : nat) (s : san) (rest : list Z) : res san :=
  match rest, fuel with
  | [], _ => Ok s
  | _, O => Err 1
  | _, S f => do v <- any rest; do s' <- add_san s (fst v); san_loop f s' (snd v)
  end.
Definition parseSANExtension (value : list Z) : res san :=
  do seq <- whole any value;
  if negb ((r_cc seq =? 32) && (r_tag seq =? 16)) then Err 1 else san_loop (length (r_bytes seq)) ([], [], []) (r_bytes seq).

(** asn1.BitString.At *)
Definition bit_at (v : Z * list Z) (i : Z) : Z :=
  if (i <? 0) || (8 * zlen (snd v) - fst v <=? i) then 0
  else Z.land (Z.shiftr (nth (Z.to_nat (i / 8)) (snd v) 0) (7 - i mod 8)) 1.
(** x509.go:1234-1240: nine usage bits *)
Definition usage_of (v : Z * list Z) : Z :=
  fold_left (fun u i => if negb (bit_at v i =? 0) then Z.lor u (Z.shiftl 1 i) else u) [0;1;2;3;4;5;6;7;8] 0.
(** x509.go:979-982 basicConstraints *)
Definition p_basic (c : list Z) : res (bool * Z) :=
  do a <- opt 1 p_bool c; do m <- opt 2 p_int64 (snd a);
  Ok (match fst a with Some b => b | None => false end, match fst m with Some z => z | None => -1 end).
(** x509.go:990-999 nameConstraints, generalSubtree *)
Definition p_ia5 (c : list Z) : res (list Z) := if forallb (fun x => x <? 128) c then Ok c else Err 1.
Definition p_subtree (c : list Z) : res (list Z) := do n <- opt 130 p_ia5 c; Ok (match fst n with Some s => s | None => [] end).
Definition p_nc (c : list Z) : res (list (list Z) * list (list Z)) :=
  do p <- opt 160 (seq_of (req 48 p_subtree)) c; do e <- opt 161 (seq_of (req 48 p_subtree)) (snd p);
  Ok (match fst p with Some l => l | None => [] end, match fst e with Some l => l | None => [] end).
(** x509.go:1294-1306 getDNSNames *)
Definition getDNSNames (subtrees : list (list Z)) (isCritical : bool) : res (list (list Z)) :=
  if isCritical && existsb (fun n => (length n =? 0)%nat) subtrees then Err 1
  else Ok (filter (fun n => negb (length n =? 0)%nat) subtrees).
(** a RawValue field with a context tag and no constraint on the constructed bit *)
Definition opt_raw (t : Z) (b : list Z) : res (option (list Z) * list Z) :=
  match b with
  | [] => Ok (None, [])
  | _ => do h <- parse_hdr b;
         if (Z.land (h_cc (fst h)) 192 =? 128) && (h_tag (fst h) =? t) then do c <- take (h_len (fst h)) (snd h); Ok (Some (fst c), snd c)
         else Ok (None, b)
  end.
(** x509.go:1003-1012 distributionPoint, distributionPointName: the contents of FullName, empty if absent *)
Definition p_dpname (c : list Z) : res (list Z) :=
  do f <- opt_raw 0 c; do r <- opt 161 dec_name (snd f); Ok (match fst f with Some v => v | None => [] end).
Definition p_dp (c : list Z) : res (list Z) :=
  do d <- opt 160 p_dpname c; do r <- opt 129 p_bits (snd d); do i <- opt_raw 2 (snd r); Ok (match fst d with Some v => v | None => [] end).
(** x509.go:1342-1360 *)
Fixpoint crldp_names (l : list (list Z)) : res (list (list Z)) :=
  match l with
  | [] => Ok []
  | [] :: t => crldp_names t
  | f :: t => do n <- any f; do r <- crldp_names t; Ok (if r_tag (fst n) =? 6 then r_bytes (fst n) :: r else r)
  end.
Definition p_aki (c : list Z) : res (list Z) := do i <- opt 128 p_id c; Ok (match fst i with Some v => v | None => [] end).
Definition p_policy (c : list Z) : res (list Z) := do o <- req 6 p_oid_content c; Ok (fst o).
Definition p_aia (c : list Z) : res (list Z * raw) := do m <- req 6 p_oid_content c; do l <- any (snd m); Ok (fst m, fst l).
Definition known_eku (l : list (list Z)) : list Z := flat_map (fun o => match extKeyUsageFromOID o with Some u => [u] | None => [] end) l.
Definition unknown_eku (l : list (list Z)) : list (list Z) := filter (fun o => match extKeyUsageFromOID o with Some _ => false | None => true end) l.
(** x509.go:1421-1432 *)
Definition aia_names (m : list Z) (l : list (list Z * raw)) : list (list Z) :=
  map (fun v => r_bytes (snd v)) (filter (fun v => (r_tag (snd v) =? 6) && beqb (fst v) m) l).

(** x509.go:1222-1447: one extension; the boolean is [unhandled] *)
Definition set_ku s v := let 'mkX _ b c m z d e i p q k r a u w t o f g n := s in mkX v b c m z d e i p q k r a u w t o f g n.
Definition set_bc s ca mp := let 'mkX y _ _ _ _ d e i p q k r a u w t o f g n := s in mkX y true ca mp (mp =? 0) d e i p q k r a u w t o f g n.
Definition set_san s (v : san) := let 'mkX y b c m z _ _ _ p q k r a u w t o f g n := s in let '(d, e, i) := v in mkX y b c m z d e i p q k r a u w t o f g n.
Definition set_nc s p q k := let 'mkX y b c m z d e i _ _ _ r a u w t o f g n := s in mkX y b c m z d e i p q k r a u w t o f g n.
Definition add_crldp s l := let 'mkX y b c m z d e i p q k r a u w t o f g n := s in mkX y b c m z d e i p q k (r ++ l) a u w t o f g n.
Definition set_aki s v := let 'mkX y b c m z d e i p q k r _ u w t o f g n := s in mkX y b c m z d e i p q k r v u w t o f g n.
Definition add_eku s l l' := let 'mkX y b c m z d e i p q k r a u w t o f g n := s in mkX y b c m z d e i p q k r a (u ++ l) (w ++ l') t o f g n.
Definition set_ski s v := let 'mkX y b c m z d e i p q k r a u w _ o f g n := s in mkX y b c m z d e i p q k r a u w v o f g n.
Definition set_pol s v := let 'mkX y b c m z d e i p q k r a u w t _ f g n := s in mkX y b c m z d e i p q k r a u w t v f g n.
Definition add_aia s l l' := let 'mkX y b c m z d e i p q k r a u w t o f g n := s in mkX y b c m z d e i p q k r a u w t o (f ++ l) (g ++ l') n.
Definition add_unh s v := let 'mkX y b c m z d e i p q k r a u w t o f g n := s in mkX y b c m z d e i p q k r a u w t o f g (n ++ [v]).

Definition handle_ext (s : exs) (e : ext) : res (exs * bool) :=
  let id := ex_id e in let v := ex_val e in
  if beqb id oidExtensionKeyUsage then do b <- whole (req 3 p_bits) v; Ok (set_ku s (usage_of b), false)
  else if beqb id oidExtensionBasicConstraints then do b <- whole (req 48 p_basic) v; Ok (set_bc s (fst b) (snd b), false)
  else if beqb id oidExtensionSubjectAltName then
    do n <- parseSANExtension v;
    Ok (set_san s n, (length (fst (fst n)) =? 0)%nat && (length (snd (fst n)) =? 0)%nat && (length (snd n) =? 0)%nat)
  else if beqb id oidExtensionNameConstraints then
    do c <- whole (req 48 p_nc) v; do p <- getDNSNames (fst c) (ex_crit e); do q <- getDNSNames (snd c) (ex_crit e);
    Ok (set_nc s p q (ex_crit e), false)
  else if beqb id oidExtensionCRLDistributionPoints then
    do l <- whole (req 48 (seq_of (req 48 p_dp))) v; do n <- crldp_names l; Ok (add_crldp s n, false)
  else if beqb id oidExtensionAuthorityKeyId then do a <- whole (req 48 p_aki) v; Ok (set_aki s a, false)
  else if beqb id oidExtensionExtendedKeyUsage then
    do l <- whole (req 48 (seq_of (req 6 p_oid_content))) v; Ok (add_eku s (known_eku l) (unknown_eku l), false)
  else if beqb id oidExtensionSubjectKeyId then do k <- whole (req 4 p_id) v; Ok (set_ski s k, false)
  else if beqb id oidExtensionCertificatePolicies then do l <- whole (req 48 (seq_of (req 48 p_policy))) v; Ok (set_pol s l, false)
  else if beqb id oidExtensionAuthorityInfoAccess then
    do l <- whole (req 48 (seq_of (req 48 p_aia))) v;
    Ok (add_aia s (aia_names oidAuthorityInfoAccessOcsp l) (aia_names oidAuthorityInfoAccessIssuers l), false)
  else Ok (s, true).
Fixpoint handle_exts (s : exs) (l : list ext) : res exs :=
  match l with
  | [] => Ok s
  | e :: t => do r <- handle_ext s e; handle_exts (if ex_crit e && snd r then add_unh (fst r) (ex_id e) else fst r) t
  end.
(** x509.go:1184-1454 parseCertificate.  Version + 1 wraps around like an int. *)
Definition int64 (z : Z) : Z := (z + 2 ^ 63) mod 2 ^ 64 - 2 ^ 63.
Definition parseCertificate (i : certificate) : res xcert :=
  let t := i_tbs i in
  let alg := keyAlgorithm (k_alg (b_spki t)) in
  do pub <- parsePublicKey alg (b_spki t);
  do subject <- whole (req 48 dec_name) (b_subject t);
  do issuer <- whole (req 48 dec_name) (b_issuer t);
  do x <- handle_exts x0 (b_exts t);
  Ok (mkC (i_raw i) (i_rawTBS i) (k_raw (b_spki t)) (b_subject t) (b_issuer t) (RightAlign (i_sig i)) (getSignatureAlgorithmFromAI (b_alg t)) alg pub
        (int64 (b_version t + 1)) (Some (b_serial t)) issuer subject (b_nb t) (b_na t) (b_exts t) [] x).
(** x509.go:1456-1468 ParseCertificate *)
Definition ParseCertificate (asn1Data : list Z) : res xcert := do i <- whole p_certificate asn1Data; parseCertificate i.
(** x509.go:1470-1495 ParseCertificates *)
Fixpoint parse_all (l : list certificate) : res (list xcert) :=
  match l with [] => Ok [] | i :: t => do c <- parseCertificate i; do r <- parse_all t; Ok (c :: r) end.
Definition ParseCertificates (asn1Data : list Z) : res (list xcert) := do l <- seq_of p_certificate asn1Data; parse_all l.

(** ** Creating certificates *)
(** x509.go:1497-1502 reverseBitsInAByte *)
Definition reverseBitsInAByte (v : Z) : Z :=
  let b1 := Z.lor (Z.shiftr v 4) (u8 (Z.shiftl v 4)) in
  let b2 := Z.lor (Z.land (Z.shiftr b1 2) 51) (Z.land (u8 (Z.shiftl b1 2)) 204) in
  Z.lor (Z.land (Z.shiftr b2 1) 85) (Z.land (u8 (Z.shiftl b2 1)) 170).
(** x509.go:1504-1522 asn1BitLength: scan from the last octet, low bit first *)
Fixpoint bitlen_scan (bits : list Z) (b bitLen : Z) : Z + Z :=     (* inl: found; inr: bit length left *)
  match bits with
  | [] => inr bitLen
  | bit :: t => if Z.land (Z.shiftr b bit) 1 =? 1 then inl bitLen else bitlen_scan t b (bitLen - 1)
  end.
Fixpoint bitlen_loop (rev_bytes : list Z) (bitLen : Z) : Z :=
  match rev_bytes with
  | [] => 0
  | b :: t => match bitlen_scan [0;1;2;3;4;5;6;7] b bitLen with inl n => n | inr n => bitlen_loop t n end
  end.
Definition asn1BitLength (bitString : list Z) : Z := bitlen_loop (rev bitString) (8 * zlen bitString).
(** x509.go:1583-1598: the KeyUsage extension value.  BIT STRING marshalled with (8 - BitLength%8)%8 padding bits *)
Definition ku_value (ku : Z) : list Z :=
  let a0 := reverseBitsInAByte (u8 ku) in
  let a1 := reverseBitsInAByte (u8 (Z.shiftr ku 8)) in
  let bitString := if a1 =? 0 then [a0] else [a0; a1] in
  der_tlv 3 (((8 - asn1BitLength bitString mod 8) mod 8) :: bitString).
(** x509.go:1542-1551 oidInExtensions *)
Definition oidInExtensions (oid : list Z) (l : list ext) : bool := existsb (fun e => beqb (ex_id e) oid) l.
(** net.IP.To4 *)
Definition To4 (ip : list Z) : option (list Z) :=
  if (length ip =? 4)%nat then Some ip
  else if (length ip =? 16)%nat && beqb (firstn 12 ip) [0;0;0;0;0;0;0;0;0;0;255;255] then Some (skipn 12 ip) else None.
Definition ip_bytes (ip : list Z) : list Z := match To4 ip with Some v => v | None => ip end.
(** x509.go:1553-1572 marshalSANs *)
Definition marshalSANs (dns email ip : list (list Z)) : list Z :=
  der_tlv 48 (concat (map (der_tlv 130) dns) ++ concat (map (der_tlv 129) email) ++ concat (map (fun i => der_tlv 135 (ip_bytes i)) ip)).
Definition der_bool : list Z := [1;1;255].
(** asn1.Marshal(basicConstraints{...}) *)
Definition bc_value (isCA : bool) (mpl : Z) : list Z :=
  der_tlv 48 ((if isCA then der_bool else []) ++ (if mpl =? -1 then [] else der_int mpl)).
(** the OIDs of an ExtKeyUsage list; an unknown value panics (1608-1612) *)
Fixpoint eku_oids (l : list Z) : res (list (list Z)) :=
  match l with
  | [] => Ok []
  | u :: t => match oidFromExtKeyUsage u with None => Panic | Some o => do r <- eku_oids t; Ok (o :: r) end
  end.
Definition aia_value (ocsp iss : list (list Z)) : list Z :=
  let one m n := der_tlv 48 (der_tlv 6 m ++ der_tlv 134 n) in
  der_tlv 48 (concat (map (one oidAuthorityInfoAccessOcsp) ocsp) ++ concat (map (one oidAuthorityInfoAccessIssuers) iss)).
Definition is_ia5 (s : list Z) : bool := forallb (fun x => x <? 128) s.
Definition subtree_value (n : list Z) : list Z := der_tlv 48 (match n with [] => [] | _ => der_tlv 130 n end).
(** asn1.Marshal(nameConstraints{...}): a name that is not IA5 is an error; empty slices are not nil, so they are written *)
Definition nc_value (perm excl : list (list Z)) : res (list Z) :=
  if forallb is_ia5 perm && forallb is_ia5 excl
  then Ok (der_tlv 48 (der_tlv 160 (concat (map subtree_value perm)) ++ der_tlv 161 (concat (map subtree_value excl))))
  else Err 1.
Definition crldp_value (l : list (list Z)) : list Z :=
  der_tlv 48 (concat (map (fun n => der_tlv 48 (der_tlv 160 (der_tlv 160 (der_tlv 134 n)))) l)).
Definition nonempty {A} (l : list A) : bool := match l with [] => false | _ => true end.
Definition optl {A} (b : bool) (x : A) : list A := if b then [x] else [].
(** x509.go:1574-1757 buildExtensions *)
Definition buildExtensions (template : xcert) (authorityKeyId : list Z) : res (list ext) :=
  let x := c_x template in
  let absent oid := negb (oidInExtensions oid (c_extra template)) in
  let e1 := optl (negb (x_ku x =? 0) && absent oidExtensionKeyUsage) (mkExt oidExtensionKeyUsage true (ku_value (x_ku x))) in
  do e2 <- (if (nonempty (x_eku x) || nonempty (x_ueku x)) && absent oidExtensionExtendedKeyUsage
            then do oids <- eku_oids (x_eku x);
                 Ok [mkExt oidExtensionExtendedKeyUsage false (der_tlv 48 (concat (map (der_tlv 6) (oids ++ x_ueku x))))]
            else Ok []);
  let e3 := optl (x_bcv x && absent oidExtensionBasicConstraints)
              (mkExt oidExtensionBasicConstraints true
                 (bc_value (x_isca x) (if (x_mpl x =? 0) && negb (x_mplz x) then -1 else x_mpl x))) in
  let e4 := optl (nonempty (x_ski x) && absent oidExtensionSubjectKeyId) (mkExt oidExtensionSubjectKeyId false (der_tlv 4 (x_ski x))) in
  let e5 := optl (nonempty authorityKeyId && absent oidExtensionAuthorityKeyId)
              (mkExt oidExtensionAuthorityKeyId false (der_tlv 48 (der_tlv 128 authorityKeyId))) in
  let e6 := optl ((nonempty (x_ocsp x) || nonempty (x_iss x)) && absent oidExtensionAuthorityInfoAccess)
              (mkExt oidExtensionAuthorityInfoAccess false (aia_value (x_ocsp x) (x_iss x))) in
  let e7 := optl ((nonempty (x_dns x) || nonempty (x_email x) || nonempty (x_ip x)) && absent oidExtensionSubjectAltName)
              (mkExt oidExtensionSubjectAltName false (marshalSANs (x_dns x) (x_email x) (x_ip x))) in
  let e8 := optl (nonempty (x_pol x) && absent oidExtensionCertificatePolicies)
              (mkExt oidExtensionCertificatePolicies false (der_tlv 48 (concat (map (fun p => der_tlv 48 (der_tlv 6 p)) (x_pol x))))) in
  do e9 <- (if (nonempty (x_perm x) || nonempty (x_excl x)) && absent oidExtensionNameConstraints
            then do v <- nc_value (x_perm x) (x_excl x); Ok [mkExt oidExtensionNameConstraints (x_permcrit x) v] else Ok []);
  let e10 := optl (nonempty (x_crldp x) && absent oidExtensionCRLDistributionPoints)
               (mkExt oidExtensionCRLDistributionPoints false (crldp_value (x_crldp x))) in
  Ok (e1 ++ e2 ++ e3 ++ e4 ++ e5 ++ e6 ++ e7 ++ e8 ++ e9 ++ e10 ++ c_extra template).
(** x509.go:1759-1765 subjectBytes *)
Definition subjectBytes (c : xcert) : res (list Z) :=
  match c_rawSubject c with [] => do n <- enc_name (c_subject c); Ok (der_tlv 48 n) | r => Ok r end.
(** x509.go:1767-1844 signingParamsForPublicKey: hash and AlgorithmIdentifier *)
Definition signingParamsForPublicKey (pub : xkey) (requested : Z) : res (Z * (list Z * list Z)) :=
  do d <- match pub with
          | XSM2 SM2C _ _ => Ok (SM2, hSM3, (oidSignatureSM2WithSM3, []))
          | XRSA _ _ => Ok (RSA, hSHA256, (oidSignatureSHA256WithRSA, NullBytes))
          | XEC (NIST i) _ _ => if (i <=? 1)%nat then Ok (ECDSA, hSHA256, (oidSignatureECDSAWithSHA256, []))
                                else if (i =? 2)%nat then Ok (ECDSA, hSHA384, (oidSignatureECDSAWithSHA384, []))
                                else if (i =? 3)%nat then Ok (ECDSA, hSHA512, (oidSignatureECDSAWithSHA512, [])) else Err 1
          | _ => Err 1
          end;
  let '(pubType, hashFunc, (oid, params)) := d in
  if requested =? 0 then Ok (hashFunc, (oid, params))
  else match find (fun d => fst (fst (fst d)) =? requested) signatureAlgorithmDetails with
       | None => Err 1
       | Some (_, oid', pk, h) =>
           if negb (pk =? pubType) then Err 1 else if h =? 0 then Err 1
           else Ok (h, (oid', if isRSAPSS requested then rsaPSSParameters h else params))
       end.
Definition der_ext (e : ext) : list Z := der_tlv 48 (der_tlv 6 (ex_id e) ++ (if ex_crit e then der_bool else []) ++ der_tlv 4 (ex_val e)).
Definition der_time (t : tm) : res (list Z) := do r <- enc_time t; Ok (der_tlv (if fst r then 24 else 23) (snd r)).
Definition der_exts (l : list ext) : list Z := der_tlv 48 (concat (map der_ext l)).
(** asn1.Marshal(tbsCertificate{Version: 2, ...}) (1905-1914) *)
Definition marshal_tbs (serial : Z) (sigAlg : list Z * list Z) (issuer nb na subject spki : list Z) (exts : list ext) : list Z :=
  der_tlv 48 (der_tlv 160 (der_int 2) ++ der_int serial ++ der_algid sigAlg ++ issuer ++ der_tlv 48 (nb ++ na) ++ subject ++ spki ++
              der_tlv 163 (der_exts exts)).
(** x509.go:1925-1955, 1985-2060: what is signed.  An SM2 key signs the message itself, every other key its digest. *)
Definition sign_with (k : signer) (sm2 : bool) (h : Z) (pss : bool) (m : list Z) : res (list Z) :=
  do digest <- digest_of h m; if sm2 then sg_sign k m h pss else sg_sign k digest h pss.
Definition is_sm2 (k : xkey) : bool := match k with XSM2 _ _ _ => true | _ => false end.
Definition der_signed (tbs : list Z) (alg : list Z * list Z) (sig : list Z) : list Z := der_tlv 48 (tbs ++ der_algid alg ++ der_bits sig).
(** x509.go:1863-1961 CreateCertificate *)
Definition CreateCertificate (template parent : xcert) (pub : xkey) (key : signer) : res (list Z) :=
  match c_serial template with
  | None => Err 1
  | Some serial =>
      do sp <- signingParamsForPublicKey (sg_pub key) (c_sigAlg template);
      do pk <- marshalPublicKey pub;
      do issuer <- subjectBytes parent;
      do subject <- subjectBytes template;
      let aki := if negb (beqb issuer subject) && nonempty (x_ski (c_x parent)) then x_ski (c_x parent) else x_aki (c_x template) in
      do exts <- buildExtensions template aki;
      do nb <- der_time (c_nb template);
      do na <- der_time (c_na template);
      let tbs := marshal_tbs serial (snd sp) issuer nb na subject (der_spki pk) exts in
      do sig <- sign_with key (is_sm2 (sg_pub key)) (fst sp) (isRSAPSS (c_sigAlg template)) tbs;
      Ok (der_signed tbs (snd sp) sig)
  end.

(** ** CRLs *)
(** pkix.RevokedCertificate, pkix.CertificateList *)
Record revoked := mkRev { rv_serial : Z; rv_time : tm; rv_exts : list ext }.
Record crl := mkCrl { l_raw : list Z; l_version : Z; l_alg : list Z * list Z; l_issuer : nm; l_this : tm; l_next : option tm; l_revoked : list revoked;
                      l_exts : list ext; l_outer : list Z * list Z; l_sig : Z * list Z }.
Definition opt_time (b : list Z) : res (option tm * list Z) :=
  match b with 24 :: _ => opt 24 (dec_time true) b | _ => opt 23 (dec_time false) b end.
Definition p_revoked (c : list Z) : res revoked :=
  do s <- req 2 int_value c; do t <- p_time (snd s); do e <- opt 48 p_exts (snd t);
  Ok (mkRev (fst s) (fst t) (match fst e with Some l => l | None => [] end)).
Definition p_tbslist (c : list Z) : res (Z * (list Z * list Z) * nm * tm * option tm * list revoked * list ext) :=
  do v <- opt 2 p_int64 c; do a <- req 48 p_alg (snd v); do i <- req 48 dec_name (snd a); do t <- p_time (snd i);
  do n <- opt_time (snd t); do r <- opt 48 (seq_of (req 48 p_revoked)) (snd n); do e <- explicit 0 48 p_exts (snd r);
  Ok (match fst v with Some z => z | None => 0 end, fst a, fst i, fst t, fst n, match fst r with Some l => l | None => [] end,
      match fst e with Some l => l | None => [] end).
(** x509.go:1985-1995 ParseDERCRL *)
Definition p_crl_content (c : list Z) : res crl :=
  do t <- with_full (req 48 p_tbslist) c; do a <- req 48 p_alg (snd t); do s <- req 3 p_bits (snd a);
  let '(v, al, i, th, n, r, e) := fst (fst t) in Ok (mkCrl (snd (fst t)) v al i th n r e (fst a) (fst s)).
Definition ParseDERCRL (der : list Z) : res crl := whole (req 48 p_crl_content) der.
(** x509.go:963-967 CheckCRLSignature *)
Definition CheckCRLSignature (c : xcert) (l : crl) : res unit :=
  CheckSignature c (getSignatureAlgorithmFromAI (l_outer l)) (l_raw l) (RightAlign (l_sig l)).
Fixpoint der_revokeds (l : list revoked) : res (list Z) :=
  match l with
  | [] => Ok []
  | r :: t => do d <- der_time (rv_time r); do rest <- der_revokeds t;
              Ok (der_tlv 48 (der_int (rv_serial r) ++ d ++ (match rv_exts r with [] => [] | _ => der_exts (rv_exts r) end)) ++ rest)
  end.
(** x509.go:1997-2068 CreateCRL (nil and empty rc.Extensions are not distinguished) *)
Definition CreateCRL (c : xcert) (key : signer) (revokedCerts : list revoked) (now expiry : tm) : res (list Z) :=
  do sp <- signingParamsForPublicKey (sg_pub key) 0;
  do issuer <- enc_name (c_subject c);
  do th <- der_time now;
  do nx <- (if zero_time expiry then Ok [] else der_time expiry);
  do rv <- der_revokeds revokedCerts;
  let aki := match x_ski (c_x c) with
             | [] => []
             | k => der_tlv 160 (der_exts [mkExt oidExtensionAuthorityKeyId false (der_tlv 48 (der_tlv 128 k))])
             end in
  let tbs := der_tlv 48 (der_int 1 ++ der_algid (snd sp) ++ der_tlv 48 issuer ++ th ++ nx ++ der_tlv 48 rv ++ aki) in
  do sig <- sign_with key (sg_sm2priv key) (fst sp) false tbs;
  Ok (der_signed tbs (snd sp) sig).

(** ** Certificate requests *)
(** x509.go:2071-2107 CertificateRequest (Attributes is left out) *)
Record csr := mkCsr { q_raw : list Z; q_rawTBS : list Z; q_rawSPKI : list Z; q_rawSubject : list Z; q_version : Z; q_sig : list Z; q_sigAlg : Z;
  q_pubAlg : Z; q_pub : xkey; q_subject : nm; q_exts : list ext; q_extra : list ext; q_dns : list (list Z); q_email : list (list Z); q_ip : list (list Z) }.
(** x509.go:2205-2374 CreateCertificateRequest, template.Attributes = nil.  Note the default case (2346-2347): the error is
    overwritten by the final return, with an empty signature. *)
Definition atv (e : ext) : list Z := der_tlv 48 (der_tlv 6 (ex_id e) ++ der_tlv 4 (ex_val e)).
Definition CreateCertificateRequest (template : csr) (key : signer) : res (list Z) :=
  do sp <- signingParamsForPublicKey (sg_pub key) (q_sigAlg template);
  do pk <- marshalPublicKey (sg_pub key);
  let sans := optl ((nonempty (q_dns template) || nonempty (q_email template) || nonempty (q_ip template)) &&
                    negb (oidInExtensions oidExtensionSubjectAltName (q_extra template)))
                (mkExt oidExtensionSubjectAltName false (marshalSANs (q_dns template) (q_email template) (q_ip template))) in
  let extensions := sans ++ q_extra template in
  let attributes := match extensions with
                    | [] => []
                    | _ => der_tlv 48 (der_tlv 6 oidExtensionRequest ++ der_tlv 49 (der_tlv 48 (concat (map atv extensions))))
                    end in
  do subject <- match q_rawSubject template with [] => do n <- enc_name (q_subject template); Ok (der_tlv 48 n) | r => Ok r end;
  let tbs := der_tlv 48 (der_int 0 ++ subject ++ der_spki pk ++ der_tlv 160 attributes) in
  do sig <- match sg_pub key with
            | XSM2 _ _ _ => sg_sign key tbs (fst sp) false
            | XEC _ _ _ => do digest <- digest_of (fst sp) tbs; sg_sign key digest (fst sp) false
            | _ => Ok []
            end;
  Ok (der_signed tbs (snd sp) sig).
(** x509.go:2110-2126 *)
Definition p_tbscsr (c : list Z) : res (Z * list Z * spki * list raw) :=
  do v <- req 2 p_int64 c; do s <- any (snd v); do k <- p_spki (snd s); do a <- req 160 (seq_of any) (snd k);
  Ok (fst v, r_full (fst s), fst k, fst a).
Definition p_csr_content (c : list Z) : res (Z * list Z * spki * list raw * list Z * (list Z * list Z) * (Z * list Z)) :=
  do t <- with_full (req 48 p_tbscsr) c; do a <- req 48 p_alg (snd t); do s <- req 3 p_bits (snd a); Ok (fst t, fst a, fst s).
(** x509.go:2163-2193 parseCSRExtensions *)
Definition p_attr (c : list Z) : res (list Z * list raw) := p_two (req 6 p_oid_content) (req 49 (seq_of any)) c.
Fixpoint parseCSRExtensions (l : list raw) : res (list ext) :=
  match l with
  | [] => Ok []
  | a :: t => match whole (req 48 p_attr) (r_full a) with
              | Ok (id, v :: _) => if beqb id oidExtensionRequest
                                   then do e <- req 48 p_exts (r_full v); do r <- parseCSRExtensions t; Ok (fst e ++ r)
                                   else parseCSRExtensions t
              | _ => parseCSRExtensions t
              end
  end.
(** x509.go:2434-2441 *)
Fixpoint csr_sans (s : san) (l : list ext) : res san :=
  match l with
  | [] => Ok s
  | e :: t => if beqb (ex_id e) oidExtensionSubjectAltName then do n <- parseSANExtension (ex_val e); csr_sans n t else csr_sans s t
  end.
(** x509.go:2376-2445 ParseCertificateRequest, parseCertificateRequest *)
Definition ParseCertificateRequest (der : list Z) : res csr :=
  do r <- whole (with_full (req 48 p_csr_content)) der;
  let '((v, subj, k, attrs, rawTBS, alg, sigbits), rw) := r in
  let sigAlg := getSignatureAlgorithmFromAI alg in
  let pubAlg := if sigAlg =? SM2WithSM3 then SM2 else getPublicKeyAlgorithmFromOID (fst (k_alg k)) in
  do pub <- parsePublicKey pubAlg k;
  do subject <- whole (req 48 dec_name) subj;
  do exts <- parseCSRExtensions attrs;
  do s <- csr_sans ([], [], []) exts;
  let '(d, e, i) := s in
  Ok (mkCsr rw rawTBS (k_raw k) subj v (RightAlign sigbits) sigAlg pubAlg pub subject exts [] d e i).
(** x509.go:2447-2450 CertificateRequest.CheckSignature *)
Definition CheckCSRSignature (q : csr) : res unit := checkSignature (q_sigAlg q) (q_rawTBS q) (q_sig q) (q_pub q).
End X509C.
Arguments c_raw {nm tm}. Arguments c_rawTBS {nm tm}. Arguments c_rawSPKI {nm tm}. Arguments c_rawSubject {nm tm}. Arguments c_rawIssuer {nm tm}. Arguments c_sig {nm tm}. Arguments c_sigAlg {nm tm}. Arguments c_pubAlg {nm tm}. Arguments c_pub {nm tm}. Arguments c_version {nm tm}. Arguments c_serial {nm tm}. Arguments c_issuer {nm tm}. Arguments c_subject {nm tm}. Arguments c_nb {nm tm}. Arguments c_na {nm tm}. Arguments c_exts {nm tm}. Arguments c_extra {nm tm}. Arguments c_x {nm tm}. Arguments mkC {nm tm}.
Arguments l_raw {nm tm}. Arguments l_version {nm tm}. Arguments l_alg {nm tm}. Arguments l_issuer {nm tm}. Arguments l_this {nm tm}. Arguments l_next {nm tm}. Arguments l_revoked {nm tm}. Arguments l_exts {nm tm}. Arguments l_outer {nm tm}. Arguments l_sig {nm tm}. Arguments mkCrl {nm tm}.
Arguments q_raw {nm}. Arguments q_rawTBS {nm}. Arguments q_rawSPKI {nm}. Arguments q_rawSubject {nm}. Arguments q_version {nm}. Arguments q_sig {nm}. Arguments q_sigAlg {nm}. Arguments q_pubAlg {nm}. Arguments q_pub {nm}. Arguments q_subject {nm}. Arguments q_exts {nm}. Arguments q_extra {nm}. Arguments q_dns {nm}. Arguments q_email {nm}. Arguments q_ip {nm}. Arguments mkCsr {nm}.
Arguments rv_serial {tm}. Arguments rv_time {tm}. Arguments rv_exts {tm}. Arguments b_version {tm}. Arguments b_serial {tm}. Arguments b_alg {tm}. Arguments b_issuer {tm}. Arguments b_nb {tm}. Arguments b_na {tm}. Arguments b_subject {tm}. Arguments b_spki {tm}. Arguments b_exts {tm}. Arguments i_raw {tm}. Arguments i_tbs {tm}. Arguments i_rawTBS {tm}. Arguments i_alg {tm}. Arguments i_sig {tm}. Arguments mkRev {tm}. Arguments mkTbs {tm}. Arguments mkCertificate {tm}. 

(** Model of /repo/tls/tls.go (X509KeyPair, parsePrivateKey), /repo/x509/pkcs1.go (ParsePKCS1PrivateKey) and the RSA case of /repo/x509/pkcs8.go.
    encoding/pem.Decode, the ASN.1 decoding of pkcs1PrivateKey and rsa.PrivateKey.Validate belong to the Go standard library: parameters. *)
From Verif Require Import GoBase GoLemmas BigBytes Asn1_model SM2_model Keys_model.
From Verif Require Import X509C_model.
Open Scope Z_scope.

(** pkcs1.go:15-36, the fields that are used: Version, N, E, D, P, Q, AdditionalPrimes[i].Prime *)
Record rsapriv := mkRsa { rp_version : Z; rp_n : Z; rp_e : Z; rp_d : Z; rp_p : Z; rp_q : Z; rp_more : list Z }.
(** tls.go:24: crypto.PrivateKey: *rsa.PrivateKey (of which only N matters here), *ecdsa.PrivateKey, *sm2.PrivateKey *)
Inductive privk := KRsa (n : Z) | KEcdsa (c : ncurve) (d x y : Z) | KSm2 (d x y : Z).
Definition eNoPEM : Z := 1. Definition eSwitched : Z := 2. Definition eNoCert : Z := 3. Definition eNoPEMKey : Z := 4. Definition eCertNotKey : Z := 5. Definition eNoKey : Z := 6.
Definition eKeyKind : Z := 7. Definition eMismatch : Z := 8. Definition eUnknownAlg : Z := 9. Definition eParseKey : Z := 10.
Definition str_CERTIFICATE : list Z := [67;69;82;84;73;70;73;67;65;84;69].
Definition str_sp_PRIVATE_KEY : list Z := 32 :: str_PRIVATE_KEY.
(** strings.HasSuffix *)
Definition has_suffix (s suf : list Z) : bool := (length suf <=? length s)%nat && beqb (skipn (length s - length suf) s) suf.

Section KeyPair.
Variables nm tm : Type.
Variable dec_name : list Z -> res nm.
Variable dec_time : bool -> list Z -> res tm.
Variable nist_unm : nat -> list Z -> option (Z * Z).
Variable T : Type.
Variable cv : curve T.
Variable nist_order : nat -> Z.
Variable nist_base : nat -> list Z -> Z * Z.
Variable unm1 : list Z -> res (rsapriv * list Z).               (* asn1.Unmarshal into pkcs1PrivateKey *)
Variable validate : Z -> Z -> Z -> list Z -> bool.              (* N, E, D, primes: (rsa.PrivateKey).Validate() == nil *)
Variable pemDecode : list Z -> option (block * list Z).         (* pem.Decode: the next block and the rest *)

(** pkcs1.go:45-89 ParsePKCS1PrivateKey: the modulus of the key *)
Definition ParsePKCS1PrivateKey (der : list Z) : res Z :=
  do r <- unm1 der;
  let '(k, rest) := r in
  if 0 <? zlen rest then Err 1
  else if 1 <? rp_version k then Err 1
  else if (rp_n k <=? 0) || (rp_d k <=? 0) || (rp_p k <=? 0) || (rp_q k <=? 0) then Err 1
  else if existsb (fun p => p <=? 0) (rp_more k) then Err 1
  else if negb (validate (rp_n k) (rp_e k) (rp_d k) (rp_p k :: rp_q k :: rp_more k)) then Err 1
  else Ok (rp_n k).
Definition to_priv (k : anykey) : res privk :=
  match k with KEC SM2C d x y => Ok (KSm2 d x y) | KEC c d x y => Ok (KEcdsa c d x y) | KRSA => Err 1 end.
(** pkcs8.go:26-55 ParsePKCS8PrivateKey (as in Keys_model, with the RSA modulus) *)
Definition ParsePKCS8 (der : list Z) : res privk :=
  do p <- unmarshal_pkcs8 der;
  let '((oid, params), key) := p in
  if beqb oid Keys_model.oidPublicKeyRSA then do n <- ParsePKCS1PrivateKey key; Ok (KRsa n)
  else if beqb oid Keys_model.oidPublicKeyECDSA then
    let namedCurveOID := match parse_oid params with Ok r => Some (fst r) | _ => None end in
    do k <- parseECPrivateKey T cv nist_order nist_base unmarshal_ec namedCurveOID key; to_priv k
  else Err 1.
(** sec1.go:36-38 ParseECPrivateKey *)
Definition ParseEC (der : list Z) : res privk := do k <- parseECPrivateKey T cv nist_order nist_base unmarshal_ec None der; to_priv k.
(** tls.go:285-305 parsePrivateKey: PKCS#1, then PKCS#8, then SEC 1 *)
Definition parsePrivateKey (der : list Z) : res privk :=
  match ParsePKCS1PrivateKey der with
  | Ok n => Ok (KRsa n)
  | Panic => Panic
  | Err _ =>
      match ParsePKCS8 der with
      | Ok k => Ok k
      | Panic => Panic
      | Err _ => match ParseEC der with Ok k => Ok k | Panic => Panic | Err _ => Err eParseKey end
      end
  end.
(** tls.go:196-207: all blocks; the CERTIFICATE ones and the types of the others *)
Fixpoint cert_blocks (fuel : nat) (pem : list Z) : list (list Z) * list (list Z) :=
  match fuel with
  | O => ([], [])
  | Datatypes.S f =>
      match pemDecode pem with
      | None => ([], [])
      | Some (b, rest) => let '(certs, skipped) := cert_blocks f rest in
                          if beqb (b_type b) str_CERTIFICATE then (b_bytes b :: certs, skipped) else (certs, b_type b :: skipped)
      end
  end.
Definition is_key_type (t : list Z) : bool := beqb t str_PRIVATE_KEY || has_suffix t str_sp_PRIVATE_KEY.
(** tls.go:219-236: the first block whose type is PRIVATE KEY or ends in " PRIVATE KEY" *)
Fixpoint key_block (fuel : nat) (pem : list Z) (skipped : list (list Z)) : res block :=
  match fuel with
  | O => Err eNoKey
  | Datatypes.S f =>
      match pemDecode pem with
      | None => Err (match skipped with [] => eNoPEMKey | [t] => if beqb t str_CERTIFICATE then eCertNotKey else eNoKey | _ => eNoKey end)
      | Some (b, rest) => if is_key_type (b_type b) then Ok b else key_block f rest (skipped ++ [b_type b])
      end
  end.
(** tls.go:190-280 X509KeyPair: the chain and the private key.  The loops run at most once per byte. *)
Definition X509KeyPair (certPEM keyPEM : list Z) : res (list (list Z) * privk) :=
  let '(chain, skipped) := cert_blocks (Datatypes.S (length certPEM)) certPEM in
  match chain with
  | [] => Err (match skipped with [] => eNoPEM | [t] => if has_suffix t str_PRIVATE_KEY then eSwitched else eNoCert | _ => eNoCert end)
  | leaf :: _ =>
      do kb <- key_block (Datatypes.S (length keyPEM)) keyPEM [];
      do c <- ParseCertificate nm tm dec_name dec_time nist_unm leaf;
      do k <- parsePrivateKey (b_bytes kb);
      match c_pub c with
      | XRSA n _ => match k with KRsa n' => if n =? n' then Ok (chain, k) else Err eMismatch | _ => Err eKeyKind end
      | XEC _ x y => match k with KEcdsa _ _ x' y' => if (x =? x') && (y =? y') then Ok (chain, k) else Err eMismatch | _ => Err eKeyKind end
      | XSM2 _ x y => match k with KSm2 _ x' y' => if (x =? x') && (y =? y') then Ok (chain, k) else Err eMismatch | _ => Err eKeyKind end
      | _ => Err eUnknownAlg
      end
  end.
End KeyPair.

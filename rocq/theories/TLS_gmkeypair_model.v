(** Model of /repo/tls/gm_support.go:215-432: getCert, getKey, matchKeyCert, GMX509KeyPairs, GMX509KeyPairsSingle, LoadGMX509KeyPairs, LoadGMX509KeyPair,
    and of /repo/tls/tls.go:179-188 LoadX509KeyPair.  The same parameters as TLS_keypair_model; ioutil.ReadFile is a parameter.
    A Certificate is its chain and its private key (the only fields these functions set); what is returned beside an error is not modelled. *)
From Verif Require Import GoBase GoLemmas BigBytes Asn1_model SM2_model Keys_model X509C_model TLS_keypair_model.
Open Scope Z_scope.
Definition eBadCert : Z := 11.
Section GMKeyPair.
Variables nm tm : Type.
Variable dec_name : list Z -> res nm.
Variable dec_time : bool -> list Z -> res tm.
Variable nist_unm : nat -> list Z -> option (Z * Z).
Variable T : Type.
Variable cv : curve T.
Variable nist_order : nat -> Z.
Variable nist_base : nat -> list Z -> Z * Z.
Variable unm1 : list Z -> res (rsapriv * list Z).
Variable validate : Z -> Z -> Z -> list Z -> bool.
Variable pemDecode : list Z -> option (block * list Z).
Variable readFile : list Z -> res (list Z).                    (* ioutil.ReadFile: the contents of the named file *)

(** gm_support.go:277-304 getCert: every CERTIFICATE block, at least one *)
Definition getCert (pem : list Z) : res (list (list Z)) :=
  let '(certs, skipped) := cert_blocks pemDecode (Datatypes.S (length pem)) pem in
  match certs with
  | [] => Err (match skipped with [] => eNoPEM | [t] => if has_suffix t str_PRIVATE_KEY then eSwitched else eNoCert | _ => eNoCert end)
  | _ => Ok certs
  end.
(** gm_support.go:306-326 getKey *)
Definition getKey (pem : list Z) : res block := key_block pemDecode (Datatypes.S (length pem)) pem [].
(** gm_support.go:328-354 matchKeyCert *)
Definition matchKeyCert (kb : block) (cert : list Z) : res privk :=
  do c <- ParseCertificate nm tm dec_name dec_time nist_unm cert;
  do k <- parsePrivateKey T cv nist_order nist_base unm1 validate (b_bytes kb);
  match c_pub c with
  | XSM2 _ x y => match k with KSm2 _ x' y' => if negb (x =? x') || negb (y =? y') then Err eMismatch else Ok k | _ => Err eKeyKind end
  | _ => Err eUnknownAlg
  end.
(** gm_support.go:359-393 GMX509KeyPairs.  [encKeyPEM] is not used by the code either. *)
Definition GMX509KeyPairs (certPEM keyPEM encCertPEM encKeyPEM : list Z) : res (list (list Z) * privk) :=
  do signCerts <- getCert certPEM;
  match signCerts with
  | [] => Err eNoCert
  | s0 :: _ =>
      do encCerts <- getCert encCertPEM;
      match encCerts with
      | [] => Err eNoCert
      | e0 :: _ => do kb <- getKey keyPEM; do k <- matchKeyCert kb s0; Ok ([s0; e0], k)
      end
  end.
(** gm_support.go:396-432 GMX509KeyPairsSingle *)
Definition GMX509KeyPairsSingle (certPEM keyPEM : list Z) : res (list (list Z) * privk) :=
  do certs <- getCert certPEM;
  match certs with
  | [] => Err eNoCert
  | s0 :: _ =>
      match ParseCertificate nm tm dec_name dec_time nist_unm s0 with
      | Panic => Panic
      | Err _ => Err eBadCert
      | Ok checkCert =>
          if negb (c_pubAlg checkCert =? SM2) then X509KeyPair nm tm dec_name dec_time nist_unm T cv nist_order nist_base unm1 validate pemDecode certPEM keyPEM
          else do kb <- getKey keyPEM; do k <- matchKeyCert kb s0; Ok ([s0], k)
      end
  end.
(** gm_support.go:220-239 LoadGMX509KeyPairs *)
Definition LoadGMX509KeyPairs (certFile keyFile encCertFile encKeyFile : list Z) : res (list (list Z) * privk) :=
  do a <- readFile certFile; do b <- readFile keyFile; do c <- readFile encCertFile; do d <- readFile encKeyFile; GMX509KeyPairs a b c d.
(** gm_support.go:242-253 LoadGMX509KeyPair *)
Definition LoadGMX509KeyPair (certFile keyFile : list Z) : res (list (list Z) * privk) :=
  do a <- readFile certFile; do b <- readFile keyFile; GMX509KeyPairsSingle a b.
(** tls.go:179-188 LoadX509KeyPair *)
Definition LoadX509KeyPair (certFile keyFile : list Z) : res (list (list Z) * privk) :=
  do a <- readFile certFile; do b <- readFile keyFile; X509KeyPair nm tm dec_name dec_time nist_unm T cv nist_order nist_base unm1 validate pemDecode a b.
End GMKeyPair.

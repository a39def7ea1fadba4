(** Model of /repo/x509/pkcs1.go: ParsePKCS1PrivateKey and MarshalPKCS1PrivateKey, with the ASN.1 decoding of the structure (encoding/asn1, see Asn1_go).
    crypto/rsa's Validate and math/big's ModInverse are parameters; crypto/rsa's Precompute is modelled. *)
From Verif Require Import GoBase GoLemmas BigBytes Asn1_model Asn1_go SM2_model Keys_model X509C_model TLS_keypair_model.
Open Scope Z_scope.
(** crypto/rsa CRTValue (R is not used here) and PrecomputedValues; a nil *big.Int is None *)
Record crtv := mkCRT { y_exp : Z; y_coeff : option Z }.
Record precomp := mkPre { y_dp : Z; y_dq : Z; y_qinv : option Z; y_crt : list crtv }.
(** rsa.PrivateKey; [y_pre] is None while Precomputed.Dp is nil *)
Record rsakey := mkRK { y_n : Z; y_e : Z; y_d : Z; y_primes : list Z; y_pre : option precomp }.
(** big.Int.Mod: Euclidean; a zero modulus panics *)
Definition bigMod (x m : Z) : res Z := if m =? 0 then Panic else Ok (x mod Z.abs m).
Section Pkcs1.
Variable modInverse : Z -> Z -> option Z.                       (* new(big.Int).ModInverse(g, n) *)
Variable validate : Z -> Z -> Z -> list Z -> bool.              (* N, E, D, primes: (rsa.PrivateKey).Validate() == nil *)

(** crypto/rsa Precompute: the values of the primes after the first two; [r] is the product so far *)
Fixpoint crt_values (d r : Z) (primes : list Z) : res (list crtv) :=
  match primes with
  | [] => Ok []
  | p :: primes => do e <- bigMod d (p - 1); do l <- crt_values d (r * p) primes; Ok (mkCRT e (modInverse r p) :: l)
  end.
(** crypto/rsa Precompute *)
Definition precompute (k : rsakey) : res precomp :=
  match y_pre k with
  | Some p => Ok p
  | None =>
      match y_primes k with
      | p :: q :: more => do dp <- bigMod (y_d k) (p - 1); do dq <- bigMod (y_d k) (q - 1); do l <- crt_values (y_d k) (p * q) more; Ok (mkPre dp dq (modInverse q p) l)
      | _ => Panic                                              (* Primes[0], Primes[1]: index out of range *)
      end
  end.
(** pkcs1.go:30-36 pkcs1AdditionalRSAPrime: only the prime is used *)
Definition p_prime (c : list Z) : res Z := do p <- req 2 int_value c; do e <- req 2 int_value (snd p); do f <- req 2 int_value (snd e); Ok (fst p).
(** asn1.Unmarshal into pkcs1PrivateKey (pkcs1.go:15-28): the contents of the SEQUENCE.  Version and E are of type int *)
Definition p_rsa (c : list Z) : res rsapriv :=
  do v <- req 2 p_int64 c; do n <- req 2 int_value (snd v); do e <- req 2 p_int64 (snd n); do d <- req 2 int_value (snd e);
  do p <- req 2 int_value (snd d); do q <- req 2 int_value (snd p);
  do dp <- opt 2 int_value (snd q); do dq <- opt 2 int_value (snd dp); do qi <- opt 2 int_value (snd dq);
  do more <- opt 48 (seq_of (req 48 p_prime)) (snd qi);
  Ok (mkRsa (fst v) (fst n) (fst e) (fst d) (fst p) (fst q) (match fst more with Some l => l | None => [] end)).
Definition unm_pkcs1 (der : list Z) : res (rsapriv * list Z) := req 48 p_rsa der.
(** pkcs1.go:45-89 ParsePKCS1PrivateKey *)
Definition ParsePKCS1 (der : list Z) : res rsakey :=
  do r <- unm_pkcs1 der;
  let '(k, rest) := r in
  if 0 <? zlen rest then Err 1
  else if 1 <? rp_version k then Err 1
  else if (rp_n k <=? 0) || (rp_d k <=? 0) || (rp_p k <=? 0) || (rp_q k <=? 0) then Err 1
  else
    let primes := rp_p k :: rp_q k :: rp_more k in
    if existsb (fun p => p <=? 0) (rp_more k) then Err 1
    else if negb (validate (rp_n k) (rp_e k) (rp_d k) primes) then Err 1
    else
      let key := mkRK (rp_n k) (rp_e k) (rp_d k) primes None in
      do pre <- precompute key; Ok (mkRK (rp_n k) (rp_e k) (rp_d k) primes (Some pre)).
(** pkcs1.go:112-117: the additional primes.  None: a nil Coeff, which encoding/asn1 refuses *)
Fixpoint more_primes (vals : list crtv) (primes : list Z) : res (option (list (list Z))) :=
  match vals with
  | [] => Ok (Some [])
  | v :: vals =>
      match primes with
      | [] => Panic                                             (* key.Primes[2+i] *)
      | p :: primes =>
          do l <- more_primes vals primes;
          Ok (match y_coeff v, l with Some c, Some l => Some (der_seq [der_int p; der_int (y_exp v); der_int c] :: l) | _, _ => None end)
      end
  end.
(** pkcs1.go:92-121 MarshalPKCS1PrivateKey: an error of asn1.Marshal is dropped and nil returned; nil optional integers and an empty list are omitted *)
Definition MarshalPKCS1PrivateKey (k : rsakey) : res (list Z) :=
  do pre <- precompute k;
  let version := if 2 <? zlen (y_primes k) then 1 else 0 in
  match y_primes k with
  | p :: q :: more =>
      do l <- more_primes (y_crt pre) more;
      Ok (match l with
          | None => []
          | Some l => der_seq ([der_int version; der_int (y_n k); der_int (y_e k); der_int (y_d k); der_int p; der_int q; der_int (y_dp pre); der_int (y_dq pre)]
                               ++ match y_qinv pre with Some i => [der_int i] | None => [] end ++ match l with [] => [] | _ => [der_seq l] end)
          end)
  | _ => Panic
  end.
End Pkcs1.

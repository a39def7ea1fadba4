(** Model of /repo/x509/sec1.go: MarshalECPrivateKey, and ParseECPrivateKey with encoding/asn1's decoding of the structure (Asn1_go; parseECPrivateKey itself is in Keys_model). *)
From Verif Require Import GoBase GoLemmas BigBytes Asn1_model Asn1_go SM2_model Keys_model X509C_model.
Open Scope Z_scope.
Section Sec1.
Variable T : Type.
Variable cv : curve T.                                         (* sm2.P256() *)
Variable nist_order : nat -> Z.
Variable nist_base : nat -> list Z -> Z * Z.
Variable nist_len : nat -> nat.                                (* (BitSize+7)/8 *)
(** the argument: *ecdsa.PrivateKey or *sm2.PrivateKey on a curve (NIST i with i > 3: any other curve), or a value of another type *)
Inductive eckey := SK_ec (c : ncurve) (d x y : Z) | SK_other.
Definition field_len (c : ncurve) : nat := match c with SM2C => 32 | NIST i => nist_len i end.
(** math/big FillBytes: panics if the value does not fit *)
Definition FillBytes (n : nat) (v : Z) : res (list Z) := if 256 ^ Z.of_nat n <=? Z.abs v then Panic else Ok (be_bytes n (Z.abs v)).
(** crypto/elliptic Marshal of Go up to 1.18, which writes any coordinates that fit (later releases panic on points off the curve) *)
Definition ecMarshal (c : ncurve) (x y : Z) : res (list Z) := do xb <- FillBytes (field_len c) x; do yb <- FillBytes (field_len c) y; Ok (4 :: xb ++ yb).
(** sec1.go:38-70 MarshalECPrivateKey *)
Definition MarshalECPrivateKey (key : eckey) : res (list Z) :=
  match key with
  | SK_other => Err 1                                           (* the curve stays nil *)
  | SK_ec c d x y =>
      match oidFromNamedCurve c with
      | None => Err 1
      | Some oid =>
          let b := Bytes (Z.abs d) in
          let n := order_len nist_order c in
          if (n <? length b)%nat then Panic                     (* slice bounds: a negative index *)
          else
            let padded := zeros (n - length b) ++ b in
            do pub <- ecMarshal c x y;
            Ok (der_seq [der_int 1; der_octets padded; der_tlv 160 (der_tlv 6 oid); der_tlv 161 (der_tlv 3 (0 :: pub))])
      end
  end.
(** sec1.go:25-30: the contents of the SEQUENCE *)
Definition p_ec (c : list Z) : res ecpriv :=
  do v <- req 2 p_int64 c; do k <- req 4 p_id (snd v); do o <- explicit 0 6 p_oid_content (snd k); do p <- explicit 1 3 p_bits (snd o);
  Ok (mkEC (fst v) (fst k) (match fst o with Some o => o | None => [] end) (match fst p with Some p => snd p | None => [] end)).
(** asn1.Unmarshal into ecPrivateKey; what follows the structure is dropped (sec1.go:78) *)
Definition unm_sec1 (der : list Z) : res ecpriv := do r <- req 48 p_ec der; Ok (fst r).
(** sec1.go:33-35 *)
Definition ParseECPrivateKey (der : list Z) : res anykey := parseECPrivateKey T cv nist_order nist_base unm_sec1 None der.
End Sec1.

(** Model of the AEAD wrappers of /repo/tls/cipher_suites.go (150-246): fixedNonceAEAD (AES-GCM suites) and xorNonceAEAD (ChaCha20-Poly1305
    suites) as objects with a mutable 12-byte nonce, and as the stateless AEADs of TLS_record_model.
    The inner cipher.AEAD (crypto/cipher GCM, chacha20poly1305, 12-byte nonces) is a parameter. *)
From Verif Require Import GoBase GoLemmas CBC TLS_record_model.
Open Scope Z_scope.
Section Aead.
Variable over : nat.                                            (* aead.Overhead() *)
Variable seal : list Z -> list Z -> list Z -> list Z.           (* nonce (12 bytes), plaintext, additional data *)
Variable open : list Z -> list Z -> list Z -> option (list Z).
(** copy(dst[off:], src) *)
Definition copy_at (off : nat) (dst src : list Z) : list Z :=
  let n := Nat.min (length dst - off) (length src) in firstn off dst ++ firstn n src ++ skipn (off + n) dst.
(** cipher_suites.go:216-229, 231-243: the nonce of a new object (aeadAESGCM, aeadChaCha20Poly1305) *)
Definition new_nonce (fixedNonce : list Z) : list Z := copy_at 0 (zeros 12) fixedNonce.
(** a call of Seal or Open: nonce, text, additional data *)
Inductive call := CSeal (n p ad : list Z) | COpen (n c ad : list Z).
Inductive answer := ASeal (c : list Z) | AOpen (p : option (list Z)).
(** cipher_suites.go:171-179: fixedNonceAEAD; the object's nonce and the answer *)
Definition fixed_call (nonce : list Z) (c : call) : res (list Z * answer) :=
  match c with
  | CSeal n p ad => let nonce := copy_at 4 nonce n in Ok (nonce, ASeal (seal nonce p ad))
  | COpen n x ad => let nonce := copy_at 4 nonce n in Ok (nonce, AOpen (open nonce x ad))
  end.
(** cipher_suites.go:193-195: f.nonceMask[4+i] ^= b for the bytes of the nonce from index i; a panic beyond the array *)
Fixpoint xor_in (i : nat) (mask nonce : list Z) : res (list Z) :=
  match nonce with
  | [] => Ok mask
  | b :: rest => if (4 + i <? length mask)%nat then xor_in (S i) (upd (4 + i) (Z.lxor (nth (4 + i) mask 0) b) mask) rest else Panic
  end.
(** cipher_suites.go:192-214: xorNonceAEAD *)
Definition xor_call (mask : list Z) (c : call) : res (list Z * answer) :=
  match c with
  | CSeal n p ad => do m <- xor_in 0 mask n; let result := seal m p ad in do m' <- xor_in 0 m n; Ok (m', ASeal result)
  | COpen n x ad => do m <- xor_in 0 mask n; let result := open m x ad in do m' <- xor_in 0 m n; Ok (m', AOpen result)
  end.
(** a history of calls *)
Fixpoint run (f : list Z -> call -> res (list Z * answer)) (st : list Z) (cs : list call) : res (list answer) :=
  match cs with
  | [] => Ok []
  | c :: cs => do r <- f st c; do l <- run f (fst r) cs; Ok (snd r :: l)
  end.
(** cipher_suites.go:167-169, 188-190: the same as AEADs of the record layer, whose functions have no state *)
Definition gcm (fixedNonce : list Z) : aeadT :=
  mkAead 8 over (fun n => seal (firstn 4 (new_nonce fixedNonce) ++ n)) (fun n => open (firstn 4 (new_nonce fixedNonce) ++ n)).
Definition chacha (fixedNonce : list Z) : aeadT :=
  mkAead 0 over (fun n => seal (xorl (new_nonce fixedNonce) (zeros 4 ++ n))) (fun n => open (xorl (new_nonce fixedNonce) (zeros 4 ++ n))).
End Aead.

(** Specification of the SM4 block cipher, written from GB/T 32907-2016. Independent of the model. *)
From Verif Require Import GoBase.
Open Scope Z_scope.

Definition rotl (x k : Z) : Z := (x * 2^k) mod 2^32 + x / 2^(32 - k).

(** S-box (6.2 a)), in its algebraic form: S(x) = A.(A.x + C)^-1 + C over GF(2^8) modulo
    x^8+x^7+x^6+x^5+x^4+x^2+1 (0x1F5), C = 0xD3, A circulant with first row 0xA7; 0^-1 = 0. *)
Definition parity (x : Z) : Z :=
  (Z.b2z (Z.testbit x 0) + Z.b2z (Z.testbit x 1) + Z.b2z (Z.testbit x 2) + Z.b2z (Z.testbit x 3) +
   Z.b2z (Z.testbit x 4) + Z.b2z (Z.testbit x 5) + Z.b2z (Z.testbit x 6) + Z.b2z (Z.testbit x 7)) mod 2.
Definition rotl8 (x k : Z) : Z := (x * 2^k) mod 256 + x / 2^(8 - k).
Definition affine (x : Z) : Z :=
  Z.lxor 0xD3 (fold_left (fun acc i => acc + 2^i * parity (Z.land (rotl8 0xA7 i) x)) [0;1;2;3;4;5;6;7] 0).
Definition xtime (a : Z) : Z := if 2 * a <? 256 then 2 * a else Z.lxor (2 * a) 0x1F5.
Definition gmul (a b : Z) : Z :=
  fst (fold_left (fun '(acc, a) i => ((if Z.testbit b i then Z.lxor acc a else acc), xtime a)) [0;1;2;3;4;5;6;7] (0, a)).
Definition ginv (a : Z) : Z :=       (* a^254 *)
  let a2 := gmul a a in let a4 := gmul a2 a2 in let a8 := gmul a4 a4 in let a16 := gmul a8 a8 in
  let a32 := gmul a16 a16 in let a64 := gmul a32 a32 in let a128 := gmul a64 a64 in
  gmul a128 (gmul a64 (gmul a32 (gmul a16 (gmul a8 (gmul a4 a2))))).
Definition S (x : Z) : Z := affine (ginv (affine x)).

(** 6.2 tau, L, T and 7.3 L', T' *)
Definition tau (A : Z) : Z := be_val (map S (be_bytes 4 A)).
Definition L (B : Z) : Z := Z.lxor (Z.lxor (Z.lxor (Z.lxor B (rotl B 2)) (rotl B 10)) (rotl B 18)) (rotl B 24).
Definition L' (B : Z) : Z := Z.lxor (Z.lxor B (rotl B 13)) (rotl B 23).
Definition T (A : Z) : Z := L (tau A).
Definition T' (A : Z) : Z := L' (tau A).

(** 7.3 Key expansion *)
Definition FK : list Z := [0xA3B1BAC6; 0x56AA3350; 0x677D9197; 0xB27022DC].
Definition CK (i : Z) : Z := be_val (map (fun j => ((4 * i + j) * 7) mod 256) [0;1;2;3]).
Definition block4 : Type := Z * Z * Z * Z.
Fixpoint key_rounds (n : nat) (i : Z) (K : block4) : list Z :=
  match n with
  | O => []
  | Datatypes.S m =>
      let '(K0, K1, K2, K3) := K in
      let rk := Z.lxor K0 (T' (Z.lxor (Z.lxor (Z.lxor K1 K2) K3) (CK i))) in
      rk :: key_rounds m (i + 1) (K1, K2, K3, rk)
  end.
Definition words4 (b : list Z) : block4 :=
  (be_val (firstn 4 b), be_val (firstn 4 (skipn 4 b)), be_val (firstn 4 (skipn 8 b)), be_val (firstn 4 (skipn 12 b))).
Definition round_keys (key : list Z) : list Z :=
  let '(M0, M1, M2, M3) := words4 key in
  key_rounds 32 0 (Z.lxor M0 (nth 0 FK 0), Z.lxor M1 (nth 1 FK 0), Z.lxor M2 (nth 2 FK 0), Z.lxor M3 (nth 3 FK 0)).

(** 6.1/7.1 Round function, 32 rounds and the reverse transformation R; 7.2 decryption reverses the keys. *)
Definition F (X : block4) (rk : Z) : block4 :=
  let '(X0, X1, X2, X3) := X in
  (X1, X2, X3, Z.lxor X0 (T (Z.lxor (Z.lxor (Z.lxor X1 X2) X3) rk))).
Definition R (X : block4) : block4 := let '(X0, X1, X2, X3) := X in (X3, X2, X1, X0).
Definition unwords4 (X : block4) : list Z :=
  let '(X0, X1, X2, X3) := X in be_bytes 4 X0 ++ be_bytes 4 X1 ++ be_bytes 4 X2 ++ be_bytes 4 X3.
Definition crypt (rks : list Z) (block : list Z) : list Z := unwords4 (R (fold_left F rks (words4 block))).
Definition sm4_enc (key block : list Z) : list Z := crypt (round_keys key) block.
Definition sm4_dec (key block : list Z) : list Z := crypt (rev (round_keys key)) block.

(** GB/T 32907 appendix A.1 (a test of this specification). *)
Example sm4_vector :
  let k := be_bytes 16 0x0123456789abcdeffedcba9876543210 in
  be_val (sm4_enc k k) = 0x681edf34d206965e86b3e94f536e4246.
Proof. vm_compute. reflexivity. Qed.

(** ** Modes of operation (specification) *)
(** PKCS#7 padding to 16 bytes: between 1 and 16 bytes, each equal to their number. *)
Definition pkcs7 (m : list Z) : list Z :=
  let n := 16 - zlen m mod 16 in m ++ repeat n (Z.to_nat n).
Definition ecb_enc (key m : list Z) : list Z := concat (map (sm4_enc key) (chunks 16 (pkcs7 m))).
(** CBC: c_i = E(p_i xor c_{i-1}), c_{-1} = iv. *)
Fixpoint cbc_blocks (E : list Z -> list Z) (iv : list Z) (ps : list (list Z)) : list (list Z) :=
  match ps with
  | [] => []
  | p :: ps' => let c := E (xorl p iv) in c :: cbc_blocks E c ps'
  end.
Definition cbc_enc (key m : list Z) : list Z := concat (cbc_blocks (sm4_enc key) (zeros 16) (chunks 16 (pkcs7 m))).

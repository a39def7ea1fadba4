(** Specification of the SM3 hash function, written from GB/T 32905-2016 (byte-oriented messages).
    Independent of the model of the Go code. *)
From Verif Require Import GoBase.
Open Scope Z_scope.

(** 4.2 Rotation of a 32-bit word by [k] bits, 0 <= k < 32. *)
Definition rotl (x k : Z) : Z := (x * 2^k) mod 2^32 + x / 2^(32 - k).
Definition add32 (x y : Z) : Z := (x + y) mod 2^32.

(** 4.1 initial value, 4.2 constants, 4.3 boolean functions, 4.4 permutations *)
Definition IV : list Z :=
  [0x7380166f; 0x4914b2b9; 0x172442d7; 0xda8a0600; 0xa96f30bc; 0x163138aa; 0xe38dee4d; 0xb0fb0e4e].
Definition T (j : nat) : Z := if (j <? 16)%nat then 0x79cc4519 else 0x7a879d8a.
Definition FF (j : nat) (X Y U : Z) : Z :=
  if (j <? 16)%nat then Z.lxor (Z.lxor X Y) U
  else Z.lor (Z.lor (Z.land X Y) (Z.land X U)) (Z.land Y U).
Definition GG (j : nat) (X Y U : Z) : Z :=
  if (j <? 16)%nat then Z.lxor (Z.lxor X Y) U
  else Z.lor (Z.land X Y) (Z.land (Z.lnot X) U).
Definition P0 (X : Z) : Z := Z.lxor (Z.lxor X (rotl X 9)) (rotl X 17).
Definition P1 (X : Z) : Z := Z.lxor (Z.lxor X (rotl X 15)) (rotl X 23).

(** 5.2 Padding: a 1 bit (byte 0x80), the least number of zero bytes that makes the length 56 mod 64,
    and the bit length of the message on 64 bits. *)
Definition pad (m : list Z) : list Z :=
  m ++ [0x80] ++ zeros (Z.to_nat ((55 - zlen m) mod 64)) ++ be_bytes 8 (8 * zlen m).

(** 5.3.2 Message expansion of a 64-byte block into W_0 .. W_67. *)
Definition words (block : list Z) : list Z := map be_val (chunks 4 block).
Definition w_next (W : list Z) : Z :=     (* W_j from W_0 .. W_{j-1}, j = length W *)
  let j := length W in
  let w i := nth (j - i) W 0 in
  Z.lxor (Z.lxor (P1 (Z.lxor (Z.lxor (w 16%nat) (w 9%nat)) (rotl (w 3%nat) 15))) (rotl (w 13%nat) 7)) (w 6%nat).
Fixpoint expand (n : nat) (W : list Z) : list Z :=
  match n with O => W | S k => expand k (W ++ [w_next W]) end.
Definition W68 (block : list Z) : list Z := expand 52 (words block).

(** 5.3.3 Compression function. *)
Definition round (W : list Z) (s : Z * Z * Z * Z * Z * Z * Z * Z) (j : nat)
  : Z * Z * Z * Z * Z * Z * Z * Z :=
  let '(A, B, C, D, E, F, G, H) := s in
  let Wj := nth j W 0 in
  let Wj' := Z.lxor (nth j W 0) (nth (j + 4) W 0) in
  let SS1 := rotl (add32 (add32 (rotl A 12) E) (rotl (T j) (Z.of_nat j mod 32))) 7 in
  let SS2 := Z.lxor SS1 (rotl A 12) in
  let TT1 := add32 (add32 (add32 (FF j A B C) D) SS2) Wj' in
  let TT2 := add32 (add32 (add32 (GG j E F G) H) SS1) Wj in
  (TT1, A, rotl B 9, C, P0 TT2, E, rotl F 19, G).
Definition CF (V : list Z) (block : list Z) : list Z :=
  let v i := nth i V 0 in
  let '(A, B, C, D, E, F, G, H) :=
    fold_left (round (W68 block)) (seq 0 64)
      (v 0%nat, v 1%nat, v 2%nat, v 3%nat, v 4%nat, v 5%nat, v 6%nat, v 7%nat) in
  xorl [A; B; C; D; E; F; G; H] V.

(** 5.3 Iteration over the 64-byte blocks of the padded message, 5.4 output. *)
Definition sm3 (m : list Z) : list Z :=
  concat (map (be_bytes 4) (fold_left CF (chunks 64 (pad m)) IV)).

(** The two worked examples of GB/T 32905 appendix A (tests of this specification). *)
Example sm3_abc :
  be_val (sm3 [0x61; 0x62; 0x63]) = 0x66c7f0f462eeedd9d1f2d46bdc10e4e24167c4875cf2f7a2297da02b8f4ba8e0.
Proof. vm_compute. reflexivity. Qed.
Example sm3_abcd16 :
  be_val (sm3 (concat (repeat [0x61; 0x62; 0x63; 0x64] 16)))
  = 0xdebe9ff92275b8a138604889c18e5a4d6fdb70e5387e5765293dcba39c0c5732.
Proof. vm_compute. reflexivity. Qed.

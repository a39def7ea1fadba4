(** Model of the field arithmetic of sm2/sm2p256_amd64.s (the amd64 build's curve arithmetic), at the level of
    256-bit words: a Go []uint64 of four little-endian limbs is the integer it spells.  The registers' carries are
    modelled where the assembly loses them.  P256_asm_model.v is an interpreter for the instructions themselves
    (listed in P256_asm_code.v). *)
From Coq Require Import ZArith Bool.
Local Open Scope Z_scope.

(* the modulus, as the code carries it: $-1, p256const2, $-1, p256const3; sm2p256_amd64.s:27-28 *)
Definition wP : Z := 0xFFFFFFFEFFFFFFFFFFFFFFFFFFFFFFFFFFFFFFFF00000000FFFFFFFFFFFFFFFF.
Definition const2 : Z := 0xffffffff00000000.
Definition wlow (n x : Z) : Z := Z.land x (Z.ones n).       (* the low n bits *)

(* One reduction step, sm2p256_amd64.s:246-261 (and the same eleven instructions at each "reduction step" comment).
   The step is handed the four low words w = w0 + 2^64 w1 + 2^128 w2 + 2^192 w3 of the accumulator:
     ADDQ w0,w1; ADCQ $0,w2               -- the carry out of w2 is dropped
     SUBQ (w0<<32),w1; SBBQ (w0>>32),w2; SBBQ $0,w3   -- the borrow out of w3 is dropped
     MULQ const2: the product w0*const2 is added at w3. *)
Definition red_s (w : Z) : Z := wlow 128 (wlow 128 (Z.shiftr w 64) + wlow 64 w).
Definition red_d (w : Z) : Z := wlow 192 (red_s w + Z.shiftl (wlow 64 (Z.shiftr w 192)) 128 - Z.shiftl (wlow 64 w) 32).
(* the result, divided by 2^64; [top] is what lies above the four words *)
Definition red_step (w : Z) : Z :=
  red_d w + Z.shiftl (wlow 64 w * const2) 128 + Z.shiftl (Z.shiftr w 256) 192.
(* the final conditional subtraction, sm2p256_amd64.s:312-328: CMOVQCS keeps the sum when it is below p *)
Definition red_final (s : Z) : Z := wlow 256 (if s <? wP then s else s - wP).
(* sm2p256Sqr :159-336, p256GmMulInternal :1387-1637, p256GmSqrInternal :1639-1846, sm2p256FromMont: four steps on
   the low half of the product, then the high half is added *)
Definition mont_red (t : Z) : Z :=
  red_final (Z.shiftr t 256 + red_step (red_step (red_step (red_step (wlow 256 t))))).
Definition sm2p256Sqr (x : Z) : Z := mont_red (x * x).
Definition sm2p256FromMont (x : Z) : Z := mont_red x.
Definition mulInternal (x y : Z) : Z := mont_red (x * y).
Definition sqrInternal (x : Z) : Z := mont_red (x * x).
(* sm2p256Mul, :337-560: interleaved: a row x*y[i] is added, then one reduction step is taken *)
Definition limb (i : Z) (x : Z) : Z := wlow 64 (Z.shiftr x (64 * i)).
Definition sm2p256Mul (x y : Z) : Z :=
  red_final (red_step (red_step (red_step (red_step (x * limb 0 y) + x * limb 1 y) + x * limb 2 y) + x * limb 3 y)).
(* p256GmSubInternal, :1361-1385: p is added back iff the subtraction borrowed *)
Definition subInternal (a b : Z) : Z := wlow 256 (if a <? b then a - b + wP else a - b).
(* p256GmAddInline, :1865-1885, p256GmMulBy2Inline, :1844-1863 *)
Definition addInline (a b : Z) : Z := red_final (a + b).
Definition mulBy2Inline (a : Z) : Z := red_final (a + a).
(* the halving inside sm2p256PointDoubleAsm, :2472-2499: p is added iff the word is odd, then shift right *)
Definition halfInline (a : Z) : Z := Z.shiftr (if Z.odd a then a + wP else a) 1.
(* sm2p256NegCond with cond <> 0, :128-157: p - val, borrow dropped *)
Definition negCond (a : Z) : Z := wlow 256 (wP - a).
(* the negation inside sm2p256PointAddAffineAsm with sign <> 0, :1953-1981: p is added to p - y, and the sum is kept
   iff the two carries cancel *)
Definition negAffine (y : Z) : Z :=
  let t := wP - y in
  if (if t <? 0 then -1 else 0) + (if 2 ^ 256 <=? wlow 256 t + wP then 1 else 0) =? 0
  then wlow 256 (wlow 256 t + wP) else wlow 256 t.
(* sm2p256IsZero, :2175-2200: the OR of the four words is zero; or the OR of the words with p XORed in is zero --
   but the third word is not XORed *)
Definition isZero (a : Z) : bool :=
  (Z.lor (Z.lor (limb 0 a) (limb 1 a)) (Z.lor (limb 2 a) (limb 3 a)) =? 0) ||
  (Z.lor (Z.lor (Z.lxor (limb 0 a) (Z.ones 64)) (Z.lxor (limb 1 a) const2))
         (Z.lor (limb 2 a) (Z.lxor (limb 3 a) 0xfffffffeffffffff)) =? 0).

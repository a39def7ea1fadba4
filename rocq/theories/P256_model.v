(** Model of sm2/sm2p256_amd64.go: the windowed scalar multiplications over the assembly routines of
    sm2/sm2p256_amd64.s.  The text is written once over a record of field operations; [W] below instantiates it with
    the word-level operations of P256_field_model.v (that instance is the model of the code).  The other instances
    (words with a correctness flag, ideal field elements) live in P256_ideal.v and only serve the proofs. *)
From Coq Require Import ZArith Bool List.
From Verif Require Import GoBase P256_field_model.
Import ListNotations.
Local Open Scope Z_scope.

(** C: a field element held in four words; B: the int returned by sm2p256PointAddAsm; O: a big.Int that is returned *)
Record fops (C B O : Type) : Type := mkFops {
  o_mulx : C -> C -> C;       (* sm2p256Mul *)
  o_sqrx : C -> C;            (* sm2p256Sqr *)
  o_mul : C -> C -> C;        (* p256GmMulInternal *)
  o_sqr : C -> C;             (* p256GmSqrInternal *)
  o_sub : C -> C -> C;        (* p256GmSubInternal *)
  o_add : C -> C -> C;        (* p256GmAddInline *)
  o_dbl : C -> C;             (* p256GmMulBy2Inline *)
  o_half : C -> C;            (* "Divide by 2" in sm2p256PointDoubleAsm *)
  o_neg : C -> C;             (* sm2p256NegCond, cond <> 0 *)
  o_nega : C -> C;            (* "Negate y2in based on sign" in sm2p256PointAddAffineAsm *)
  o_isz : C -> B;             (* sm2p256IsZero *)
  o_and : B -> B -> B;        (* ANDQ *)
  o_csel : B -> C -> C -> C;  (* CopyConditional: second argument if v == 1, else third *)
  o_zero : C;                 (* the zero words *)
  o_one : C;                  (* 1 in the Montgomery domain, as written in the Go code and in p256Gmone *)
  o_bx : C; o_by : C;         (* basePoint of initTable *)
  o_to : Z -> C;              (* fromBig, then sm2p256Mul by rr *)
  o_from : C -> O             (* sm2p256FromMont, sm2p256LittleToBig, SetBytes *)
}.
Arguments o_mulx {C B O}. Arguments o_sqrx {C B O}. Arguments o_mul {C B O}. Arguments o_sqr {C B O}.
Arguments o_sub {C B O}. Arguments o_add {C B O}. Arguments o_dbl {C B O}. Arguments o_half {C B O}.
Arguments o_neg {C B O}. Arguments o_nega {C B O}. Arguments o_isz {C B O}. Arguments o_and {C B O}.
Arguments o_csel {C B O}. Arguments o_zero {C B O}. Arguments o_one {C B O}. Arguments o_bx {C B O}.
Arguments o_by {C B O}. Arguments o_to {C B O}. Arguments o_from {C B O}.

(** ** Integer parts: scalars, windows, Booth recoding *)

(* fromBig, sm2p256_amd64.go:191-200 (for 0 <= k < 2^256) *)
Definition fromBig (k : Z) : list Z := [limb 0 k; limb 1 k; limb 2 k; limb 3 k].
(* the group order: p256.N, sm2p256_amd64.go:45 *)
Definition wN : Z := 0xFFFFFFFEFFFFFFFFFFFFFFFFFFFFFFFF7203DF6B21C6052B53BBF40939D54123.
(* p256GetScalar, :205-212 *)
Definition getScalarZ (inp : list Z) : Z := let n := be_val inp in if n <? wN then n else n mod wN.
Definition p256GetScalar (inp : list Z) : list Z := fromBig (getScalarZ inp).
(* maybeReduceModP, :219-224 *)
Definition maybeReduceModP (z : Z) : Z := if z <? wP then z else z mod wP.
(* uint64IsZero, :329-339, scalarIsZero, :343-345.  Result 1 or 0 *)
Definition shr_and (k : Z) (x : Z) : Z := Z.land x (Z.shiftr x k).
Definition uint64IsZero (x : Z) : Z :=
  Z.land (shr_and 1 (shr_and 2 (shr_and 4 (shr_and 8 (shr_and 16 (shr_and 32 (Z.lxor x (Z.ones 64)))))))) 1.
Definition scalarIsZero (s : list Z) : Z :=
  uint64IsZero (Z.lor (Z.lor (Z.lor (nth 0 s 0) (nth 1 s 0)) (nth 2 s 0)) (nth 3 s 0)).
(* boothW5, :579-585; boothW7, :587-593; uint arithmetic modulo 2^64 *)
Definition booth (w : Z) (inp : Z) : Z * Z :=
  let s := Z.lxor ((Z.shiftr inp w - 1) mod 2 ^ 64) (Z.ones 64) in
  let d := (2 ^ (w + 1) - inp - 1) mod 2 ^ 64 in
  let d := Z.lor (Z.land d s) (Z.land inp (Z.lxor s (Z.ones 64))) in
  let d := Z.shiftr d 1 + Z.land d 1 in
  (d, Z.land s 1).
(* wvalue, :688-692 and :775-779: bits [index, index+w] of the scalar; a shift by 64 gives 0.  [mask] is 0xff or 0x3f *)
Definition wvalue (s : list Z) (index mask : Z) : Z :=
  let i := Z.to_nat (index / 64) in
  if index <? 192 then
    Z.land (wlow 64 (Z.shiftr (nth i s 0) (index mod 64) + wlow 64 (Z.shiftl (nth (i + 1) s 0) (64 - index mod 64)))) mask
  else Z.land (Z.shiftr (nth i s 0) (index mod 64)) mask.
(* the lowest window, :669 and :798 *)
Definition wvalue0 (s : list Z) (mask : Z) : Z := Z.land (wlow 64 (Z.shiftl (nth 0 s 0) 1)) mask.

Section Alg.
Context {C B Ou : Type} (o : fops C B Ou).
Definition pnt : Type := C * C * C.
Definition pzero : pnt := (o_zero o, o_zero o, o_zero o).
Definition iter_sqr (n : nat) (x : C) : C := Nat.iter n (o_sqrx o) x.

(* sm2p256PointDoubleAsm, sm2p256_amd64.s:2408-2527 *)
Definition pointDouble (P : pnt) : pnt :=
  let '(x, y, z) := P in
  let zsqr := o_sqr o z in
  let m := o_add o zsqr x in
  let z3 := o_dbl o (o_mul o z y) in
  let m := o_mul o (o_sub o x zsqr) m in
  let m := o_add o m (o_dbl o m) in
  let s := o_sqr o (o_dbl o y) in
  let y8 := o_half o (o_sqr o s) in
  let s := o_mul o x s in
  let x3 := o_sub o (o_sqr o m) (o_dbl o s) in
  let y3 := o_sub o (o_mul o (o_sub o s x3) m) y8 in
  (x3, y3, z3).

(* sm2p256PointAddAsm, sm2p256_amd64.s:2229-2390; the second component is the returned int *)
Definition pointAdd (P Q : pnt) : pnt * B :=
  let '(x1, y1, z1) := P in let '(x2, y2, z2) := Q in
  let z2sqr := o_sqr o z2 in
  let s1 := o_mul o (o_mul o z2sqr z2) y1 in
  let z1sqr := o_sqr o z1 in
  let s2 := o_mul o (o_mul o z1sqr z1) y2 in
  let r := o_sub o s2 s1 in
  let e1 := o_isz o r in
  let u1 := o_mul o z2sqr x1 in
  let u2 := o_mul o z1sqr x2 in
  let h := o_sub o u2 u1 in
  let e2 := o_isz o h in
  let rsqr := o_sqr o r in
  let hsqr := o_sqr o h in
  let hcub := o_mul o hsqr h in
  let s2 := o_mul o hcub s1 in
  let z3 := o_mul o (o_mul o z1 z2) h in
  let u2 := o_mul o hsqr u1 in
  let x3 := o_sub o (o_sub o rsqr (o_dbl o u2)) hcub in
  let y3 := o_sub o (o_mul o (o_sub o u2 x3) r) s2 in
  ((x3, y3, z3), o_and o e2 e1).

(* sm2p256PointAddAffineAsm, sm2p256_amd64.s:1917-2150 *)
Definition pointAddAffine (P : pnt) (x2 y2 : C) (sign sel zero : Z) : pnt :=
  let '(x1, y1, z1) := P in
  let y2 := if sign =? 0 then y2 else o_nega o y2 in
  let z1sqr := o_sqr o z1 in
  let h := o_sub o (o_mul o z1sqr x2) x1 in
  let z3 := o_mul o h z1 in
  let s2 := o_mul o (o_mul o z1sqr z1) y2 in
  let r := o_sub o s2 y1 in
  let rsqr := o_sqr o r in
  let hsqr := o_sqr o h in
  let hcub := o_mul o hsqr h in
  let s2 := o_mul o hcub y1 in
  let h := o_mul o x1 hsqr in
  let x3 := o_sub o (o_sub o rsqr (o_dbl o h)) hcub in
  let y3 := o_sub o (o_mul o (o_sub o h x3) r) s2 in
  let res := if sel =? 0 then P else (x3, y3, z3) in
  if zero =? 0 then (x2, y2, o_one o) else res.

(* p256Inverse, sm2p256_amd64.go:459-574; the comments give the exponent reached *)
Definition p256Inverse (x : C) : C :=
  let out := o_sqrx o x in                     (* :473 *)
  let p2 := o_mulx o out x in                  (* 2^2-1 *)
  let out := o_sqrx o p2 in
  let p3 := o_mulx o out x in                  (* 2^3-1 *)
  let out := o_sqrx o out in
  let p4 := o_mulx o out p2 in                 (* 2^4-1, :479 *)
  let out := iter_sqr 3 p4 in
  let p7 := o_mulx o out p3 in
  let out := o_sqrx o out in
  let p8 := o_mulx o out p4 in                 (* :486 *)
  let out := iter_sqr 7 p8 in
  let p15 := o_mulx o out p7 in
  let out := o_sqrx o out in
  let p16 := o_mulx o out p8 in                (* :495 *)
  let out := iter_sqr 15 p16 in
  let p31 := o_mulx o out p15 in
  let out := o_sqrx o out in
  let p32 := o_mulx o out p16 in               (* :503 *)
  let out := iter_sqr 33 p31 in
  let out := o_mulx o out p32 in               (* :510 *)
  let out := o_mulx o (iter_sqr 32 out) p32 in (* :516 *)
  let out := o_mulx o (iter_sqr 32 out) p32 in (* :521 *)
  let out := o_mulx o (iter_sqr 32 out) p32 in (* :526 *)
  let out := iter_sqr 32 out in                (* :530 *)
  let out := o_mulx o (iter_sqr 32 out) p32 in (* :536 *)
  let out := o_mulx o (iter_sqr 16 out) p16 in (* :542 *)
  let out := o_mulx o (iter_sqr 8 out) p8 in   (* :548 *)
  let out := o_mulx o (iter_sqr 4 out) p4 in   (* :554 *)
  let out := o_mulx o (iter_sqr 2 out) p2 in   (* :560 *)
  o_mulx o (iter_sqr 2 out) x.                 (* :564 *)

(* p256PointToAffine, :347-367 *)
Definition p256PointToAffine (P : pnt) : Ou * Ou :=
  let '(x, y, z) := P in
  let zInv := p256Inverse z in
  let zInvSq := o_sqrx o zInv in
  let zInv := o_mulx o zInv zInvSq in
  (o_from o (o_mulx o x zInvSq), o_from o (o_mulx o y zInv)).

(* the same conversion inside the table construction, :624-633: the point stays in Montgomery form and gets z = 1 *)
Definition normalize (P : pnt) : pnt :=
  let '(x, y, z) := P in
  let zInv := p256Inverse z in
  let zInvSq := o_sqrx o zInv in
  let zInv := o_mulx o zInv zInvSq in
  (o_mulx o x zInvSq, o_mulx o y zInv, o_one o).
(* the body of the loop over i of initTable (:613-637) and InitPubKeyTable (:879-903): the i-th entry is the
   normalized 2^(7i)-multiple of t1 *)
Fixpoint tabCol (m : nat) (t1 : pnt) : list (C * C) :=
  match m with
  | O => []
  | Datatypes.S m' => let t1 := normalize t1 in fst t1 :: tabCol m' (Nat.iter 7 pointDouble t1)
  end.
(* the loop over j (:611-643, :877-909): column j is for t2 = (j+1) * base *)
Fixpoint tabCols (m : nat) (first : bool) (base t2 : pnt) : list (list (C * C)) :=
  match m with
  | O => []
  | Datatypes.S m' => tabCol 37 t2 :: tabCols m' false base (if first then pointDouble base else fst (pointAdd t2 base))
  end.
(* Precomputed[i][8*j ..]: stored by rows in Go, by columns here *)
Definition table : Type := list (list (C * C)).
Definition mkTable (base : pnt) : table := tabCols 64 true base base.
(* initTable, :595-644 *)
Definition initTable : table := mkTable (o_bx o, o_by o, o_one o).
(* InitPubKeyTable, :851-911 *)
Definition InitPubKeyTable (x y : Z) : table :=
  mkTable (o_to o (maybeReduceModP x), o_to o (maybeReduceModP y), o_one o).
(* sm2p256SelectBase(point, Precomputed[i], sel), sm2p256_amd64.s: entry sel (1-based), zeros for 0.
   Simplification: the constant-time scan is a lookup *)
Definition selectBase (T : table) (i : nat) (sel : Z) : C * C :=
  if sel =? 0 then (o_zero o, o_zero o)
  else nth i (nth (Z.to_nat (sel - 1)) T []) (o_zero o, o_zero o).

(* p256BaseMult, :646-700, and p256PreMult, :914-967 (the same text over another table).  [p256Base_loop] is the loop
   over i from 1; m counts the iterations left *)
Fixpoint preMult_loop (T : table) (s : list Z) (m i : nat) (index : Z) (p : pnt) (zero : Z) : pnt :=
  match m with
  | O => p
  | Datatypes.S m' =>
      let '(sel, sign) := booth 7 (wvalue s index 0xff) in
      let '(tx, ty) := selectBase T i sel in
      preMult_loop T s m' (i + 1) (index + 7) (pointAddAffine p tx ty sign sel zero) (Z.lor zero sel)
  end.
Definition p256PreMult (T : table) (s : list Z) : pnt :=
  let '(sel, sign) := booth 7 (wvalue0 s 0xff) in
  let '(tx, ty) := selectBase T 0 sel in
  let p := (tx, (if sign =? 0 then ty else o_neg o ty), o_one o) in
  preMult_loop T s 36 1 6 p sel.
Definition p256BaseMult (s : list Z) : pnt := p256PreMult initTable s.

(* p256ScalarMult, :702-807.  The table of 1P .. 16P *)
Definition precomp (p : pnt) : list pnt :=
  let t0 := pointDouble p in let t1 := pointDouble t0 in let t2 := pointDouble t1 in let t3 := pointDouble t2 in
  let e2 := t0 in let e4 := t1 in let e8 := t2 in let e16 := t3 in
  let t0 := fst (pointAdd t0 p) in let t1 := fst (pointAdd t1 p) in let t2 := fst (pointAdd t2 p) in
  let e3 := t0 in let e5 := t1 in let e9 := t2 in
  let t0 := pointDouble t0 in let t1 := pointDouble t1 in
  let e6 := t0 in let e10 := t1 in
  let t2 := fst (pointAdd t0 p) in let t1 := fst (pointAdd t1 p) in
  let e7 := t2 in let e11 := t1 in
  let t0 := pointDouble t0 in let t2 := pointDouble t2 in
  let e12 := t0 in let e14 := t2 in
  let t0 := fst (pointAdd t0 p) in let t2 := fst (pointAdd t2 p) in
  let e13 := t0 in let e15 := t2 in
  [p; e2; e3; e4; e5; e6; e7; e8; e9; e10; e11; e12; e13; e14; e15; e16].
(* sm2p256Select: entry sel (1-based), zeros for 0.  Simplification: the constant-time scan is a lookup *)
Definition select (T : list pnt) (sel : Z) : pnt :=
  if sel =? 0 then pzero else nth (Z.to_nat (sel - 1)) T pzero.
(* five doublings, select, conditional negation, addition, the two sm2p256MovCond, :767-790 *)
Definition smStep (T : list pnt) (w : Z) (p : pnt) (zero : Z) : pnt * Z :=
  let p := Nat.iter 5 pointDouble p in
  let '(sel, sign) := booth 5 w in
  let '(x, y, z) := select T sel in
  let t0 := (x, (if sign =? 0 then y else o_neg o y), z) in
  let t1 := fst (pointAdd p t0) in
  let t1 := if sel =? 0 then p else t1 in
  let p := if zero =? 0 then t0 else t1 in
  (p, Z.lor zero sel).
(* for index > 4; 50 iterations from index 254 *)
Fixpoint smLoop (T : list pnt) (s : list Z) (m : nat) (index : Z) (p : pnt) (zero : Z) : pnt * Z :=
  match m with
  | O => (p, zero)
  | Datatypes.S m' =>
      let index := index - 5 in
      let '(p, zero) := smStep T (wvalue s index 0x3f) p zero in
      smLoop T s m' index p zero
  end.
Definition p256ScalarMult (p : pnt) (s : list Z) : pnt :=
  let T := precomp p in
  let '(sel, _) := booth 5 (wvalue s 254 0x3f) in
  let '(p, zero) := smLoop T s 50 254 (select T sel) sel in
  fst (smStep T (wvalue0 s 0x3f) p zero).

(** ** The exported methods *)
(* ScalarMult, :302-326 *)
Definition ScalarMult (x y : Z) (scalar : list Z) : Ou * Ou :=
  p256PointToAffine
    (p256ScalarMult (o_to o (maybeReduceModP x), o_to o (maybeReduceModP y), o_one o) (p256GetScalar scalar)).
(* ScalarBaseMult, :293-300 *)
Definition ScalarBaseMult (scalar : list Z) : Ou * Ou := p256PointToAffine (p256BaseMult (p256GetScalar scalar)).
(* PreScalarMult, :970-978 *)
Definition PreScalarMult (T : table) (scalar : list Z) : Ou * Ou :=
  p256PointToAffine (p256PreMult T (p256GetScalar scalar)).
(* CopyConditional, :449-457, for the flag returned by sm2p256PointAddAsm *)
Definition copyCond (p src : pnt) (v : B) : pnt :=
  let '(x, y, z) := p in let '(x', y', z') := src in (o_csel o v x' x, o_csel o v y' y, o_csel o v z' z).
(* CombinedMult, :258-291 *)
Definition CombinedMult (T : table) (baseScalar scalar : list Z) : Ou * Ou :=
  let s1 := p256GetScalar baseScalar in
  let r1 := p256BaseMult s1 in
  let s2 := p256GetScalar scalar in
  let r2 := p256PreMult T s2 in
  let '(sum, pointsEqual) := pointAdd r1 r2 in
  let sum := copyCond sum (pointDouble r1) pointsEqual in
  let sum := if scalarIsZero s2 =? 1 then r1 else sum in
  let sum := if scalarIsZero s1 =? 1 then r2 else sum in
  p256PointToAffine sum.
End Alg.

(* CopyConditional on one word, :450-456: masks.  [copy_word_ok] in P256_ideal.v shows it is the selection above *)
Definition copy_word (n src v : Z) : Z :=
  let pMask := (v - 1) mod 2 ^ 64 in let srcMask := Z.lxor pMask (Z.ones 64) in
  Z.lor (Z.land n pMask) (Z.land src srcMask).

(** ** The code: words *)
(* rr, sm2p256_amd64.go:217 *)
Definition w_rr : Z := 0x0000000400000002000000010000000100000002FFFFFFFF0000000200000003.
(* 1 in the Montgomery domain, :318-321, p256Gmone *)
Definition w_one : Z := 0x0000000100000000000000000000000000000000FFFFFFFF0000000000000001.
Definition W : fops Z bool Z :=
  mkFops Z bool Z sm2p256Mul sm2p256Sqr mulInternal sqrInternal subInternal addInline mulBy2Inline halfInline
    negCond negAffine isZero andb (fun v a b => if v : bool then a else b) 0 w_one
    (* basePoint, :604-605 *)
    0x91167A5EE1C13B05D6A1ED99AC24C3C33E7981EDDCA6C05061328990F418029E
    0x63CD65D481D735BD8D4CFB066E2A48F8C1F5E5788D3295FAC1354E593C2D0DDD
    (fun x => sm2p256Mul x w_rr) sm2p256FromMont.

(** Model of package sm3 (/repo/sm3/sm3.go, /repo/sm3/sm3hash.go). *)
From Verif Require Import GoBase.
Open Scope Z_scope.

(** sm3hash.go:18 leftRotate on uint32. In Go [x>>(32-r%32)] with shift count 32 is 0, as [Z.shiftr]. *)
Definition leftRotate (x r : Z) : Z :=
  Z.lor (u32 (Z.shiftl x (r mod 32))) (Z.shiftr x (32 - r mod 32)).

(** sm3hash.go:20-28 ff0 ff1 gg0 gg1 p0 p1. [^X] on uint32 is xor with 0xffffffff. *)
Definition ff0 (X Y V : Z) : Z := Z.lxor (Z.lxor X Y) V.
Definition ff1 (X Y V : Z) : Z := Z.lor (Z.lor (Z.land X Y) (Z.land X V)) (Z.land Y V).
Definition gg0 (X Y V : Z) : Z := Z.lxor (Z.lxor X Y) V.
Definition gg1 (X Y V : Z) : Z := Z.lor (Z.land X Y) (Z.land (Z.lxor X 0xffffffff) V).
Definition p0 (X : Z) : Z := Z.lxor (Z.lxor X (leftRotate X 9)) (leftRotate X 17).
Definition p1 (X : Z) : Z := Z.lxor (Z.lxor X (leftRotate X 15)) (leftRotate X 23).

(** sm3hash.go:69-82 msgExp: the two arrays W1 [68]uint32 and W2 [64]uint32, initially zero, filled by
    three index loops. Indices are constant-bounded and in range, so [nth] defaults are never used. *)
Definition msgExp (x : list Z) : list Z * list Z :=
  let W1 := fold_left (fun w i => upd i (nth i x 0) w) (seq 0 16) (zeros 68) in
  let W1 := fold_left (fun w i =>
      upd i (Z.lxor (Z.lxor
               (p1 (Z.lxor (Z.lxor (nth (i-16) w 0) (nth (i-9) w 0)) (leftRotate (nth (i-3) w 0) 15)))
               (leftRotate (nth (i-13) w 0) 7))
               (nth (i-6) w 0)) w) (seq 16 52) W1 in
  let W2 := fold_left (fun w i => upd i (Z.lxor (nth i W1 0) (nth (i+4) W1 0)) w) (seq 0 64) (zeros 64) in
  (W1, W2).

(** sm3hash.go:96-116 and 117-137: one iteration of the two loops of cF; [jj] as in the code. *)
Definition regs : Type := Z * Z * Z * Z * Z * Z * Z * Z.
Definition cF_step (first : bool) (W1 W2 : list Z) (s : regs) (j : nat) : regs :=
  let '(A, B, C, D, E, F, G, H) := s in
  let jj := if (j <? 33)%nat then Z.of_nat j else Z.of_nat j - 32 in
  let SS1 := leftRotate (u32 (u32 (leftRotate A 12 + E)
               + leftRotate (if first then 0x79cc4519 else 0x7a879d8a) jj)) 7 in
  let SS2 := Z.lxor SS1 (leftRotate A 12) in
  let TT1 := u32 (u32 (u32 ((if first then ff0 else ff1) A B C + D) + SS2) + nth j W2 0) in
  let TT2 := u32 (u32 (u32 ((if first then gg0 else gg1) E F G + H) + SS1) + nth j W1 0) in
  (TT1, A, leftRotate B 9, C, p0 TT2, E, leftRotate F 19, G).

(** sm3hash.go:84-149 cF *)
Definition cF (V : list Z) (Bmsg : list Z) : list Z :=
  let v i := nth i V 0 in
  let '(W1, W2) := msgExp Bmsg in
  let s := (v 0%nat, v 1%nat, v 2%nat, v 3%nat, v 4%nat, v 5%nat, v 6%nat, v 7%nat) in
  let s := fold_left (cF_step true W1 W2) (seq 0 16) s in
  let '(A, B, C, D, E, F, G, H) := fold_left (cF_step false W1 W2) (seq 16 48) s in
  [Z.lxor A (v 0%nat); Z.lxor B (v 1%nat); Z.lxor C (v 2%nat); Z.lxor D (v 3%nat);
   Z.lxor E (v 4%nat); Z.lxor F (v 5%nat); Z.lxor G (v 6%nat); Z.lxor H (v 7%nat)].

(** sm3hash.go:157-168 the word loading loop (big-endian, by shifts and ors). *)
Definition load_word (x : list Z) (xi : nat) : Z :=
  Z.lor (Z.lor (Z.lor (nth (xi+3) x 0) (Z.shiftl (nth (xi+2) x 0) 8))
               (Z.shiftl (nth (xi+1) x 0) 16))
        (Z.shiftl (nth xi x 0) 24).
Definition load_words (x : list Z) : list Z := map (fun mi => load_word x (4 * mi)) (seq 0 16).

(** sm3hash.go:151-175 Block: [for len(p) >= 64]; the fuel is [len(p)], more than the number of
    iterations, so it never runs out. Takes and returns the chaining value [dig.h]. *)
Fixpoint block_loop (fuel : nat) (V : list Z) (p : list Z) : list Z :=
  match fuel with
  | O => V
  | S f => if (64 <=? length p)%nat
           then block_loop f (cF V (load_words (firstn 64 p))) (skipn 64 p)
           else V
  end.
Definition Block (h : list Z) (p : list Z) : list Z := block_loop (length p) h p.

(** sm3.go:37-43 digest *)
Record digest := mkDigest { d_h : list Z; d_x : list Z; d_nx : nat; d_len : Z }.

(** sm3.go:25-35 init constants and 45-56 Reset (keeps the buffer x) *)
Definition initH : list Z :=
  [0x7380166f; 0x4914b2b9; 0x172442d7; 0xda8a0600; 0xa96f30bc; 0x163138aa; 0xe38dee4d; 0xb0fb0e4e].
Definition Reset (d : digest) : digest := mkDigest initH (d_x d) 0 0.
(** sm3.go:62-66 New: a zeroed digest, then Reset *)
Definition New : digest := Reset (mkDigest (zeros 8) (zeros 64) 0 0).

(** Go's [copy(dst[off:], src)] into an array: result array and number of bytes copied. *)
Definition copy_at (dst : list Z) (off : nat) (src : list Z) : list Z * nat :=
  let n := Nat.min (length dst - off) (length src) in
  (firstn off dst ++ firstn n src ++ skipn (off + n) dst, n).

(** sm3.go:74-97 Write; returns the new digest and the reported count [nn] (the error is always nil). *)
Definition Write (d : digest) (p : list Z) : digest * Z :=
  let nn := zlen p in
  let len' := u64 (d_len d + nn) in
  let '(d, p) :=
    if (0 <? d_nx d)%nat then
      let '(x', n) := copy_at (d_x d) (d_nx d) p in
      let nx' := (d_nx d + n)%nat in
      let d' := if (nx' =? 64)%nat then mkDigest (Block (d_h d) x') x' 0 len'
                else mkDigest (d_h d) x' nx' len' in
      (d', skipn n p)
    else (mkDigest (d_h d) (d_x d) (d_nx d) len', p) in
  let '(d, p) :=
    if (64 <=? length p)%nat then
      let n := (64 * (length p / 64))%nat in           (* len(p) &^ (chunk-1) *)
      (mkDigest (Block (d_h d) p) (d_x d) (d_nx d) (d_len d), skipn n p)
    else (d, p) in
  let d :=
    if (0 <? length p)%nat then
      let '(x', n) := copy_at (d_x d) 0 p in mkDigest (d_h d) x' n (d_len d)
    else d in
  (d, nn).

(** sm3.go:110-142 checkSum. [tmp[0:k]] with k <= 64 is always in range (k is computed mod 64). *)
Definition checkSum (d : digest) : res (list Z) :=
  let len := d_len d in
  let tmp := 0x80 :: zeros 63 in
  let k := if len mod 64 <? 56 then 56 - len mod 64 else 64 + 56 - len mod 64 in
  let d := fst (Write d (firstn (Z.to_nat k) tmp)) in
  let len := u64 (Z.shiftl len 3) in
  let lenBytes := map (fun i => u8 (Z.shiftr len (56 - 8 * Z.of_nat i))) (seq 0 8) in
  let d := fst (Write d lenBytes) in
  if negb (d_nx d =? 0)%nat then Panic
  else Ok (concat (map (fun s => [u8 (Z.shiftr s 24); u8 (Z.shiftr s 16); u8 (Z.shiftr s 8); u8 s]) (d_h d))).

(** sm3.go:99-104 Sum: on a copy of the digest, [append(in, hash...)]; the receiver is unchanged. *)
Definition Sum (d : digest) (inp : list Z) : res (list Z) :=
  do hash <- checkSum d; Ok (inp ++ hash).

(** sm3.go:144-149 SumSM3 *)
Definition SumSM3 (data : list Z) : res (list Z) :=
  checkSum (fst (Write (Reset (mkDigest (zeros 8) (zeros 64) 0 0)) data)).

(** Histories of a hash.Hash object: Write, Sum, Reset in any order (the methods of sm3.go). *)
Inductive op := OpWrite (p : list Z) | OpSum (inp : list Z) | OpReset.
Inductive out := OutWrite (n : Z) | OutSum (r : res (list Z)) | OutReset.
Definition step (d : digest) (o : op) : digest * out :=
  match o with
  | OpWrite p => let '(d', n) := Write d p in (d', OutWrite n)
  | OpSum inp => (d, OutSum (Sum d inp))
  | OpReset => (Reset d, OutReset)
  end.
Fixpoint run (d : digest) (os : list op) : list out :=
  match os with [] => [] | o :: os' => let '(d', r) := step d o in r :: run d' os' end.

(** Common vocabulary of the model: bytes, machine words, Go results.
    Nothing here models a particular file of /repo; it fixes how Go values are represented:
    - a byte / machine word is a [Z] kept in range by explicit wrap-around;
    - a byte slice (contents only) is a [list Z];
    - a Go call returns [Ok v], returns an error [Err e], or panics [Panic]. *)
From Coq Require Export ZArith List Lia Bool.
From Coq Require Export ZifyBool ZifyNat ZifyN.
Export ListNotations.
Open Scope Z_scope.

(** ** Results of Go calls *)
Inductive res (A : Type) : Type :=
| Ok (a : A)
| Err (e : Z)        (* a non-nil error; [e] identifies which one *)
| Panic.             (* run-time panic: index out of range, nil dereference, explicit panic *)
Arguments Ok {A} a. Arguments Err {A} e. Arguments Panic {A}.

Definition rbind {A B} (r : res A) (f : A -> res B) : res B :=
  match r with Ok a => f a | Err e => Err e | Panic => Panic end.
Notation "'do' x <- r ; k" := (rbind r (fun x => k)) (at level 200, x pattern, r at level 100, k at level 200).

(** ** Bytes and words *)
Definition u8  (z : Z) : Z := z mod 2^8.
Definition u16 (z : Z) : Z := z mod 2^16.
Definition u32 (z : Z) : Z := z mod 2^32.
Definition u64 (z : Z) : Z := z mod 2^64.

Definition is_byte (z : Z) : Prop := 0 <= z < 256.
Definition is_u32 (z : Z) : Prop := 0 <= z < 2^32.
Definition bytes (l : list Z) : Prop := Forall is_byte l.
Definition is_byteb (z : Z) : bool := (0 <=? z) && (z <? 256).
Definition bytesb (l : list Z) : bool := forallb is_byteb l.

(** ** Big-endian encodings: [be_val] is [big.Int.SetBytes]; [be_bytes n z] the [n]-byte big-endian
    encoding (of [z mod 256^n]). *)
Definition be_val (l : list Z) : Z := fold_left (fun acc b => acc * 256 + b) l 0.
Fixpoint be_bytes (n : nat) (z : Z) : list Z :=
  match n with
  | O => []
  | S k => be_bytes k (z / 256) ++ [z mod 256]
  end.

Definition zlen {A} (l : list A) : Z := Z.of_nat (length l).
Definition zeros (n : nat) : list Z := repeat 0 n.

(** Boolean equality of byte strings ([bytes.Equal]). *)
Fixpoint beqb (a b : list Z) : bool :=
  match a, b with
  | [], [] => true
  | x :: a', y :: b' => (x =? y) && beqb a' b'
  | _, _ => false
  end.

(** [xorl a b]: pointwise xor (stops at the shorter). *)
Fixpoint xorl (a b : list Z) : list Z :=
  match a, b with
  | x :: a', y :: b' => Z.lxor x y :: xorl a' b'
  | _, _ => []
  end.

(** [upd i v l]: the array [l] after [l[i] = v] (unchanged when out of range; callers check). *)
Fixpoint upd {A} (i : nat) (v : A) (l : list A) : list A :=
  match l, i with
  | [], _ => []
  | _ :: t, O => v :: t
  | h :: t, S j => h :: upd j v t
  end.

(** [chunks n l]: cut [l] into consecutive pieces of [n] elements, the last possibly shorter. *)
Fixpoint chunks_aux {A} (fuel n : nat) (l : list A) : list (list A) :=
  match fuel with
  | O => []
  | S f => match l with [] => [] | _ => firstn n l :: chunks_aux f n (skipn n l) end
  end.
Definition chunks {A} (n : nat) (l : list A) : list (list A) := chunks_aux (length l) n l.

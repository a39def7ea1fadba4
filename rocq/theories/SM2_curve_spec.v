(** Specification (GB/T 32918.1/.5): the SM2 recommended curve y^2 = x^3 + a x + b over Z/p, its affine
    chord-and-tangent addition, and scalar multiplication as iterated addition.  Written from the standard;
    imports nothing from the model of the Go code. *)
From Coq Require Import ZArith List.
From Verif Require Import NT Prime_cert.
Local Open Scope Z_scope.

(* sm2_p and sm2_n are in Prime_cert.v *)
Definition sm2_a : Z := 0xFFFFFFFEFFFFFFFFFFFFFFFFFFFFFFFFFFFFFFFF00000000FFFFFFFFFFFFFFFC.
Definition sm2_b : Z := 0x28E9FA9E9D9F5E344D5A9E4BCF6509A7F39789F515AB8F92DDBCBD414D940E93.
Definition sm2_gx : Z := 0x32C4AE2C1F1981195F9904466A39C9948FE30BBFF2660BE1715A4589334C74C7.
Definition sm2_gy : Z := 0xBC3736A2F4F6779C59BDCEE36B692153D0A9877CC62A474002DF32E52139F0A0.

(** a point: infinity, or affine coordinates, canonically in [0,p) *)
Inductive pt := Oinf | Pt (x y : Z).
Definition pG : pt := Pt sm2_gx sm2_gy.
Definition on_curve (P : pt) : Prop :=
  match P with
  | Oinf => True
  | Pt x y => 0 <= x < sm2_p /\ 0 <= y < sm2_p /\ (y * y) mod sm2_p = (x * x * x + sm2_a * x + sm2_b) mod sm2_p
  end.
Definition pneg (P : pt) : pt := match P with Oinf => Oinf | Pt x y => Pt x ((- y) mod sm2_p) end.
(** the line of slope l through (x1,y1), meeting the curve also at abscissa x2 *)
Definition line_third (l x1 y1 x2 : Z) : pt :=
  let x3 := (l * l - x1 - x2) mod sm2_p in Pt x3 ((l * (x1 - x3) - y1) mod sm2_p).
Definition padd (P Q : pt) : pt :=
  match P, Q with
  | Oinf, _ => Q
  | _, Oinf => P
  | Pt x1 y1, Pt x2 y2 =>
      if x1 =? x2 then
        if (y1 + y2) mod sm2_p =? 0 then Oinf
        else line_third ((3 * x1 * x1 + sm2_a) * zinv sm2_p (2 * y1)) x1 y1 x2
      else line_third ((y2 - y1) * zinv sm2_p (x2 - x1)) x1 y1 x2
  end.
(** k-fold sum *)
Definition nmul (k : nat) (P : pt) : pt := Nat.iter k (padd P) Oinf.
Definition smul (k : Z) (P : pt) : pt :=
  match k with
  | Z0 => Oinf
  | Zpos m => nmul (Pos.to_nat m) P
  | Zneg m => pneg (nmul (Pos.to_nat m) P)
  end.

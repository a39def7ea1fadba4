(** Model of p256Curve.Inverse (sm2/sm2p256_amd64.go:110-202): inversion modulo the group order, over the instructions of
    sm2p256OrdMul and sm2p256OrdSqr. *)
From Coq Require Import ZArith List Bool.
From Verif Require Import P256_asm_model P256_asm_code P256_model.
Import ListNotations.
Local Open Scope Z_scope.
(* a call of sm2p256OrdMul; None = the interpreter refused (it does not in the runs of P_P256_ord.v) *)
Definition ordMul (x y : option Z) : option Z := match x, y with Some x, Some y => call2 c_sm2p256OrdMul x y | _, _ => None end.
(* sm2p256OrdSqr(res, in, n): the loop ordSqrLoop, sm2p256_amd64.s:1084-1329; after each round the input is the result *)
Fixpoint ordSqr (n : nat) (x : option Z) : option Z :=
  match n with
  | O => x
  | Datatypes.S n => match x with Some x => ordSqr n (call2 c_sm2p256OrdSqr x 0) | None => None end
  end.
(* RR, :136 *)
Definition ordRR : Z := 0x1EB5E412A22B3D3B620FC84C3AFFE0D43464504ADE6FA2FA901192AF7C114F20.
(* the table of x^1 .. x^15, :138-145: t[i-1] := t[i/2-1]^2, t[i] := t[i-1] * t[0] for i = 2, 4, .., 14 *)
Definition ordTable (x : option Z) : list (option Z) :=
  fold_left (fun t i => let s := ordSqr 1 (nth (Nat.div i 2 - 1) t None) in t ++ [s; ordMul s (nth 0 t None)])
            [2; 4; 6; 8; 10; 12; 14]%nat [x].
(* expLo, :182 *)
Definition expLo : list nat := [0xb; 0xc; 0xe; 0x6; 0xf; 0xa; 0xa; 0xd; 0xa; 0x7; 0x1; 0x7; 0x9; 0xe; 0x8; 0x4; 0xf; 0x3; 0xb; 0x9; 0xc; 0xa; 0xc; 0x2; 0xf; 0xc; 0x6; 0x3; 0x2; 0x5; 0x4; 0xf]%nat.
(* Inverse, :110-202 *)
Definition Inverse (k : Z) : option Z :=
  let k := if k <? 0 then - k else k in
  let k := if wN <=? k then k mod wN else k in
  let t0 := ordMul (Some k) (Some ordRR) in
  let T := ordTable t0 in
  let x := nth 14 T None in                                  (* f *)
  let x := ordMul (ordSqr 4 x) (nth 14 T None) in            (* ff *)
  let x := ordMul (ordSqr 8 x) x in                          (* ffff *)
  let x := ordMul (ordSqr 16 x) x in                         (* ffffffff *)
  let t := x in
  let x := ordMul (ordSqr 64 x) t in
  let x := ordMul (ordSqr 32 x) t in
  let x := fold_left (fun x e => ordMul (ordSqr 4 x) (nth (e - 1) T None)) expLo x in
  ordMul x (Some 1).

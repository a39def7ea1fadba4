(** Specification of SM2 signatures, encryption, KDF and identity hash, from GB/T 32918.2/.4 (byte-oriented).
    Imports only the SM3 specification and the curve specification, nothing from the model of the Go code. *)
From Verif Require Import GoBase SM3_spec NT Prime_cert SM2_curve_spec.
Open Scope Z_scope.

(** affine output convention of the elliptic.Curve API: (0,0) stands for the point at infinity *)
Definition aff (P : pt) : Z * Z := match P with Oinf => (0, 0) | Pt x y => (x, y) end.
Definition xcoord (P : pt) : Z := fst (aff P).

(** 32918.4 5.4.3: KDF, [n] output bytes *)
Definition kdf_block (Zs : list Z) (i : nat) : list Z := sm3 (Zs ++ be_bytes 4 (Z.of_nat i)).
Definition kdf (Zs : list Z) (n : nat) : list Z :=
  firstn n (concat (map (kdf_block Zs) (seq 1 ((n + 31) / 32)))).

(** 32918.2 5.5: Z = SM3(ENTL || ID || a || b || xG || yG || xA || yA) *)
Definition z_id (id : list Z) (x y : Z) : list Z :=
  sm3 (be_bytes 2 (8 * zlen id) ++ id ++ be_bytes 32 sm2_a ++ be_bytes 32 sm2_b ++
       be_bytes 32 sm2_gx ++ be_bytes 32 sm2_gy ++ be_bytes 32 x ++ be_bytes 32 y).
(** the default identity "1234567812345678" *)
Definition default_id : list Z := [49;50;51;52;53;54;55;56;49;50;51;52;53;54;55;56].
(** e = SM3(Z || M) as an integer *)
Definition e_of (id : list Z) (P : pt) (m : list Z) : Z :=
  be_val (sm3 (z_id id (fst (aff P)) (snd (aff P)) ++ m)).

(** 32918.2 6.1: signature for nonce k; [None] in the cases where the standard requires another k *)
Definition sm2_sign (d e k : Z) : option (Z * Z) :=
  let r := (e + xcoord (smul k pG)) mod sm2_n in
  let s := (zinv sm2_n (1 + d) * (k - r * d)) mod sm2_n in
  if (r =? 0) || (r + k =? sm2_n) || (s =? 0) then None else Some (r, s).
(** 32918.2 7.1 *)
Definition sm2_verify (P : pt) (e r s : Z) : Prop :=
  1 <= r < sm2_n /\ 1 <= s < sm2_n /\ (r + s) mod sm2_n <> 0 /\
  padd (smul s pG) (smul ((r + s) mod sm2_n) P) <> Oinf /\
  (e + xcoord (padd (smul s pG) (smul ((r + s) mod sm2_n) P))) mod sm2_n = r.

(** 32918.4 6: C1 || C3 || C2; the shared point is S = kP = dC1 *)
Definition shared_bytes (S : pt) : list Z := be_bytes 32 (fst (aff S)) ++ be_bytes 32 (snd (aff S)).
Definition c2_of (S : pt) (m : list Z) : list Z := xorl (kdf (shared_bytes S) (length m)) m.
Definition c3_of (S : pt) (m : list Z) : list Z :=
  sm3 (be_bytes 32 (fst (aff S)) ++ m ++ be_bytes 32 (snd (aff S))).
Definition sm2_cipher (P : pt) (k : Z) (m : list Z) : list Z :=
  [4] ++ be_bytes 32 (fst (aff (smul k pG))) ++ be_bytes 32 (snd (aff (smul k pG))) ++
  c3_of (smul k P) m ++ c2_of (smul k P) m.
(** the KDF output is usable: not all zero (nothing to mask in an empty message) *)
Definition kdf_usable (S : pt) (n : nat) : Prop := n = 0%nat \/ kdf (shared_bytes S) n <> zeros n.

(** C32: inversion modulo the group order (p256Curve.Inverse) is wrong.  The instructions themselves are run. *)
From Coq Require Import ZArith List Bool Lia.
From Verif Require Import Prime_cert SM2_curve_spec P256_asm_model P256_asm_code P256_model P256_ord_model.
Import ListNotations.
Local Open Scope Z_scope.
Lemma run_inv2 : match Inverse 2 with Some r => negb ((r * 2) mod sm2_n =? 1) | None => false end = true.
Proof. vm_compute. reflexivity. Qed.
#[local] Opaque Inverse sm2_n.
(** the method returns (the interpreter does not get stuck), and what it returns is not an inverse of 2 *)
Theorem C32_Inverse_refuted : exists r, Inverse 2 = Some r /\ (r * 2) mod sm2_n <> 1.
Proof.
  pose proof run_inv2 as H. destruct (Inverse 2) as [r|]; [|discriminate]. exists r. split; [reflexivity|]. apply Z.eqb_neq. now apply negb_true_iff in H.
Qed.
(** the reason: one squaring modulo n is already wrong, for the input 2 (Montgomery squaring: r * 2^256 = x^2 modulo n) ... *)
Lemma run_sqr2 : match call2 c_sm2p256OrdSqr 2 0 with Some r => negb ((r * 2 ^ 256) mod 0xFFFFFFFEFFFFFFFFFFFFFFFFFFFFFFFF7203DF6B21C6052B53BBF40939D54123 =? 4) | None => false end = true.
Proof. vm_compute. reflexivity. Qed.
Theorem C32_OrdSqr_refuted : exists r, ordSqr 1 (Some 2) = Some r /\ (r * 2 ^ 256) mod sm2_n <> (2 * 2) mod sm2_n.
Proof.
  pose proof run_sqr2 as H. cbn [ordSqr]. destruct (call2 c_sm2p256OrdSqr 2 0) as [r|]; [|discriminate]. exists r. split; [reflexivity|].
  change ((2 * 2) mod sm2_n) with 4. apply Z.eqb_neq. now apply negb_true_iff in H.
Qed.
Print Assumptions C32_Inverse_refuted. Print Assumptions C32_OrdSqr_refuted.

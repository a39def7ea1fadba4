(** Concrete runs of the amd64 curve arithmetic: the hypotheses of P_P256.v are met, and two wrong results (C29). *)
From Coq Require Import ZArith Lia List Bool.
From Verif Require Import Prime_cert SM2_curve_spec SM2_group SM2_jac SM2_order GoBase GoLemmas P256_field_model P256_model P256_ideal P256_group P256_flag P_P256.
Import ListNotations.
Local Open Scope Z_scope.
Definition exactb (r : (Z * bool) * (Z * bool)) : bool := snd (fst r) && snd (snd r).
(** hypotheses met: the runs with G and the scalar 1 are exact *)
Example C29_hyps : exactb (ScalarMult Fl sm2_gx sm2_gy [1]) = true.
Proof. vm_compute. reflexivity. Qed.
Definition nMinus6 : list Z := [255; 255; 255; 254; 255; 255; 255; 255; 255; 255; 255; 255; 255; 255; 255; 255; 114; 3; 223; 107; 33; 198; 5; 43; 83; 187; 244; 9; 57; 213; 65; 29].
Lemma run_n6 : ScalarMult W sm2_gx sm2_gy nMinus6 = (0, 0).
Proof. vm_compute. reflexivity. Qed.
Definition y1 : Z := 0x9f7a091433a81e3f218f405f792355bf2aa98b5ffa95982f03870800065279a3.
Lemma run_x1 : fst (ScalarMult W 1 y1 [1]) =? 1 = false.
Proof. vm_compute. reflexivity. Qed.
Lemma n6_val : be_val nMinus6 = sm2_n - 6. Proof. vm_compute. reflexivity. Qed.
Lemma y1_on : on_curve (Pt 1 y1). Proof. vm_compute. repeat split; discriminate. Qed.
#[local] Opaque sm2_p sm2_n sm2_gx sm2_gy ScalarMult W y1 smul.
(** C29 is false of the code: (n-6)G comes out as (0,0), i.e. as the point at infinity ... *)
Theorem C29_generator_refuted : bytes nMinus6 /\ be_val nMinus6 = sm2_n - 6 /\ ScalarMult W sm2_gx sm2_gy nMinus6 = (0, 0) /\ aff_of (smul (be_val nMinus6) pG) <> (0, 0).
Proof.
  split; [apply bytesb_spec; vm_compute; reflexivity|]. split; [exact n6_val|]. split; [exact run_n6|]. rewrite n6_val.
  pose proof (on_smul (sm2_n - 6) pG G_on) as HO. destruct (smul (sm2_n - 6) pG) as [|qx qy] eqn:EQ.
  - apply kP_O in EQ; [|exact G_on|exact G_ne]. exfalso. revert EQ. apply ndiv_small; pose proof n_bounds; lia.
  - exact (coords_ne qx qy HO).
Qed.
(** ... and 1*P is not P for the curve point P with abscissa 1: the conversion into Montgomery form drops a borrow *)
Theorem C29_ScalarMult_wrong_refuted : on_curve (Pt 1 y1) /\ smul 1 (Pt 1 y1) = Pt 1 y1 /\ be_val [1] = 1 /\ fst (ScalarMult W 1 y1 [1]) <> 1.
Proof.
  split; [exact y1_on|]. split; [apply smul_1|]. split; [reflexivity|]. apply Z.eqb_neq. exact run_x1.
Qed.
(** the multiplication routine itself: the product with rr should be 5 * 2^256 modulo p *)
Theorem C29_sm2p256Mul_refuted : w_rr mod sm2_p = 2 ^ 512 mod sm2_p /\ (sm2p256Mul 5 w_rr * 2 ^ 256) mod sm2_p <> (5 * w_rr) mod sm2_p.
Proof. Transparent sm2_p. vm_compute. split; [reflexivity|discriminate]. Qed.
Print Assumptions C29_generator_refuted. Print Assumptions C29_ScalarMult_wrong_refuted. Print Assumptions C29_sm2p256Mul_refuted.

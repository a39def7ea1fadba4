(** C137: concrete cases, with a ParseIP that knows 1.2.3.4 and ::1. *)
From Verif Require Import GoBase GoLemmas TLS_record_model TLS_msg_model TLS_neg_model TLS_hs_model TLS_std_model P_TLS_std_example P_TLS_sni.
From Verif Require X509_model.
Open Scope Z_scope.
Definition v4 : list Z := [49;46;50;46;51;46;52].
Definition v6 : list Z := [58;58;49].
Definition nE : senv unit :=
  mkSEnv (se yE) (se_verify yE) (se_sha512 yE) (se_alg yE) (se_x25519 yE) (se_nist yE) (se_rsaenc yE) (fun s => beqb s v4 || beqb s v6) (se_lower yE).
Definition nclient (name : list Z) : sconfig unit :=
  mkSCfg (mkCfg 0 0x0303 None false [] [] 0 None None name false 50 false [] None None (fun _ _ => None)) [] None None [] None.
Definition nsni (name : list Z) : option (list Z) := match makeClientHello nE (nclient name) (yrn 1 []) with Ok h => Some (ch_sni h) | _ => None end.
(** "1.2.3.4", "[::1%eth0]", "a.b..", and "1.2.3.4." *)
Theorem C137_hyps :
  nsni v4 = Some [] /\ (unbracket ([91] ++ v6 ++ [37;101;93]) (v6 ++ [37;101]) /\ unzone (v6 ++ [37;101]) v6 /\ se_isIP nE v6 = true /\ nsni ([91] ++ v6 ++ [37;101;93]) = Some []) /\
  nsni [97;46;98;46;46] = Some [97;46;98] /\ without_dots [97;46;98;46;46] [97;46;98] /\
  (se_isIP nE v4 = true /\ se_isIP nE (v4 ++ [46]) = false /\ nsni (v4 ++ [46]) = Some v4).
Proof.
  split; [vm_compute; reflexivity|]. split.
  - split; [left; reflexivity|]. split; [left; split; [discriminate|exists [101]; split; [reflexivity|intros [H|[]]; discriminate]]|]. split; vm_compute; reflexivity.
  - split; [vm_compute; reflexivity|]. split.
    + split; [exists 2%nat; reflexivity|]. intros init a H. change [97;46;98] with ([97;46] ++ [98]) in H. apply app_inj_tail in H as [_ <-]. discriminate.
    + split; [|split]; vm_compute; reflexivity.
Qed.

(** Property theorems for package sm3 (C01-C04). *)
From Verif Require Import GoBase SM3_spec SM3_model SM3_hist_spec SM3_proofs.
Open Scope Z_scope.

(** C01: SumSM3 computes GB/T 32905 SM3, for every message below 2^61 bytes. *)
Theorem C01_SumSM3_is_SM3 : forall m, bytes m -> zlen m < 2^61 -> SumSM3 m = Ok (sm3 m).
Proof. exact SumSM3_spec. Qed.
Print Assumptions C01_SumSM3_is_SM3.
Example C01_hyps : bytes [0x61; 0x62; 0x63] /\ zlen [0x61; 0x62; 0x63] < 2^61.
Proof. split; [repeat constructor|reflexivity]; cbv; congruence. Qed.

(** C02: however a message is cut into Write calls, the digest is that of the concatenation, and every
    Write reports the full length (no size bound). *)
Theorem C02_streaming_equals_one_shot : forall ps, Forall bytes ps ->
  Sum (writes ps) [] = SumSM3 (concat ps) /\
  forall p, bytes p -> snd (Write (writes ps) p) = zlen p.
Proof. exact (fun ps H => conj (Sum_writes_SumSM3 ps H) (fun p Hp => Write_count ps p H Hp)). Qed.
Print Assumptions C02_streaming_equals_one_shot.
Example C02_hyps : Forall bytes [zeros 63; [7; 255]; []; zeros 130].
Proof. repeat constructor; cbv; congruence. Qed.

(** C03: in every history of Write/Sum/Reset each result is the one of the reference semantics, whose only
    state is the byte string written since the last Reset. *)
Theorem C03_histories_match_reference : forall os,
  Forall op_bytes os -> total_written os < 2^61 -> run New os = ref_run [] os.
Proof. exact histories_ref. Qed.
Print Assumptions C03_histories_match_reference.
Example C03_hyps :
  let os := [OpWrite (zeros 70); OpSum [1;2]; OpWrite [3]; OpSum []; OpReset; OpSum []; OpWrite [255]; OpSum []] in
  Forall op_bytes os /\ total_written os < 2^61.
Proof. split; [repeat constructor; cbv; congruence|reflexivity]. Qed.

(** C04: after every history (no size bound) Sum never panics and appends exactly 32 bytes. *)
Theorem C04_no_panic_and_size_32 : forall os inp, Forall op_bytes os ->
  exists h, Sum (run_state New os) inp = Ok (inp ++ h) /\ length h = 32%nat /\ bytes h.
Proof. exact no_panic. Qed.
Print Assumptions C04_no_panic_and_size_32.

(** Reference semantics for histories of calls on an SM3 hash object: the only state is the byte string
    written since the last Reset. Uses the call/return vocabulary [op]/[out] of the model, nothing else. *)
From Verif Require Import GoBase SM3_spec SM3_model.
Open Scope Z_scope.

(** Arguments really are byte strings. *)
Definition op_bytes (o : op) : Prop := match o with OpWrite p => bytes p | _ => True end.

(** What a history must return when [m] has been written since the last Reset. *)
Fixpoint ref_run (m : list Z) (os : list op) : list out :=
  match os with
  | [] => []
  | OpWrite p :: os' => OutWrite (zlen p) :: ref_run (m ++ p) os'
  | OpSum inp :: os' => OutSum (Ok (inp ++ sm3 m)) :: ref_run m os'
  | OpReset :: os' => OutReset :: ref_run [] os'
  end.

(** Total number of bytes written in a history. *)
Fixpoint total_written (os : list op) : Z :=
  match os with
  | [] => 0
  | OpWrite p :: os' => zlen p + total_written os'
  | _ :: os' => total_written os'
  end.

(** The object after a sequence of Write calls on a new object / after any history. *)
Definition writes (ps : list (list Z)) : digest := fold_left (fun d p => fst (Write d p)) ps New.
Fixpoint run_state (d : digest) (os : list op) : digest :=
  match os with [] => d | o :: os' => run_state (fst (step d o)) os' end.

(** C118, C119: concrete cases, and why C119 speaks of networks without temporary errors. *)
From Verif Require Import GoBase GoLemmas CBC SM3_spec SM4_spec HMAC X509_spec TLS_record_model TLS_rec_proofs TLS_io_proofs P_TLS_record TLS_hs_model TLS_hs_spec
  TLS_hs_conn TLS_hs_conn_proofs P_TLS_hs_conn.
Open Scope Z_scope.
#[local] Opaque sm3 sm4_enc sm4_dec.

(** the bytes come one by one *)
Definition trickle (s : list Z) : transport := mkTr s (map (fun _ => Some 1%nat) s).
Definition no_iv (i : nat) : option (list Z) := Some [].
(** a message cut into two records *)
Definition two_records : list Z := [22; 1; 1; 0; 3; 1; 0; 0] ++ [22; 1; 1; 0; 6; 2; 7; 8; 0; 0; 0].
Theorem C118_hyps : sane (k_c (fresh false true no_iv (trickle two_records))) /\
  exists l, l_read (fresh false true no_iv (trickle two_records)) = (HOk [1; 0; 0; 2; 7; 8], l) /\ c_hand (k_c l) = [0; 0; 0].
Proof. split; [split; cbn; [lia|discriminate]|]. eexists. split; vm_compute; reflexivity. Qed.
(** a length field of 65537, on its own *)
Theorem C118_oversized_hyps : exists l, c_err (k_c l) = None /\ (4 <= length (c_hand (k_c l)))%nat /\ 65536 < declared (c_hand (k_c l)).
Proof. exists (with_c (fresh false true no_iv (mkTr [] [])) (with_hand (k_c (fresh false true no_iv (mkTr [] []))) [11; 1; 0; 1])). cbn. repeat split; lia. Qed.
Theorem C118_oversized_run : exists l', l_read (fresh false true no_iv (mkTr [22; 1; 1; 0; 4; 11; 1; 0; 1] [])) = (HErr (2000 + 80), l') /\
  c_alerts (k_c l') = [80] /\ w_log (k_w l') = [[21; 3; 1; 0; 2; 2; 80]].
Proof. eexists. repeat split; vm_compute; reflexivity. Qed.

(** ** The hypothesis of C119 that the network reports no temporary errors cannot be dropped *)
(** A client that has its keys and waits for the server's ChangeCipherSpec.  The network reports one temporary error (a read timeout is
    one) and then delivers a Finished message in the clear.  The result of readRecord is dropped, the temporary error is not kept in
    c.in.err: the client goes on to the Finished message with its old, empty keys, and reads it. *)
Definition some_keys : keyblock := mkKB (zeros 32) (zeros 32) (zeros 16) (zeros 16) (zeros 16) (zeros 16).
Definition waiting (t : transport) : link := l_keys true 0x0101 some_keys (l_vers 0x0101 false (fresh false true no_iv t)).
Definition clear_finished : list Z := [22; 1; 1; 0; 16] ++ [20; 0; 0; 12] ++ [1; 2; 3; 4; 5; 6; 7; 8; 9; 10; 11; 12].
Lemma pair_is {A B} (p : A * B) a : fst p = a -> p = (a, snd p). Proof. destruct p. cbn. now intros ->. Qed.
Lemma not_none {A} (o : option A) : match o with None => false | Some _ => true end = true -> o <> None. Proof. intros H ->. discriminate. Qed.
Theorem C119_temporary_error_refuted : exists t l l', temps t = 1%nat /\ l_ccs (waiting t) = (HOk tt, l) /\ h_cipher (c_in (k_c l)) = None /\
  l_read l = (HOk ([20; 0; 0; 12] ++ [1; 2; 3; 4; 5; 6; 7; 8; 9; 10; 11; 12]), l').
Proof.
  exists (mkTr clear_finished [None]), (snd (l_ccs (waiting (mkTr clear_finished [None])))), (snd (l_read (snd (l_ccs (waiting (mkTr clear_finished [None])))))).
  split; [reflexivity|]. split; [apply pair_is; vm_compute; reflexivity|]. split; [vm_compute; reflexivity|apply pair_is; vm_compute; reflexivity].
Qed.
(** without the error the same bytes are refused *)
Theorem C119_clear_finished_refused : exists l, l_ccs (waiting (mkTr clear_finished [])) = (HErr (4000 + 10), l).
Proof. exists (snd (l_ccs (waiting (mkTr clear_finished [])))). apply pair_is; vm_compute; reflexivity. Qed.
(** and with the ChangeCipherSpec in front the keys change and the clear message is refused *)
Theorem C119_keys_change : exists l, l_ccs (waiting (mkTr ([20; 1; 1; 0; 1; 1] ++ clear_finished) [])) = (HOk tt, l) /\ h_cipher (c_in (k_c l)) <> None /\
  exists e l', l_read l = (HErr e, l') /\ c_alerts (k_c l') = [20].
Proof.
  exists (snd (l_ccs (waiting (mkTr ([20; 1; 1; 0; 1; 1] ++ clear_finished) [])))). split; [apply pair_is; vm_compute; reflexivity|]. split; [apply (not_none (h_cipher _)); vm_compute; reflexivity|].
  exists (2000 + 20). eexists. split; [apply pair_is; vm_compute; reflexivity|]. vm_compute. reflexivity.
Qed.

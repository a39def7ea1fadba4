(** Concrete cases of C117 and C120. *)
From Verif Require Import GoBase GoLemmas BigBytes CBC SM3_spec SM4_spec HMAC X509_spec SM2_model TLS_record_model TLS_rec_proofs TLS_io_proofs P_TLS_record TLS_prf_model TLS_prf_spec TLS_neg_model TLS_hs_model
  TLS_hs_spec TLS_hs_run TLS_hs_conn TLS_hs_conn_proofs P_TLS_hs_conn TLS_hs_wire TLS_hs_wire2 P_TLS_hs_server P_TLS_hs_client P_TLS_hs_example P_TLS_hs_wire.
From Verif Require P_TLS_hs_run.
Open Scope Z_scope.

(** C120: the client and server of C91_example, with any IVs, talk over the network *)
Theorem C120_example : exists clog slog rc rs, P_TLS_hs_run.completed_together xE xE xccfg (xscfg NoClientCert) (xrn 8) (xrn 7) xx0 xx1 [] clog slog rc rs /\
  talks xE xE xccfg (xscfg NoClientCert) (xrn 8) (xrn 7) clog slog rc rs.
Proof.
  destruct C91_example as (clog & slog & rc & rs & HC & HF). exists clog, slog, rc, rs. split; [exact HC|]. destruct C83_C90_hyps as (_ & _ & _ & _ & _ & _ & HW & RO & _).
  intros reneg cdyn sdyn civ siv CI SI. exact (C120_end_to_end xE xE xHs xccfg (xscfg NoClientCert) (xrn 8) (xrn 7) xx0 xx1 [] clog slog rc rs reneg cdyn sdyn civ siv HW RO HC HF CI SI).
Qed.
Theorem C120_ivs_exist : exists iv, ivs16 iv.
Proof. exists (fun _ => Some (zeros 16)). intros i. exists (zeros 16). split; [reflexivity|]. split; [reflexivity|apply bytesb_spec; reflexivity]. Qed.

(** C117: ServerHelloDone and a Finished with two bytes, sent as three records: the first holds one message and a half *)
Definition ex_msgs : list (list Z) := [[14; 0; 0; 0]; [20; 0; 0; 2; 7; 8]].
Definition ex_recs : list (list Z) := [[22; 1; 1; 0; 6; 14; 0; 0; 0; 20; 0]; [22; 1; 1; 0; 3; 0; 2; 7]; [22; 1; 1; 0; 1; 8]].
Definition ex_link : link := fresh false true (fun _ => Some (zeros 16)) (mkTr (concat ex_recs) [Some 1%nat; Some 3%nat; Some 2%nat]).
Theorem C117_hyps : rd VersionGMSSL ex_link /\ c_hand (k_c ex_link) = [] /\ (exists ms r', chunked VersionGMSSL (c_in (k_c ex_link)) ex_recs ms r' /\ concat ms = concat ex_msgs) /\ Forall msg_ok ex_msgs /\
  stream (k_c ex_link) (k_t ex_link) = concat ex_recs ++ [].
Proof.
  split. { split; [unfold hdr_ok; cbn; unfold VersionGMSSL; lia|]. split; [reflexivity|]. split; [split; cbn; [lia|discriminate]|]. split; reflexivity. }
  split; [reflexivity|]. split.
  { exists [[14; 0; 0; 0; 20; 0]; [0; 2; 7]; [8]]. eexists. split; [|reflexivity].
    eapply ck_cons; [| | | | |eapply ck_cons; [| | | | |eapply ck_cons; [| | | | |apply ck_nil]]].
    all: try (vm_compute; exact eq_refl). all: try discriminate.
    { exists [14; 0; 0; 0; 20; 0]. split; [reflexivity|cbn; unfold maxCiphertext; lia]. }
    { exists [0; 2; 7]. split; [reflexivity|cbn; unfold maxCiphertext; lia]. }
    { exists [8]. split; [reflexivity|cbn; unfold maxCiphertext; lia]. } }
  split; [|reflexivity]. apply Forall_cons; [|apply Forall_cons; [|apply Forall_nil]]; (split; [cbn; lia|split; [reflexivity|cbn; unfold maxHandshake; lia]]).
Qed.
(** and it is what happens *)
Theorem C117_example : fst (read_msgs 2 ex_link) = HOk ex_msgs.
Proof. destruct C117_hyps as (H1 & H2 & (ms & r' & H3 & H4) & H5 & H6). destruct (C117_reassembly VersionGMSSL gm_range ex_msgs ex_link _ ex_recs ms r' [] H1 eq_refl H2 H3 H4 H5 H6) as (l' & E & _). change 2%nat with (length ex_msgs). rewrite E. reflexivity. Qed.
(** a fresh connection can write any messages, and reads them back *)
Theorem C117_writer_hyps : forall msgs dyn, bytes (concat msgs) -> zlen (concat msgs) < 2 ^ 63 -> exists w', write_msgs (w0 dyn) msgs w' /\ can_write 0 (w0 dyn) fresh_half.
Proof.
  intros msgs dyn B L. pose proof (fresh_can_write dyn) as H0. enough (G : forall msgs k w r, can_write k w r -> k + zlen (concat msgs) < 2 ^ 64 -> bytes (concat msgs) -> exists w', write_msgs w msgs w').
  { destruct (G msgs 0 (w0 dyn) fresh_half H0 ltac:(lia) B) as (w' & H). exists w'. auto. }
  clear. induction msgs as [|m msgs IH]; intros k w r HW Hk Bb; [exists w; constructor|]. cbn [concat] in *.
  assert (Hz : zlen (m ++ concat msgs) = zlen m + zlen (concat msgs)) by (unfold zlen; rewrite app_length; lia). apply bytes_app in Bb as [B1 B2]. assert (P1 : 0 <= zlen (concat msgs)) by (unfold zlen; lia).
  assert (HI : ivs_ok w (fun _ => Some (zeros (fst (explicit_iv_len (w_out w)))))). { intros i. eexists. split; [reflexivity|]. split; [apply repeat_length|apply bytes_repeat; unfold is_byte; lia]. }
  destruct (write_chunked (length m) k w r m (fun _ => Some (zeros (fst (explicit_iv_len (w_out w))))) 0 HW ltac:(lia) B1 ltac:(lia) ltac:(intros i; destruct (HI i) as (x & X1 & X2 & X3); exists x; eauto)) as (w1 & recs & ms & k' & r' & E1 & E2 & E3 & E4 & E5 & E6 & E7).
  destruct (IH k' w1 r' E5 ltac:(lia) B2) as (w2 & H2). exists w2. econstructor; [exact HI|exact E1|exact H2].
Qed.

(** A GMSSL-only server that meets the hypotheses of C77_no_other_crash_partial, against every list of messages a client may send whose ClientKeyExchange messages are not
    malformed in the way of C74. *)
From Verif Require Import GoBase GoLemmas BigBytes X509_spec Prime_cert SM2_spec SM2_model SM2_proofs SM3_spec SM3_model TLS_record_model TLS_prf_model TLS_prf_spec TLS_prf_proofs
  TLS_gmka_model TLS_ticket_model TLS_msg_model TLS_msg_proofs TLS_neg_model TLS_hs_model TLS_hs_proofs TLS_hs_spec TLS_hs_run P_TLS_hs_server P_TLS_hs_example P_TLS_hs_crash TLS_hs_safe P_TLS_hs_safe2.
From Verif Require X509_model P_SM2 P_TLS_ticket P_TLS_hs_safe.
Open Scope Z_scope.
#[local] Opaque sm3 sm2_n sm2_p be_bytes PRF.

Definition proper_ckxb (m : list Z) : bool := negb (nth 0 m 0 =? 16) || (negb (length (skipn 4 m) =? 1)%nat && (((99 <=? length (skipn 4 m))%nat && (nth 2 (skipn 4 m) 0 =? 4)) || negb (nth 1 (skipn 4 m) 0 =? zlen (skipn 4 m) - 2))).
Lemma proper_ckxb_ok m : proper_ckxb m = true -> proper_ckx m.
Proof.
  unfold proper_ckxb, proper_ckx. cbv zeta. intros H HT. apply orb_prop in H as [H|H].
  { apply negb_true_iff, Z.eqb_neq in H. congruence. }
  apply andb_prop in H as [H1 H2]. apply negb_true_iff, Nat.eqb_neq in H1. split; [exact H1|]. apply orb_prop in H2 as [H2|H2].
  - apply andb_prop in H2 as [H2 H3]. left. split; [apply Nat.leb_le, H2|apply Z.eqb_eq, H3].
  - right. apply negb_true_iff, Z.eqb_neq in H2. exact H2.
Qed.
Definition fair_item (i : item) : bool := match i with IMsg m => sane_item i && proper_ckxb m | ICCS => true end.
Definition any_client : chan := mkChan (list item)
  (fun l => match filter fair_item l with IMsg m :: l => (HOk m, l) | ICCS :: l => (HErr 0, l) | [] => (HLoop, []) end)
  (fun l => match filter fair_item l with ICCS :: l => (HOk tt, l) | IMsg _ :: l => (HErr 0, l) | [] => (HLoop, []) end)
  (fun _ _ l => (HOk tt, l)) (fun _ l => l) (fun _ _ l => l) (fun _ _ _ l => l).
Lemma any_client_ok : chan_ok any_client proper_ckx.
Proof.
  constructor.
  - intros l. cbn [cn_read any_client]. destruct (filter fair_item l) as [|[m|] l'] eqn:EF; cbn [fst]; auto.
    assert (X : fair_item (IMsg m) = true) by (apply (filter_In fair_item (IMsg m) l); rewrite EF; left; reflexivity). unfold fair_item, sane_item in X. apply andb_prop in X as [X X4]. apply andb_prop in X as [X X3]. apply andb_prop in X as [X1 X2].
    apply bytesb_spec in X1. apply negb_true_iff, Z.eqb_neq in X2. apply Z.ltb_lt in X3. split; [exact X1|]. split; [intros ->; apply X2; reflexivity|]. split; [exact X3|apply proper_ckxb_ok, X4].
  - intros l. cbn [cn_ccs any_client]. destruct (filter fair_item l) as [|[m|] l']; discriminate.
  - intros t m l. discriminate.
Qed.
Definition zE : env unit := mkEnv cv_std xL (fun _ _ => repeat 5 16) sm3 xparse (fun _ _ => true) [] (fun _ _ => true) None (fun _ _ _ _ => false) (fun _ => zeros 36) (beqb ypt) (fun _ => HErr 0) 1.
Lemma zworld : world_ok zE xHs. Proof. exact xworld. Qed.
(** GMSSL only, the ECC suite, two certificates (one with an OCSP staple and an SCT), client certificates required and verified, ALPN, tickets *)
Definition zce (der : list Z) : certificate unit := mkCE [der] (Some xkey) None [1; 2] [[3]].
Definition safe_gm : config unit :=
  mkCfg 0x0101 0x0101 (Some [0xe013]) true [[104; 50]] [zce [48; 1]; zce [48; 2]] 4 (Some xpool) None [] false 50 false [mkTK (repeat 1 16) (repeat 2 16) (repeat 3 16)] None None (fun _ _ => None).
Definition zrn : rnds := mkRnd (Some (repeat 7 32)) (Some []) (Some (repeat 6 16)) None (Some []) None.
Theorem C77_hyps_safe : gm_server_sane zE safe_gm None zrn /\ forall sent, fst (serverHandshakeGM zE any_client safe_gm None zrn (sent, [])) <> HPanic.
Proof.
  assert (S : gm_server_sane zE safe_gm None zrn).
  { constructor.
    - intros b [= <-]. split; [apply bytesb_spec; reflexivity|reflexivity].
    - intros b [= <-]. split; [apply bytesb_spec; reflexivity|reflexivity].
    - exists []. reflexivity.
    - intros k b. split; [reflexivity|apply bytesb_spec; reflexivity].
    - intros m Hm. cbn [zE e_sha256]. apply sm3_good, Hm.
    - discriminate.
    - intros ch cfg' ->. split; reflexivity.
    - intros ch cfg' ->. change (getCipherSuites (cf_suites safe_gm)) with [0xe013]. intros [H|[]]. discriminate.
    - intros ch cfg' ->. cbn [safe_gm cf_protos]. split; [constructor; [apply bytesb_spec; reflexivity|constructor]|]. split; [constructor; [split; [apply bytesb_spec; reflexivity|cbn; lia]|constructor]|reflexivity].
    - intros ch cfg' p -> [= <-]. split; [|reflexivity]. change (X509_model.Subjects xpool) with [[9]]. constructor; [apply bytesb_spec; reflexivity|constructor].
    - intros ch cfg' -> _. split; [discriminate|]. constructor; [|constructor]. split; [apply bytesb_spec; reflexivity|]. split; [apply bytesb_spec; reflexivity|reflexivity].
    - intros ch cfg' ->. change (gm_chain safe_gm) with [[48; 1]; [48; 2]]. split; [constructor; [split; [apply bytesb_spec; reflexivity|cbn; lia]|constructor; [split; [apply bytesb_spec; reflexivity|cbn; lia]|constructor]]|reflexivity].
    - intros ch cfg' ce -> HI. assert (X : exists d, ce = zce d /\ bytes d) by (destruct HI as [<-|[<-|[]]]; [exists [48; 1]|exists [48; 2]]; (split; [reflexivity|apply bytesb_spec; reflexivity])).
      destruct X as (d & -> & B). cbn [zce ce_chain ce_ocsp ce_scts]. split; [discriminate|]. split; [constructor; [exact B|constructor]|]. split; [split; [apply bytesb_spec; reflexivity|reflexivity]|].
      split; [constructor; [apply bytesb_spec; reflexivity|constructor]|reflexivity]. }
  split; [exact S|]. intros sent. apply (C77_no_other_crash_partial zE any_client xHs); [exact zworld|exact any_client_ok|exact S].
Qed.

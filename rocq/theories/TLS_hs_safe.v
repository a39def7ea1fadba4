(** Reasoning about handshakes that do not panic, whatever arrives: each step either returns a value with the stated property, returns an error, or does
    not return. *)
From Verif Require Import GoBase GoLemmas BigBytes Asn1_model X509_spec Prime_cert SM2_curve_spec SM2_group SM2_jac SM2_spec SM2_model SM2_proofs SM3_spec SM3_model TLS_record_model TLS_prf_model TLS_prf_spec TLS_prf_proofs
  TLS_gmka_model TLS_ticket_model TLS_msg_model TLS_msg_proofs TLS_neg_model TLS_hs_model TLS_hs_proofs TLS_hs_bytes TLS_hs_server TLS_hs_client TLS_hs_spec TLS_hs_run P_TLS_hs_server P_TLS_hs_client P_TLS_hs_agree P_TLS_hs_run.
From Verif Require X509_model P_SM2 P_TLS_msg P_TLS_gmka P_TLS_prf P_TLS_neg.
Open Scope Z_scope.
Ltac Zify.zify_post_hook ::= Z.div_mod_to_equations.
#[local] Opaque sm3 PRF smul padd sm2_n sm2_p be_bytes SumSM3.

(** ** Functions that do not panic *)
Lemma parse_len_np b : parse_len b <> Panic.
Proof.
  unfold parse_len. destruct b as [|x b]; [discriminate|]. destruct (x <? 128); [discriminate|]. destruct (x =? 128); [discriminate|].
  assert (X : forall n acc b, len_bytes n acc b <> Panic). { induction n as [|n IH]; intros acc [|y l]; cbn; try discriminate. destruct (8388608 <=? acc); [discriminate|]. destruct (_ =? 0); [discriminate|apply IH]. }
  specialize (X (Z.to_nat (x - 128)) 0 b). destruct (len_bytes _ _ _) as [[r rest]| |]; [|discriminate|congruence]. cbn [rbind fst]. destruct (r <? 128); discriminate.
Qed.
Lemma parse_field_np tag b : parse_field tag b <> Panic.
Proof.
  unfold parse_field. destruct b as [|t b]; [discriminate|]. destruct (negb _); [discriminate|]. pose proof (parse_len_np b). destruct (parse_len b) as [[n c]| |]; [|discriminate|congruence]. cbn [rbind].
  destruct (_ <? _); discriminate.
Qed.
Lemma parse_int_np b : parse_int b <> Panic.
Proof.
  unfold parse_int. pose proof (parse_field_np 2 b). destruct (parse_field 2 b) as [[c rest]| |]; [|discriminate|congruence]. cbn [rbind].
  unfold int_value. destruct c as [|x c]; [discriminate|]. destruct (negb _); [discriminate|]. destruct (128 <=? x); discriminate.
Qed.
Lemma parse_ints2_np b : parse_ints2 b <> Panic.
Proof.
  unfold parse_ints2. pose proof (parse_field_np 48 b). destruct (parse_field 48 b) as [[c rest]| |]; [|discriminate|congruence]. cbn [rbind fst].
  pose proof (parse_int_np c). destruct (parse_int c) as [[i r1]| |]; [|discriminate|congruence]. cbn [rbind snd].
  pose proof (parse_int_np r1). destruct (parse_int r1) as [[j r2]| |]; [discriminate|discriminate|congruence].
Qed.
Lemma Verify_np {T} (cv : curve T) pub msg r s : bytes msg -> Verify cv pub msg r s <> Panic.
Proof. intros B. unfold Verify. destruct (_ || _); [discriminate|]. destruct (_ || _); [discriminate|]. destruct (hash_msg_total T pub msg B) as (e & -> & _). discriminate. Qed.
Lemma PubVerify_np {T} (cv : curve T) pub msg sig : bytes msg -> PubVerify cv pub msg sig <> Panic.
Proof. intros B. unfold PubVerify. pose proof (parse_ints2_np sig). destruct (parse_ints2 sig) as [[r s]| |]; [now apply Verify_np|discriminate|congruence]. Qed.
Lemma Sign_np {T} (cv : curve T) b priv msg : bytes msg -> Sign cv (Some b) priv msg <> Panic.
Proof. intros B. unfold Sign. destruct (hash_msg_total T (sPub priv) msg B) as (e & -> & _). cbn [rbind generateRandK option_map]. destruct (cv_base cv _). discriminate. Qed.
Lemma PrivSign_out {T} (cv : curve T) b priv msg : bytes msg -> PrivSign cv (Some b) priv msg <> Panic /\ forall sig, PrivSign cv (Some b) priv msg = Ok sig -> bytes sig /\ zlen sig <= 84.
Proof.
  intros B. unfold PrivSign. pose proof (Sign_np cv b priv msg B) as NP. destruct (Sign cv (Some b) priv msg) as [[r s]| |] eqn:SG; [|split; discriminate|congruence]. cbn [rbind]. split; [discriminate|].
  intros sig. apply Sign_range in SG as [R1 R2]. pose proof (der_sig_out r s R1 R2) as X. revert X. generalize (der_seq [der_int r; der_int s]). intros z Hx Hz. injection Hz as <-. exact Hx.
Qed.
Lemma hash_slices_bytes cr sr d : bytes cr -> bytes sr -> bytes d -> bytes (hashForServerKeyExchange [cr; sr; d]).
Proof. intros. rewrite P_TLS_gmka.C60_signed_data. apply bytes_app; split; [assumption|]. apply bytes_app; split; [assumption|]. apply bytes_app; split; [|assumption]. repeat (apply bytes_cons; split; [apply u8_byte|]). constructor. Qed.
Lemma processSKX_np {T} (cv : curve T) cr sr d pub key : bytes cr -> bytes sr -> bytes d -> processServerKeyExchange cv cr sr d pub key <> Panic.
Proof.
  intros B1 B2 B3. pose proof (hash_slices_bytes cr sr d B1 B2 B3) as BD. unfold processServerKeyExchange. destruct key as [|b0 [|b1 [|b2 key]]]; try discriminate. destruct (negb _); [discriminate|].
  destruct pub as [p|]; [|discriminate]. cbv zeta. set (sg := skipn 2 _). clearbody sg. pose proof (parse_field_np 48 sg). destruct (parse_field 48 sg) as [[f rest]| |]; [|discriminate|congruence]. cbn [rbind].
  pose proof (parse_ints2_np sg). destruct (parse_ints2 sg) as [[r s]| |]; [|discriminate|congruence]. cbn [rbind snd]. destruct rest; [|discriminate]. destruct (_ || _); [discriminate|].
  pose proof (Verify_np cv p _ r s BD) as NV. destruct (Verify cv p _ r s) as [[|]| |]; try discriminate. congruence.
Qed.
Lemma copy_into_bytes a b : bytes a -> bytes b -> bytes (copy_into a b).
Proof. intros. unfold copy_into. apply bytes_app. split; [now apply bytes_firstn|now apply bytes_skipn]. Qed.
Lemma kdf_total Zb n : bytes Zb -> exists t, keyDerivation Zb (Z.of_nat n * 8) = Ok (Some t) /\ bytes t.
Proof.
  intros B. unfold keyDerivation. replace (Z.of_nat n * 8 mod 8 =? 0) with true by lia. cbn [negb]. destruct (Z.ltb_spec (Z.of_nat n * 8) 0); [lia|]. cbv zeta.
  generalize (Z.to_nat (Z.of_nat n * 8 / 8)). intros k. assert (BK : bytes (zeros (Z.to_nat ((Z.of_nat n * 8 + 255) / 256) * 32))) by apply bytes_zeros. revert BK.
  generalize (zeros (Z.to_nat ((Z.of_nat n * 8 + 255) / 256) * 32)). generalize (seq 1 (Z.to_nat ((Z.of_nat n * 8 + 255) / 256))).
  induction l as [|ct l IH]; intros K BK; [eexists; split; [reflexivity|now apply bytes_firstn]|].
  destruct (SumSM3_total (Zb ++ be_bytes 4 (Z.of_nat ct))) as (h & -> & _ & Bh); [apply bytes_app; split; [exact B|apply be_bytes_bytes]|]. cbn [rbind].
  apply IH. apply bytes_app. split; [now apply bytes_firstn|]. apply copy_into_bytes; [now apply bytes_skipn|exact Bh].
Qed.
Lemma z_of_bytes x y : bytes x -> bytes y -> bytes (z_of x y).
Proof.
  intros. unfold z_of. cbv zeta. assert (bytes (copy_into (zeros 64) x)) by (apply copy_into_bytes; [apply bytes_zeros|assumption]).
  apply bytes_app. split; [now apply bytes_firstn|]. apply copy_into_bytes; [now apply bytes_skipn|assumption].
Qed.
Lemma hash_buf_bytes x m y : bytes x -> bytes m -> bytes y -> bytes (hash_buf x m y).
Proof.
  intros. unfold hash_buf. cbv zeta. assert (bytes (copy_into (zeros (64 + length m)) x)) by (apply copy_into_bytes; [apply bytes_zeros|assumption]).
  assert (bytes (firstn 32 (copy_into (zeros (64 + length m)) x) ++ copy_into (skipn 32 (copy_into (zeros (64 + length m)) x)) m)).
  { apply bytes_app. split; [now apply bytes_firstn|]. apply copy_into_bytes; [now apply bytes_skipn|assumption]. }
  apply bytes_app. split; [now apply bytes_firstn|]. apply copy_into_bytes; [now apply bytes_skipn|assumption].
Qed.
Lemma Encrypt_out {T} (cv : curve T) fuel b pub msg : good_curve cv -> bytes msg ->
  match Encrypt cv fuel (Some b) pub msg with None => True | Some Panic => False | Some (Err _) => True | Some (Ok c) => bytes c /\ zlen c <= 97 + zlen msg end.
Proof.
  intros GC B. unfold Encrypt, doEncrypt. cbn [generateRandK option_map]. fold (k_of_bytes b). pose proof (k_range b) as KR.
  assert (HB : base_ok cv (k_of_bytes b)) by (apply good_base; auto; lia).
  induction fuel as [|fuel IH]; [exact I|]. cbn [enc_loop]. unfold enc_pass. unfold base_ok in HB. rewrite HB.
  destruct (aff_range (smul (k_of_bytes b) pG) (on_smul _ _ G_on)) as [R1 R2]. destruct (aff (smul (k_of_bytes b) pG)) as [x1 y1]. cbn [fst snd] in R1, R2.
  match goal with |- context [let '(x2, y2) := ?t in _] => destruct t as [x2 y2] end.
  assert (B2 : bytes (pad32 (Bytes x2))) by (apply pad32_bytes, Bytes_bytes). assert (B3 : bytes (pad32 (Bytes y2))) by (apply pad32_bytes, Bytes_bytes).
  generalize dependent (pad32 (Bytes x2)). generalize dependent (pad32 (Bytes y2)). intros yb By xb Bx.
  destruct (kdf_total (z_of xb yb) (length msg) (z_of_bytes _ _ Bx By)) as (t & KD & Bt). unfold zlen at 1. rewrite KD. destruct (all_zero_exit t); [exact IH|].
  destruct (SumSM3_total _ (hash_buf_bytes _ _ _ Bx B By)) as (h & -> & Lh & Bh). cbn [option_map rbind].
  unfold pointToBytes. rewrite !pad32_Bytes by assumption. split.
  - apply bytes_app; split; [apply bytes_app; split; [byt|apply bytes_app; split; apply be_bytes_bytes]|]. apply bytes_app; split; [exact Bh|now apply xorl_bytes].
  - rewrite !zlen_app, !zlen_be_bytes. unfold zlen. rewrite xorl_length, Lh. cbn [length]. lia.
Qed.
Lemma generateCKX_out {T} (cv : curve T) fuel rnd b vers pub : good_curve cv -> (forall r, rnd = Some r -> bytes r /\ zlen r < 2 ^ 15) ->
  match generateClientKeyExchange cv fuel rnd (Some b) vers pub with None => True | Some Panic => False | Some (Err _) => True | Some (Ok (pms, ct)) => small pms /\ bytes ct /\ zlen ct < 2 ^ 20 end.
Proof.
  intros GC HR. unfold generateClientKeyExchange. destruct rnd as [r|]; [|exact I]. destruct (HR r eq_refl) as [B L]. cbv zeta. set (m := [_; _] ++ r).
  assert (Bm : bytes m) by (unfold m; byt). assert (Lm : zlen m = 2 + zlen r) by (unfold m; rewrite zlen_app; reflexivity). clearbody m.
  pose proof (Encrypt_out cv fuel b pub m GC Bm) as X. destruct (Encrypt cv fuel (Some b) pub m) as [[c| |]|]; cbn [option_map rbind]; try exact X. destruct X as [Bc Lc].
  split; [split; [exact Bm|lia]|]. split; [byt|]. rewrite zlen_app. change (zlen [_; _]) with 2. lia.
Qed.
Lemma fill_exact size p : zlen p = size -> fill size p = Ok p.
Proof. intros <-. unfold fill. rewrite Z.leb_refl, Z.sub_diag. cbn [Z.to_nat zeros repeat]. now rewrite app_nil_r. Qed.

(** ** Steps that do not panic *)
(** a record layer that does not panic itself and delivers non-empty handshake messages of bytes ([Q]: a further property of what it delivers).
    readHandshake refuses messages above 65536 bytes, conn.go:960-966. *)
Record chan_ok (C : chan) (Q : list Z -> Prop) : Prop := {
  co_read : forall c, match fst (cn_read C c) with HOk m => bytes m /\ m <> [] /\ zlen m < 2 ^ 25 /\ Q m | HPanic => False | _ => True end;
  co_ccs : forall c, fst (cn_ccs C c) <> HPanic;
  co_write : forall t m c, fst (cn_write C t m c) <> HPanic }.
(** an encoded message that can be sent *)
Definition fine (r : res (list Z)) : Prop := match r with Ok m => bytes m /\ zlen m < 2 ^ 26 | Err _ => True | Panic => False end.

Section Safe.
Context (C : chan) (Q : list Z -> Prop) (HC : chan_ok C Q) (Hs : hashes) (HG : good_hashes Hs).
Definition safe {A} (m : M C A) (P : A -> Prop) : Prop := forall s, match fst (m s) with HOk a => P a | HPanic => False | _ => True end.
Lemma safe_bind {A B} (m : M C A) (k : A -> M C B) (P : A -> Prop) (R : B -> Prop) : safe m P -> (forall a, P a -> safe (k a) R) -> safe (bind m k) R.
Proof. intros H K s. unfold bind. specialize (H s). destruct (m s) as [[a|e| |] s']; cbn [fst] in *; auto. exact (K a H s'). Qed.
Lemma safe_ret {A} (a : A) (P : A -> Prop) : P a -> safe (ret a) P. Proof. intros H s. exact H. Qed.
Lemma safe_weak {A} (m : M C A) (P R : A -> Prop) : safe m P -> (forall a, P a -> R a) -> safe m R.
Proof. intros H K s. specialize (H s). destruct (fst (m s)); auto. Qed.
Lemma safe_throw {A} e (P : A -> Prop) : safe (throw e) P. Proof. intros s. exact I. Qed.
Lemma safe_fail {A} a e (P : A -> Prop) : safe (fail_with a e) P. Proof. intros s. exact I. Qed.
Lemma safe_unexpected {A} (P : A -> Prop) : safe unexpected P. Proof. intros s. exact I. Qed.
Lemma safe_alert a : safe (alert a) (fun _ => True). Proof. intros s. exact I. Qed.
Lemma safe_setvers v b : safe (setvers v b) (fun _ => True). Proof. intros s. exact I. Qed.
Lemma safe_setkeys b v k : safe (setkeys b v k) (fun _ => True). Proof. intros s. exact I. Qed.
Lemma safe_lift {A} (r : hres A) (P : A -> Prop) : match r with HOk a => P a | HPanic => False | _ => True end -> safe (lift r) P. Proof. intros H s. exact H. Qed.
Lemma safe_res {A} (r : res A) (P : A -> Prop) : match r with Ok a => P a | Panic => False | Err _ => True end -> safe (lift (of_res r)) P.
Proof. intros H. apply safe_lift. destruct r; exact H. Qed.
Lemma safe_orfail {A} a (r : hres A) (P : A -> Prop) : match r with HOk a => P a | HPanic => False | _ => True end -> safe (orfail a r) P.
Proof. intros H. destruct r; cbn [orfail]; [apply safe_ret, H|apply safe_fail|destruct H|intros s; exact I]. Qed.
Lemma parse_np v m : bytes m -> m <> [] -> parse_msg v m <> Panic.
Proof.
  intros B N. destruct m as [|t m]; [congruence|]. with_strategy transparent [parse_msg] unfold parse_msg.
  assert (X : forall A B (f : A -> B) (r : res A), r <> Panic -> rmap f r <> Panic) by (intros A B0 f [a| |] H; cbn; congruence).
  repeat match goal with |- (if ?b then _ else _) <> _ => destruct b end; try discriminate; apply X;
    [apply P_TLS_msg.C64_helloRequest|apply P_TLS_msg.C64_clientHello|apply P_TLS_msg.C64_serverHello|apply P_TLS_msg.C64_newSessionTicket|apply P_TLS_msg.C64_certificate|apply P_TLS_msg.C64_certificateRequestGM
    |apply P_TLS_msg.C64_certificateStatus|apply P_TLS_msg.C64_serverKeyExchange|apply P_TLS_msg.C64_serverHelloDone|apply P_TLS_msg.C64_clientKeyExchange|apply P_TLS_msg.C64_certificateVerify
    |apply P_TLS_msg.C64_nextProto|apply P_TLS_msg.C64_finished]; assumption.
Qed.
(** a message that was read *)
Definition got (v : Z) (mr : hmsg * list Z) : Prop := parse_msg v (snd mr) = Ok (fst mr) /\ bytes (snd mr) /\ zlen (snd mr) < 2 ^ 25 /\ Q (snd mr).
Lemma safe_read v : safe (readHandshake v) (got v).
Proof.
  unfold readHandshake. eapply safe_bind with (P := fun m => bytes m /\ m <> [] /\ zlen m < 2 ^ 25 /\ Q m).
  - intros s. unfold recv_raw. pose proof (co_read _ _ HC (fst s)) as H. destruct (cn_read C (fst s)) as [[m|e| |] c]; cbn [fst] in *; auto.
  - intros m (B & N & L & q). pose proof (parse_np v m B N) as NP. destruct (parse_msg v m) as [x|e|] eqn:EP; [|apply safe_fail|congruence]. apply safe_ret. repeat split; assumption.
Qed.
Lemma safe_ccs : safe recv_ccs (fun _ => True).
Proof. intros s. unfold recv_ccs. pose proof (co_ccs _ _ HC (fst s)) as H. destruct (cn_ccs C (fst s)) as [[m|e| |] c]; cbn [fst] in *; auto. Qed.
Lemma safe_send m : safe (send m) (fun _ => True).
Proof. intros s. unfold send. pose proof (co_write _ _ HC recordTypeHandshake m (fst s)) as H. destruct (cn_write C recordTypeHandshake m (fst s)) as [[x|e| |] c]; cbn [fst] in *; auto. Qed.
Lemma safe_sendccs : safe send_ccs (fun _ => True).
Proof. intros s. unfold send_ccs. pose proof (co_write _ _ HC recordTypeChangeCipherSpec [1] (fst s)) as H. destruct (cn_write C recordTypeChangeCipherSpec [1] (fst s)) as [[x|e| |] c]; cbn [fst] in *; auto. Qed.

(** the transcript hash after at most [n] messages *)
Definition hg (d : bool) (n : Z) (h : finishedHash) : Prop := exists t, gmh Hs d t h /\ zlen t <= n * 2 ^ 26.
Context (L : stdlib) (HL : std_impl L Hs).
Lemma hg_new : match newFinishedHashGM with Ok h => hg false 0 h | _ => False end.
Proof. destruct (newFinishedHashGM_ok L Hs HL HG) as (h & -> & G). exists []. split; [exact G|reflexivity]. Qed.
Lemma hg_discard d n h : hg d n h -> hg true n (discardHandshakeBuffer h).
Proof. intros (t & G & Ln). exists t. split; [eapply gmh_discard; exact G|exact Ln]. Qed.
Lemma safe_wr d n h m : hg d n h -> bytes m -> zlen m < 2 ^ 26 -> safe (wr h m) (hg d (n + 1)).
Proof.
  intros (t & G & Ln) B Lm. unfold wr. apply safe_res. destruct (gmh_fwd _ _ _ _ _ G B) as (h' & -> & G'). exists (t ++ m). split; [exact G'|]. rewrite zlen_app. lia.
Qed.
Lemma safe_emit d n h r : hg d n h -> fine r -> safe (emit h r) (hg d (n + 1)).
Proof.
  intros G F. unfold emit. eapply safe_bind; [unfold enc; apply safe_res with (P := fun m => bytes m /\ zlen m < 2 ^ 26); destruct r; exact F|]. intros m [B Lm].
  eapply safe_bind; [apply safe_wr; eauto|]. intros h' G'. eapply safe_bind; [apply safe_send|]. intros _ _. now apply safe_ret.
Qed.
(** the verify data of either end *)
Definition is_vd (v : list Z) : Prop := bytes v /\ zlen v = 12.
Lemma safe_clientSum d n h master : hg d n h -> n < 64 -> small master -> safe (lift (of_res (clientSum h master))) (fun vh => is_vd (fst vh) /\ hg d n (snd vh)).
Proof.
  intros (t & G & Ln) Hn SM. apply safe_res. destruct (clientSum_ok Hs HG GMSSL t d false false h master G eq_refl ltac:(lia) SM) as (h' & -> & G'). cbn [fst snd].
  assert (Bt : bytes t) by (destruct G as [_ _ _ Bt _ _]; exact Bt). split; [apply (finished_out Hs master t HG (proj1 SM) Bt); lia|]. exists t. split; [exact G'|exact Ln].
Qed.
Lemma safe_serverSum d n h master : hg d n h -> n < 64 -> small master -> safe (lift (of_res (serverSum h master))) (fun vh => is_vd (fst vh) /\ hg d n (snd vh)).
Proof.
  intros (t & G & Ln) Hn SM. apply safe_res. destruct (serverSum_ok Hs HG GMSSL t d false false h master G eq_refl (fun _ => eq_refl) ltac:(lia) SM) as (h' & -> & G'). cbn [fst snd].
  assert (Bt : bytes t) by (destruct G as [_ _ _ Bt _ _]; exact Bt). split; [apply (finished_out Hs master t HG (proj1 SM) Bt); lia|]. exists t. split; [exact G'|exact Ln].
Qed.
Lemma hg_mono d n n' h : hg d n h -> n <= n' -> hg d n' h.
Proof. intros (t & G & Ln) H. exists t. split; [exact G|]. lia. Qed.
Lemma master_safe pms cr sr : small pms -> bytes cr -> bytes sr -> length cr = 32%nat -> length sr = 32%nat ->
  match masterFromPreMasterSecret L VersionGMSSL false pms cr sr with Ok m => small m | _ => False end.
Proof.
  intros Sp B1 B2 L1 L2. destruct (P_TLS_prf.C55_master_secret _ Hs HL HG GMSSL false pms cr sr Sp B1 B2 L1 L2) as [Mc Lm].
  change (vers_of GMSSL) with VersionGMSSL in Mc. change (sha384_of GMSSL false) with false in Mc. rewrite Mc. split.
  - apply PRF_bytes; auto; [apply Sp|apply bytesb_spec; reflexivity|apply bytes_app; auto|lia].
  - unfold zlen. rewrite Lm. reflexivity.
Qed.
Lemma keys_safe v master cr sr : v = VersionGMSSL -> small master -> bytes cr -> bytes sr -> length cr = 32%nat -> length sr = 32%nat -> exists kb, gm_keys L v master cr sr = HOk kb.
Proof.
  intros -> Sm B1 B2 L1 L2. destruct (P_TLS_prf.C55_key_block _ Hs HL HG GMSSL false master cr sr 32 16 16 Sm B1 B2 L1 L2 ltac:(discriminate)) as (kc & Kc & _).
  change (vers_of GMSSL) with VersionGMSSL in Kc. change (sha384_of GMSSL false) with false in Kc. unfold gm_keys. rewrite Kc. eexists. reflexivity.
Qed.
End Safe.

(** ** Encoded messages *)
Lemma fine_intro r m : r = Ok m -> bytes m -> zlen m < 2 ^ 24 + 4 -> fine r. Proof. intros -> B Lm. split; [exact B|lia]. Qed.
Lemma fine_cert ders : Forall P_TLS_msg.cert_ok ders -> 3 * zlen ders + sum_len ders < 2 ^ 24 - 3 -> fine (m_certificate ders).
Proof. intros HF Ln. destruct (P_TLS_msg.C63_certificate _ HF Ln) as (m & M & _). destruct (out_cert _ _ HF Ln M). eapply fine_intro; eauto. Qed.
Lemma fine_skx k : bytes k -> zlen k < 2 ^ 20 -> fine (m_serverKeyExchange k).
Proof. intros B Ln. destruct (P_TLS_msg.C63_serverKeyExchange k) as (m & M & _). destruct (out_skx _ _ B Ln M). eapply fine_intro; eauto. Qed.
Lemma fine_ckx k : bytes k -> zlen k < 2 ^ 20 -> fine (m_clientKeyExchange k).
Proof. intros B Ln. destruct (P_TLS_msg.C63_clientKeyExchange k ltac:(lia)) as (m & M & _). destruct (out_ckx _ _ B Ln M). eapply fine_intro; eauto. Qed.
Lemma fine_fin k : is_vd k -> fine (m_finished k).
Proof. intros [B Ln]. destruct (P_TLS_msg.C63_finished k ltac:(lia)) as (m & M & _). destruct (out_fin _ _ B ltac:(lia) M). eapply fine_intro; eauto. Qed.
Lemma fine_cv k : bytes k -> zlen k <= 84 -> fine (m_certificateVerify false (0, k)).
Proof. intros B Ln. destruct (P_TLS_msg.C63_certificateVerify false 0 k 0 ltac:(lia) ltac:(lia)) as (m & M & _). destruct (out_cv _ _ B ltac:(lia) M). eapply fine_intro; eauto. Qed.

(** Property theorems for key derivation and Finished values (C55-C57). *)
From Verif Require Import GoBase GoLemmas HMAC SM3_spec TLS_record_model TLS_prf_model TLS_prf_spec TLS_prf_proofs.
From Coq Require Import Arith.
Open Scope Z_scope.
Ltac Zify.zify_post_hook ::= Z.div_mod_to_equations.

(** Hypotheses used below: [std_impl L Hs] says the hash objects of the standard library compute the functions Hs on messages below 2^61
    bytes; [good_hashes Hs] their output sizes; [small s]: a byte string below 2^60 bytes. SM3 is the code of /repo/sm3. *)

(** C55: pHash fills exactly the requested length with P_hash of RFC 5246; with the SM3 object of /repo/sm3 it is P_SM3, unconditionally. *)
Theorem C55_pHash_is_P_hash : forall I H size n secret seed,
  implements I H (2 ^ 61) -> good_hash H size -> (0 < size <= h_bs I)%nat -> Z.of_nat (h_bs I) < 2 ^ 20 ->
  small secret -> bytes seed -> zlen seed < 2 ^ 59 ->
  pHash n secret seed I = Ok (P_hash (hmac H (h_bs I) secret) size seed n).
Proof. exact pHash_ok. Qed.
Print Assumptions C55_pHash_is_P_hash.
Theorem C55_pHash_SM3 : forall n secret seed, small secret -> bytes seed -> zlen seed < 2 ^ 59 ->
  exists out, pHash n secret seed sm3I = Ok out /\ length out = n /\
    forall j, (j < n)%nat -> nth j out 0 = nth (j mod 32) (hmac sm3 64 secret (A (hmac sm3 64 secret) seed (j / 32 + 1) ++ seed)) 0.
Proof.
  intros n secret seed H1 H2 H3. rewrite (C55_pHash_is_P_hash sm3I sm3 32); auto; [|eexists; apply sm3_implements|apply sm3_good|cbn; lia|reflexivity].
  eexists. split; [reflexivity|]. unfold P_hash. split; [rewrite map_length, seq_length; reflexivity|].
  intros j Hj. rewrite nth_indep with (d' := P_byte (hmac sm3 64 secret) 32 seed 0) by (rewrite map_length, seq_length; exact Hj).
  cbn [h_bs sm3I]. rewrite map_nth, seq_nth by exact Hj. reflexivity.
Qed.
Print Assumptions C55_pHash_SM3.
(** the PRF of every protocol version is the specified one (SSL 3.0 only up to 176 bytes: beyond, the code panics) *)
Theorem C55_prf_of_every_version : forall L Hs, std_impl L Hs -> good_hashes Hs -> forall v flag n secret label seed,
  small secret -> bytes label -> bytes seed -> zlen label + zlen seed < 2 ^ 59 -> (v = SSL30 -> (n <= 176)%nat) ->
  (do prf <- prfForVersion L (vers_of v) (sha384_of v flag); prf n secret label seed) = Ok (PRF Hs v n secret label seed).
Proof. exact prfForVersion_ok. Qed.
Print Assumptions C55_prf_of_every_version.
(** shorter outputs are prefixes of longer ones *)
Theorem C55_prefix : forall L Hs, std_impl L Hs -> good_hashes Hs -> forall v flag n m secret label seed,
  small secret -> bytes label -> bytes seed -> zlen label + zlen seed < 2 ^ 59 -> (n <= m)%nat -> (v = SSL30 -> (m <= 176)%nat) ->
  exists short long,
    (do prf <- prfForVersion L (vers_of v) (sha384_of v flag); prf n secret label seed) = Ok short /\ length short = n /\
    (do prf <- prfForVersion L (vers_of v) (sha384_of v flag); prf m secret label seed) = Ok long /\ length long = m /\
    short = firstn n long.
Proof.
  intros L Hs HL HG v flag n m secret label seed H1 H2 H3 H4 Hnm H5.
  rewrite !(prfForVersion_ok L Hs HL HG) by (auto; intros; specialize (H5 ltac:(auto)); lia).
  do 2 eexists. split; [reflexivity|]. split; [apply PRF_length|]. split; [reflexivity|]. split; [apply PRF_length|].
  assert (X : forall (f : nat -> Z), map f (seq 0 n) = firstn n (map f (seq 0 m))).
  { intros f. replace m with (n + (m - n))%nat by lia. rewrite seq_app, map_app, firstn_app_l; [reflexivity|]. rewrite map_length, seq_length. reflexivity. }
  assert (Y : forall a b, firstn n (xorl a b) = xorl (firstn n a) (firstn n b)).
  { clear. induction n as [|n IH]; [reflexivity|]. intros [|x a] [|y b]; cbn [firstn xorl]; rewrite ?firstn_nil; try reflexivity. now rewrite IH. }
  destruct v as [| | |[|]|]; cbn [PRF]; rewrite ?Y; unfold P_hash; rewrite <- ?X; reflexivity.
Qed.
Print Assumptions C55_prefix.

(** The master secret is 48 bytes of PRF(pre-master, "master secret", client random + server random). *)
Theorem C55_master_secret : forall L Hs, std_impl L Hs -> good_hashes Hs -> forall v flag pms cr sr,
  small pms -> bytes cr -> bytes sr -> length cr = 32%nat -> length sr = 32%nat ->
  masterFromPreMasterSecret L (vers_of v) (sha384_of v flag) pms cr sr = Ok (PRF Hs v 48 pms ascii_master_secret (cr ++ sr)) /\
  length (PRF Hs v 48 pms ascii_master_secret (cr ++ sr)) = 48%nat.
Proof.
  intros L Hs HL HG v flag pms cr sr H1 H2 H3 H4 H5. split; [|apply PRF_length].
  unfold masterFromPreMasterSecret. apply (prfForVersion_ok L Hs HL HG); auto.
  - apply bytesb_spec; reflexivity.
  - apply bytes_app; auto.
  - rewrite zlen_app. unfold zlen. cbn [length masterSecretLabel ascii_master_secret]. lia.
  - intros _. lia.
Qed.
Print Assumptions C55_master_secret.

(** The six keys cut the key block PRF(master, "key expansion", server random + client random) in the specified order, and the cut is
    unique, so two parties with the same master secret and randoms hold the same six keys. *)
Theorem C55_key_block : forall L Hs, std_impl L Hs -> good_hashes Hs -> forall v flag ms cr sr macLen keyLen ivLen,
  small ms -> bytes cr -> bytes sr -> length cr = 32%nat -> length sr = 32%nat ->
  (v = SSL30 -> (2 * macLen + 2 * keyLen + 2 * ivLen <= 176)%nat) ->
  exists k, keysFromMasterSecret L (vers_of v) (sha384_of v flag) ms cr sr macLen keyLen ivLen =
      Ok (client_mac k, server_mac k, client_key k, server_key k, client_iv k, server_iv k) /\
    cuts macLen keyLen ivLen k (PRF Hs v (2 * macLen + 2 * keyLen + 2 * ivLen) ms ascii_key_expansion (sr ++ cr)) /\
    forall k', cuts macLen keyLen ivLen k' (PRF Hs v (2 * macLen + 2 * keyLen + 2 * ivLen) ms ascii_key_expansion (sr ++ cr)) -> k' = k.
Proof.
  intros L Hs HL HG v flag ms cr sr macLen keyLen ivLen H1 H2 H3 H4 H5 H6.
  unfold keysFromMasterSecret.
  pose proof (prfForVersion_ok L Hs HL HG v flag (2 * macLen + 2 * keyLen + 2 * ivLen) ms keyExpansionLabel (sr ++ cr) H1) as X.
  assert (Y : bytes keyExpansionLabel) by (apply bytesb_spec; reflexivity).
  assert (Y2 : bytes (sr ++ cr)) by (apply bytes_app; auto).
  assert (Y3 : zlen keyExpansionLabel + zlen (sr ++ cr) < 2 ^ 59). { rewrite zlen_app. unfold zlen. cbn [length keyExpansionLabel ascii_key_expansion]. lia. }
  specialize (X Y Y2 Y3 H6).
  destruct (prfForVersion L (vers_of v) (sha384_of v flag)) as [prf| |]; cbn [rbind] in *; try discriminate. rewrite X. cbn [rbind].
  set (n := (2 * macLen + 2 * keyLen + 2 * ivLen)%nat) in *.
  assert (LB : length (PRF Hs v n ms ascii_key_expansion (sr ++ cr)) = n) by apply PRF_length.
  change keyExpansionLabel with ascii_key_expansion in *.
  set (B := PRF Hs v n ms ascii_key_expansion (sr ++ cr)) in *. clearbody B.
  exists (mkKeys (firstn macLen B) (firstn macLen (skipn macLen B)) (firstn keyLen (skipn macLen (skipn macLen B)))
     (firstn keyLen (skipn keyLen (skipn macLen (skipn macLen B)))) (firstn ivLen (skipn keyLen (skipn keyLen (skipn macLen (skipn macLen B)))))
     (firstn ivLen (skipn ivLen (skipn keyLen (skipn keyLen (skipn macLen (skipn macLen B))))))).
  cbn [client_mac server_mac client_key server_key client_iv server_iv].
  split; [reflexivity|]. unfold cuts. cbn [client_mac server_mac client_key server_key client_iv server_iv]. split.
  - split; [|rewrite !firstn_length, !skipn_length; unfold n in *; lia].
    assert (E : firstn ivLen (skipn ivLen (skipn keyLen (skipn keyLen (skipn macLen (skipn macLen B))))) = skipn ivLen (skipn keyLen (skipn keyLen (skipn macLen (skipn macLen B))))).
    { apply firstn_all2. rewrite !skipn_length. unfold n in *. lia. }
    rewrite E, !firstn_skipn. reflexivity.
  - intros [a b c d e f]. cbn [client_mac server_mac client_key server_key client_iv server_iv].
    intros (E & La & Lb & Lc & Ld & Le & Lf). rewrite E.
    rewrite (skipn_app_l macLen a) by exact La. rewrite (skipn_app_l macLen b) by exact Lb.
    rewrite (skipn_app_l keyLen c) by exact Lc. rewrite (skipn_app_l keyLen d) by exact Ld. rewrite (skipn_app_l ivLen e) by exact Le.
    rewrite !firstn_app_l by assumption. f_equal. symmetry. apply firstn_all2. lia.
Qed.
Print Assumptions C55_key_block.

(** ** C56.  Histories of calls on a finishedHash. *)
Inductive fop := FWrite (p : list Z) | FClientSum (secret : list Z) | FServerSum (secret : list Z) | FSum | FDiscard.
Definition fstep (h : finishedHash) (o : fop) : res (list Z * finishedHash) :=
  match o with
  | FWrite p => do h' <- fh_Write h p; Ok ([], h')
  | FClientSum s => clientSum h s
  | FServerSum s => serverSum h s
  | FSum => fh_Sum h
  | FDiscard => Ok ([], discardHandshakeBuffer h)
  end.
(** outputs of a history, None as soon as a call fails or panics *)
Fixpoint frun (h : finishedHash) (os : list fop) : option (list (list Z)) :=
  match os with
  | [] => Some []
  | o :: os => match fstep h o with Ok (v, h') => option_map (cons v) (frun h' os) | _ => None end
  end.
(** what it must return: only the concatenation [t] of the messages written matters *)
Fixpoint fref (Hs : hashes) (v : version) (t : list Z) (os : list fop) : list (list Z) :=
  match os with
  | [] => []
  | FWrite p :: os => [] :: fref Hs v (t ++ p) os
  | FClientSum s :: os => client_finished Hs v s t :: fref Hs v t os
  | FServerSum s :: os => server_finished Hs v s t :: fref Hs v t os
  | FSum :: os => transcript_hash Hs v t :: fref Hs v t os
  | FDiscard :: os => [] :: fref Hs v t os
  end.
Definition fop_small (o : fop) : Prop := match o with FWrite p => bytes p | FClientSum s | FServerSum s => small s | _ => True end.
Fixpoint written (os : list fop) : Z := match os with [] => 0 | FWrite p :: os => zlen p + written os | _ :: os => written os end.
(** SSL 3.0 destroys the hash state it uses: there, each side's value may be asked for once, and Sum not after clientSum. *)
Fixpoint once (sc ss : bool) (os : list fop) : Prop :=
  match os with
  | [] => True
  | FClientSum _ :: os => sc = false /\ once true ss os
  | FServerSum _ :: os => ss = false /\ once sc true os
  | FSum :: os => sc = false /\ once sc ss os
  | _ :: os => once sc ss os
  end.
Lemma written_nonneg os : 0 <= written os.
Proof. induction os as [|[p| | | |] os]; cbn [written]; unfold zlen; lia. Qed.
Lemma frun_ok L Hs : std_impl L Hs -> good_hashes Hs -> forall v os t d sc ss h, fh_ok Hs v t d sc ss h ->
  Forall fop_small os -> zlen t + written os < 2 ^ 59 -> (if match v with SSL30 => true | _ => false end then once sc ss os else sc = false /\ ss = false) ->
  frun h os = Some (fref Hs v t os).
Proof.
  intros HL HG v. induction os as [|o os IH]; intros t d sc ss h HF HS Hl HO; [reflexivity|].
  apply Forall_cons_iff in HS as [Ho HS]. pose proof (written_nonneg os) as Wn.
  cbn [frun]. destruct o as [p|s|s| |]; cbn [fstep fop_small] in *.
  - destruct (fh_Write_ok Hs v t d sc ss h p HF Ho) as (h' & E & HF'). rewrite E. cbn [rbind].
    cbn [written] in Hl. rewrite (IH (t ++ p) d sc ss h' HF' HS); [reflexivity|rewrite zlen_app; lia|]. destruct v; exact HO.
  - cbn [written] in Hl. destruct (clientSum_ok Hs HG v t d sc ss h s HF) as (h' & E & HF'); [destruct v; cbn [once] in HO; tauto|lia|exact Ho|].
    rewrite E. rewrite (IH t d (spend v sc) ss h' HF' HS); [reflexivity|lia|]. destruct v; cbn [once spend] in *; tauto.
  - cbn [written] in Hl. destruct (serverSum_ok Hs HG v t d sc ss h s HF) as (h' & E & HF'); [destruct v; cbn [once] in HO; tauto| |lia|exact Ho|].
    { intros Hv. destruct v; try congruence; tauto. }
    rewrite E. rewrite (IH t d sc (spend v ss) h' HF' HS); [reflexivity|lia|]. destruct v; cbn [once spend] in *; tauto.
  - cbn [written] in Hl. destruct (fh_Sum_ok Hs v t d sc ss h HF) as (h' & E & HF'); [destruct v; cbn [once] in HO; tauto|lia|].
    rewrite E. rewrite (IH t d sc ss h' HF' HS); [reflexivity|lia|]. destruct v; cbn [once] in *; tauto.
  - cbn [written] in Hl. rewrite (IH t true sc ss _ (discard_ok Hs v t d sc ss h HF) HS); [reflexivity|lia|]. destruct v; exact HO.
Qed.

(** GMSSL: the Finished values are 12 bytes of the SM3 PRF of the SM3 hash of everything written, whatever the interleaving of calls. *)
Theorem C56_gm_finished : forall os, Forall fop_small os -> written os < 2 ^ 59 ->
  exists h, newFinishedHashGM = Ok h /\ forall Hs, good_hashes Hs -> frun h os = Some (fref Hs GMSSL [] os).
Proof.
  intros os HS Hl.
  destruct (newFinishedHashGM) as [h| |] eqn:E0; [|exfalso; revert E0; unfold newFinishedHashGM, o_new; cbn [sm3I nilMD5I h_new rbind]; discriminate..].
  exists h. split; [reflexivity|]. intros Hs HG.
  assert (X : fh_ok Hs GMSSL [] false false false h).
  { revert E0. destruct (o_new_rel sm3I sm3 (ex_intro _ _ sm3_implements)) as (s & Es & Rs).
    unfold newFinishedHashGM. rewrite Es. cbn [rbind]. unfold o_new at 1 2. cbn [nilMD5I h_new rbind]. intros [= <-].
    constructor; cbn [fh_version fh_buffer fh_prf fh_client fh_server fh_clientMD5 fh_serverMD5 buffer_kept]; [reflexivity|reflexivity| |constructor| |].
    - intros n secret label seed A1 A2 A3 A4 _. cbn [PRF]. apply (prf12_ok sm3I sm3 32); auto; [eexists; apply sm3_implements|apply sm3_good|cbn; lia|reflexivity].
    - split; [exists []; split; [exact Rs|reflexivity]|eexists; reflexivity].
    - split; [exists []; split; [exact Rs|reflexivity]|eexists; reflexivity]. }
  assert (G : forall v os t d sc ss h, v = GMSSL -> fh_ok Hs v t d sc ss h -> Forall fop_small os -> zlen t + written os < 2 ^ 59 -> sc = false -> ss = false ->
    frun h os = Some (fref Hs v t os)).
  { clear - HG. intros v os. induction os as [|o os IH]; intros t d sc ss h -> HF HS Hl Ec Es; [reflexivity|].
    apply Forall_cons_iff in HS as [Ho HS]. pose proof (written_nonneg os) as Wn. subst sc ss.
    cbn [frun]. destruct o as [p|s|s| |]; cbn [fstep fop_small written] in *.
    - destruct (fh_Write_ok Hs GMSSL t d false false h p HF Ho) as (h' & E & HF'). rewrite E. cbn [rbind].
      rewrite (IH (t ++ p) d false false h'); auto. rewrite zlen_app; lia.
    - destruct (clientSum_ok Hs HG GMSSL t d false false h s HF) as (h' & E & HF'); [reflexivity|lia|exact Ho|].
      rewrite E. rewrite (IH t d false false h'); auto; lia.
    - destruct (serverSum_ok Hs HG GMSSL t d false false h s HF) as (h' & E & HF'); [reflexivity|reflexivity|lia|exact Ho|].
      rewrite E. rewrite (IH t d false false h'); auto; lia.
    - destruct (fh_Sum_ok Hs GMSSL t d false false h HF) as (h' & E & HF'); [reflexivity|lia|].
      rewrite E. rewrite (IH t d false false h'); auto; lia.
    - rewrite (IH t true false false _ eq_refl (discard_ok Hs GMSSL t d false false h HF)); auto; lia. }
  apply (G GMSSL os [] false false false h); auto.
Qed.
Print Assumptions C56_gm_finished.
(** the other versions *)
Theorem C56_tls_finished : forall L Hs, std_impl L Hs -> good_hashes Hs -> forall v flag os,
  v <> GMSSL -> Forall fop_small os -> written os < 2 ^ 59 -> (v = SSL30 -> once false false os) ->
  exists h, newFinishedHash L (vers_of v) (sha384_of v flag) = Ok h /\ frun h os = Some (fref Hs v [] os).
Proof.
  intros L Hs HL HG v flag os Hv HS Hl HO. destruct (newFinishedHash_ok L Hs HL HG v flag Hv) as (h & E & HF).
  exists h. split; [exact E|]. apply (frun_ok L Hs HL HG v os [] false false false h HF HS); [exact Hl|].
  destruct v; auto.
Qed.
Print Assumptions C56_tls_finished.
(** hence: independence of chunking, and 12 bytes for every TLS version *)
Theorem C56_chunking_irrelevant : forall ps qs secret, Forall bytes ps -> Forall bytes qs -> concat ps = concat qs -> zlen (concat ps) < 2 ^ 59 -> small secret ->
  exists h c s, newFinishedHashGM = Ok h /\ length c = 12%nat /\ length s = 12%nat /\
    frun h (map FWrite ps ++ [FClientSum secret; FServerSum secret]) = Some (map (fun _ => []) ps ++ [c; s]) /\
    frun h (map FWrite qs ++ [FClientSum secret; FServerSum secret]) = Some (map (fun _ => []) qs ++ [c; s]).
Proof.
  intros ps qs secret Hp Hq E Hl Hs.
  set (Hd := mkHashes (fun _ => zeros 16) (fun _ => zeros 20) (fun _ => zeros 32) (fun _ => zeros 48)).
  assert (HG : good_hashes Hd). { split; [|split; [|split]]; (intros m _; split; [apply bytes_zeros|reflexivity]). }
  assert (W : forall rs os, written (map FWrite rs ++ os) = zlen (concat rs) + written os).
  { induction rs as [|r rs IH]; intros os; [reflexivity|]. cbn [map app written concat]. rewrite IH, zlen_app. lia. }
  assert (R : forall rs t os, fref Hd GMSSL t (map FWrite rs ++ os) = map (fun _ => []) rs ++ fref Hd GMSSL (t ++ concat rs) os).
  { induction rs as [|r rs IH]; intros t os; cbn [map app fref concat]; [now rewrite app_nil_r|]. rewrite IH, app_assoc. reflexivity. }
  assert (FS : forall rs, Forall bytes rs -> Forall fop_small (map FWrite rs ++ [FClientSum secret; FServerSum secret])).
  { intros rs Hr. apply Forall_app. split; [|repeat (apply Forall_cons; [exact Hs|]); constructor].
    induction Hr; cbn [map]; constructor; auto. }
  destruct (C56_gm_finished (map FWrite ps ++ [FClientSum secret; FServerSum secret]) (FS _ Hp)) as (h & E1 & F1); [rewrite W; cbn [written]; lia|].
  destruct (C56_gm_finished (map FWrite qs ++ [FClientSum secret; FServerSum secret]) (FS _ Hq)) as (h' & E2 & F2); [rewrite W, <- E; cbn [written]; lia|].
  rewrite E1 in E2. injection E2 as <-.
  exists h, (client_finished Hd GMSSL secret (concat ps)), (server_finished Hd GMSSL secret (concat ps)).
  split; [exact E1|]. split; [apply PRF_length|]. split; [apply PRF_length|].
  specialize (F1 Hd HG). specialize (F2 Hd HG). rewrite R in F1, F2. cbn [app fref] in F1, F2. rewrite <- E in F2. auto.
Qed.
Print Assumptions C56_chunking_irrelevant.

(** what a client certificate signs under GMSSL: the SM3 hash of the transcript, for every signature type *)
Theorem C56_gm_certificate_digest : forall L Hs, std_impl L Hs -> good_hashes Hs -> forall ps sigType I Hc secret h0 h,
  Forall bytes ps -> zlen (concat ps) < 2 ^ 59 -> small secret -> implements I Hc (2 ^ 61) ->
  newFinishedHashGM = Ok h0 -> fold_left (fun r p => do h <- r; fh_Write h p) ps (Ok h0) = Ok h ->
  exists h', hashForClientCertificate L h sigType I secret = Ok (sm3 (concat ps), h').
Proof.
  intros L Hs HL HG ps sigType I Hc secret h0 h Hp Hl Hsec HI E0 E1.
  destruct (newFinishedHashGM_ok L Hs HL HG) as (h0' & E & HF). rewrite E0 in E. injection E as <-.
  assert (X : forall ps t h0 h, Forall bytes ps -> fh_ok Hs GMSSL t false false false h0 ->
     fold_left (fun r p => do h <- r; fh_Write h p) ps (Ok h0) = Ok h -> fh_ok Hs GMSSL (t ++ concat ps) false false false h).
  { clear. induction ps as [|p ps IH]; intros t h0 h Hp HF E; cbn [fold_left concat] in *; [injection E as <-; now rewrite app_nil_r|].
    apply Forall_cons_iff in Hp as [H1 H2]. cbn [rbind] in E. destruct (fh_Write_ok Hs GMSSL t false false false h0 p HF H1) as (h1 & Eh & HF1).
    rewrite Eh in E. rewrite app_assoc. eapply IH; eauto. }
  pose proof (X ps [] h0 h Hp HF E1) as HF1. cbn [app] in HF1.
  destruct (hashForClientCertificate_ok L Hs HL HG GMSSL (concat ps) false false h sigType I Hc secret HF1 eq_refl eq_refl HI Hl Hsec) as (h' & E2 & _).
  exists h'. exact E2.
Qed.
Print Assumptions C56_gm_certificate_digest.

(** ** C57 *)
Theorem C57_reserved_labels_refused : forall L version sha384 ms cr sr label ctx len,
  In label [ascii_client_finished; ascii_server_finished; ascii_master_secret; ascii_key_expansion] ->
  ekmFromMasterSecret L version sha384 ms cr sr label ctx len = Err 1.
Proof.
  intros L version sha384 ms cr sr label ctx len Hin. unfold ekmFromMasterSecret.
  replace (existsb (beqb label) reservedLabels) with true; [reflexivity|]. symmetry. apply existsb_exists.
  exists label. split; [|apply beqb_refl]. exact Hin.
Qed.
Print Assumptions C57_reserved_labels_refused.
Theorem C57_long_context_refused : forall L version sha384 ms cr sr label c len,
  2 ^ 16 <= zlen c -> exists e, ekmFromMasterSecret L version sha384 ms cr sr label (Some c) len = Err e.
Proof.
  intros L version sha384 ms cr sr label c len Hc. unfold ekmFromMasterSecret. destruct (existsb (beqb label) reservedLabels); [eexists; reflexivity|].
  destruct (Z.leb_spec (2 ^ 16) (zlen c)); [|lia]. eexists. reflexivity.
Qed.
Print Assumptions C57_long_context_refused.
(** every other request gives PRF(master secret, label, client random + server random + context encoding) *)
Theorem C57_exported_material : forall L Hs, std_impl L Hs -> good_hashes Hs -> forall v flag ms cr sr label ctx len,
  small ms -> bytes cr -> bytes sr -> length cr = 32%nat -> length sr = 32%nat -> bytes label -> zlen label < 2 ^ 58 ->
  ~ In label [ascii_client_finished; ascii_server_finished; ascii_master_secret; ascii_key_expansion] ->
  (forall c, ctx = Some c -> bytes c /\ zlen c < 2 ^ 16) -> 0 <= len -> (v = SSL30 -> len <= 176) ->
  ekmFromMasterSecret L (vers_of v) (sha384_of v flag) ms cr sr label ctx len = Ok (PRF Hs v (Z.to_nat len) ms label (exporter_seed cr sr ctx)).
Proof.
  intros L Hs HL HG v flag ms cr sr label ctx len H1 H2 H3 H4 H5 H6 H7 Hni Hc Hlen H30. unfold ekmFromMasterSecret.
  replace (existsb (beqb label) reservedLabels) with false.
  2: { symmetry. apply not_true_is_false. intros E. apply existsb_exists in E as (x & Hx & E). apply beqb_eq in E. subst x. apply Hni. exact Hx. }
  assert (X : forall seed, seed = exporter_seed cr sr ctx -> bytes seed /\ zlen seed < 2 ^ 20).
  { intros seed ->. unfold exporter_seed. destruct ctx as [c|].
    - destruct (Hc c eq_refl) as [Bc Lc]. split; [apply bytes_app; split; [exact H2|apply bytes_app; split; [exact H3|apply bytes_app; split; [apply be_bytes_bytes|exact Bc]]]|].
      rewrite !zlen_app. unfold zlen in *. rewrite be_bytes_length. lia.
    - rewrite app_nil_r. split; [apply bytes_app; auto|]. rewrite zlen_app. unfold zlen. lia. }
  assert (G : forall seed, seed = exporter_seed cr sr ctx ->
     (if len <? 0 then Panic else do prf <- prfForVersion L (vers_of v) (sha384_of v flag); prf (Z.to_nat len) ms label seed) = Ok (PRF Hs v (Z.to_nat len) ms label (exporter_seed cr sr ctx))).
  { intros seed E. destruct (X seed E) as [Bs Ls]. destruct (Z.ltb_spec len 0); [lia|].
    rewrite (prfForVersion_ok L Hs HL HG); auto; [now rewrite E|lia|lia]. }
  destruct ctx as [c|].
  - destruct (Hc c eq_refl) as [Bc Lc]. destruct (Z.leb_spec (2 ^ 16) (zlen c)); [lia|]. cbn [rbind]. apply G.
    unfold exporter_seed. rewrite <- !app_assoc. do 2 f_equal. cbn [be_bytes app].
    replace (u8 (Z.shiftr (zlen c) 8)) with (zlen c / 256 mod 256) by (unfold u8; rewrite Z.shiftr_div_pow2 by lia; reflexivity).
    replace (u8 (zlen c)) with (zlen c mod 256) by reflexivity. reflexivity.
  - cbn [rbind]. apply G. unfold exporter_seed. now rewrite app_nil_r.
Qed.
Print Assumptions C57_exported_material.
(** different contexts (absent, empty, any other) give different seeds *)
Theorem C57_contexts_separated : forall cr sr ctx ctx',
  (forall c, ctx = Some c \/ ctx' = Some c -> bytes c /\ zlen c < 2 ^ 16) ->
  exporter_seed cr sr ctx = exporter_seed cr sr ctx' -> ctx = ctx'.
Proof.
  intros cr sr ctx ctx' H E. unfold exporter_seed in E. apply app_inv_head in E. apply app_inv_head in E.
  assert (Z0 : forall c, be_bytes 2 (zlen c) ++ c <> []) by (intros c; cbn; destruct (zlen c / 256 mod 256); discriminate).
  destruct ctx as [c|], ctx' as [c'|].
  - f_equal. apply (f_equal (skipn 2)) in E. rewrite !skipn_app_l in E by apply be_bytes_length. exact E.
  - exfalso. exact (Z0 c E).
  - exfalso. symmetry in E. exact (Z0 c' E).
  - reflexivity.
Qed.
Print Assumptions C57_contexts_separated.

(** the hypotheses are met: hash objects that keep the bytes written and apply any function at Sum implement it *)
Definition listI (H : list Z -> list Z) (bs : nat) : hashI := mkHashI (list Z) (Ok []) (fun s p => s ++ p) (fun s inp => Ok (inp ++ H s, s)) (fun _ => []) bs.
Lemma listI_ok H bs : implements (listI H bs) H (2 ^ 61).
Proof.
  exists (fun s m => s = m /\ bytes m). constructor; cbn.
  - exists []. repeat split. constructor.
  - intros s m [_ H0]. exact H0.
  - intros s m p [-> H0] Hp. split; [reflexivity|apply bytes_app; auto].
  - intros s m inp [-> H0] _. eauto.
  - intros s m _. repeat split. constructor.
Qed.
Example C55_C56_C57_hyps :
  let Hs := mkHashes (fun m => be_bytes 16 (be_val m)) (fun m => be_bytes 20 (be_val m)) (fun m => sm3 m) (fun m => be_bytes 48 (be_val m)) in
  let L := mkStd (listI (MD5 Hs) 64) (listI (SHA1 Hs) 64) (listI (SHA256 Hs) 64) (listI (SHA384 Hs) 128) in
  std_impl L Hs /\ good_hashes Hs /\ small (zeros 48) /\
  (let os := [FWrite (zeros 100); FClientSum (zeros 48); FWrite [1; 2]; FDiscard; FServerSum (zeros 48)] in
   Forall fop_small os /\ written os < 2 ^ 59 /\ once false false os) /\
  ~ In [1] [ascii_client_finished; ascii_server_finished; ascii_master_secret; ascii_key_expansion].
Proof.
  cbv zeta. split; [split; [apply listI_ok|]; split; [apply listI_ok|]; split; [apply listI_ok|]; split; [apply listI_ok|]; repeat split|].
  split. { split; [|split; [|split]]; intros m Hm; cbn [MD5 SHA1 SHA256 SHA384]; (split; [apply be_bytes_bytes || apply sm3_good, Hm|apply be_bytes_length || apply sm3_good, Hm]). }
  assert (S48 : small (zeros 48)) by (split; [apply bytes_zeros|reflexivity]).
  split; [exact S48|]. split.
  - split; [|split; [reflexivity|cbn; auto]].
    apply Forall_cons; [exact (bytes_zeros 100)|]. apply Forall_cons; [exact S48|].
    apply Forall_cons; [exact (proj1 (bytesb_spec [1; 2]) eq_refl)|]. apply Forall_cons; [exact I|]. apply Forall_cons; [exact S48|constructor].
  - cbn. intuition discriminate.
Qed.

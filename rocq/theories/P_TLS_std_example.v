(** Concrete runs of the ordinary TLS handshake: both ends of the library talking to each other over a script of messages.  They meet the hypotheses of C121-C132.
    Hashes, signatures, RSA and Diffie-Hellman are small stand-ins with the required properties, so that the kernel can run the handshakes. *)
From Verif Require Import GoBase GoLemmas BigBytes X509_spec SM2_model TLS_record_model TLS_prf_model TLS_prf_spec TLS_prf_proofs
  TLS_gmka_model TLS_ticket_model TLS_msg_model TLS_neg_model TLS_hs_model TLS_hs_proofs TLS_hs_spec TLS_hs_run TLS_std_model TLS_std_spec TLS_std_server TLS_std_client
  P_TLS_hs_server P_TLS_hs_client P_TLS_hs_agree P_TLS_std_server P_TLS_std_server2 P_TLS_std_client P_TLS_std_client2 P_TLS_std_agree.
From Coq Require Import Zpow_facts.
From Verif Require X509_model P_TLS_prf.
Open Scope Z_scope.

(** a hash: n bytes of a position-weighted sum *)
Definition yh (n : nat) (m : list Z) : list Z := repeat (Z.land (snd (fold_left (fun a x => (fst a + 1, snd a + (fst a) * x)) m (1, Z.of_nat n))) 255) n.
Lemma yh_ok n m : bytes (yh n m) /\ length (yh n m) = n.
Proof.
  unfold yh. split; [|apply repeat_length]. apply Forall_forall. intros x Hx. apply repeat_spec in Hx. subst x. unfold is_byte.
  rewrite (Z.land_ones _ 8) by lia. apply Z.mod_pos_bound. reflexivity.
Qed.
Definition yHs : hashes := mkHashes (yh 16) (yh 20) (yh 32) (yh 48).
Definition yL : stdlib := mkStd (P_TLS_prf.listI (yh 16) 64) (P_TLS_prf.listI (yh 20) 64) (P_TLS_prf.listI (yh 32) 64) (P_TLS_prf.listI (yh 48) 128).
(** Diffie-Hellman in (Z/251)*, the number repeated 32 times *)
Definition ypow (b e : Z) : Z := b ^ e mod 251.
Definition ykex : kex := mkKex (fun r => match r with Some (b :: _) => Ok ([b mod 32], repeat (ypow 6 (b mod 32)) 32) | _ => Err 0 end) (fun p => zlen p =? 32)
  (fun d p => repeat (ypow (hd 0 p) (hd 0 d)) 32).
Definition ycert (der : list Z) (pub : pubk unit) : gcert unit :=
  mkG (mkCert der [77; last der 0] [9] [7] [] [] 3 0 100 0 [] [] false false (-1) 1 true [0] 0 true [[97; 46; 98]] [] []) pub true.
Definition yroot : cert := mkCert [48; 9] [9] [9] [7] [] [] 3 0 100 0 [] [] true true (-1) 0 true [] 0 false [] [] [].
Definition yparse (der : list Z) : option (gcert unit) :=
  match der with [48; 1] => Some (ycert der (PkRSA [1])) | [48; 2] => Some (ycert der (PkECDSA [2])) | [48; 3] => Some (ycert der (PkECDSA [3])) | _ => None end.
(** a signature is the signer's number, the digest, and the algorithm *)
Definition ysig (k st h : Z) (d : list Z) : list Z := [k; st; h] ++ d.
Definition yverify (st h : Z) (p : pubk unit) (d sig : list Z) : bool := match p with PkRSA [k] | PkECDSA [k] => beqb sig (ysig k st h d) | _ => false end.
(** RSA encryption with key [k]: reverse and append the key *)
Definition yE : senv unit :=
  mkSEnv (mkEnv cv_std yL (fun _ _ => repeat 5 16) (yh 32) yparse (fun _ _ => true) [] (fun _ _ => true) None (fun _ _ _ _ => false) (fun _ => []) (fun _ => false) (fun _ => HErr 0) 1)
    yverify (P_TLS_prf.listI (yh 64) 128) (fun c => match g_pub c with PkRSA _ => 1 | PkECDSA _ => 3 | _ => 0 end) ykex (fun _ => ykex)
    (fun _ k m => Ok (rev m ++ k)) (fun _ => false) (fun s => s).
Definition ykey (p : pubk unit) (k : Z) : skey unit := mkKey p (Some (fun st h _ d => Ok (ysig k st h d)))
  (match p with PkRSA _ => Some (fun ct => Ok (map (fun b => Z.land b 255) (firstn 48 (rev (removelast ct))))) | _ => None end).
Definition yrn (b : Z) (sid : list Z) : rnds := mkRnd (Some (repeat b 32)) (Some []) (Some (repeat b 16)) (Some (repeat b 46)) (Some []) (Some sid).
Definition ypool : X509_model.pool := X509_model.AddCert X509_model.NewCertPool yroot.
Definition yce (der : list Z) (p : pubk unit) (k : Z) : scertificate unit := mkSC [der] (ykey p k) None [] [].
Definition yserver (mx auth : Z) (ce : scertificate unit) : sconfig unit :=
  mkSCfg (mkCfg 0 mx None false [[104; 50]] [] auth (Some ypool) None [] false 50 false [mkTK (repeat 1 16) (repeat 2 16) (repeat 3 16)] None None (fun _ _ => None)) [ce] None None [] None.
Definition yclient (mx : Z) (ces : list (scertificate unit)) : sconfig unit :=
  mkSCfg (mkCfg 0 mx None false [[104; 49]; [104; 50]] [] 0 None (Some ypool) [97; 46; 98] false 50 false [] None None (fun _ _ => None)) ces None None [] None.

(** both ends, each on what the other has written: [n] rounds *)
Section Play.
Context (ccfg scfg : sconfig unit) (cache : option (option (csession unit))) (crn srn : rnds) (pr : option (prior unit)).
Definition crun (i : list item) := std_clientHandshake yE script ccfg [] cache crn pr (i, []).
Definition srun (i : list item) := std_serverHandshake yE script scfg None srn (i, []).
Definition round (i : list item) : list item := outbox (snd (snd (srun (outbox (snd (snd (crun i))))))).
Definition play (n : nat) : list item := Nat.iter n round [].
End Play.

(** a run of both ends: completed, each reads what the other wrote, the same messages on both sides, byte strings in frames; [X] is what else is wanted *)
Fixpoint items_eqb (a b : list item) : bool :=
  match a, b with
  | [], [] => true
  | IMsg m :: a, IMsg n :: b => beqb m n && items_eqb a b
  | ICCS :: a, ICCS :: b => items_eqb a b
  | _, _ => false
  end.
Lemma items_eqb_ok a : forall b, items_eqb a b = true -> a = b.
Proof.
  induction a as [|[m|] a IH]; intros [|[n|] b]; cbn [items_eqb]; try discriminate; [reflexivity| |].
  - intros H. apply andb_prop in H as [H1 H2]. apply beqb_eq in H1. apply IH in H2. now subst.
  - intros H. apply IH in H. now subst.
Qed.
Fixpoint msgs_eqb (a b : list (list Z)) : bool := match a, b with [], [] => true | m :: a, n :: b => beqb m n && msgs_eqb a b | _, _ => false end.
Lemma msgs_eqb_ok a : forall b, msgs_eqb a b = true -> a = b.
Proof. induction a as [|m a IH]; intros [|n b]; cbn [msgs_eqb]; try discriminate; [reflexivity|]. intros H. apply andb_prop in H as [H1 H2]. apply beqb_eq in H1. apply IH in H2. now subst. Qed.
Definition framedb (m : list Z) : bool := match m with t :: b => beqb (firstn 3 b) (be_bytes 3 (zlen (skipn 3 b))) && (zlen (skipn 3 b) <? 2 ^ 24) | [] => false end.
Lemma framedb_ok m : framedb m = true -> framed m.
Proof.
  destruct m as [|t b]; [discriminate|]. intros H. apply andb_prop in H as [H1 H2]. apply beqb_eq in H1. apply Z.ltb_lt in H2. exists t, (skipn 3 b). split; [split; [apply zlen_nonneg|exact H2]|].
  rewrite <- H1, firstn_skipn. reflexivity.
Qed.
Definition sound_log (l : list event) : bool := bytesb (transcript l) && (zlen (transcript l) <? 2 ^ 59) && forallb framedb (wire l).
Lemma sound_log_ok l : sound_log l = true -> wire_ok l /\ Forall framed (wire l).
Proof.
  intros H. apply andb_prop in H as [H H3]. apply andb_prop in H as [H1 H2]. split; [split; [now apply bytesb_spec|now apply Z.ltb_lt]|].
  apply Forall_forall. intros m Hm. apply framedb_ok. rewrite forallb_forall in H3. auto.
Qed.
Definition both (ccfg scfg : sconfig unit) (cache : option (option (csession unit))) (crn srn : rnds) (pr : option (prior unit)) (cin sin : list item)
    (X : sclient unit -> hresult unit -> list event -> list event -> bool) : bool :=
  match crun ccfg cache crn pr cin, srun scfg srn sin with
  | (HOk rc, (_, cl)), (HOk rs, (_, sl)) => items_eqb (outbox cl) sin && items_eqb (outbox sl) cin && msgs_eqb (wire cl) (wire sl) && sound_log cl && X rc rs cl sl
  | _, _ => false
  end.
Lemma both_ok ccfg scfg cache crn srn pr cin sin X : both ccfg scfg cache crn srn pr cin sin X = true ->
  exists rc rs cl sl, std_client_completes yE script ccfg [] cache crn pr cin rc cl /\ std_server_completes yE script scfg None srn sin rs sl /\
    cin = outbox sl /\ sin = outbox cl /\ wire cl = wire sl /\ wire_ok cl /\ wire_ok sl /\ Forall framed (wire cl) /\ X rc rs cl sl = true.
Proof.
  unfold both, crun, srun, std_client_completes, std_server_completes. destruct (std_clientHandshake _ _ _ _ _ _ _ _) as [[rc| | |] [cc cl]]; try discriminate.
  destruct (std_serverHandshake _ _ _ _ _ _) as [[rs| | |] [sc sl]]; try discriminate. intros H.
  apply andb_prop in H as [H H5]. apply andb_prop in H as [H H4]. apply andb_prop in H as [H H3]. apply andb_prop in H as [H1 H2].
  apply items_eqb_ok in H1, H2. apply msgs_eqb_ok in H3. apply sound_log_ok in H4 as [W F]. exists rc, rs, cl, sl.
  split; [eexists; reflexivity|]. split; [eexists; reflexivity|]. split; [now symmetry|]. split; [now symmetry|]. split; [exact H3|]. split; [exact W|].
  split; [unfold wire_ok, transcript in *; rewrite <- H3; exact W|]. auto.
Qed.

(** the world and the configurations *)
Lemma yworld : std_world_ok yE yHs (yh 64).
Proof.
  split; [|split].
  - cbn [e_std se yE]. unfold yL. split; [apply P_TLS_prf.listI_ok|]; split; [apply P_TLS_prf.listI_ok|]; split; [apply P_TLS_prf.listI_ok|]; split; [apply P_TLS_prf.listI_ok|]; repeat split.
  - split; [|split; [|split]]; intros m Hm; apply yh_ok.
  - apply P_TLS_prf.listI_ok.
Qed.
Lemma ypow_byte b e : is_byte (ypow b e).
Proof. unfold ypow, is_byte. pose proof (Z.mod_pos_bound (b ^ e) 251 eq_refl). lia. Qed.
Lemma bytes_repeat b n : is_byte b -> bytes (repeat b n).
Proof. intros H. apply Forall_forall. intros x Hx. apply repeat_spec in Hx. now subst x. Qed.
Lemma ygroups : groups_ok yE.
Proof.
  assert (X : kex_bytes ykex).
  { split; [intros d p; split; [apply bytes_repeat, ypow_byte|reflexivity]|]. intros [[|b r]|] priv pub H; try discriminate. cbn [ykex kx_gen] in H. assert (pub = repeat (ypow 6 (b mod 32)) 32) as -> by congruence. split; [apply bytes_repeat, ypow_byte|rewrite repeat_length; lia]. }
  split; [exact X|intros ?; exact X].
Qed.
Lemma yrandom b sid : is_byte b -> std_client_random_ok (yrn b sid) /\ hello_random_ok (yrn b sid).
Proof.
  intros H. assert (X : hello_random_ok (yrn b sid)) by (intros x Hx; cbn [yrn r_hello] in Hx; assert (x = repeat b 32) as -> by congruence; split; [now apply bytes_repeat|apply repeat_length]).
  split; [split; [exact X|]|exact X]. intros x Hx. cbn [yrn r_pms] in Hx. assert (x = repeat b 46) as -> by congruence. split; [now apply bytes_repeat|]. unfold zlen. rewrite repeat_length. lia.
Qed.
Lemma yservers mx auth der p k : server_keys_ok yE (yserver mx auth (yce der p k)) None.
Proof.
  intros ch cfg' ce Hc Hg. cbn in Hc. subst cfg'. assert (ce = yce der p k) as -> by (unfold certificate_for in Hg; cbn in Hg; congruence).
  intros dec ct pms Hd Hx. destruct p; try discriminate. assert (dec = fun ct => Ok (map (fun b => Z.land b 255) (firstn 48 (rev (removelast ct))))) as -> by (cbn [yce sc_key ykey k_dec] in Hd; congruence). assert (pms = map (fun b => Z.land b 255) (firstn 48 (rev (removelast ct)))) as -> by congruence. split.
  - apply Forall_forall. intros x Hi. apply in_map_iff in Hi as (y & <- & _). unfold is_byte. rewrite (Z.land_ones _ 8) by lia. apply Z.mod_pos_bound. reflexivity.
  - unfold zlen. rewrite map_length. change (2 ^ 60) with 1152921504606846976. pose proof (firstn_le_length 48 (rev (removelast ct))). lia.
Qed.

(** a: TLS 1.2, ECDHE with an ECDSA certificate, client certificate, ALPN, ticket *)
Definition yca : scertificate unit := yce [48; 3] (PkECDSA [3]) 3.
Definition ca := yclient 0 [yca]. Definition sa := yserver 0 4 (yce [48; 2] (PkECDSA [2]) 2).
Definition a_cin : list item := Eval vm_compute in play ca sa (Some None) (yrn 8 [1; 2]) (yrn 7 []) None 2.
Definition a_sin : list item := Eval vm_compute in outbox (snd (snd (crun ca (Some None) (yrn 8 [1; 2]) None a_cin))).
Definition full (id vers : Z) (certs : Z) (rc : sclient unit) (rs : hresult unit) (cl sl : list event) : bool :=
  negb (hr_resumed (cl_hr rc)) && negb (hr_resumed rs) && (hr_suite (cl_hr rc) =? id) && (hr_vers (cl_hr rc) =? vers) && (hr_vers rs =? vers) && (zlen (hr_peer rs) =? certs).
Lemma a_run : both ca sa (Some None) (yrn 8 [1; 2]) (yrn 7 []) None a_cin a_sin (full 0xcca9 0x0303 1) = true.
Proof. vm_compute. exact eq_refl. Qed.
(** b: TLS 1.0, RSA key exchange *)
Definition cb := mkSCfg (mkCfg 0 0x0301 (Some [0x002f]) false [] [] 0 None (Some ypool) [97; 46; 98] false 50 false [] None None (fun _ _ => None)) (@nil (scertificate unit)) None None [] None.
Definition sb := yserver 0 0 (yce [48; 1] (PkRSA [1]) 1).
Definition b_cin : list item := Eval vm_compute in play cb sb None (yrn 8 [1; 2]) (yrn 7 []) None 2.
Definition b_sin : list item := Eval vm_compute in outbox (snd (snd (crun cb None (yrn 8 [1; 2]) None b_cin))).
Lemma b_run : both cb sb None (yrn 8 [1; 2]) (yrn 7 []) None b_cin b_sin (full 0x002f 0x0301 0) = true.
Proof. vm_compute. exact eq_refl. Qed.
(** c: the session of run a resumed *)
Definition c_session : option (csession unit) := Eval vm_compute in match fst (crun ca (Some None) (yrn 8 [1; 2]) None a_cin) with HOk r => option_map snd (cl_put r) | _ => None end.
Definition c_cin : list item := Eval vm_compute in play ca sa (Some c_session) (yrn 6 [1; 2]) (yrn 5 []) None 2.
Definition c_sin : list item := Eval vm_compute in outbox (snd (snd (crun ca (Some c_session) (yrn 6 [1; 2]) None c_cin))).
Definition short (rc : sclient unit) (rs : hresult unit) (cl sl : list event) : bool :=
  hr_resumed (cl_hr rc) && hr_resumed rs && bytesb (hr_master rs) && (zlen (hr_master rs) =? 48) && beqb (hr_master (cl_hr rc)) (hr_master rs) && (zlen (hr_peer rs) =? 1).
Lemma c_run : both ca sa (Some c_session) (yrn 6 [1; 2]) (yrn 5 []) None c_cin c_sin short = true.
Proof. vm_compute. exact eq_refl. Qed.
(** d: a renegotiation (TLS 1.0, RSA).  The library's server does not renegotiate; its messages are built here from the specification. *)
Definition d_prior : prior unit := mkPrior (repeat 1 12) (repeat 2 12) true [ycert [48; 1] (PkRSA [1])] [] [].
Definition d_flight : list item := Eval vm_compute in
  match m_serverHello (mkSH 0x0301 (repeat 4 32) [] 0x002f 0 false [] false [] false (repeat 1 12 ++ repeat 2 12) true []), m_certificate [[48; 1]] with
  | Ok a, Ok b => [IMsg a; IMsg b; IMsg m_serverHelloDone] | _, _ => [] end.
Definition d_log : list event := Eval vm_compute in snd (snd (crun cb (Some None) (yrn 3 []) (Some d_prior) d_flight)).
Definition d_cin : list item := Eval vm_compute in
  match m_finished (server_finished yHs TLS10 (PRF yHs TLS10 48 ([3; 1] ++ repeat 3 46) ascii_master_secret (repeat 3 32 ++ repeat 4 32)) (transcript d_log)) with
  | Ok m => d_flight ++ [ICCS; IMsg m] | _ => [] end.
Definition alone (cfg : sconfig unit) (cache : option (option (csession unit))) (rn : rnds) (pr : option (prior unit)) (i : list item) : bool :=
  match crun cfg cache rn pr i with (HOk rc, (_, cl)) => sound_log cl && negb (hr_resumed (cl_hr rc)) && cl_secure rc | _ => false end.
Lemma alone_ok cfg cache rn pr i : alone cfg cache rn pr i = true ->
  exists rc cl, std_client_completes yE script cfg [] cache rn pr i rc cl /\ wire_ok cl /\ hr_resumed (cl_hr rc) = false /\ cl_secure rc = true.
Proof.
  unfold alone, crun, std_client_completes. intros H. destruct (std_clientHandshake _ _ _ _ _ _ _ _) as [[rc| | |] [cc cl]]; try discriminate.
  apply andb_prop in H as [H H3]. apply andb_prop in H as [H1 H2]. apply sound_log_ok in H1 as [W _]. apply negb_true_iff in H2. exists rc, cl. split; [eexists; reflexivity|auto].
Qed.
Lemma d_run : alone cb (Some None) (yrn 3 []) (Some d_prior) d_cin = true. Proof. vm_compute. exact eq_refl. Qed.

(** the cryptography of this world *)
Lemma ydh : dh_commutes yE yE.
Proof.
  intros curve gc gs r1 r2 a A b B G1 G2 K1 K2. assert (gc = ykex /\ gs = ykex) as [-> ->].
  { unfold group in *. destruct (curve =? 29); [|destruct (existsb _ _); [|discriminate]]; cbn [se_x25519 se_nist yE] in *; split; congruence. }
  destruct r1 as [[|x r1]|]; try discriminate. destruct r2 as [[|y r2]|]; try discriminate. cbn [ykex kx_gen] in K1, K2.
  assert (a = [x mod 32] /\ A = repeat (ypow 6 (x mod 32)) 32 /\ b = [y mod 32] /\ B = repeat (ypow 6 (y mod 32)) 32) as (-> & -> & -> & ->) by (repeat split; congruence).
  cbn [ykex kx_shared]. apply f_equal2; [|reflexivity]. change (hd 0 (repeat (ypow 6 (y mod 32)) 32)) with (ypow 6 (y mod 32)). change (hd 0 (repeat (ypow 6 (x mod 32)) 32)) with (ypow 6 (x mod 32)). cbn [hd].
  pose proof (Z.mod_pos_bound x 32 eq_refl). pose proof (Z.mod_pos_bound y 32 eq_refl). unfold ypow. rewrite <- !Zpower_mod by reflexivity. rewrite <- !Z.pow_mul_r by lia. now rewrite Z.mul_comm.
Qed.
Lemma ydec mx auth ch cfg' ce leaf : scfg_for (yserver mx auth (yce [48; 1] (PkRSA [1]) 1)) None ch cfg' -> certificate_for yE cfg' ch ce -> g_pub leaf = PkRSA [1] -> decrypts yE leaf ce.
Proof.
  intros Hc Hg HL k dec rnd m enc G K Bm Lm En. cbn in Hc. subst cfg'. assert (ce = yce [48; 1] (PkRSA [1]) 1) as -> by (unfold certificate_for in Hg; cbn in Hg; congruence).
  assert (k = [1]) as -> by congruence. assert (dec = fun ct => Ok (map (fun b => Z.land b 255) (firstn 48 (rev (removelast ct))))) as -> by (cbn [yce sc_key ykey k_dec] in K; congruence).
  assert (enc = rev m ++ [1]) as -> by (cbn [se_rsaenc yE] in En; congruence). split; [rewrite zlen_app; unfold zlen in *; rewrite rev_length; change (2 ^ 16) with 65536; cbn [length]; lia|].
  rewrite removelast_last, rev_involutive, firstn_all2 by (unfold zlen in Lm; lia). f_equal. clear -Bm. induction m as [|x m IH]; [reflexivity|]. apply bytes_cons in Bm as [Bx Bm]. cbn [map]. rewrite IH by exact Bm. f_equal.
  rewrite (Z.land_ones _ 8) by lia. apply Z.mod_small. exact Bx.
Qed.

(** The hypotheses of C121-C124, C126-C129, C131, C132 (full handshakes): ECDHE with client certificate; RSA *)
Theorem C121_C132_hyps : exists rc rs cl sl, std_world_ok yE yHs (yh 64) /\ groups_ok yE /\ std_client_random_ok (yrn 8 [1; 2]) /\ hello_random_ok (yrn 7 []) /\ server_keys_ok yE sa None /\ dh_commutes yE yE /\
  std_client_completes yE script ca [] (Some None) (yrn 8 [1; 2]) None (outbox sl) rc cl /\ std_server_completes yE script sa None (yrn 7 []) (outbox cl) rs sl /\
  wire cl = wire sl /\ wire_ok cl /\ wire_ok sl /\ Forall framed (wire cl) /\ hr_resumed (cl_hr rc) = false /\ hr_resumed rs = false /\
  hr_suite (cl_hr rc) = 0xcca9 /\ hr_vers (cl_hr rc) = 0x0303 /\ hr_vers rs = 0x0303 /\ zlen (hr_peer rs) = 1.
Proof.
  destruct (both_ok _ _ _ _ _ _ _ _ _ a_run) as (rc & rs & cl & sl & H1 & H2 & I1 & I2 & H3 & H4 & H5 & H6 & H7). rewrite I1 in H1. rewrite I2 in H2.
  unfold full in H7. apply andb_prop in H7 as [H7 P6]. apply andb_prop in H7 as [H7 P5]. apply andb_prop in H7 as [H7 P4]. apply andb_prop in H7 as [H7 P3]. apply andb_prop in H7 as [P1 P2].
  apply negb_true_iff in P1, P2. apply Z.eqb_eq in P3, P4, P5, P6. exists rc, rs, cl, sl.
  split; [exact yworld|]. split; [exact ygroups|]. split; [apply yrandom; split; discriminate || reflexivity|]. split; [apply yrandom; split; discriminate || reflexivity|]. split; [apply yservers|]. split; [exact ydh|].
  split; [exact H1|]. split; [exact H2|]. split; [exact H3|]. split; [exact H4|]. split; [exact H5|]. split; [exact H6|]. split; [exact P1|]. split; [exact P2|]. split; [exact P3|]. split; [exact P4|]. split; [exact P5|exact P6].
Qed.
Theorem C131_rsa_hyps : exists rc rs cl sl, std_client_completes yE script cb [] None (yrn 8 [1; 2]) None (outbox sl) rc cl /\ std_server_completes yE script sb None (yrn 7 []) (outbox cl) rs sl /\
  wire cl = wire sl /\ wire_ok cl /\ hr_resumed rs = false /\ std_client_random_ok (yrn 8 [1; 2]) /\ hello_random_ok (yrn 7 []) /\ server_keys_ok yE sb None /\
  hr_suite (cl_hr rc) = 0x002f /\ hr_vers (cl_hr rc) = 0x0301 /\ ecdhe_suite 0x002f = false /\ (forall b, r_pms (yrn 8 [1; 2]) = Some b -> length b = 46%nat) /\
  (forall ch cfg' ce leaf rest, hello_read sl ch -> scfg_for sb None ch cfg' -> certificate_for yE cfg' ch ce -> hr_peer (cl_hr rc) = leaf :: rest -> decrypts yE leaf ce).
Proof.
  destruct (both_ok _ _ _ _ _ _ _ _ _ b_run) as (rc & rs & cl & sl & H1 & H2 & I1 & I2 & H3 & H4 & H5 & H6 & H7). rewrite I1 in H1. rewrite I2 in H2.
  unfold full in H7. apply andb_prop in H7 as [H7 P6]. apply andb_prop in H7 as [H7 P5]. apply andb_prop in H7 as [H7 P4]. apply andb_prop in H7 as [H7 P3]. apply andb_prop in H7 as [P1 P2].
  apply negb_true_iff in P1, P2. apply Z.eqb_eq in P3, P4, P5, P6. exists rc, rs, cl, sl. destruct (C127_server_authenticated yE script yHs (yh 64) yworld _ _ _ _ _ _ _ H1 P1) as (lf & rst & m & ders & EP & Im & Tm & Um & FP & _).
  assert (RO : std_client_random_ok (yrn 8 [1; 2])) by (apply yrandom; split; discriminate || reflexivity).
  split; [exact H1|]. split; [exact H2|]. split; [exact H3|]. split; [exact H4|]. split; [exact P2|]. split; [exact RO|]. split; [apply yrandom; split; discriminate || reflexivity|]. split; [apply yservers|].
  split; [exact P3|]. split; [exact P4|]. split; [reflexivity|]. split. { intros b Hb. cbn [yrn r_pms] in Hb. assert (b = repeat 8 46) as -> by congruence. apply repeat_length. }
  intros ch cfg' ce leaf rest _ Hc Hg EL. rewrite EP in EL. injection EL as -> ->.
  destruct (C128_client_secrets yE script yHs (yh 64) yworld _ _ _ _ _ _ _ _ H1 P1 H4 RO ygroups ltac:(discriminate)) as (x1 & x2 & leaf' & rest' & x3 & x4 & x5 & x6 & x7 & x8 & _ & _ & EP' & _ & _ & _ & _ & _ & _ & _ & RS & _).
  rewrite EP in EP'. injection EP' as <- <-. rewrite P3 in RS. destruct (RS eq_refl) as (k & rnd & enc & Gk & _).
  inversion FP as [|d x ds xs Pd _ E1 E2]. subst. eapply ydec; [exact Hc|exact Hg|]. cbn [e_parse se yE] in Pd. unfold yparse in Pd.
  repeat match type of Pd with match ?l with _ => _ end = _ => destruct l; try discriminate Pd end; injection Pd as <-; try discriminate Gk; reflexivity.
Qed.
(** ... of C125, C130, C131_resumed, C132_tamper_evident_resumed: an abbreviated handshake, the client's certificate remembered in the ticket *)
Theorem C125_C132_resumed_hyps : exists rc rs cl sl, std_client_completes yE script ca [] (Some c_session) (yrn 6 [1; 2]) None (outbox sl) rc cl /\ std_server_completes yE script sa None (yrn 5 []) (outbox cl) rs sl /\
  wire cl = wire sl /\ wire_ok cl /\ wire_ok sl /\ Forall framed (wire cl) /\ hr_resumed (cl_hr rc) = true /\ hr_resumed rs = true /\ small (hr_master rs) /\ hr_master (cl_hr rc) = hr_master rs /\
  std_client_random_ok (yrn 6 [1; 2]) /\ hello_random_ok (yrn 5 []) /\ zlen (hr_peer rs) = 1.
Proof.
  destruct (both_ok _ _ _ _ _ _ _ _ _ c_run) as (rc & rs & cl & sl & H1 & H2 & I1 & I2 & H3 & H4 & H5 & H6 & H7). rewrite I1 in H1. rewrite I2 in H2.
  unfold short in H7. apply andb_prop in H7 as [H7 P6]. apply andb_prop in H7 as [H7 P5]. apply andb_prop in H7 as [H7 P4]. apply andb_prop in H7 as [H7 P3]. apply andb_prop in H7 as [P1 P2].
  apply Z.eqb_eq in P4, P6. apply beqb_eq in P5. apply bytesb_spec in P3. exists rc, rs, cl, sl.
  assert (SM : small (hr_master rs)) by (split; [exact P3|rewrite P4; reflexivity]).
  assert (RO : std_client_random_ok (yrn 6 [1; 2])) by (apply yrandom; split; discriminate || reflexivity). assert (RO' : hello_random_ok (yrn 5 [])) by (apply yrandom; split; discriminate || reflexivity).
  split; [exact H1|]. split; [exact H2|]. split; [exact H3|]. split; [exact H4|]. split; [exact H5|]. split; [exact H6|]. split; [exact P1|]. split; [exact P2|]. split; [exact SM|]. split; [exact P5|]. split; [exact RO|]. split; [exact RO'|exact P6].
Qed.
(** ... of C129 and C130: a completed renegotiation *)
Theorem C129_hyps : exists rc cl, std_client_completes yE script cb [] (Some None) (yrn 3 []) (Some d_prior) d_cin rc cl /\ wire_ok cl /\ hr_resumed (cl_hr rc) = false /\ cl_secure rc = true /\ prior_ok (Some d_prior).
Proof.
  destruct (alone_ok _ _ _ _ _ d_run) as (rc & cl & H1 & H2 & H3 & H4). exists rc, cl. split; [exact H1|]. split; [exact H2|]. split; [exact H3|]. split; [exact H4|].
  intros p leaf rest Hp HL. injection Hp as <-. injection HL as <- <-. now left.
Qed.

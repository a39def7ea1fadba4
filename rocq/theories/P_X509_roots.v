(** C139: root pools read from PEM text and from the system's files. *)
From Verif Require Import GoBase GoLemmas X509_spec X509_model X509_proofs P_X509 X509_roots_model.
Open Scope Z_scope.
Section C139.
Context (pemDecode : list Z -> option (pblock * list Z)) (parse : list Z -> option cert).
(** what encoding/pem promises: every block uses up some of the text *)
Definition progress : Prop := forall d b r, pemDecode d = Some (b, r) -> (length r < length d)%nat.
(** ** Specification *)
(** the blocks of a text, in order *)
Inductive pem_blocks : list Z -> list pblock -> Prop :=
| PB_none d : d = [] \/ pemDecode d = None -> pem_blocks d []
| PB_next d b r bs : d <> [] -> pemDecode d = Some (b, r) -> pem_blocks r bs -> pem_blocks d (b :: bs).
(** the certificate in a block: of type CERTIFICATE, without headers, and one that parses *)
Definition block_cert (b : pblock) (c : cert) : Prop := pb_type b = str_CERT /\ pb_headers b = 0%nat /\ parse (pb_bytes b) = Some c.
(** [cs] are the certificates of [bs], in order *)
Inductive block_certs : list pblock -> list cert -> Prop :=
| BC_nil : block_certs [] []
| BC_take b bs c cs : block_cert b c -> block_certs bs cs -> block_certs (b :: bs) (c :: cs)
| BC_skip b bs cs : (forall c, ~ block_cert b c) -> block_certs bs cs -> block_certs (b :: bs) cs.
Definition text_certs (d : list Z) (cs : list cert) : Prop := exists bs, pem_blocks d bs /\ block_certs bs cs.
(** the certificates of the first file that can be read *)
Inductive files_certs (fs : fsys) : list (list Z) -> list cert -> Prop :=
| FC_nil : files_certs fs [] []
| FC_read f fl d cs : readFile fs f = Data d -> text_certs d cs -> files_certs fs (f :: fl) cs
| FC_skip f fl cs : (forall d, readFile fs f <> Data d) -> files_certs fs fl cs -> files_certs fs (f :: fl) cs.
(** the certificates of all readable files of a directory *)
Inductive names_certs (fs : fsys) (dir : list Z) : list (list Z) -> list cert -> Prop :=
| NC_nil : names_certs fs dir [] []
| NC_read n ns d cs cs' : readFile fs (dir ++ [47] ++ n) = Data d -> text_certs d cs -> names_certs fs dir ns cs' -> names_certs fs dir (n :: ns) (cs ++ cs')
| NC_skip n ns cs' : (forall d, readFile fs (dir ++ [47] ++ n) <> Data d) -> names_certs fs dir ns cs' -> names_certs fs dir (n :: ns) cs'.
(** the certificates of the first directory that has any *)
Inductive dirs_certs (fs : fsys) : list (list Z) -> list cert -> Prop :=
| DC_nil : dirs_certs fs [] []
| DC_take d ds ns cs : readDir fs d = Data ns -> names_certs fs d ns cs -> cs <> [] -> dirs_certs fs (d :: ds) cs
| DC_empty d ds ns cs : readDir fs d = Data ns -> names_certs fs d ns [] -> dirs_certs fs ds cs -> dirs_certs fs (d :: ds) cs
| DC_skip d ds cs : (forall ns, readDir fs d <> Data ns) -> dirs_certs fs ds cs -> dirs_certs fs (d :: ds) cs.

(** ** AppendCertsFromPEM *)
Notation append := (AppendCertsFromPEM pemDecode parse).
Lemma pool_of_app h l : pool_of (h ++ l) = fold_left AddCert l (pool_of h).
Proof. unfold pool_of. apply fold_left_app. Qed.
Lemma append_loop : progress -> forall n d h ok, (length d < n)%nat -> exists cs, text_certs d cs /\
  append_pem pemDecode parse n (pool_of h) d ok = (pool_of (h ++ cs), ok || negb (length cs =? 0)%nat).
Proof.
  intros HP. induction n as [|n IH]; intros d h ok L; [lia|]. cbn [append_pem].
  destruct d as [|x d]. { exists []. split; [exists []; split; [constructor; now left|constructor]|]. now rewrite app_nil_r, orb_false_r. }
  destruct (pemDecode (x :: d)) as [[b r]|] eqn:ED.
  2: { exists []. split; [exists []; split; [constructor; now right|constructor]|]. now rewrite app_nil_r, orb_false_r. }
  pose proof (HP _ _ _ ED) as LR.
  assert (SK : (forall c, ~ block_cert b c) -> exists cs, text_certs (x :: d) cs /\ append_pem pemDecode parse n (pool_of h) r ok = (pool_of (h ++ cs), ok || negb (length cs =? 0)%nat)).
  { intros N. destruct (IH r h ok ltac:(lia)) as (cs & (bs & B1 & B2) & E). exists cs. split; [|exact E]. exists (b :: bs). split; [econstructor; [discriminate|exact ED|exact B1]|now apply BC_skip]. }
  destruct (beqb (pb_type b) str_CERT) eqn:ET; cbn [negb orb].
  2: { apply SK. intros c (T & _). rewrite T, beqb_refl in ET. discriminate. }
  destruct (Nat.eqb_spec (pb_headers b) 0) as [EH|EH]; cbn [negb].
  2: { apply SK. intros c (_ & T & _). contradiction. }
  destruct (parse (pb_bytes b)) as [c|] eqn:EP. 2: { apply SK. intros c (_ & _ & T). congruence. }
  rewrite <- pool_of_snoc. destruct (IH r (h ++ [c]) true ltac:(lia)) as (cs & (bs & B1 & B2) & E). exists (c :: cs). split.
  - exists (b :: bs). split; [econstructor; [discriminate|exact ED|exact B1]|]. apply BC_take; [|exact B2]. apply beqb_eq in ET. split; [exact ET|]. split; [exact EH|exact EP].
  - rewrite E, <- app_assoc. cbn [app length Nat.eqb negb orb]. now rewrite orb_true_r.
Qed.
(** On a pool built from any history, the certificates of the text (and no others) are added, in order, each once; the result tells whether there was one. *)
Theorem C139_append : progress -> forall hist data, exists cs, text_certs data cs /\
  append (fold_left AddCert hist NewCertPool) data = (fold_left AddCert (hist ++ cs) NewCertPool, negb (length cs =? 0)%nat) /\
  (parsed (hist ++ cs) -> certs (fst (append (fold_left AddCert hist NewCertPool) data)) = keep_first [] (hist ++ cs)).
Proof.
  intros HP hist data. destruct (append_loop HP (Datatypes.S (length data)) data hist false ltac:(lia)) as (cs & H1 & H2). exists cs. split; [exact H1|].
  unfold AppendCertsFromPEM. fold (pool_of hist) (pool_of (hist ++ cs)). rewrite H2. split; [reflexivity|]. cbn [fst]. apply pool_of_order.
Qed.
Lemma block_certs_fun bs cs : block_certs bs cs -> forall cs', block_certs bs cs' -> cs = cs'.
Proof.
  induction 1 as [|b bs c cs (T1 & T2 & T3) H IH|b bs cs N H IH]; intros cs' H'; inversion H' as [|b' bs' c' cs2 (U1 & U2 & U3) H2|b' bs' cs2 N2 H2]; subst; auto.
  - rewrite (IH _ H2). congruence.
  - exfalso. apply (N2 c). repeat split; assumption.
  - exfalso. apply (N c'). repeat split; assumption.
Qed.
Lemma pem_blocks_fun d bs : pem_blocks d bs -> forall bs', pem_blocks d bs' -> bs = bs'.
Proof.
  induction 1 as [d N|d b r bs N E H IH]; intros bs' H'; inversion H' as [d' N'|d' b' r' bs2 N' E' H2]; subst; auto.
  - destruct N; congruence.
  - destruct N'; congruence.
  - rewrite E in E'. injection E' as <- <-. f_equal. auto.
Qed.
Lemma text_certs_fun d cs cs' : text_certs d cs -> text_certs d cs' -> cs = cs'.
Proof. intros (bs & B1 & B2) (bs' & C1 & C2). rewrite <- (pem_blocks_fun _ _ B1 _ C1) in C2. eapply block_certs_fun; eauto. Qed.
Lemma append_text hist data cs : progress -> text_certs data cs -> append (pool_of hist) data = (pool_of (hist ++ cs), negb (length cs =? 0)%nat).
Proof.
  intros HP HT. destruct (append_loop HP (Datatypes.S (length data)) data hist false ltac:(lia)) as (cs' & H1 & H2). rewrite (text_certs_fun _ _ _ HT H1). exact H2.
Qed.
Lemma text_total : progress -> forall d, exists cs, text_certs d cs.
Proof. intros HP d. destruct (append_loop HP (Datatypes.S (length d)) d [] false ltac:(lia)) as (cs & H1 & _). eauto. Qed.

(** ** loadSystemRoots *)
Lemma add_nonempty l : forall s, certs s <> [] -> certs (fold_left AddCert l s) <> [].
Proof. induction l as [|c l IH]; intros s H; [exact H|]. cbn [fold_left]. apply IH. unfold AddCert. destruct (contains s c); [exact H|]. cbn [certs]. destruct (certs s); discriminate. Qed.
Lemma pool_nonempty h : h <> [] -> certs (pool_of h) <> [].
Proof. destruct h as [|c h]; [congruence|]. intros _. unfold pool_of. cbn [fold_left]. apply add_nonempty. cbn. discriminate. Qed.
Section Load.
Context (HP : progress) (fs : fsys).
(** the first error that is not "does not exist", among the files up to the one that is read, and then the directories *)
Fixpoint file_error (files : list (list Z)) : option Z :=
  match files with [] => None | f :: fl => match readFile fs f with Data _ => None | NotExist => file_error fl | IOErr e => Some e end end.
Fixpoint dir_error (dirs : list (list Z)) : option Z :=
  match dirs with [] => None | d :: ds => match readDir fs d with Data _ | NotExist => dir_error ds | IOErr e => Some e end end.
Definition or_else (a b : option Z) : option Z := match a with Some _ => a | None => b end.
Lemma load_files_spec files : forall h err, exists cs, files_certs fs files cs /\ load_files pemDecode parse fs files (pool_of h) err = (pool_of (h ++ cs), or_else err (file_error files)).
Proof.
  induction files as [|f fl IH]; intros h err; cbn [load_files file_error].
  - exists []. split; [constructor|]. rewrite app_nil_r. now destruct err.
  - destruct (readFile fs f) as [d| |e] eqn:EF.
    + destruct (text_total HP d) as (cs & HT). exists cs. split; [eapply FC_read; eauto|]. rewrite (append_text h d cs HP HT). now destruct err.
    + destruct (IH h err) as (cs & H1 & H2). exists cs. split; [apply FC_skip; [congruence|exact H1]|exact H2].
    + destruct (IH h (match err with None => Some e | _ => err end)) as (cs & H1 & H2). exists cs. split; [apply FC_skip; [congruence|exact H1]|]. rewrite H2. now destruct err.
Qed.
Lemma load_dir_spec dir ns : forall h b, exists cs, names_certs fs dir ns cs /\ load_dir pemDecode parse fs dir ns (pool_of h) b = (pool_of (h ++ cs), b || negb (length cs =? 0)%nat).
Proof.
  induction ns as [|n ns IH]; intros h b; cbn [load_dir].
  - exists []. split; [constructor|]. now rewrite app_nil_r, orb_false_r.
  - destruct (readFile fs _) as [d| |e] eqn:EF.
    + destruct (text_total HP d) as (cs & HT). rewrite (append_text h d cs HP HT). destruct (IH (h ++ cs) (b || negb (length cs =? 0)%nat)) as (cs' & H1 & H2). exists (cs ++ cs').
      split; [eapply NC_read; eauto|]. rewrite H2, <- app_assoc, app_length, <- orb_assoc. f_equal. f_equal. destruct cs, cs'; reflexivity.
    + destruct (IH h b) as (cs & H1 & H2). exists cs. split; [apply NC_skip; [congruence|exact H1]|exact H2].
    + destruct (IH h b) as (cs & H1 & H2). exists cs. split; [apply NC_skip; [congruence|exact H1]|exact H2].
Qed.
Lemma load_dirs_spec dirs : forall h err, exists cs, dirs_certs fs dirs cs /\
  (if (length cs =? 0)%nat then load_dirs pemDecode parse fs dirs (pool_of h) err = (pool_of h, or_else err (dir_error dirs), false)
   else exists e, load_dirs pemDecode parse fs dirs (pool_of h) err = (pool_of (h ++ cs), e, true)).
Proof.
  induction dirs as [|d ds IH]; intros h err; cbn [load_dirs dir_error].
  - exists []. split; [constructor|]. cbn. now destruct err.
  - destruct (readDir fs d) as [ns| |e] eqn:ER.
    + destruct (load_dir_spec d ns h false) as (cs & H1 & H2). rewrite H2. cbn [orb]. destruct (Nat.eqb_spec (length cs) 0) as [E|E]; cbn [negb].
      * apply length_zero_iff_nil in E. subst cs. rewrite app_nil_r. destruct (IH h err) as (cs & H3 & H4). exists cs. split; [eapply DC_empty; eauto|exact H4].
      * exists cs. split; [eapply DC_take; eauto; intros ->; now apply E|]. apply Nat.eqb_neq in E. rewrite E. eauto.
    + destruct (IH h err) as (cs & H3 & H4). exists cs. split; [apply DC_skip; [congruence|exact H3]|exact H4].
    + destruct (IH h (match err with None => Some e | _ => err end)) as (cs & H3 & H4). exists cs. split; [apply DC_skip; [congruence|exact H3]|].
      destruct (length cs =? 0)%nat; [rewrite H4; now destruct err|exact H4].
Qed.
(** The system roots are the certificates of the first readable file and of the first directory that has any; SSL_CERT_FILE and SSL_CERT_DIR replace the
    built-in lists.  Without any certificate there is no pool, and the error is the first one that is not "does not exist" - if there was one. *)
Theorem C139_system_roots : forall certFiles certDirs envFile envDir,
  let files := match envFile with [] => certFiles | f => [f] end in let dirs := match envDir with [] => certDirs | d => [d] end in
  exists c1 c2, files_certs fs files c1 /\ dirs_certs fs dirs c2 /\
    (c1 ++ c2 <> [] -> loadSystemRoots pemDecode parse certFiles certDirs envFile envDir fs = (Some (fold_left AddCert (c1 ++ c2) NewCertPool), None) /\
       (parsed (c1 ++ c2) -> certs (fold_left AddCert (c1 ++ c2) NewCertPool) = keep_first [] (c1 ++ c2))) /\
    (c1 ++ c2 = [] -> loadSystemRoots pemDecode parse certFiles certDirs envFile envDir fs = (None, or_else (file_error files) (dir_error dirs))).
Proof.
  intros certFiles certDirs envFile envDir files dirs. destruct (load_files_spec files [] None) as (c1 & F1 & F2). cbn [app] in F2.
  destruct (load_dirs_spec dirs c1 (file_error files)) as (c2 & D1 & D2). exists c1, c2. split; [exact F1|]. split; [exact D1|].
  unfold loadSystemRoots. fold files. fold dirs. change (pool_of []) with NewCertPool in F2. rewrite F2. cbn [or_else]. destruct (Nat.eqb_spec (length c2) 0) as [E|E].
  - apply length_zero_iff_nil in E. subst c2. rewrite app_nil_r, D2. split.
    + intros N. destruct (pool_of c1) as [a b ce] eqn:EP. pose proof (pool_nonempty c1 N) as X. rewrite EP in X. cbn [certs] in *. destruct ce as [|x ce]; [congruence|]. cbn [length Nat.ltb Nat.leb].
      rewrite <- EP. split; [reflexivity|]. apply pool_of_order.
    + intros ->. change (pool_of []) with NewCertPool. reflexivity.
  - destruct (length c2 =? 0)%nat eqn:EB in D2; [apply Nat.eqb_eq in EB; contradiction|]. destruct D2 as (e & D2). rewrite D2. split.
    + intros _. split; [reflexivity|]. apply pool_of_order.
    + intros N. apply app_eq_nil in N as [_ N]. rewrite N in E. contradiction.
Qed.
End Load.
(** Only the files and directories that are configured matter: with SSL_CERT_FILE and SSL_CERT_DIR set, two file systems that agree on them give the same roots. *)
Lemma files_agree fs fs' files : (forall p, In p files -> readFile fs p = readFile fs' p) -> forall s e, load_files pemDecode parse fs files s e = load_files pemDecode parse fs' files s e.
Proof.
  induction files as [|f fl IH]; intros H s e; [reflexivity|]. cbn [load_files]. rewrite <- (H f (or_introl eq_refl)).
  assert (IH' := IH (fun p Hp => H p (or_intror Hp))). destruct (readFile fs f); [reflexivity|apply IH'|apply IH'].
Qed.
Lemma dir_agree fs fs' d : forall ns, (forall n, In n ns -> readFile fs (d ++ [47] ++ n) = readFile fs' (d ++ [47] ++ n)) -> forall s b, load_dir pemDecode parse fs d ns s b = load_dir pemDecode parse fs' d ns s b.
Proof.
  induction ns as [|n ns IH]; intros H s b; [reflexivity|]. cbn [load_dir]. rewrite <- (H n (or_introl eq_refl)). assert (IH' := IH (fun p Hp => H p (or_intror Hp))).
  destruct (readFile fs _); [destruct (AppendCertsFromPEM _ _ _ _)| |]; apply IH'.
Qed.
Theorem C139_environment : forall certFiles certFiles' certDirs certDirs' f d fs fs', f <> [] -> d <> [] ->
  readFile fs f = readFile fs' f -> readDir fs d = readDir fs' d -> (forall ns n, readDir fs d = Data ns -> In n ns -> readFile fs (d ++ [47] ++ n) = readFile fs' (d ++ [47] ++ n)) ->
  loadSystemRoots pemDecode parse certFiles certDirs f d fs = loadSystemRoots pemDecode parse certFiles' certDirs' f d fs'.
Proof.
  intros cf cf' cd cd' f d fs fs' NF ND HF HD HN. unfold loadSystemRoots. destruct f as [|f0 f]; [congruence|]. destruct d as [|d0 d]; [congruence|].
  rewrite (files_agree fs fs' [f0 :: f]) by (intros p [<-|[]]; exact HF). destruct (load_files _ _ _ _ _ _) as [s e]. cbn [load_dirs]. rewrite <- HD.
  destruct (readDir fs (d0 :: d)) as [ns| |x] eqn:ED; [|reflexivity|reflexivity].
  rewrite (dir_agree fs fs' (d0 :: d) ns) by (intros n Hn; exact (HN ns n eq_refl Hn)). reflexivity.
Qed.
(** SystemCertPool on a machine without root files: neither a pool nor an error.  (A caller that then calls AddCert on the pool dereferences nil.) *)
Theorem C139_pool_or_error_refuted : forall certFiles certDirs envFile envDir fs, (forall p, readFile fs p = NotExist) -> (forall d, readDir fs d = NotExist) ->
  SystemCertPool pemDecode parse certFiles certDirs envFile envDir (loadSystemRoots pemDecode parse certFiles certDirs envFile envDir fs) fs = (None, None).
Proof.
  intros cf cd ef ed fs HF HD. assert (L : loadSystemRoots pemDecode parse cf cd ef ed fs = (None, None)).
  { unfold loadSystemRoots. assert (A : forall l, load_files pemDecode parse fs l NewCertPool None = (NewCertPool, None)) by (induction l as [|x l IH]; [reflexivity|cbn [load_files]; rewrite HF; exact IH]).
    assert (B : forall l, load_dirs pemDecode parse fs l NewCertPool None = (NewCertPool, None, false)) by (induction l as [|x l IH]; [reflexivity|cbn [load_dirs]; rewrite HD; exact IH]).
    rewrite A, B. reflexivity. }
  unfold SystemCertPool. rewrite L. reflexivity.
Qed.
(** The pool handed out is the one loaded first, as long as there was one. *)
Theorem C139_system_pool : forall certFiles certDirs envFile envDir p e fs, SystemCertPool pemDecode parse certFiles certDirs envFile envDir (Some p, e) fs = (Some p, None).
Proof. reflexivity. Qed.
End C139.

(** ** An example: one file (two certificates, one of them twice, a block with a header and a key between them), a directory whose second file is used *)
Definition ex_decode (d : list Z) : option (pblock * list Z) :=
  match d with
  | 1 :: h :: x :: r => Some (mkPB str_CERT (Z.to_nat h) [x], r) | 2 :: x :: r => Some (mkPB [75; 69; 89] 0 [x], r) | _ => None end.
Definition ex_parse (d : list Z) : option cert :=
  match d with [x] => if x <? 10 then Some (mkCert [x] [80 + x] [82] [x] [] [] 3 0 10 0 [] [] true true (-1) 0 true [] 0 false [] [] []) else None | _ => None end.
Definition ex_fs : fsys := mkFS
  (fun p => match p with [7] => Data [1; 0; 3; 2; 4; 1; 1; 4; 1; 0; 5; 1; 0; 3; 1; 0; 20; 99] | [8; 47; 1] => IOErr 13 | [8; 47; 2] => Data [1; 0; 6; 1; 0; 5] | [6] => IOErr 13 | _ => NotExist end)
  (fun d => match d with [8] => Data [[1]; [2]] | [5] => IOErr 14 | _ => NotExist end).
Theorem C139_hyps : progress ex_decode /\ option_map (fun p => map raw (certs p)) (fst (loadSystemRoots ex_decode ex_parse [[4]; [6]; [7]; [9]] [[5]; [8]; [3]] [] [] ex_fs)) = Some [[3]; [5]; [6]] /\
  loadSystemRoots ex_decode ex_parse [[4]; [6]] [[5]] [] [] ex_fs = (None, Some 13) /\ loadSystemRoots ex_decode ex_parse [[4]; [6]] [[5]] [9] [9] ex_fs = (None, None).
Proof.
  split; [|split; [|split]]; [|vm_compute; reflexivity|vm_compute; reflexivity|vm_compute; reflexivity].
  intros d b r H. unfold ex_decode in H. repeat match type of H with context [match ?l with _ => _ end] => is_var l; destruct l; try discriminate H end; injection H as <- <-; cbn; lia.
Qed.

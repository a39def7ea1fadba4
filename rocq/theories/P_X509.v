(** C33-C40, C70: certificate verification (x509/verify.go, x509/cert_pool.go). *)
From Verif Require Import GoBase GoLemmas X509_spec X509_model X509_proofs.
Open Scope Z_scope.

(** ** C33, C34: host names *)
Lemma strip_spec h : unbracketed h (if (3 <=? length h)%nat && (hd 0 h =? 91) && (last h 0 =? 93) then firstn (length h - 2) (skipn 1 h) else h).
Proof.
  destruct ((3 <=? length h)%nat && (hd 0 h =? 91) && (last h 0 =? 93)) eqn:E.
  - apply andb_prop in E as [E E3]. apply andb_prop in E as [E1 E2]. apply Nat.leb_le in E1. left.
    destruct h as [|a t]; [cbn in E1; lia|]. cbn [hd] in E2. cbn [length] in *. change (skipn 1 (a :: t)) with t.
    destruct t as [|z t] using rev_ind; [cbn in E1; lia|]. clear IHt. rewrite app_length in *. cbn [length] in *.
    replace (last (a :: t ++ [z]) 0) with z in E3 by (rewrite app_comm_cons; now rewrite last_last).
    rewrite firstn_app. replace (S (length t + 1) - 2 - length t)%nat with 0%nat by lia. rewrite firstn_O, app_nil_r.
    rewrite firstn_all2 by lia. split; [destruct t; [cbn in E1; lia|discriminate]|]. cbn [app]. f_equal; [lia|]. f_equal. f_equal. lia.
  - right. split; [reflexivity|]. intros y Hy ->. rewrite !app_length in E. cbn [length app hd] in E.
    replace (last (91 :: y ++ [93]) 0) with 93 in E by (rewrite app_comm_cons; now rewrite last_last).
    destruct y; [congruence|]. cbn [length] in E. replace (3 <=? 1 + (S (length y) + 1))%nat with true in E by (symmetry; apply Nat.leb_le; lia). discriminate.
Qed.
Lemma unbracketed_unique h x y : unbracketed h x -> unbracketed h y -> x = y.
Proof.
  intros [[Hx Ex]|[-> Hx]] [[Hy Ey]|[-> Hy]]; try reflexivity.
  - rewrite Ex in Ey. apply app_inv_head in Ey. now apply app_inv_tail in Ey.
  - exfalso. now apply (Hy x). - exfalso. now apply (Hx y).
Qed.
Theorem C33_hostname (IP : Type) (ParseIP : list Z -> option IP) (ipEqual : IP -> list Z -> bool) c h x :
  bytes h -> bytes (commonName c) -> Forall bytes (dnsNames c) ->
  unbracketed h x -> ParseIP x = None ->
  VerifyHostname ParseIP ipEqual c h = true <->
  (if hasSAN c then exists name, In name (dnsNames c) /\ host_matches name h else host_matches (commonName c) h).
Proof.
  intros Hh Hcn Hdn Hx HP. unfold VerifyHostname. rewrite (unbracketed_unique _ _ _ (strip_spec h) Hx), HP.
  rewrite (toLowerCaseASCII_spec h Hh). destruct (hasSAN c).
  - rewrite existsb_exists. rewrite Forall_forall in Hdn. split; intros (m & Hm & H); exists m; (split; [exact Hm|]).
    + rewrite toLowerCaseASCII_spec in H by now apply Hdn. now apply matchHostnames_spec.
    + rewrite toLowerCaseASCII_spec by now apply Hdn. now apply matchHostnames_spec.
  - rewrite toLowerCaseASCII_spec by exact Hcn. apply matchHostnames_spec.
Qed.
Theorem C34_ip_hosts (IP : Type) (ParseIP : list Z -> option IP) (ipEqual : IP -> list Z -> bool) c h x ip :
  unbracketed h x -> ParseIP x = Some ip ->
  VerifyHostname ParseIP ipEqual c h = true <-> exists a, In a (ipAddrs c) /\ ipEqual ip a = true.
Proof.
  intros Hx HP. unfold VerifyHostname. rewrite (unbracketed_unique _ _ _ (strip_spec h) Hx), HP. apply existsb_exists.
Qed.
(** the hypotheses are met: "*.ab" against "X.aB." matches, against "x.y.ab" not; "[::1]" is looked up as "::1" *)
Definition c0 : cert := mkCert [1] [7] [7] [9] [] [] 3 0 10 0 [] [] true true (-1) 0 true [] 0 false [] [] [].
Lemma C33_hyps : let c := mkCert [1] [7] [7] [9] [] [] 3 0 10 0 [] [] true true (-1) 0 true [] 0 true [[42;46;97;98]] [] [] in
  VerifyHostname (fun _ => @None unit) (fun _ _ => false) c [88;46;97;66;46] = true /\
  VerifyHostname (fun _ => @None unit) (fun _ _ => false) c [120;46;121;46;97;98] = false.
Proof. split; reflexivity. Qed.
Lemma C34_hyps : unbracketed [91;58;58;49;93] [58;58;49].
Proof. left. split; [discriminate|reflexivity]. Qed.

(** ** C35: name constraints (ASCII names: strings.EqualFold is only modelled on ASCII) *)
Definition ascii (s : list Z) : Prop := Forall (fun b => 0 <= b < 128) s.
Theorem C35_name_constraint domain c : ascii domain -> ascii c ->
  matchNameConstraint domain c = true <-> constraint_allows domain c.
Proof. intros _ _. apply matchNameConstraint_spec. Qed.
(** "ab.c" allows "x.Ab.C" and "ab.c", not "xab.c"; ".ab" allows "x.ab" only *)
Lemma C35_cases :
  matchNameConstraint [120;46;65;98;46;67] [97;98;46;99] = true /\ matchNameConstraint [97;98;46;99] [97;98;46;99] = true /\
  matchNameConstraint [120;97;98;46;99] [97;98;46;99] = false /\
  matchNameConstraint [120;46;97;98] [46;97;98] = true /\ matchNameConstraint [97;98] [46;97;98] = false.
Proof. repeat split. Qed.

(** ** C36-C39: Verify.
    [check_signature], [entrust] and [hostname_ok] are arbitrary: the statement holds for every signature scheme. *)
Section Verify.
Variable check_signature : cert -> cert -> bool.
Variable entrust : list Z.
Notation signed_by := (fun child parent => CheckSignatureFrom check_signature entrust child parent = true).
(** what [signed_by] means, spelt out: the parent may sign certificates (a CA by its basic constraints if it is a version-3 certificate
    or has the extension, unless the child carries the one exempted Entrust key; bit 5 of its key usage, keyCertSign, is set if it has a
    key usage at all; its key algorithm is known) and the signature verifies *)
Theorem C36_signed_by : forall child parent, signed_by child parent <->
  ((version parent = 3 \/ bcValid parent = true -> bcValid parent = true /\ isCA parent = true) \/ rawSPKI child = entrust) /\
  (keyUsage parent = 0 \/ Z.testbit (keyUsage parent) 5 = true) /\ knownPubAlg parent = true /\ check_signature child parent = true.
Proof.
  intros c p. cbv beta. unfold CheckSignatureFrom.
  assert (HB : (Z.land (keyUsage p) 32 =? 0) = negb (Z.testbit (keyUsage p) 5)).
  { destruct (Z.testbit (keyUsage p) 5) eqn:E; cbn [negb].
    - apply Z.eqb_neq. intros H. assert (T : Z.testbit (Z.land (keyUsage p) 32) 5 = true) by (rewrite Z.land_spec, E; reflexivity). rewrite H in T. discriminate.
    - apply Z.eqb_eq. apply Z.bits_inj_0. intros i. rewrite Z.land_spec. destruct (Z.eq_dec i 5) as [->|N]; [rewrite E; reflexivity|].
      change 32 with (2 ^ 5). rewrite Z.pow2_bits_false by congruence. apply Bool.andb_false_r. }
  rewrite HB. clear HB.
  destruct (Z.eqb_spec (version p) 3) as [V|V]; destruct (bcValid p) eqn:EB; destruct (isCA p) eqn:EC; destruct (beqb (rawSPKI c) entrust) eqn:EE;
    (apply beqb_eq in EE || apply beqb_neq in EE); cbn [negb andb orb];
    destruct (Z.eqb_spec (keyUsage p) 0) as [K|K]; destruct (Z.testbit (keyUsage p) 5) eqn:ET; destruct (knownPubAlg p); cbn [negb andb orb]; intuition congruence.
Qed.
Lemma Verify_inv fuel hok o c chains : Verify check_signature entrust fuel hok o c = Some (Some chains) ->
  isValid c Leaf [] o = true /\ (o_dns o <> [] -> hok = true) /\
  exists cand, (if contains (o_roots o) c then Some [[c]] else option_map fst (buildChains check_signature entrust fuel o c (fun _ => None) [c])) = Some cand /\
    cand <> [] /\ chains <> [] /\
    let us := match o_usages o with [] => [EKU_ServerAuth] | us => us end in
    (existsb (fun u => u =? EKU_Any) us = true /\ chains = cand \/
     existsb (fun u => u =? EKU_Any) us = false /\ chains = filter (fun ch => checkChainForKeyUsage ch us) cand).
Proof.
  unfold Verify. destruct (length (raw c) =? 0)%nat; [discriminate|]. destruct (match o_inter o with Some s => _ | None => _ end); [discriminate|].
  destruct (isValid c Leaf [] o); cbn [negb]; [|discriminate].
  destruct ((0 <? length (o_dns o))%nat && negb hok) eqn:EH; [discriminate|]. intros H. split; [reflexivity|]. split.
  { intros Hd. destruct hok; [reflexivity|]. destruct (o_dns o); [congruence|discriminate]. }
  destruct (if contains (o_roots o) c then _ else _) as [cand|]; [|discriminate]. exists cand. split; [reflexivity|].
  destruct cand as [|ch cand]; [discriminate|]. split; [discriminate|].
  set (us := match o_usages o with [] => [EKU_ServerAuth] | us => us end) in *. clearbody us.
  destruct (existsb (fun u => u =? EKU_Any) us) eqn:EU.
  - injection H as <-. split; [discriminate|]. left. auto.
  - destruct (filter (fun ch => checkChainForKeyUsage ch us) (ch :: cand)) eqn:EF; [discriminate|]. injection H as <-. split; [discriminate|]. right. auto.
Qed.
Lemma cand_valid fuel o c cand : isValid c Leaf [] o = true ->
  (if contains (o_roots o) c then Some [[c]] else option_map fst (buildChains check_signature entrust fuel o c (fun _ => None) [c])) = Some cand ->
  Forall (valid_path signed_by (roots_of o) (inters_of o) (o_now o) (o_dns o) c) cand.
Proof.
  intros HV H. destruct (contains (o_roots o) c) eqn:EC.
  - injection H as <-. constructor; [|constructor]. apply contains_raw in EC as (r & Hr & E).
    destruct (leaf_prefix check_signature entrust o c HV) as (H1 & H2 & H3 & _). split; [exact H1|]. split; [exists r, c; auto|].
    split; [exact H2|]. split; [exact H3|]. intros i a b Ha Hb. destruct i; [discriminate|]. destruct i; discriminate.
  - destruct (buildChains check_signature entrust fuel o c (fun _ => None) [c]) as [[chs ca]|] eqn:EB; [|discriminate]. injection H as <-. cbn [fst].
    destruct (build_ok check_signature entrust o c fuel c (fun _ => None) [c] chs ca) as [F _]; [now apply leaf_prefix|reflexivity| |exact EB|exact F].
    intros k l Hk. discriminate Hk.
Qed.
(** every returned chain is a valid path, whatever the pools look like; the host name was checked *)
Theorem C36_chains_are_valid_paths fuel hostname_ok o c chains :
  Verify check_signature entrust fuel hostname_ok o c = Some (Some chains) ->
  chains <> [] /\ (o_dns o <> [] -> hostname_ok = true) /\
  Forall (valid_path signed_by (roots_of o) (inters_of o) (o_now o) (o_dns o) c) chains.
Proof.
  intros H. apply Verify_inv in H as (HV & HH & cand & HC & _ & Hne & HU). split; [exact Hne|]. split; [exact HH|].
  pose proof (cand_valid _ _ _ _ HV HC) as HF. cbv zeta in HU. destruct HU as [[_ ->]|[_ ->]]; [exact HF|].
  apply Forall_forall. intros ch Hch. apply filter_In in Hch as [Hch _]. rewrite Forall_forall in HF. now apply HF.
Qed.
(** a certificate with path length limit m, at position i of the chain (leaf = 0), has at most m intermediates below it *)
Theorem C37_path_length fuel hostname_ok o c chains chain i b :
  Verify check_signature entrust fuel hostname_ok o c = Some (Some chains) -> In chain chains ->
  nth_error chain i = Some b -> (1 <= i)%nat -> bcValid b = true -> 0 <= maxPathLen b ->
  let below := firstn (i - 1) (tl chain) in zlen below <= maxPathLen b.
Proof.
  intros H Hch Hb Hi HB HM below. apply C36_chains_are_valid_paths in H as (_ & _ & HF). rewrite Forall_forall in HF.
  destruct (HF chain Hch) as (_ & _ & _ & _ & H4). destruct i as [|i]; [lia|].
  assert (Hl : (S i < length chain)%nat) by (apply nth_error_Some; congruence).
  destruct (nth_error chain i) as [a|] eqn:Ea; [|apply nth_error_None in Ea; lia].
  destruct (H4 i a b Ea Hb) as (_ & _ & HP & _). specialize (HP HB HM). unfold below, zlen. rewrite firstn_length. lia.
Qed.
(** termination on every pool, cyclic or not: recursion depth #intermediates + 1 is enough, and the result does not depend on the bound *)
Theorem C38_terminates hostname_ok o c fuel : (length (inters_of o) < fuel)%nat ->
  exists r, forall fuel', (fuel <= fuel')%nat -> Verify check_signature entrust fuel' hostname_ok o c = Some r.
Proof.
  intros Hf. unfold Verify. destruct (length (raw c) =? 0)%nat; [eauto|]. destruct (match o_inter o with Some s => _ | None => _ end); [eauto|].
  destruct (isValid c Leaf [] o) eqn:EV; cbn [negb]; [|eauto]. destruct ((0 <? length (o_dns o))%nat && negb hostname_ok); [eauto|].
  assert (G : exists cand, forall fuel', (fuel <= fuel')%nat ->
     (if contains (o_roots o) c then Some [[c]] else option_map fst (buildChains check_signature entrust fuel' o c (fun _ => None) [c])) = Some cand).
  { destruct (contains (o_roots o) c); [eauto|].
    destruct (build_total check_signature entrust o c fuel c (fun _ => None) [c]) as [r Hr].
    { now apply leaf_prefix. } { reflexivity. } { cbn [length]. lia. }
    exists (fst r). intros f' Hf'. rewrite (build_mono_le _ _ _ _ _ _ _ _ _ Hf' Hr). reflexivity. }
  destruct G as [cand G]. destruct cand as [|l cand]; [eexists; intros f' Hf'; rewrite (G f' Hf'); reflexivity|].
  set (us := match o_usages o with [] => [EKU_ServerAuth] | us => us end). clearbody us.
  destruct (existsb (fun u => u =? EKU_Any) us) eqn:EU; [eexists; intros f' Hf'; rewrite (G f' Hf'); reflexivity|].
  destruct (filter (fun ch => checkChainForKeyUsage ch us) (l :: cand)) as [|x xs] eqn:EF; eexists; intros f' Hf'; rewrite (G f' Hf'); rewrite EF; reflexivity.
Qed.
(** extended key usages: checkChainForKeyUsage itself, and its use in Verify *)
Theorem C39_chain_usage chain usages : chain <> [] -> usages <> [] -> Forall (fun u => 0 <= u) usages ->
  checkChainForKeyUsage chain usages = true <-> exists u, In u usages /\ forall c, In c chain -> permits c u.
Proof. apply checkChainForKeyUsage_spec. Qed.
Theorem C39_verify_usage fuel hostname_ok o c chains : Forall (fun u => 0 <= u) (o_usages o) ->
  Verify check_signature entrust fuel hostname_ok o c = Some (Some chains) ->
  let requested := match o_usages o with [] => [EKU_ServerAuth] | us => us end in
  In EKU_Any requested \/
  forall chain, In chain chains -> exists u, In u requested /\ forall x, In x chain -> permits x u.
Proof.
  intros Hn H. pose proof (C36_chains_are_valid_paths _ _ _ _ _ H) as (_ & _ & HF).
  apply Verify_inv in H as (HV & HH & cand & HC & _ & Hne & HU). cbv zeta in *.
  set (us := match o_usages o with [] => [EKU_ServerAuth] | us => us end) in *.
  assert (Hus : us <> [] /\ Forall (fun u => 0 <= u) us).
  { unfold us. destruct (o_usages o); [|split; [discriminate|assumption]]. split; [discriminate|]. constructor; [unfold EKU_ServerAuth; lia|constructor]. }
  clearbody us. destruct HU as [[HA _]|[_ ->]].
  - left. apply existsb_exists in HA as (u & Hu & E). apply Z.eqb_eq in E. now subst.
  - right. intros ch Hch. rewrite Forall_forall in HF. pose proof (HF ch Hch) as (Hh & _). apply filter_In in Hch as [_ Hch].
    apply C39_chain_usage in Hch; [exact Hch| |tauto|tauto]. destruct ch; [discriminate|congruence].
Qed.

(** ** C70: does Verify find a chain when there is one? *)
(** the search is complete when no certificate limits the path length (and identifiers are consistent) *)
Theorem C70_finds_a_chain_partial fuel hostname_ok o c rhist ihist chain :
  o_roots o = pool_of rhist -> o_inter o = Some (pool_of ihist) -> parsed (c :: rhist ++ ihist) ->
  (forall r x, In r rhist -> In x ihist -> raw r <> raw x) ->
  (forall x, In x (rhist ++ ihist) -> bcValid x = true -> maxPathLen x < 0) ->
  raw c <> [] -> (forall x, In x ihist -> raw x <> []) -> hostname_ok = true -> In EKU_Any (o_usages o) ->
  valid_path signed_by rhist ihist (o_now o) (o_dns o) c chain ->
  (forall i a b, nth_error chain i = Some a -> nth_error chain (S i) = Some b -> authorityKeyId a = [] \/ subjectKeyId b = authorityKeyId a) ->
  (length ihist < fuel)%nat ->
  exists chains, chains <> [] /\ Verify check_signature entrust fuel hostname_ok o c = Some (Some chains).
Proof.
  intros ER EI HP HD HL Hc Hi -> HA HV HK Hf.
  assert (Pr : parsed rhist). { intros a b Ha Hb. apply HP; right; apply in_app_iff; auto. }
  assert (Pi : parsed ihist). { intros a b Ha Hb. apply HP; right; apply in_app_iff; auto. }
  destruct (pool_of_certs rhist Pr) as [NR IR]. destruct (pool_of_certs ihist Pi) as [NI II].
  assert (EIn : inters_of o = certs (pool_of ihist)) by (unfold inters_of; now rewrite EI).
  assert (ERn : roots_of o = certs (pool_of rhist)) by (unfold roots_of; now rewrite ER).
  assert (Hlen : (length (inters_of o) < fuel)%nat).
  { rewrite EIn. apply Nat.le_lt_trans with (length ihist); [|exact Hf]. apply NoDup_incl_length; [exact NI|]. intros x. apply II. }
  assert (Hex : exists u, In u (o_usages o) /\ (u =? EKU_Any) = true) by (exists EKU_Any; split; [exact HA|reflexivity]).
  apply existsb_exists in Hex.
  assert (HV' : valid_path signed_by (roots_of o) (inters_of o) (o_now o) (o_dns o) c chain).
  { destruct HV as (V1 & (r & e & V2 & V3) & V4 & V5 & V6). split; [exact V1|]. split; [exists r, e; split; [rewrite ERn; now apply IR|exact V3]|].
    split; [exact V4|]. split; [exact V5|]. intros i a b Ha Hb. destruct (V6 i a b Ha Hb) as (W1 & W2 & W3 & W4). repeat split; auto; try (now apply W4).
    rewrite EIn. apply II. now apply W4. }
  unfold Verify. destruct (raw c) eqn:Erc; [congruence|]. rewrite <- Erc. replace (length (raw c) =? 0)%nat with false by (rewrite Erc; reflexivity).
  rewrite EI. replace (existsb (fun x => (length (raw x) =? 0)%nat) (certs (pool_of ihist))) with false.
  2:{ symmetry. apply not_true_is_false. intros H. apply existsb_exists in H as (x & Hx & E). apply II, Hi in Hx. destruct (raw x); [congruence|discriminate]. }
  assert (EV : isValid c Leaf [] o = true).
  { destruct HV as (V1 & _ & _ & V5 & _). assert (In c chain) by (destruct chain; [discriminate|]; injection V1 as ->; now left).
    rewrite Forall_forall in V5. specialize (V5 c H).
    assert (forall d, rawIssuer d = rawSubject c -> isValid c Leaf [d] o = true -> isValid c Leaf [] o = true).
    { intros d Hd <-. unfold isValid. cbn [rev app]. rewrite Hd, beqb_refl. cbn [negb].
      assert (P : forall n, n <= 0 -> (bcValid c && (0 <=? maxPathLen c) && (maxPathLen c <? n)) = false).
      { intros n Hn. destruct (bcValid c); [|reflexivity]. cbn [andb]. destruct (0 <=? maxPathLen c) eqn:E; [|reflexivity]. cbn [andb]. lia. }
      rewrite !P by (unfold zlen; cbn [length]; lia). reflexivity. }
    apply (H0 (mkCert [] [] (rawSubject c) [] [] [] 0 0 0 0 [] [] false false 0 0 false [] 0 false [] [] [])); [reflexivity|].
    apply (isValid_conv check_signature entrust); [exact V5|reflexivity|discriminate]. }
  rewrite EV. cbn [negb]. rewrite andb_false_r.
  assert (G : exists ch cand, (if contains (o_roots o) c then Some [[c]] else option_map fst (buildChains check_signature entrust fuel o c (fun _ => None) [c])) = Some (ch :: cand)).
  { destruct (contains (o_roots o) c) eqn:EC; [eauto|].
    assert (HNR : NoDup (map raw (inters_of o))).
    { rewrite EIn. clear - NI II Pi. assert (Q : forall l, (forall x, In x l -> In x ihist) -> NoDup l -> NoDup (map raw l)).
      { induction l as [|x l IH]; intros Hl Hn; [constructor|]. inversion Hn; subst. cbn [map]. constructor; [|apply IH; [intros; apply Hl; now right|assumption]].
        intros Hx. apply in_map_iff in Hx as (y & E & Hy). apply Pi in E; [subst; contradiction|apply Hl; now right|apply Hl; now left]. }
      apply Q; [intros x; apply II|exact NI]. }
    destruct (build_total check_signature entrust o c fuel c (fun _ => None) [c]) as [r Hr].
    { now apply leaf_prefix. } { reflexivity. } { cbn [length]. lia. }
    rewrite Hr. cbn [option_map].
    assert (Hne : fst r <> []).
    { eapply (build_finds check_signature entrust o c HNR) with (chain := chain); [| | | |exact HV'| |exact HK|exact Hr].
      - intros r' x Hr' Hx. rewrite ERn in Hr'. rewrite EIn in Hx. apply HD; [now apply IR|now apply II].
      - intros x Hx. apply HL. apply in_app_iff. rewrite ERn, EIn in Hx. destruct Hx as [Hx|Hx]; [left; now apply IR|right; now apply II].
      - rewrite ER. apply pool_of_inv.
      - intros s Es. rewrite EI in Es. injection Es as <-. apply pool_of_inv.
      - destruct HV as (V1 & (r' & e & V2 & V3 & V4 & V5) & _). destruct chain as [|x [|y t]]; [discriminate| |cbn [length]; lia].
        exfalso. injection V1 as ->. cbn in V3. subst e. assert (contains (o_roots o) c = true); [|congruence].
        assert (r' = c) as ->. { apply HP; [right; apply in_app_iff; auto|now left|now symmetry]. }
        rewrite ER. apply contains_parsed; [apply pool_of_inv| |now apply IR].
        intros a b Ha Hb. assert (Q : forall y, In y (c :: certs (pool_of rhist)) -> In y (c :: rhist ++ ihist)).
        { intros z1 [<-|Hz]; [now left|right; apply in_app_iff; left; now apply IR]. } apply HP; now apply Q. }
    destruct (fst r) as [|ch cand]; [congruence|]. eauto. }
  destruct G as (ch & cand & G). rewrite G. destruct (o_usages o) as [|u us]; [destruct HA|]. rewrite Hex. exists (ch :: cand). split; [discriminate|reflexivity].
Qed.
End Verify.
(** with a path-length limit it is not: a self-signed certificate and a cross-certificate for the same CA among the
    intermediates make Verify reject a leaf that has a valid path.  L: leaf issued by CA "X"; A: self-signed "X"; B: the
    same CA certified by root R ("R", path length at most 1). L-B-R is valid; the search first tries L-A-B, where R's limit is
    exceeded, caches "no chains from B", and gives up. *)
Definition exL : cert := mkCert [1] [10] [88] [1] [] [] 3 0 10 0 [] [] false false (-1) 0 true [] 0 false [] [] [].
Definition exA : cert := mkCert [2] [88] [88] [2] [] [] 3 0 10 0 [] [] true true (-1) 0 true [] 0 false [] [] [].
Definition exB : cert := mkCert [3] [88] [82] [2] [] [] 3 0 10 0 [] [] true true (-1) 0 true [] 0 false [] [] [].
Definition exR : cert := mkCert [4] [82] [82] [4] [] [] 3 0 10 0 [] [] true true 1 0 true [] 0 false [] [] [].
(** who signed: [rawSPKI] is the key; L, A are signed by key 2 and B, R by key 4 *)
Definition ex_sig (child parent : cert) : bool :=
  beqb (rawSPKI parent) (if (nth 0 (raw child) 0 <=? 2) then [2] else [4]).
Definition ex_opts : options := mkOpts [] 5 (Some (pool_of [exA; exB])) (pool_of [exR]) [EKU_Any].
Theorem C70_completeness_refuted : ~ (forall check_signature entrust hostname_ok o c chain fuel,
  valid_path (fun a b => CheckSignatureFrom check_signature entrust a b = true) (roots_of o) (inters_of o) (o_now o) (o_dns o) c chain ->
  raw c <> [] -> hostname_ok = true -> In EKU_Any (o_usages o) -> (length (inters_of o) < fuel)%nat ->
  exists chains, Verify check_signature entrust fuel hostname_ok o c = Some (Some chains)).
Proof.
  intros H. destruct (H ex_sig [99] true ex_opts exL [exL; exB; exR] 3%nat) as [chains E]; [|discriminate|reflexivity|now left|cbn; lia|discriminate E].
  split; [reflexivity|]. split; [exists exR, exR; split; [now left|]; auto|]. split.
  { repeat constructor; cbn; intuition discriminate. }
  assert (N : forall x, permittedDNS x = [] -> excludedDNS x = [] -> unhandledCritical x = 0%nat -> notBefore x = 0 -> notAfter x = 10 -> cert_ok 5 [] x).
  { intros x E1 E2 E3 E4 E5. split; [exact E3|]. rewrite E4, E5. split; [lia|]. split; [now left|]. rewrite E2. intros k []. }
  split; [repeat constructor; apply N; reflexivity|].
  intros i a b Ha Hb. destruct i as [|[|[|i]]]; cbn in Ha, Hb; try discriminate; try (destruct i; discriminate);
    injection Ha as <-; injection Hb as <-; (split; [reflexivity|]); (split; [reflexivity|]); (split; [intros _ HH; cbn in HH |- *; lia|]).
  - intros _. split; [right; now left|auto]. - cbn. intros F. exfalso. now apply F.
Qed.
(** a case that meets the hypotheses of C36-C39 and C70_finds_a_chain_partial: the same pools without the limit *)
Definition exR' : cert := mkCert [4] [82] [82] [4] [] [] 3 0 10 0 [] [] true true (-1) 0 true [] 0 false [] [] [].
Lemma C36_hyps : Verify ex_sig [99] 3 true (mkOpts [] 5 (Some (pool_of [exA; exB])) (pool_of [exR']) []) exL =
  Some (Some [[exL; exA; exB; exR']; [exL; exA; exB; exR']]).
Proof. reflexivity. Qed.
(** note: the first chain appears twice, and the shorter [exL; exB; exR'] is not reported: cached chains keep their own prefix *)

(** ** C40: certificate pools *)
Theorem C40_pool_is_a_set hist c : parsed (c :: hist) ->
  let s := fold_left AddCert hist NewCertPool in
  (contains s c = true <-> In c hist) /\
  NoDup (certs s) /\ certs s = keep_first [] hist /\ Subjects s = map rawSubject (keep_first [] hist).
Proof.
  intros HP. cbv zeta. fold (pool_of hist). assert (HPh : parsed hist) by (intros a b Ha Hb; apply HP; now right).
  destruct (pool_of_certs hist HPh) as [H1 H2]. split; [|split; [exact H1|split]].
  - rewrite contains_parsed; [apply H2|apply pool_of_inv|]. intros a b [<-|Ha] [<-|Hb]; auto; apply HP; try (now left); right; now apply H2.
  - now apply pool_of_order.
  - unfold Subjects. now rewrite pool_of_order.
Qed.
(** lookup of the parents of [c]: exactly the certificates whose subject key id is c's authority key id if c has one and there are
    such certificates, otherwise exactly those whose subject is c's issuer, restricted to those whose key verifies c *)
Theorem C40_lookup check_signature entrust hist c : parsed hist ->
  let s := fold_left AddCert hist NewCertPool in
  let by_key := filter (fun p => beqb (subjectKeyId p) (authorityKeyId c)) (keep_first [] hist) in
  let by_name := filter (fun p => beqb (rawSubject p) (rawIssuer c)) (keep_first [] hist) in
  map snd (findVerifiedParents check_signature entrust (Some s) c) =
  filter (CheckSignatureFrom check_signature entrust c)
    (match authorityKeyId c, by_key with [], _ => by_name | _, [] => by_name | _, _ => by_key end).
Proof.
  intros HP. cbv zeta. fold (pool_of hist). rewrite parents_certs by apply pool_of_inv. rewrite pool_of_order by exact HP. f_equal.
  destruct (authorityKeyId c); [reflexivity|]. destruct (filter _ (keep_first [] hist)); reflexivity.
Qed.
Lemma C40_hyps : parsed [exA; exB; exA] /\ Subjects (fold_left AddCert [exA; exB; exA] NewCertPool) = [[88]; [88]].
Proof. split; [|reflexivity]. intros a b Ha Hb E. cbn in Ha, Hb. intuition subst; try reflexivity; discriminate. Qed.

(** Proofs about X509_model.v. *)
From Coq Require Import Permutation.
From Verif Require Import GoBase GoLemmas X509_spec X509_model.
Open Scope Z_scope.

(** ** Lower-casing *)
Definition not_upper (b : Z) : Prop := ~ (65 <= b <= 90).
Lemma decode_rune_sound b0 t c w : bytes (b0 :: t) -> decode_rune (b0 :: t) = (c, w) -> c <> RuneError -> not_upper c ->
  (1 <= w)%nat /\ Forall not_upper (firstn w (b0 :: t)).
Proof.
  intros Hb. apply bytes_cons in Hb as [Hb0 Hb]. unfold decode_rune, cont, is_byte, not_upper in *.
  repeat match goal with
  | |- context [if ?x then _ else _] => destruct x eqn:?
  | |- context [match ?t with [] => _ | _ => _ end] => destruct t
  end; intros [= <- <-] H1 H2; try (contradiction H1; reflexivity); split; try lia;
  cbn [firstn]; repeat constructor; lia.
Qed.
Lemma already_lower_sound f : forall s, bytes s -> (length s <= f)%nat -> already_lower f s = true -> Forall not_upper s.
Proof.
  induction f as [|f IH]; intros s Hb Hl H.
  - destruct s; [constructor|cbn in Hl; lia].
  - destruct s as [|b0 t]; [constructor|]. cbn [already_lower] in H.
    destruct (decode_rune (b0 :: t)) as [c w] eqn:E. destruct (c =? RuneError) eqn:E1; [discriminate|].
    destruct ((65 <=? c) && (c <=? 90)) eqn:E2; [discriminate|].
    destruct (decode_rune_sound b0 t c w Hb E) as [Hw HF]; [lia|unfold not_upper; lia|].
    rewrite <- (firstn_skipn w (b0 :: t)). apply Forall_app. split; [exact HF|].
    apply IH; [now apply bytes_skipn| |exact H]. rewrite skipn_length. cbn [length] in *. lia.
Qed.
Lemma lower_id s : Forall not_upper s -> lower s = s.
Proof.
  intros H. unfold lower. rewrite <- (map_id s) at 2. apply map_ext_in. intros b Hb. rewrite Forall_forall in H. specialize (H b Hb).
  unfold not_upper, lower_byte in *. now replace ((65 <=? b) && (b <=? 90)) with false by lia.
Qed.
Theorem toLowerCaseASCII_spec s : bytes s -> toLowerCaseASCII s = lower s.
Proof.
  intros Hb. unfold toLowerCaseASCII. destruct (already_lower (length s) s) eqn:E.
  - symmetry. apply lower_id. now apply (already_lower_sound (length s)).
  - unfold lower. apply map_ext_in. intros c Hc. unfold lower_byte, u8.
    assert (Hr : is_byte c). { apply (proj1 (Forall_forall _ _) Hb c Hc). } unfold is_byte in Hr.
    destruct ((65 <=? c) && (c <=? 90)) eqn:E2; [|reflexivity]. apply Z.mod_small. lia.
Qed.
Lemma lower_bytes s : bytes s -> bytes (lower s).
Proof.
  unfold bytes, lower. rewrite Forall_map. apply Forall_impl. intros b. unfold is_byte, lower_byte.
  destruct ((65 <=? b) && (b <=? 90)) eqn:E; lia.
Qed.

(** ** Trailing dot and labels *)
Lemma trim_dot_spec s : without_trailing_dot s (trim_dot s).
Proof.
  unfold trim_dot, without_trailing_dot. destruct (beqb (skipn (length s - 1) s) [dot]) eqn:E.
  - left. apply beqb_eq in E. rewrite <- E. symmetry. apply firstn_skipn.
  - right. split; [reflexivity|]. intros t ->. apply beqb_neq in E. apply E.
    rewrite app_length. cbn [length]. replace (length t + 1 - 1)%nat with (length t) by lia. now apply skipn_app_l.
Qed.
Lemma trailing_unique s a b : without_trailing_dot s a -> without_trailing_dot s b -> a = b.
Proof.
  intros [Ha|[Ha Na]] [Hb|[Hb Nb]].
  - rewrite Ha in Hb. now apply app_inv_tail in Hb.
  - exfalso. now apply (Nb a).
  - exfalso. now apply (Na b).
  - congruence.
Qed.
Lemma split_dot_nonempty s : split_dot s <> [].
Proof. destruct s as [|b t]; cbn [split_dot]; [discriminate|]. destruct (b =? dot); [discriminate|]. destruct (split_dot t); discriminate. Qed.
Lemma split_dot_join ls : ls <> [] -> Forall (fun l => ~ In dot l) ls -> split_dot (join_labels ls) = ls.
Proof.
  assert (one : forall l, ~ In dot l -> split_dot l = [l]).
  { induction l as [|b l IH]; intros H; [reflexivity|]. cbn [split_dot]. destruct (Z.eqb_spec b dot) as [->|Hb]; [exfalso; apply H; now left|].
    rewrite IH; [reflexivity|]. intros Hi. apply H. now right. }
  assert (more : forall l rest, ~ In dot l -> split_dot (l ++ dot :: rest) = l :: split_dot rest).
  { induction l as [|b l IH]; intros rest H; [reflexivity|]. cbn [split_dot app]. destruct (Z.eqb_spec b dot) as [->|Hb]; [exfalso; apply H; now left|].
    rewrite IH; [reflexivity|]. intros Hi. apply H. now right. }
  induction ls as [|l ls IH]; [tauto|]. intros _ H. apply Forall_cons_iff in H as [Hl H]. destruct ls as [|l2 ls].
  - cbn [join_labels]. now apply one.
  - change (join_labels (l :: l2 :: ls)) with (l ++ dot :: join_labels (l2 :: ls)). rewrite more by exact Hl. rewrite IH; [reflexivity|discriminate|exact H].
Qed.
Lemma split_dot_labels s : labels_of s (split_dot s).
Proof.
  split; [apply split_dot_nonempty|]. induction s as [|b t [IH1 IH2]].
  - split; [reflexivity|]. repeat constructor. intros [].
  - cbn [split_dot]. pose proof (split_dot_nonempty t) as Hn. destruct (split_dot t) as [|l ls] eqn:E; [tauto|].
    destruct (Z.eqb_spec b dot) as [->|Hb].
    + split; [|constructor; [intros []|exact IH2]]. change (join_labels ([] :: l :: ls)) with ([] ++ dot :: join_labels (l :: ls)). now rewrite <- IH1.
    + apply Forall_cons_iff in IH2 as [Hl IH2]. split.
      * destruct ls as [|l2 ls]; cbn [join_labels app] in *; now rewrite IH1.
      * constructor; [|exact IH2]. intros [E1|Hi]; [congruence|tauto].
Qed.
Lemma labels_unique s a b : labels_of s a -> labels_of s b -> a = b.
Proof. intros (Ha & Ea & Fa) (Hb & Eb & Fb). rewrite <- (split_dot_join a), <- (split_dot_join b) by auto. congruence. Qed.
Lemma parts_match_S i pp : forall hp, length pp = length hp -> parts_match (S i) pp hp = true <-> pp = hp.
Proof.
  revert i. induction pp as [|p pp IH]; intros i [|h hp] Hl; try discriminate; [tauto|]. cbn [parts_match Nat.eqb andb].
  destruct (beqb p h) eqn:E; cbn [negb].
  - apply beqb_eq in E as ->. rewrite IH by (cbn in Hl; lia). split; [intros ->; reflexivity|intros [= ->]; reflexivity].
  - apply beqb_neq in E. split; [discriminate|]. intros [= -> _]. tauto.
Qed.
Lemma parts_match_0 pp hp : length pp = length hp -> pp <> [] ->
  parts_match 0 pp hp = true <-> tl pp = tl hp /\ (hd [] pp = [42] \/ hd [] pp = hd [] hp).
Proof.
  destruct pp as [|p pp], hp as [|h hp]; try discriminate; [tauto|]. intros Hl _. cbn [parts_match Nat.eqb andb tl hd].
  assert (Hl' : length pp = length hp) by (cbn in Hl; lia).
  destruct (beqb p [42]) eqn:E1.
  - apply beqb_eq in E1. rewrite parts_match_S by exact Hl'. tauto.
  - apply beqb_neq in E1. destruct (beqb p h) eqn:E2; cbn [negb].
    + apply beqb_eq in E2. rewrite parts_match_S by exact Hl'. tauto.
    + apply beqb_neq in E2. split; [discriminate|]. tauto.
Qed.
Theorem matchHostnames_spec pat host : matchHostnames (lower pat) (lower host) = true <-> host_matches pat host.
Proof.
  unfold matchHostnames, host_matches.
  pose proof (trim_dot_spec (lower pat)) as Tp. pose proof (trim_dot_spec (lower host)) as Th.
  pose proof (split_dot_labels (trim_dot (lower pat))) as Lp. pose proof (split_dot_labels (trim_dot (lower host))) as Lh.
  set (p := trim_dot (lower pat)) in *. set (h := trim_dot (lower host)) in *.
  split.
  - destruct ((length p =? 0)%nat || (length h =? 0)%nat) eqn:E1; [discriminate|].
    destruct (negb (length (split_dot p) =? length (split_dot h))%nat) eqn:E2; [discriminate|]. intros H.
    assert (HL : length (split_dot p) = length (split_dot h)) by lia.
    apply (parts_match_0 _ _ HL (split_dot_nonempty p)) in H as [H1 H2].
    exists p, h, (split_dot p), (split_dot h).
    assert (Np : p <> []) by (intros E; rewrite E in E1; discriminate).
    assert (Nh : h <> []) by (intros E; rewrite E, orb_true_r in E1; discriminate). auto 10.
  - intros (p' & h' & pl & hl & T1 & T2 & N1 & N2 & L1 & L2 & HL & H1 & H2).
    rewrite (trailing_unique _ _ _ T1 Tp) in *. rewrite (trailing_unique _ _ _ T2 Th) in *.
    rewrite (labels_unique _ _ _ L1 Lp) in *. rewrite (labels_unique _ _ _ L2 Lh) in *.
    destruct ((length p =? 0)%nat || (length h =? 0)%nat) eqn:E1.
    { destruct p, h; cbn in E1; try discriminate; tauto. }
    rewrite HL, Nat.eqb_refl. cbn [negb]. apply parts_match_0; auto. apply split_dot_nonempty.
Qed.

(** ** Name constraints *)
Lemma lower_app a b : lower (a ++ b) = lower a ++ lower b. Proof. apply map_app. Qed.
Lemma lower_length a : length (lower a) = length a. Proof. apply map_length. Qed.
Lemma last_nth (l : list Z) k : (0 < k)%nat -> (k <= length l)%nat -> nth (k - 1) l 0 = last (firstn k l) 0.
Proof.
  intros H1 H2. destruct k as [|k]; [lia|]. replace (S k - 1)%nat with k by lia.
  rewrite <- (firstn_skipn k l) at 1. rewrite app_nth2; rewrite firstn_length; [|lia].
  replace (k - Nat.min k (length l))%nat with 0%nat by lia.
  destruct (skipn k l) as [|x t] eqn:E. { exfalso. assert (length (skipn k l) = 0)%nat by now rewrite E. rewrite skipn_length in H. lia. }
  replace (S k) with (k + 1)%nat by lia. 
  assert (E2 : firstn (k + 1) l = firstn k l ++ [x]).
  { rewrite <- (firstn_skipn k l) at 1. rewrite E, firstn_app, firstn_firstn, firstn_length.
    replace (Nat.min (k + 1) k) with k by lia. replace (k + 1 - Nat.min k (length l))%nat with 1%nat by lia. reflexivity. }
  rewrite E2, last_last. reflexivity.
Qed.
Theorem matchNameConstraint_spec domain c : matchNameConstraint domain c = true <-> constraint_allows domain c.
Proof.
  unfold matchNameConstraint, constraint_allows, EqualFold. fold (lower c).
  destruct (length c =? 0)%nat eqn:E0; [destruct c; [tauto|discriminate]|].
  assert (Hc : c <> []) by (intros ->; discriminate).
  destruct (length domain <? length c)%nat eqn:E1.
  { split; [discriminate|]. intros [H|[H|[(_ & p & s & -> & H)|(_ & p & s & -> & _ & _ & H)]]]; [tauto| | |];
    apply (f_equal (@length Z)) in H; rewrite !lower_length in H; rewrite ?app_length in E1; cbn [length] in *; lia. }
  set (k := (length domain - length c)%nat). fold (lower (skipn k domain)).
  assert (Hk : length (skipn k domain) = length c) by (rewrite skipn_length; lia).
  assert (suffix : forall p s, domain = p ++ s -> lower s = lower c -> p = firstn k domain /\ s = skipn k domain).
  { intros p s E H. apply (f_equal (@length Z)) in H. rewrite !lower_length in H. assert (HL := f_equal (@length Z) E). rewrite app_length in HL.
    assert (length p = k) by lia. rewrite E. split; symmetry; [now apply firstn_app_l|now apply skipn_app_l]. }
  destruct (beqb (lower (skipn k domain)) (lower c)) eqn:E2; cbn [negb].
  2:{ apply beqb_neq in E2. split; [discriminate|]. intros [H|[H|[(_ & p & s & E & H)|(_ & p & s & E & _ & _ & H)]]]; exfalso; [tauto| | |].
    - destruct (suffix [] domain eq_refl H) as [_ E]. rewrite <- E in E2. tauto.
    - destruct (suffix (p ++ [dot]) s) as [_ E3]; [now rewrite <- app_assoc|exact H|]. rewrite <- E3 in E2. tauto.
    - destruct (suffix p s E H) as [_ E3]. rewrite <- E3 in E2. tauto. }
  apply beqb_eq in E2. destruct (k =? 0)%nat eqn:E3.
  { split; [intros _|reflexivity]. right; left. apply Nat.eqb_eq in E3. rewrite E3 in E2. exact E2. }
  rewrite (last_nth domain k) by lia. replace (nth 0 c 0) with (hd 0 c) by (destruct c; reflexivity).
  assert (Hp : firstn k domain <> []). { intros E. apply (f_equal (@length Z)) in E. rewrite firstn_length in E. cbn in E. lia. }
  assert (HD : domain = firstn k domain ++ skipn k domain) by (symmetry; apply firstn_skipn).
  destruct (Z.eqb_spec (hd 0 c) dot) as [Hd|Hd], (Z.eqb_spec (last (firstn k domain) 0) dot) as [Hl|Hl]; cbn [Bool.eqb negb].
  - split; [discriminate|]. intros [H|[H|[(H & _)|(_ & p & s & E & _ & N & H)]]]; exfalso; try tauto.
    + destruct (suffix [] domain eq_refl H) as [E _]. symmetry in E. tauto.
    + destruct (suffix p s E H) as [-> _]. tauto.
  - split; [intros _|reflexivity]. right; right; right. split; [exact Hd|]. exists (firstn k domain), (skipn k domain). auto.
  - split; [intros _|reflexivity]. right; right; left. split; [exact Hd|].
    exists (removelast (firstn k domain)), (skipn k domain). split; [|exact E2].
    pose proof (app_removelast_last 0 Hp) as HR. rewrite Hl in HR.
    transitivity ((removelast (firstn k domain) ++ [dot]) ++ skipn k domain); [rewrite <- HR; exact HD|now rewrite <- app_assoc].
  - split; [discriminate|]. intros [H|[H|[(_ & p & s & E & H)|(H & _)]]]; exfalso; try tauto.
    + destruct (suffix [] domain eq_refl H) as [E _]. symmetry in E. tauto.
    + destruct (suffix (p ++ [dot]) s) as [E4 _]; [now rewrite <- app_assoc|exact H|]. rewrite <- E4, last_last in Hl. tauto.
Qed.

(** ** Extended key usage *)
Lemma usage_supported_spec u eku : usage_supported u eku = true <->
  In u eku \/ (u = EKU_ServerAuth /\ (In EKU_NetscapeSGC eku \/ In EKU_MicrosoftSGC eku)).
Proof.
  unfold usage_supported. rewrite existsb_exists. split.
  - intros (x & Hx & H). apply orb_true_iff in H as [H|H]; [apply Z.eqb_eq in H; subst; auto|].
    apply andb_true_iff in H as [H1 H2]. apply Z.eqb_eq in H1. apply orb_true_iff in H2 as [H2|H2]; apply Z.eqb_eq in H2; subst; auto.
  - intros [H|[-> [H|H]]]; (eexists; split; [exact H|]); rewrite ?Z.eqb_refl, ?orb_true_r; reflexivity.
Qed.
(** the requested usages that survive: [alive] keeps those satisfying P, crossing out the others *)
Definition crossed (P : Z -> bool) (us : list Z) : list Z := map (fun u => if P u then u else invalidUsage) us.
Definition count_alive (us : list Z) : Z := Z.of_nat (length (filter (fun u => negb (u =? invalidUsage)) us)).
Lemma count_alive_pos us : 0 < count_alive us <-> exists u, In u us /\ u <> invalidUsage.
Proof.
  unfold count_alive. split.
  - intros H. destruct (filter _ us) as [|u l] eqn:E; [cbn in H; lia|]. exists u.
    assert (Hi : In u (u :: l)) by now left. rewrite <- E in Hi. apply filter_In in Hi as [Hi Hv]. split; [exact Hi|]. destruct (Z.eqb_spec u invalidUsage); [discriminate|assumption].
  - intros (u & Hi & Hu). assert (H : In u (filter (fun u => negb (u =? invalidUsage)) us)).
    { apply filter_In. split; [exact Hi|]. apply Z.eqb_neq in Hu. now rewrite Hu. }
    destruct (filter _ us); [contradiction|]. cbn [length]. lia.
Qed.
Lemma cross_out_spec eku todo : forall done r,
  0 < r -> r = count_alive done + count_alive todo ->
  cross_out eku done todo r =
    let us := done ++ crossed (fun u => usage_supported u eku) todo in
    if count_alive us =? 0 then None else Some (us, count_alive us).
Proof.
  induction todo as [|u todo IH]; intros done r Hr E; cbn [cross_out].
  - cbn [crossed map]. rewrite app_nil_r. cbn zeta. change (count_alive []) with 0 in E. replace (count_alive done =? 0) with false by lia. f_equal. f_equal. lia.
  - assert (Ca : forall a b, count_alive (a ++ b) = count_alive a + count_alive b).
    { intros a b. unfold count_alive. rewrite filter_app, app_length. lia. }
    assert (C0 : count_alive [invalidUsage] = 0) by reflexivity.
    change (crossed (fun u => usage_supported u eku) (u :: todo)) with
      ((if usage_supported u eku then u else invalidUsage) :: crossed (fun u => usage_supported u eku) todo).
    change (u :: todo) with ([u] ++ todo) in E. rewrite Ca in E.
    destruct (Z.eqb_spec u invalidUsage) as [->|Hu].
    + rewrite (IH (done ++ [invalidUsage]) r) by (try exact Hr; rewrite Ca; lia). cbn zeta. rewrite <- app_assoc. cbn [app].
      destruct (usage_supported invalidUsage eku); reflexivity.
    + assert (C1 : count_alive [u] = 1). { unfold count_alive. cbn [filter]. apply Z.eqb_neq in Hu. now rewrite Hu. }
      destruct (usage_supported u eku) eqn:ES.
      * rewrite (IH (done ++ [u]) r) by (try exact Hr; rewrite Ca; lia). cbn zeta. rewrite <- app_assoc. reflexivity.
      * cbn zeta. destruct (r - 1 =? 0) eqn:E0.
        -- assert (Hz : count_alive (done ++ invalidUsage :: crossed (fun u => usage_supported u eku) todo) = 0).
           { change (invalidUsage :: crossed (fun u => usage_supported u eku) todo) with ([invalidUsage] ++ crossed (fun u => usage_supported u eku) todo).
             rewrite !Ca, C0. assert (Hle : forall l, 0 <= count_alive l) by (intros; unfold count_alive; lia).
             assert (Hc : forall P l, count_alive (crossed P l) <= count_alive l).
             { intros P l. unfold count_alive, crossed. induction l as [|x l IHl]; [cbn; lia|]. cbn [map filter].
               destruct (P x); [destruct (negb (x =? invalidUsage)); cbn [length] in *; lia|].
               replace (invalidUsage =? invalidUsage) with true by reflexivity. cbn [negb]. destruct (negb (x =? invalidUsage)); cbn [length]; lia. }
             pose proof (Hle done). pose proof (Hle todo). pose proof (Hc (fun u => usage_supported u eku) todo).
             pose proof (Hle (crossed (fun u => usage_supported u eku) todo)). lia. }
           rewrite Hz. reflexivity.
        -- rewrite (IH (done ++ [invalidUsage]) (r - 1)) by (rewrite ?Ca; lia). cbn zeta. rewrite <- app_assoc. reflexivity.
Qed.
Definition permitsb (c : cert) (u : Z) : bool :=
  ((length (extKeyUsage c) =? 0) && (unknownEKU c =? 0))%nat || existsb (fun u => u =? EKU_Any) (extKeyUsage c) || usage_supported u (extKeyUsage c).
Lemma permitsb_spec c u : permitsb c u = true <-> permits c u.
Proof.
  unfold permitsb, permits. rewrite !orb_true_iff, usage_supported_spec, andb_true_iff, !Nat.eqb_eq, length_zero_iff_nil, existsb_exists.
  assert (H : (exists x, In x (extKeyUsage c) /\ (x =? EKU_Any) = true) <-> In EKU_Any (extKeyUsage c)).
  { split; [intros (x & Hx & E); apply Z.eqb_eq in E; now subst|eauto using Z.eqb_refl]. }
  rewrite H. tauto.
Qed.
Lemma check_certs_spec rc : forall us, 0 < count_alive us -> check_certs rc us (count_alive us) = true <->
  exists u, In u us /\ u <> invalidUsage /\ Forall (fun c => permitsb c u = true) rc.
Proof.
  induction rc as [|c rc IH]; intros us Hr; cbn [check_certs].
  - split; [intros _|reflexivity]. apply count_alive_pos in Hr as (u & H1 & H2). eauto.
  - assert (skip : (forall u, permitsb c u = true) -> check_certs rc us (count_alive us) = true <->
             exists u, In u us /\ u <> invalidUsage /\ Forall (fun c => permitsb c u = true) (c :: rc)).
    { intros HA. rewrite IH by exact Hr. split; intros (u & H1 & H2 & H3); exists u; (split; [exact H1|split; [exact H2|]]).
      - constructor; auto. - now apply Forall_cons_iff in H3. }
    destruct ((length (extKeyUsage c) =? 0) && (unknownEKU c =? 0))%nat eqn:E1.
    { apply skip. intros u. unfold permitsb. now rewrite E1. }
    destruct (existsb (fun u => u =? EKU_Any) (extKeyUsage c)) eqn:E2.
    { apply skip. intros u. unfold permitsb. now rewrite E2, orb_true_r. }
    assert (EP : forall u, permitsb c u = usage_supported u (extKeyUsage c)) by (intros u; unfold permitsb; now rewrite E1, E2).
    rewrite (cross_out_spec (extKeyUsage c) us [] (count_alive us)) by (try exact Hr; reflexivity). cbn zeta. cbn [app].
    set (us' := crossed (fun u => usage_supported u (extKeyUsage c)) us).
    assert (HI : forall u, u <> invalidUsage -> In u us' <-> In u us /\ permitsb c u = true).
    { intros u Hu. unfold us', crossed. rewrite in_map_iff. split.
      - intros (x & Hx & Hi). destruct (usage_supported x (extKeyUsage c)) eqn:ES; [subst x; rewrite EP; auto|congruence].
      - intros [Hi HP]. exists u. rewrite <- EP, HP. auto. }
    destruct (count_alive us' =? 0) eqn:E0.
    + split; [discriminate|]. intros (u & H1 & H2 & H3). apply Forall_cons_iff in H3 as [H3 _]. exfalso.
      assert (0 < count_alive us') by (apply count_alive_pos; exists u; split; [apply HI; auto|exact H2]). lia.
    + assert (Hp : 0 < count_alive us') by (unfold count_alive in *; lia). rewrite (IH us' Hp).
      split; intros (u & H1 & H2 & H3); exists u.
      * apply (HI u H2) in H1 as [H1 H4]. auto.
      * apply Forall_cons_iff in H3 as [H3 H4]. split; [apply HI; auto|auto].
Qed.
Theorem checkChainForKeyUsage_spec chain us : chain <> [] -> us <> [] -> Forall (fun u => 0 <= u) us ->
  checkChainForKeyUsage chain us = true <-> exists u, In u us /\ forall c, In c chain -> permits c u.
Proof.
  intros Hc Hu Hn. unfold checkChainForKeyUsage. destruct (length chain =? 0)%nat eqn:E; [destruct chain; [tauto|discriminate]|].
  assert (HA : count_alive us = zlen us).
  { unfold count_alive, zlen. f_equal. clear Hu. induction us as [|u us IH]; [reflexivity|]. apply Forall_cons_iff in Hn as [H1 H2]. cbn [filter].
    unfold invalidUsage at 1. replace (u =? -1) with false by lia. cbn [negb length]. now rewrite IH. }
  rewrite <- HA, check_certs_spec.
  - split.
    + intros (u & H1 & _ & H3). exists u. split; [exact H1|]. intros c Hi. apply permitsb_spec. rewrite Forall_forall in H3. apply H3. now apply -> in_rev.
    + intros (u & H1 & H3). exists u. split; [exact H1|]. split; [rewrite Forall_forall in Hn; specialize (Hn u H1); unfold invalidUsage; lia|].
      apply Forall_forall. intros c Hi. apply permitsb_spec, H3. now apply in_rev.
  - rewrite HA. destruct us; [tauto|]. unfold zlen. cbn [length]. lia.
Qed.

(** ** Certificate pools *)
(** the certificates in [l] with property [P], as the index lists of the maps must describe them *)
Definition idx_where (P : cert -> bool) (l : list cert) : list nat :=
  filter (fun i => match nth_error l i with Some c => P c | None => false end) (seq 0 (length l)).
Definition pool_inv (s : pool) : Prop :=
  (forall k, byName s k = idx_where (fun c => beqb (rawSubject c) k) (certs s)) /\
  (forall k, k <> [] -> bySKI s k = idx_where (fun c => beqb (subjectKeyId c) k) (certs s)).
Lemma idx_where_snoc P l c : idx_where P (l ++ [c]) = idx_where P l ++ (if P c then [length l] else []).
Proof.
  unfold idx_where. rewrite app_length. cbn [length]. rewrite Nat.add_1_r, seq_S, filter_app. cbn [Nat.add filter].
  rewrite nth_error_app2, Nat.sub_diag by lia. cbn [nth_error]. f_equal. apply filter_ext_in. intros i Hi.
  apply in_seq in Hi. now rewrite nth_error_app1 by lia.
Qed.
Lemma idx_where_certs P l : flat_map (fun i => match nth_error l i with Some c => [c] | None => [] end) (idx_where P l) = filter P l.
Proof.
  induction l as [|c l IH] using rev_ind; [reflexivity|]. rewrite idx_where_snoc, flat_map_app, filter_app, <- IH. f_equal.
  - assert (H : forall is, (forall i, In i is -> (i < length l)%nat) ->
      flat_map (fun i => match nth_error (l ++ [c]) i with Some c => [c] | None => [] end) is =
      flat_map (fun i => match nth_error l i with Some c => [c] | None => [] end) is).
    { induction is as [|i is IHis]; intros H; [reflexivity|]. cbn [flat_map]. rewrite IHis by (intros; apply H; now right).
      rewrite nth_error_app1 by (apply H; now left). reflexivity. }
    apply H. intros i Hi. unfold idx_where in Hi. apply filter_In in Hi as [Hi _]. apply in_seq in Hi. lia.
  - cbn [filter]. destruct (P c); [|reflexivity]. cbn [flat_map app]. now rewrite nth_error_app2, Nat.sub_diag by lia.
Qed.
Lemma inv_new : pool_inv NewCertPool. Proof. split; reflexivity. Qed.
Lemma inv_add s c : pool_inv s -> pool_inv (AddCert s c).
Proof.
  intros [H1 H2]. unfold AddCert. destruct (contains s c); [split; assumption|]. split; cbn [byName bySKI certs].
  - intros k. rewrite idx_where_snoc, <- H1. unfold mupd. destruct (beqb k (rawSubject c)) eqn:E.
    + apply beqb_eq in E as ->. now rewrite beqb_refl.
    + apply beqb_neq in E. destruct (beqb (rawSubject c) k) eqn:E2; [apply beqb_eq in E2; congruence|]. now rewrite app_nil_r.
  - intros k Hk. rewrite idx_where_snoc, <- H2 by exact Hk. destruct (length (subjectKeyId c) =? 0)%nat eqn:E0.
    + assert (subjectKeyId c = []) as -> by (destruct (subjectKeyId c); [reflexivity|discriminate]).
      destruct k; [tauto|]. cbn [beqb]. now rewrite app_nil_r.
    + unfold mupd. destruct (beqb k (subjectKeyId c)) eqn:E.
      * apply beqb_eq in E as ->. now rewrite beqb_refl.
      * apply beqb_neq in E. destruct (beqb (subjectKeyId c) k) eqn:E2; [apply beqb_eq in E2; congruence|]. now rewrite app_nil_r.
Qed.
Lemma contains_raw s c : contains s c = true -> exists r, In r (certs s) /\ raw r = raw c.
Proof.
  unfold contains. rewrite existsb_exists. intros (i & _ & H). unfold at_idx in H. destruct (nth_error (certs s) i) as [x|] eqn:E; [|discriminate].
  apply beqb_eq in H. exists x. split; [eapply nth_error_In; eauto|exact H].
Qed.
Lemma contains_spec s c : pool_inv s -> contains s c = true <-> exists r, In r (certs s) /\ raw r = raw c /\ rawSubject r = rawSubject c.
Proof.
  intros [H1 _]. unfold contains. rewrite H1, existsb_exists. unfold idx_where. split.
  - intros (i & Hi & H). apply filter_In in Hi as [_ Hi]. unfold at_idx in H. destruct (nth_error (certs s) i) as [x|] eqn:E; [|discriminate].
    apply beqb_eq in H, Hi. exists x. split; [eapply nth_error_In; eauto|auto].
  - intros (r & Hr & E1 & E2). apply In_nth_error in Hr as [i Hi]. exists i. split.
    + apply filter_In. rewrite Hi, E2, beqb_refl. split; [|reflexivity]. apply in_seq. apply nth_error_Some_lt in Hi || (assert (nth_error (certs s) i <> None) by congruence; apply nth_error_Some in H). lia.
    + unfold at_idx. rewrite Hi. unfold Equal. rewrite E1. apply beqb_refl.
Qed.
Lemma contains_parsed s c : pool_inv s -> parsed (c :: certs s) -> contains s c = true <-> In c (certs s).
Proof.
  intros HI HP. rewrite contains_spec by exact HI. split.
  - intros (r & Hr & E & _). replace c with r; [exact Hr|]. apply HP; [now right|now left|exact E].
  - intros H. exists c. auto.
Qed.
Definition pool_of (hist : list cert) : pool := fold_left AddCert hist NewCertPool.
Lemma pool_of_snoc h c : pool_of (h ++ [c]) = AddCert (pool_of h) c.
Proof. unfold pool_of. now rewrite fold_left_app. Qed.
Lemma pool_of_inv hist : pool_inv (pool_of hist).
Proof. induction hist as [|c h IH] using rev_ind; [exact inv_new|]. rewrite pool_of_snoc. now apply inv_add. Qed.
Lemma pool_of_certs hist : parsed hist -> NoDup (certs (pool_of hist)) /\ (forall c, In c (certs (pool_of hist)) <-> In c hist).
Proof.
  induction hist as [|c h IH] using rev_ind; intros HP; [split; [constructor|tauto]|].
  destruct IH as [IH1 IH2]. { intros a b Ha Hb. apply HP; apply in_app_iff; auto. }
  rewrite pool_of_snoc. unfold AddCert.
  assert (HC : contains (pool_of h) c = true <-> In c h).
  { rewrite <- IH2. apply contains_parsed; [apply pool_of_inv|]. intros a b Ha Hb. apply HP; apply in_app_iff.
    - destruct Ha as [->|Ha]; [right; now left|left; now apply IH2]. - destruct Hb as [->|Hb]; [right; now left|left; now apply IH2]. }
  destruct (contains (pool_of h) c) eqn:E.
  - split; [exact IH1|]. intros x. rewrite IH2, in_app_iff. cbn [In]. assert (In c h) by now apply HC. intuition congruence.
  - cbn [certs]. split.
    + apply NoDup_app_remove_l || idtac. apply (Permutation_NoDup (l := c :: certs (pool_of h))).
      * apply Permutation_cons_append. * constructor; [|exact IH1]. rewrite IH2, <- HC. discriminate.
    + intros x. rewrite !in_app_iff, IH2. tauto.
Qed.

(** ** Chains *)
Section Chains.
Variable check_signature : cert -> cert -> bool.
Variable spki : list Z.
Notation sgn := (fun a b => CheckSignatureFrom check_signature spki a b = true).
Variable o : options.
Definition roots_of := certs (o_roots o).
Definition inters_of := match o_inter o with Some s => certs s | None => [] end.
Lemma parents_in os c i p : In (i, p) (findVerifiedParents check_signature spki os c) ->
  sgn c p /\ exists s, os = Some s /\ In p (certs s).
Proof.
  unfold findVerifiedParents. destruct os as [s|]; [|intros []]. intros H. apply in_flat_map in H as (j & _ & H).
  unfold at_idx in H. destruct (nth_error (certs s) j) as [q|] eqn:E; [|destruct H].
  destruct (CheckSignatureFrom check_signature spki c q) eqn:ES; [|destruct H]. destruct H as [[= <- <-]|[]].
  split; [exact ES|]. exists s. split; [reflexivity|eapply nth_error_In; eauto].
Qed.
Lemma isValid_spec c ty cur : isValid c ty cur o = true ->
  cert_ok (o_now o) (o_dns o) c /\
  (forall child, last (map Some cur) None = Some child -> rawIssuer child = rawSubject c) /\
  (ty = Inter -> bcValid c = true /\ isCA c = true) /\ pathlen_ok (length cur) c.
Proof.
  unfold isValid. destruct (0 <? unhandledCritical c)%nat eqn:E1; [discriminate|].
  destruct (match rev cur with child :: _ => negb (beqb (rawIssuer child) (rawSubject c)) | [] => false end) eqn:E2; [discriminate|].
  destruct ((o_now o <? notBefore c) || (notAfter c <? o_now o)) eqn:E3; [discriminate|].
  destruct ((0 <? length (permittedDNS c))%nat && negb (existsb (matchNameConstraint (o_dns o)) (permittedDNS c))) eqn:E4; [discriminate|].
  destruct (existsb (matchNameConstraint (o_dns o)) (excludedDNS c)) eqn:E5; [discriminate|].
  destruct (match ty with Inter => negb (bcValid c) || negb (isCA c) | _ => false end) eqn:E6; [discriminate|].
  destruct (bcValid c && (0 <=? maxPathLen c) && (maxPathLen c <? zlen cur - 1)) eqn:E7; [discriminate|]. intros _.
  split; [|split; [|split]].
  - split; [lia|]. split; [lia|]. split.
    + destruct (permittedDNS c) as [|k ks] eqn:EP; [now left|right]. rewrite <- EP in *.
      assert (H : existsb (matchNameConstraint (o_dns o)) (permittedDNS c) = true).
      { rewrite EP in E4 |- *. cbn [length] in E4. destruct (existsb _ _); [reflexivity|discriminate]. }
      apply existsb_exists in H as (k' & Hk & H). exists k'. split; [exact Hk|now apply matchNameConstraint_spec].
    + intros k Hk H. apply matchNameConstraint_spec in H. assert (existsb (matchNameConstraint (o_dns o)) (excludedDNS c) = true).
      { apply existsb_exists. eauto. } congruence.
  - intros child Hc. destruct cur as [|x l] using rev_ind; [discriminate|]. clear IHl. rewrite rev_app_distr in E2. cbn [rev app] in E2.
    rewrite map_app in Hc. cbn [map] in Hc. rewrite last_last in Hc. injection Hc as ->. now apply negb_false_iff, beqb_eq in E2.
  - intros ->. destruct (bcValid c), (isCA c); cbn in E6; try discriminate; auto.
  - intros HB HM. rewrite HB in E7. unfold zlen in E7. lia.
Qed.
(** a partial path from the leaf through intermediates *)
Definition prefix_ok (leaf : cert) (cur : list cert) : Prop :=
  hd_error cur = Some leaf /\ NoDup (map raw cur) /\ Forall (cert_ok (o_now o) (o_dns o)) cur /\
  (forall i a b, nth_error cur i = Some a -> nth_error cur (S i) = Some b ->
     sgn a b /\ rawIssuer a = rawSubject b /\ pathlen_ok (S i) b /\ In b inters_of /\ bcValid b = true /\ isCA b = true).
Lemma nth_error_snoc_cases {A} (l : list A) x i y : nth_error (l ++ [x]) i = Some y ->
  (nth_error l i = Some y /\ (i < length l)%nat) \/ (i = length l /\ y = x).
Proof.
  intros H. destruct (Nat.lt_ge_cases i (length l)) as [Hi|Hi].
  - rewrite nth_error_app1 in H by exact Hi. auto.
  - rewrite nth_error_app2 in H by exact Hi. destruct (i - length l)%nat as [|j] eqn:E; [|destruct j; discriminate].
    cbn in H. injection H as ->. right. split; [lia|reflexivity].
Qed.
Lemma not_in_raw cur x : existsb (fun y => Equal y x) cur = false -> ~ In (raw x) (map raw cur).
Proof.
  intros H Hi. apply in_map_iff in Hi as (y & E & Hy). assert (existsb (fun y => Equal y x) cur = true); [|congruence].
  apply existsb_exists. exists y. split; [exact Hy|]. unfold Equal. rewrite E. apply beqb_refl.
Qed.
Lemma nodup_snoc cur x : NoDup (map raw cur) -> existsb (fun y => Equal y x) cur = false -> NoDup (map raw (cur ++ [x])).
Proof.
  intros H1 H2. rewrite map_app. cbn [map]. apply (Permutation_NoDup (l := raw x :: map raw cur)); [apply Permutation_cons_append|].
  constructor; [now apply not_in_raw|exact H1].
Qed.
Lemma hd_error_snoc {A} (l : list A) x y : hd_error l = Some y -> hd_error (l ++ [x]) = Some y.
Proof. destruct l; [discriminate|]. auto. Qed.
Lemma nth_error_last cur (c : cert) : last (map Some cur) None = Some c -> nth_error cur (length cur - 1) = Some c.
Proof.
  destruct cur as [|x l] using rev_ind; [discriminate|]. clear IHl. rewrite map_app. cbn [map]. rewrite last_last. intros [= ->].
  rewrite app_length. cbn [length]. replace (length l + 1 - 1)%nat with (length l) by lia.
  rewrite nth_error_app2, Nat.sub_diag by lia. reflexivity.
Qed.
Lemma prefix_snoc leaf cur c x i : prefix_ok leaf cur -> last (map Some cur) None = Some c ->
  In (i, x) (findVerifiedParents check_signature spki (o_inter o) c) ->
  existsb (fun y => Equal y x) cur = false -> isValid x Inter cur o = true -> prefix_ok leaf (cur ++ [x]).
Proof.
  intros (H1 & H2 & H3 & H4) Hc HP HE HV. apply isValid_spec in HV as (V1 & V2 & V3 & V4).
  apply parents_in in HP as (P1 & s & Es & P2). destruct (V3 eq_refl) as [V5 V6].
  split; [now apply hd_error_snoc|]. split; [now apply nodup_snoc|]. split; [apply Forall_app; auto|].
  intros j a b Ha Hb. apply nth_error_snoc_cases in Hb as [[Hb Hj]|[Hj ->]].
  - rewrite nth_error_app1 in Ha by lia. now apply (H4 j).
  - rewrite nth_error_app1 in Ha by lia. pose proof (nth_error_last _ _ Hc) as Hn. replace (length cur - 1)%nat with j in Hn by lia.
    assert (a = c) as -> by congruence. split; [exact P1|]. split; [now apply V2|].
    split; [now rewrite Hj|]. unfold inters_of. rewrite Es. auto.
Qed.
Notation vpath leaf := (valid_path sgn roots_of inters_of (o_now o) (o_dns o) leaf).
Lemma last_some_ne cur (c : cert) : last (map Some cur) None = Some c -> cur <> [].
Proof. destruct cur; [discriminate|congruence]. Qed.
Lemma path_root leaf cur c x i : prefix_ok leaf cur -> last (map Some cur) None = Some c ->
  In (i, x) (findVerifiedParents check_signature spki (Some (o_roots o)) c) ->
  existsb (fun y => Equal y x) cur = false -> isValid x Root cur o = true -> vpath leaf (cur ++ [x]).
Proof.
  intros (H1 & H2 & H3 & H4) Hc HP HE HV. apply isValid_spec in HV as (V1 & V2 & _ & V4).
  apply parents_in in HP as (P1 & s & Es & P2). injection Es as <-.
  split; [now apply hd_error_snoc|]. split.
  { exists x, x. rewrite last_last. auto. }
  split; [now apply nodup_snoc|]. split; [apply Forall_app; auto|].
  intros j a b Ha Hb. apply nth_error_snoc_cases in Hb as [[Hb Hj]|[Hj ->]].
  - rewrite nth_error_app1 in Ha by lia. destruct (H4 j a b Ha Hb) as (A1 & A2 & A3 & A4). auto.
  - rewrite nth_error_app1 in Ha by lia. pose proof (nth_error_last _ _ Hc) as Hn. replace (length cur - 1)%nat with j in Hn by lia.
    assert (a = c) as -> by congruence. split; [exact P1|]. split; [now apply V2|].
    split; [now rewrite Hj|]. rewrite app_length. cbn [length]. intros E. exfalso; lia.
Qed.
(** the two loops of buildChains, named *)
Definition root_chains (c : cert) (cur : list cert) := flat_map (fun root =>
  if existsb (fun x => Equal x root) cur then [] else if isValid root Root cur o then [cur ++ [root]] else [])
  (map snd (findVerifiedParents check_signature spki (Some (o_roots o)) c)).
Fixpoint inter_loop (f : nat) (cur : list cert) (todo : list (nat * cert)) (cache : cache_t) (chains : list (list cert)) :=
  match todo with
  | [] => Some (chains, cache)
  | (num, inter) :: rest =>
      if existsb (fun x => Equal x inter) cur then inter_loop f cur rest cache chains
      else if negb (isValid inter Inter cur o) then inter_loop f cur rest cache chains
      else match cache num with
           | Some childChains => inter_loop f cur rest cache (chains ++ childChains)
           | None => match buildChains check_signature spki f o inter cache (cur ++ [inter]) with
                     | None => None
                     | Some (childChains, cache') =>
                         inter_loop f cur rest (fun k => if (k =? num)%nat then Some childChains else cache' k) (chains ++ childChains)
                     end
           end
  end.
Lemma build_S f c cache cur : buildChains check_signature spki (S f) o c cache cur =
  inter_loop f cur (findVerifiedParents check_signature spki (o_inter o) c) cache (root_chains c cur).
Proof.
  cbn [buildChains]. fold (root_chains c cur). generalize (root_chains c cur). revert cache.
  generalize (findVerifiedParents check_signature spki (o_inter o) c) as todo.
  induction todo as [|[num inter] rest IH]; intros cache chains; cbn [inter_loop]; [reflexivity|].
  destruct (existsb _ cur); [apply IH|]. destruct (negb _); [apply IH|]. destruct (cache num); [apply IH|].
  destruct (buildChains _ _ _ _ _ _ _) as [[ch ca]|]; [apply IH|reflexivity].
Qed.
Definition cache_ok leaf (cache : cache_t) := forall k chs, cache k = Some chs -> Forall (vpath leaf) chs.
Lemma root_chains_ok leaf c cur : prefix_ok leaf cur -> last (map Some cur) None = Some c -> Forall (vpath leaf) (root_chains c cur).
Proof.
  intros HP Hc. apply Forall_forall. intros ch H. apply in_flat_map in H as (x & Hx & H). apply in_map_iff in Hx as ([i y] & <- & Hy). cbn [snd] in H.
  destruct (existsb _ cur) eqn:E1; [destruct H|]. destruct (isValid y Root cur o) eqn:E2; [|destruct H]. destruct H as [<-|[]].
  eapply path_root; eauto.
Qed.
Lemma last_snoc_some (cur : list cert) x : last (map Some (cur ++ [x])) None = Some x.
Proof. rewrite map_app. cbn [map]. apply last_last. Qed.
Lemma build_ok leaf : forall f c cache cur chs cache', prefix_ok leaf cur -> last (map Some cur) None = Some c -> cache_ok leaf cache ->
  buildChains check_signature spki f o c cache cur = Some (chs, cache') -> Forall (vpath leaf) chs /\ cache_ok leaf cache'.
Proof.
  induction f as [|f IH]; intros c cache cur chs cache' HP Hc HK H; [discriminate|]. rewrite build_S in H.
  assert (G : forall todo cache chains, (forall i x, In (i, x) todo -> In (i, x) (findVerifiedParents check_signature spki (o_inter o) c)) ->
     cache_ok leaf cache -> Forall (vpath leaf) chains -> inter_loop f cur todo cache chains = Some (chs, cache') -> Forall (vpath leaf) chs /\ cache_ok leaf cache').
  { clear H HK cache. induction todo as [|[num x] rest IHt]; intros cache chains Hin HK HF H; cbn [inter_loop] in H.
    - injection H as <- <-. auto.
    - assert (Hin' : forall i x, In (i, x) rest -> In (i, x) (findVerifiedParents check_signature spki (o_inter o) c)) by (intros; apply Hin; now right).
      destruct (existsb _ cur) eqn:E1; [eapply IHt; eauto|]. destruct (isValid x Inter cur o) eqn:E2; cbn [negb] in H; [|eapply IHt; eauto].
      destruct (cache num) as [cc|] eqn:E3.
      + eapply IHt; [exact Hin'|exact HK| |exact H]. apply Forall_app. split; [exact HF|]. now apply (HK num).
      + destruct (buildChains check_signature spki f o x cache (cur ++ [x])) as [[cc ca]|] eqn:E4; [|discriminate].
        apply IH in E4 as [F1 F2]; [|eapply prefix_snoc; eauto; apply Hin; now left|apply last_snoc_some|exact HK].
        eapply IHt; [exact Hin'| |apply Forall_app; split; [exact HF|exact F1]|exact H].
        intros k chs' Hk. destruct (Nat.eqb k num); [injection Hk as <-; exact F1|]. now apply (F2 k). }
  eapply G; [|exact HK|apply root_chains_ok; eauto|exact H]. auto.
Qed.
Lemma prefix_len leaf cur : prefix_ok leaf cur -> (length cur <= S (length inters_of))%nat.
Proof.
  intros (H1 & H2 & _ & H4). destruct cur as [|x t]; [discriminate|]. cbn [length]. apply le_n_S.
  rewrite <- (map_length raw t). rewrite <- (map_length raw inters_of). apply NoDup_incl_length.
  - cbn [map] in H2. now inversion H2.
  - intros r Hr. apply in_map_iff in Hr as (y & <- & Hy). apply in_map. apply In_nth_error in Hy as [j Hj].
    assert (exists a, nth_error (x :: t) j = Some a) as [a Ha].
    { destruct (nth_error (x :: t) j) as [a|] eqn:E; [eauto|]. apply nth_error_None in E.
      assert (nth_error t j <> None) as N by congruence. apply nth_error_Some in N. cbn [length] in E. lia. }
    now destruct (H4 j a y Ha Hj) as (_ & _ & _ & A & _).
Qed.
(** the recursion depth never exceeds the number of intermediates plus one *)
Lemma build_total leaf : forall f c cache cur, prefix_ok leaf cur -> last (map Some cur) None = Some c ->
  (S (length inters_of) < length cur + f)%nat -> exists r, buildChains check_signature spki f o c cache cur = Some r.
Proof.
  induction f as [|f IH]; intros c cache cur HP Hc Hf.
  - apply prefix_len in HP. lia.
  - rewrite build_S.
    assert (G : forall todo cache chains, (forall i x, In (i, x) todo -> In (i, x) (findVerifiedParents check_signature spki (o_inter o) c)) ->
      exists r, inter_loop f cur todo cache chains = Some r).
    { induction todo as [|[num x] rest IHt]; intros ca chains Hin; cbn [inter_loop]; [eauto|].
      assert (Hin' : forall i x, In (i, x) rest -> In (i, x) (findVerifiedParents check_signature spki (o_inter o) c)) by (intros; apply Hin; now right).
      destruct (existsb _ cur) eqn:E1; [now apply IHt|]. destruct (isValid x Inter cur o) eqn:E2; cbn [negb]; [|now apply IHt].
      destruct (ca num); [now apply IHt|].
      destruct (IH x ca (cur ++ [x])) as [[cc ca'] E]; [eapply prefix_snoc; eauto; apply Hin; now left|apply last_snoc_some|rewrite app_length; cbn [length]; lia|].
      rewrite E. now apply IHt. }
    apply G. auto.
Qed.
Lemma build_mono : forall f c cache cur r, buildChains check_signature spki f o c cache cur = Some r -> buildChains check_signature spki (S f) o c cache cur = Some r.
Proof.
  induction f as [|f IH]; intros c cache cur r H; [discriminate|]. rewrite build_S in H. rewrite build_S.
  revert H. generalize (root_chains c cur). revert cache. generalize (findVerifiedParents check_signature spki (o_inter o) c) as todo.
  induction todo as [|[num x] rest IHt]; intros ca chains H; cbn [inter_loop] in H |- *; [exact H|].
  destruct (existsb _ cur); [now apply IHt|]. destruct (negb _); [now apply IHt|]. destruct (ca num); [now apply IHt|].
  destruct (buildChains check_signature spki f o x ca (cur ++ [x])) as [[cc ca']|] eqn:E; [|discriminate].
  rewrite (IH _ _ _ _ E). now apply IHt.
Qed.
Lemma build_mono_le f f' c cache cur r : (f <= f')%nat -> buildChains check_signature spki f o c cache cur = Some r -> buildChains check_signature spki f' o c cache cur = Some r.
Proof. induction 1; auto using build_mono. Qed.
Lemma leaf_prefix c : isValid c Leaf [] o = true -> prefix_ok c [c].
Proof.
  intros H. apply isValid_spec in H as (V & _). split; [reflexivity|]. split; [constructor; [intros []|constructor]|].
  split; [constructor; [exact V|constructor]|]. intros i a b Ha Hb. destruct i; [discriminate|]. destruct i; discriminate.
Qed.
End Chains.

(** ** Pool contents in insertion order *)
Lemma existsb_raw_in c seen : existsb (beqb (raw c)) seen = true <-> In (raw c) seen.
Proof.
  rewrite existsb_exists. split; [intros (x & H & E); apply beqb_eq in E; now rewrite E|]. intros H. exists (raw c). split; [exact H|apply beqb_refl].
Qed.
Lemma keep_first_snoc h : forall seen c, keep_first seen (h ++ [c]) =
  keep_first seen h ++ (if existsb (beqb (raw c)) (seen ++ map raw h) then [] else [c]).
Proof.
  induction h as [|x h IH]; intros seen c; cbn [app keep_first map].
  - rewrite app_nil_r. destruct (existsb _ seen); reflexivity.
  - destruct (existsb (beqb (raw x)) seen) eqn:E.
    + rewrite IH. f_equal. replace (existsb (beqb (raw c)) (seen ++ raw x :: map raw h)) with (existsb (beqb (raw c)) (seen ++ map raw h)); [reflexivity|].
      apply eq_true_iff_eq. rewrite !existsb_raw_in, !in_app_iff. cbn [In]. apply existsb_raw_in in E. split; [tauto|]. intros [H|[H|H]]; auto. left. now rewrite <- H.
    + rewrite IH. cbn [app]. f_equal. f_equal. replace (existsb (beqb (raw c)) (seen ++ raw x :: map raw h)) with (existsb (beqb (raw c)) ((raw x :: seen) ++ map raw h)); [reflexivity|].
      apply eq_true_iff_eq. rewrite !existsb_raw_in. cbn [app In]. rewrite !in_app_iff. cbn [In]. tauto.
Qed.
Lemma pool_of_order hist : parsed hist -> certs (pool_of hist) = keep_first [] hist.
Proof.
  induction hist as [|c h IH] using rev_ind; intros HP; [reflexivity|].
  assert (HPh : parsed h). { intros a b Ha Hb. apply HP; apply in_app_iff; auto. }
  specialize (IH HPh). rewrite keep_first_snoc, <- IH. cbn [app]. rewrite pool_of_snoc. unfold AddCert.
  destruct (pool_of_certs h HPh) as [_ HI].
  assert (HC : contains (pool_of h) c = true <-> In (raw c) (map raw h)).
  { rewrite contains_parsed; [|apply pool_of_inv|].
    - rewrite HI. rewrite in_map_iff. split; [intros H; exists c; auto|]. intros (x & E & Hx).
      replace c with x; [exact Hx|]. apply HP; [apply in_app_iff; auto|apply in_app_iff; right; now left|exact E].
    - intros a b Ha Hb. apply HP; apply in_app_iff.
      + destruct Ha as [->|Ha]; [right; now left|left; now apply HI]. + destruct Hb as [->|Hb]; [right; now left|left; now apply HI]. }
  destruct (contains (pool_of h) c) eqn:E.
  - rewrite (proj2 (existsb_raw_in _ _)) by now apply HC. now rewrite app_nil_r.
  - destruct (existsb (beqb (raw c)) (map raw h)) eqn:E2; [apply existsb_raw_in, HC in E2; discriminate|]. reflexivity.
Qed.
Lemma idx_nil P l : idx_where P l = [] <-> filter P l = [].
Proof.
  rewrite <- idx_where_certs. split; [now intros ->|]. intros H. destruct (idx_where P l) as [|i is] eqn:E; [reflexivity|].
  assert (Hi : In i (idx_where P l)) by (rewrite E; now left). unfold idx_where in Hi. apply filter_In in Hi as [_ Hi].
  cbn [flat_map] in H. destruct (nth_error l i); discriminate.
Qed.
Lemma flat_map_filter {A B} (f : A -> list B) (g : B -> bool) l : flat_map (fun a => filter g (f a)) l = filter g (flat_map f l).
Proof. induction l as [|a l IH]; [reflexivity|]. cbn [flat_map]. now rewrite filter_app, IH. Qed.
Lemma parents_certs chk spki s c : pool_inv s ->
  map snd (findVerifiedParents chk spki (Some s) c) =
  filter (CheckSignatureFrom chk spki c)
    (match authorityKeyId c, filter (fun p => beqb (subjectKeyId p) (authorityKeyId c)) (certs s) with
     | _ :: _, (_ :: _) as l => l
     | _, _ => filter (fun p => beqb (rawSubject p) (rawIssuer c)) (certs s)
     end).
Proof.
  intros [H1 H2]. unfold findVerifiedParents, at_idx.
  assert (G : forall is, map snd (flat_map (fun i => match nth_error (certs s) i with Some p => if CheckSignatureFrom chk spki c p then [(i, p)] else [] | None => [] end) is) =
     filter (CheckSignatureFrom chk spki c) (flat_map (fun i => match nth_error (certs s) i with Some c => [c] | None => [] end) is)).
  { induction is as [|i is IH]; [reflexivity|]. cbn [flat_map]. rewrite map_app, filter_app, IH. f_equal.
    destruct (nth_error (certs s) i); [|reflexivity]. cbn [filter]. destruct (CheckSignatureFrom chk spki c c0); reflexivity. }
  rewrite G. f_equal. unfold candidates. destruct (authorityKeyId c) as [|k0 ks] eqn:EA.
  - cbn [length Nat.ltb Nat.leb]. now rewrite H1, idx_where_certs.
  - replace (0 <? length (k0 :: ks))%nat with true by reflexivity. rewrite H2 by discriminate.
    destruct (idx_where (fun c0 => beqb (subjectKeyId c0) (k0 :: ks)) (certs s)) as [|i is] eqn:E.
    + apply idx_nil in E. rewrite E. now rewrite H1, idx_where_certs.
    + rewrite <- E, idx_where_certs. destruct (filter (fun p => beqb (subjectKeyId p) (k0 :: ks)) (certs s)) eqn:F; [|reflexivity].
      apply idx_nil in F. congruence.
Qed.

(** ** Completeness without path-length constraints *)
Section Complete.
Variable check_signature : cert -> cert -> bool.
Variable spki : list Z.
Variable o : options.
Notation sgn := (fun a b => CheckSignatureFrom check_signature spki a b = true).
Notation inters := (inters_of o). Notation roots := (roots_of o).
Notation fvp := (findVerifiedParents check_signature spki).
Variable leaf : cert.
Hypothesis HI : NoDup (map raw inters).
Hypothesis HD : forall r x, In r roots -> In x inters -> raw r <> raw x.
Hypothesis HL : forall x, In x roots \/ In x inters -> bcValid x = true -> maxPathLen x < 0.
Lemma isValid_local x ty cur c : In x roots \/ In x inters -> last (map Some cur) None = Some c -> isValid x ty cur o = isValid x ty [c] o.
Proof.
  intros Hx Hc. unfold isValid. destruct (0 <? unhandledCritical x)%nat; [reflexivity|].
  assert (E : match rev cur with child :: _ => negb (beqb (rawIssuer child) (rawSubject x)) | [] => false end = negb (beqb (rawIssuer c) (rawSubject x))).
  { destruct cur as [|y l] using rev_ind; [discriminate|]. clear IHl. rewrite rev_app_distr. cbn [rev app].
    rewrite last_snoc_some in Hc. now injection Hc as ->. }
  rewrite E. cbn [rev app].
  assert (P : forall n, (bcValid x && (0 <=? maxPathLen x) && (maxPathLen x <? n)) = false).
  { intros n. destruct (bcValid x) eqn:EB; [|reflexivity]. specialize (HL x Hx EB). replace (0 <=? maxPathLen x) with false by lia. reflexivity. }
  now rewrite !P.
Qed.
Lemma isValid_conv x ty c : cert_ok (o_now o) (o_dns o) x -> rawIssuer c = rawSubject x -> (ty = Inter -> bcValid x = true /\ isCA x = true) -> isValid x ty [c] o = true.
Proof.
  clear HI HD HL. intros (H1 & H2 & H3 & H4) HN HT. unfold isValid. rewrite H1. change (0 <? 0)%nat with false. cbn [rev app]. rewrite HN, beqb_refl. cbn [negb].
  replace ((o_now o <? notBefore x) || (notAfter x <? o_now o)) with false by lia.
  replace ((0 <? length (permittedDNS x))%nat && negb (existsb (matchNameConstraint (o_dns o)) (permittedDNS x))) with false.
  2:{ symmetry. destruct H3 as [->|(k & Hk & HA)]; [reflexivity|]. apply andb_false_iff. right. apply negb_false_iff, existsb_exists. exists k. split; [exact Hk|now apply matchNameConstraint_spec]. }
  replace (existsb (matchNameConstraint (o_dns o)) (excludedDNS x)) with false.
  2:{ symmetry. apply not_true_is_false. intros H. apply existsb_exists in H as (k & Hk & HA). apply matchNameConstraint_spec in HA. now apply (H4 k). }
  replace (match ty with Inter => negb (bcValid x) || negb (isCA x) | _ => false end) with false.
  2:{ destruct ty; try reflexivity. destruct (HT eq_refl) as [-> ->]. reflexivity. }
  unfold zlen. cbn [length]. destruct (bcValid x); [|reflexivity]. cbn [andb]. destruct (0 <=? maxPathLen x) eqn:E; [|reflexivity].
  cbn [andb]. now replace (maxPathLen x <? Z.of_nat 1 - 1) with false by lia.
Qed.
Definition dom (cache : cache_t) (k : nat) := exists l, cache k = Some l.
Definition closed (c : cert) (D : nat -> Prop) (grey : list cert) : Prop :=
  (forall i r, In (i, r) (fvp (Some (o_roots o)) c) -> isValid r Root [c] o = true -> raw r = raw leaf) /\
  (forall i x, In (i, x) (fvp (o_inter o) c) -> isValid x Inter [c] o = true -> D i \/ In (raw x) (map raw grey)).
Definition cinv (cache : cache_t) (grey : list cert) : Prop :=
  forall k l, cache k = Some l -> l = [] /\ forall x, nth_error inters k = Some x -> closed x (dom cache) grey.
Lemma closed_mono c (D D' : nat -> Prop) g g' : (forall k, D k -> D' k) -> (forall r, In r (map raw g) -> In r (map raw g')) -> closed c D g -> closed c D' g'.
Proof. intros HD' Hg [H1 H2]. split; [exact H1|]. intros i x Hi Hx. destruct (H2 i x Hi Hx); auto. Qed.
Lemma fvp_nth i x c : In (i, x) (fvp (o_inter o) c) -> nth_error inters i = Some x.
Proof.
  unfold findVerifiedParents, inters_of. destruct (o_inter o) as [s|]; [|intros []]. intros H. apply in_flat_map in H as (j & _ & H).
  unfold at_idx in H. destruct (nth_error (certs s) j) as [q|] eqn:E; [|destruct H]. destruct (CheckSignatureFrom _ _ c q); [|destruct H].
  destruct H as [[= <- <-]|[]]. exact E.
Qed.
Lemma nth_raw_inj i j x y : nth_error inters i = Some x -> nth_error inters j = Some y -> raw x = raw y -> i = j.
Proof.
  intros Hi Hj E. apply (proj1 (NoDup_nth_error (map raw inters)) HI).
  - rewrite map_length. apply nth_error_Some. congruence.
  - rewrite !nth_error_map, Hi, Hj. cbn [option_map]. now rewrite E.
Qed.
Lemma build_closed : forall f c cache cur cache', last (map Some cur) None = Some c -> hd_error cur = Some leaf -> (forall x, In x (tl cur) -> In x inters) ->
  cinv cache cur -> buildChains check_signature spki f o c cache cur = Some ([], cache') ->
  cinv cache' cur /\ (forall k, dom cache k -> dom cache' k) /\ closed c (dom cache') cur.
Proof.
  induction f as [|f IH]; intros c cache cur cache' Hc Hh Ht HK H; [discriminate|]. rewrite build_S in H.
  assert (G : forall todo cache chains, (forall i x, In (i, x) todo -> In (i, x) (fvp (o_inter o) c)) -> cinv cache cur ->
     inter_loop check_signature spki o f cur todo cache chains = Some ([], cache') ->
     chains = [] /\ cinv cache' cur /\ (forall k, dom cache k -> dom cache' k) /\
     forall i x, In (i, x) todo -> isValid x Inter [c] o = true -> dom cache' i \/ In (raw x) (map raw cur)).
  { clear H HK cache. induction todo as [|[num x] rest IHt]; intros cache chains Hin HK H; cbn [inter_loop] in H.
    - injection H as -> ->. split; [reflexivity|]. split; [exact HK|]. split; [auto|]. intros i x [].
    - assert (Hin' : forall i x, In (i, x) rest -> In (i, x) (fvp (o_inter o) c)) by (intros; apply Hin; now right).
      assert (Hx : nth_error inters num = Some x) by (eapply fvp_nth, Hin; now left).
      assert (HxI : In x inters) by (eapply nth_error_In; eauto).
      destruct (existsb (fun y => Equal y x) cur) eqn:E1.
      { destruct (IHt _ _ Hin' HK H) as (A & B & C & D). split; [exact A|split; [exact B|split; [exact C|]]]. intros i y [[= <- <-]|Hy] HV; [|now apply D]. right.
        apply existsb_exists in E1 as (y & Hy & E). unfold Equal in E. apply beqb_eq in E. rewrite <- E. now apply in_map. }
      rewrite (isValid_local x Inter cur c (or_intror HxI) Hc) in H.
      destruct (isValid x Inter [c] o) eqn:E2; cbn [negb] in H.
      2:{ destruct (IHt _ _ Hin' HK H) as (A & B & C & D). split; [exact A|split; [exact B|split; [exact C|]]]. intros i y [[= <- <-]|Hy] HV; [congruence|now apply D]. }
      destruct (cache num) as [cc|] eqn:E3.
      { destruct (IHt _ _ Hin' HK H) as (A & B & C & D). apply app_eq_nil in A as [A _]. split; [exact A|split; [exact B|split; [exact C|]]].
        intros i y [[= <- <-]|Hy] HV; [left; apply C; eexists; eauto|now apply D]. }
      destruct (buildChains check_signature spki f o x cache (cur ++ [x])) as [[cc ca]|] eqn:E4; [|discriminate].
      remember (fun k => if (k =? num)%nat then Some cc else ca k) as new eqn:En.
      assert (cc = []) as ->.
      { assert (Q : forall todo cache chains, inter_loop check_signature spki o f cur todo cache chains = Some ([], cache') -> chains = []).
        { clear. induction todo as [|[n y] rest IHt]; intros cache chains H; cbn [inter_loop] in H; [congruence|].
          destruct (existsb _ cur); [eauto|]. destruct (negb _); [eauto|]. destruct (cache n); [apply IHt, app_eq_nil in H; tauto|].
          destruct (buildChains _ _ _ _ _ _ _) as [[a b]|]; [|discriminate]. apply IHt, app_eq_nil in H; tauto. }
        apply Q, app_eq_nil in H. tauto. }
      destruct (IH x cache (cur ++ [x]) ca) as (A1 & A2 & A3).
      { apply last_snoc_some. } { now apply hd_error_snoc. }
      { intros y Hy. destruct cur as [|z cur']; [discriminate|]. cbn [tl app] in Hy. apply in_app_iff in Hy as [Hy|[<-|[]]]; [now apply Ht|exact HxI]. }
      { intros k l Hk. destruct (HK k l Hk) as [B1 B2]. split; [exact B1|]. intros y Hy. eapply closed_mono; [| |now apply B2]; auto.
        intros r Hr. rewrite map_app, in_app_iff. auto. }
      { exact E4. }
      assert (HM : forall k, dom ca k -> dom new k). { intros k [l Hk]. rewrite En. unfold dom. destruct (k =? num)%nat; eauto. }
      assert (HNum : dom new num). { exists []. rewrite En, Nat.eqb_refl. reflexivity. }
      assert (HC : forall y, closed y (dom ca) (cur ++ [x]) -> closed y (dom new) cur).
      { intros y [C1 C2]. split; [exact C1|]. intros i z Hi Hz. destruct (C2 i z Hi Hz) as [Hd|Hg]; [auto|].
        rewrite map_app, in_app_iff in Hg. destruct Hg as [Hg|[Hg|[]]]; [auto|]. left.
        rewrite (nth_raw_inj i num z x); [exact HNum|eapply fvp_nth; eauto|exact Hx|now symmetry]. }
      destruct (IHt new (chains ++ []) Hin') as (A & B & C & D).
      { intros k l Hk. rewrite En in Hk. destruct (Nat.eqb_spec k num) as [->|Hn].
        - injection Hk as <-. split; [reflexivity|]. intros y Hy. assert (y = x) as -> by congruence. now apply HC.
        - destruct (A1 k l Hk) as [B1 B2]. split; [exact B1|]. intros y Hy. now apply HC, B2. }
      { exact H. }
      split; [now rewrite app_nil_r in A|]. split; [exact B|]. split; [intros k Hk; apply C, HM, A2, Hk|].
      intros i y [[= <- <-]|Hy] HV; [left; now apply C|now apply D]. }
  destruct (G _ _ _ (fun i x H => H) HK H) as (A & B & C & D). split; [exact B|]. split; [exact C|]. split; [|exact D].
  intros i r Hr HV. destruct (parents_in check_signature spki _ _ _ _ Hr) as (_ & s & Es & Hrs). injection Es as <-.
  assert (Q : root_chains check_signature spki o c cur = [] -> existsb (fun y => Equal y r) cur = true).
  { intros Q. destruct (existsb (fun y => Equal y r) cur) eqn:E; [reflexivity|]. exfalso.
    assert (In (cur ++ [r]) (root_chains check_signature spki o c cur)); [|rewrite Q in *; auto].
    apply in_flat_map. exists r. split; [apply in_map_iff; exists (i, r); auto|]. rewrite E.
    rewrite (isValid_local r Root cur c (or_introl Hrs) Hc), HV. now left. }
  specialize (Q A). apply existsb_exists in Q as (y & Hy & E). unfold Equal in E. apply beqb_eq in E.
  destruct cur as [|z cur']; [discriminate|]. cbn [hd_error] in Hh. injection Hh as ->. destruct Hy as [<-|Hy]; [now symmetry|].
  exfalso. apply (HD r y Hrs); [apply Ht; exact Hy|now symmetry].
Qed.
(** the key identifiers do not lead the search elsewhere *)
Definition keyid_ok (a b : cert) : Prop := authorityKeyId a = [] \/ subjectKeyId b = authorityKeyId a.
Lemma fvp_complete s c p : pool_inv s -> In p (certs s) -> sgn c p -> rawIssuer c = rawSubject p -> keyid_ok c p -> exists i, In (i, p) (fvp (Some s) c).
Proof.
  intros HP Hp HS HN HK. assert (H : In p (map snd (fvp (Some s) c))).
  { rewrite parents_certs by exact HP. apply filter_In. split; [|exact HS].
    assert (Hn : In p (filter (fun p => beqb (rawSubject p) (rawIssuer c)) (certs s))) by (apply filter_In; rewrite HN, beqb_refl; auto).
    destruct HK as [->|E]; [exact Hn|]. destruct (authorityKeyId c) as [|k ks]; [exact Hn|].
    assert (Hs : In p (filter (fun p => beqb (subjectKeyId p) (k :: ks)) (certs s))) by (apply filter_In; rewrite E, beqb_refl; auto).
    destruct (filter (fun p => beqb (subjectKeyId p) (k :: ks)) (certs s)); [destruct Hs|exact Hs]. }
  apply in_map_iff in H as ([i q] & E & H). cbn [snd] in E. subst q. eauto.
Qed.
Lemma nth_error_last_ne {A} (l : list A) d : l <> [] -> nth_error l (length l - 1) = Some (last l d).
Proof.
  destruct l as [|x l] using rev_ind; [congruence|]. intros _. rewrite last_last, app_length. cbn [length]. replace (length l + 1 - 1)%nat with (length l) by lia.
  rewrite nth_error_app2, Nat.sub_diag by lia. reflexivity.
Qed.
Lemma build_finds chain f r : pool_inv (o_roots o) -> (forall s, o_inter o = Some s -> pool_inv s) ->
  valid_path sgn roots inters (o_now o) (o_dns o) leaf chain -> (2 <= length chain)%nat ->
  (forall i a b, nth_error chain i = Some a -> nth_error chain (S i) = Some b -> keyid_ok a b) ->
  buildChains check_signature spki f o leaf (fun _ => None) [leaf] = Some r -> fst r <> [].
Proof.
  intros HPR HPI (H1 & (rt & e & Hr & Hl & He & Hor) & H2 & H3 & H4) Hlen HK HB E. destruct r as [chs ca]. cbn [fst] in E. subst chs.
  apply build_closed in HB as (C1 & _ & C3); [|reflexivity|reflexivity|intros x []|discriminate].
  assert (Hc0 : nth_error chain 0 = Some leaf) by (destruct chain; [discriminate|]; cbn in *; congruence).
  assert (Hdist : forall i x, nth_error chain (S i) = Some x -> raw x <> raw leaf).
  { intros i x Hx Ex. assert (S i = 0%nat); [|discriminate]. apply (proj1 (NoDup_nth_error (map raw chain)) H2).
    - rewrite map_length. apply nth_error_Some. congruence.
    - rewrite !nth_error_map, Hx, Hc0. cbn [option_map]. now rewrite Ex. }
  assert (G : forall i x, (S i < length chain)%nat -> nth_error chain i = Some x -> closed x (dom ca) [leaf]).
  { induction i as [|i IHi]; intros x Hi Hx; [assert (x = leaf) as -> by congruence; exact C3|].
    destruct (nth_error chain i) as [a|] eqn:Ea; [|apply nth_error_None in Ea; lia].
    destruct (IHi a) as [_ D2]; [lia|reflexivity|]. destruct (H4 i a x Ea Hx) as (A1 & A2 & _ & A4). destruct A4 as (A4 & A5 & A6); [lia|].
    assert (exists j, In (j, x) (fvp (o_inter o) a)) as [j Hj].
    { unfold inters_of in A4. destruct (o_inter o) as [s|] eqn:Es; [|destruct A4]. apply fvp_complete; auto. eapply HK; eauto. }
    destruct (D2 j x Hj) as [[l Hd]|Hg].
    - apply isValid_conv; auto. rewrite Forall_forall in H3. apply H3. eapply nth_error_In; eauto.
    - destruct (C1 j l Hd) as [_ Q]. apply Q. eapply fvp_nth; eauto.
    - exfalso. destruct Hg as [Hg|[]]. apply (Hdist i x Hx). now symmetry. }
  assert (Hne : chain <> []) by (destruct chain; [discriminate|congruence]).
  assert (Hroot : nth_error chain (S (length chain - 2)) = Some rt).
  { replace (S (length chain - 2)) with (length chain - 1)%nat by lia. rewrite (nth_error_last_ne chain leaf) by exact Hne. f_equal. rewrite Hl.
    destruct Hor as [ -> | -> ]; [reflexivity|]. cbn in Hlen. lia. }
  destruct (nth_error chain (length chain - 2)) as [a|] eqn:Ea; [|apply nth_error_None in Ea; lia].
  destruct (G (length chain - 2)%nat a) as [D1 _]; [lia|exact Ea|].
  destruct (H4 _ a rt Ea Hroot) as (A1 & A2 & _ & _).
  destruct (fvp_complete (o_roots o) a rt HPR Hr A1 A2) as [j Hj]; [eapply HK; eauto|].
  apply (Hdist _ rt Hroot). apply (D1 j rt Hj). apply isValid_conv; auto; [|discriminate].
  rewrite Forall_forall in H3. apply H3. eapply nth_error_In; eauto.
Qed.
End Complete.

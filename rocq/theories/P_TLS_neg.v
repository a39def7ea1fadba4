(** Negotiation and configuration: C65-C69, C76, C78-C81. *)
From Verif Require Import GoBase GoLemmas TLS_record_model TLS_ticket_model TLS_neg_model.
From Coq Require Import Permutation.
Open Scope Z_scope.

(** ** C65: version negotiation.  0 is an unset MinVersion/MaxVersion; the defaults are then GMSSL 1.1 (0x0101) and TLS 1.2 (0x0303). *)
Theorem C65_mutual_version (cfgMin cfgMax v : Z) :
  let lo := if Z.eq_dec cfgMin 0 then 0x0101 else cfgMin in
  let hi := if Z.eq_dec cfgMax 0 then 0x0303 else cfgMax in
  (mutualVersion cfgMin cfgMax v = None <-> v < lo) /\
  (lo <= v -> mutualVersion cfgMin cfgMax v = Some (Z.min v hi)).
Proof.
  cbv zeta. unfold mutualVersion, minVersion, maxVersion, minVersionConst, maxVersionConst, VersionGMSSL, VersionTLS12.
  assert (E1 : (if cfgMin =? 0 then 0x0101 else cfgMin) = if Z.eq_dec cfgMin 0 then 0x0101 else cfgMin)
    by (destruct (Z.eqb_spec cfgMin 0), (Z.eq_dec cfgMin 0); congruence).
  assert (E2 : (if cfgMax =? 0 then 0x0303 else cfgMax) = if Z.eq_dec cfgMax 0 then 0x0303 else cfgMax)
    by (destruct (Z.eqb_spec cfgMax 0), (Z.eq_dec cfgMax 0); congruence).
  rewrite E1, E2. set (lo := if Z.eq_dec cfgMin 0 then 0x0101 else cfgMin). set (hi := if Z.eq_dec cfgMax 0 then 0x0303 else cfgMax).
  clearbody lo hi. destruct (Z.ltb_spec v lo) as [H|H].
  - split; [split; auto|intros; exfalso; lia].
  - split; [split; [discriminate|intros; exfalso; lia]|]. intros _. f_equal. destruct (Z.ltb_spec hi v); lia.
Qed.
(** the standard client accepts the server's version exactly when it is at least MinVersion and the agreed version is at least TLS 1.0 *)
Theorem C65_client_version (cfgMin cfgMax v w : Z) :
  let lo := if Z.eq_dec cfgMin 0 then 0x0101 else cfgMin in
  let hi := if Z.eq_dec cfgMax 0 then 0x0303 else cfgMax in
  pickTLSVersion cfgMin cfgMax v = Some w <-> lo <= v /\ w = Z.min v hi /\ 0x0301 <= w.
Proof.
  cbv zeta. unfold pickTLSVersion.
  pose proof (C65_mutual_version cfgMin cfgMax v) as [H1 H2]. cbv zeta in *.
  set (lo := if Z.eq_dec cfgMin 0 then 0x0101 else cfgMin) in *. set (hi := if Z.eq_dec cfgMax 0 then 0x0303 else cfgMax) in *.
  clearbody lo hi. destruct (Z_lt_le_dec v lo) as [L|L].
  - rewrite (proj2 H1 L). split; [discriminate|]. intros (A & _). exfalso. lia.
  - rewrite (H2 L). unfold VersionTLS10. destruct (Z.ltb_spec (Z.min v hi) 769) as [B|B].
    + split; [discriminate|]. intros (_ & -> & C). exfalso; lia.
    + split; [intros [= <-]; auto|]. intros (_ & -> & _). reflexivity.
Qed.
Lemma C65_hyps : mutualVersion 0x0301 0x0303 0x0305 = Some 0x0303 /\ mutualVersion 0x0301 0x0303 0x0302 = Some 0x0302 /\
  mutualVersion 0x0301 0x0303 0x0300 = None.
Proof. repeat split. Qed.

(** ** C76: "If zero, then TLS 1.0 is taken as the minimum" (common.go:491-493) is false: SSL 3.0, and numbers that are no version at all, are agreed to. *)
Theorem C76_default_minimum_refuted :
  ~ (forall cfgMax v w, mutualVersion 0 cfgMax v = Some w -> 0x0301 <= w).
Proof. intros H. specialize (H 0 0x0300 0x0300 eq_refl). lia. Qed.
(** every number from 0x0101 up to MaxVersion is agreed to unchanged when MinVersion is unset; with MinVersion set the claim holds *)
Theorem C76_what_is_accepted_partial :
  (forall cfgMax v, cfgMax <> 0 -> 0x0101 <= v <= cfgMax -> mutualVersion 0 cfgMax v = Some v) /\
  (forall v, 0x0101 <= v <= 0x0303 -> mutualVersion 0 0 v = Some v) /\
  (forall cfgMin cfgMax v w, cfgMin <> 0 -> (cfgMax = 0 /\ cfgMin <= 0x0303) \/ cfgMin <= cfgMax -> mutualVersion cfgMin cfgMax v = Some w -> cfgMin <= w).
Proof.
  split; [|split].
  - intros M v Hm Hv. destruct (C65_mutual_version 0 M v) as [_ H]. cbn [Z.eq_dec] in H.
    destruct (Z.eq_dec M 0); [lia|]. rewrite H by (destruct (Z.eq_dec 0 0); lia). f_equal. lia.
  - intros v Hv. destruct (C65_mutual_version 0 0 v) as [_ H].
    destruct (Z.eq_dec 0 0); [|lia]. rewrite H by lia. f_equal. lia.
  - intros m M v w Hm HM E. destruct (C65_mutual_version m M v) as [H1 H2].
    destruct (Z.eq_dec m 0) as [|Hm']; [lia|].
    destruct (Z_lt_le_dec v m) as [L|L]; [apply H1 in L; congruence|].
    rewrite (H2 L) in E. injection E as <-. destruct (Z.eq_dec M 0); lia.
Qed.

(** ** C66: cipher suites.  "The library implements id": the table has an entry with that id. *)
Lemma find_suite_spec id l s : find_suite id l = Some s -> In s l /\ su_id s = id.
Proof.
  induction l as [|a l IH]; cbn; [discriminate|]. destruct (Z.eqb_spec (su_id a) id) as [E|E]; intros H.
  - injection H as <-. auto.
  - destruct (IH H). auto.
Qed.
Lemma find_suite_none id l : find_suite id l = None <-> forall s, In s l -> su_id s <> id.
Proof.
  induction l as [|a l IH]; cbn; [split; auto|]. destruct (Z.eqb_spec (su_id a) id) as [E|E].
  - split; [discriminate|]. intros H. exfalso. apply (H a); auto.
  - rewrite IH. split; [intros H s [<-|Hs]; auto|auto].
Qed.
Lemma find_suite_iff id l s : NoDup (map su_id l) -> (find_suite id l = Some s <-> In s l /\ su_id s = id).
Proof.
  intros ND. split; [apply find_suite_spec|]. intros [Hin He].
  induction l as [|a l IH]; cbn; [destruct Hin|]. inversion ND; subst. destruct (Z.eqb_spec (su_id a) (su_id s)) as [E|E].
  - destruct Hin as [->|Hin]; [reflexivity|]. exfalso. apply H1. rewrite E. apply in_map; auto.
  - destruct Hin as [->|Hin]; [congruence|]. apply IH; auto.
Qed.
Lemma tables_nodup : NoDup (map su_id cipherSuites) /\ NoDup (map su_id gmCipherSuites).
Proof. split; repeat (constructor; [intros H; repeat (destruct H as [H|H]; [discriminate|]); exact H|]); constructor. Qed.
Lemma mutual_suite_iff table have want s : NoDup (map su_id table) ->
  (mutual_suite table have want = Some s <-> In want have /\ In s table /\ su_id s = want).
Proof.
  intros ND. induction have as [|a have IH]; cbn; [split; [discriminate|tauto]|].
  destruct (Z.eqb_spec a want) as [->|E].
  - rewrite find_suite_iff by auto. tauto.
  - rewrite IH. split; [tauto|]. intros ([|H] & H2); [congruence|tauto].
Qed.
Theorem C66_mutual_suite (have : list Z) (want : Z) (s : suite) :
  (mutualCipherSuite have want = Some s <-> In want have /\ In s cipherSuites /\ su_id s = want) /\
  (mutualCipherSuiteGM have want = Some s <-> In want have /\ In s gmCipherSuites /\ su_id s = want).
Proof. split; apply mutual_suite_iff; apply tables_nodup. Qed.

Lemma set_suite_iff table ok id supported c :
  set_suite table ok id supported = Some c <-> In id supported /\ find_suite id table = Some c /\ ok c = true.
Proof.
  induction supported as [|s l IH]; cbn; [split; [discriminate|tauto]|].
  destruct (Z.eqb_spec id s) as [->|E].
  - destruct (find_suite s table) as [c'|] eqn:F.
    + destruct (ok c') eqn:K.
      * split; [intros [= <-]; auto|]. intros (_ & [= <-] & _). reflexivity.
      * rewrite IH. split; [tauto|]. intros (_ & [= ->] & HH). congruence.
    + rewrite IH. split; [tauto|]. intros (_ & HH & _). discriminate.
  - rewrite IH. split; [tauto|]. intros ([|] & HH); [congruence|tauto].
Qed.
(** [usable id c]: id is supported by the other side, implemented as c, and c suits this connection *)
Definition usable (table : list suite) (ok : suite -> bool) (supported : list Z) (id : Z) (c : suite) : Prop :=
  In id supported /\ In c table /\ su_id c = id /\ ok c = true.
Lemma select_iff table ok preference supported c : NoDup (map su_id table) ->
  (select_suite table ok preference supported = Some c <->
   exists before id after, preference = before ++ id :: after /\ usable table ok supported id c /\
     forall id' c', In id' before -> ~ usable table ok supported id' c').
Proof.
  intros ND.
  assert (SU : forall id c, set_suite table ok id supported = Some c <-> usable table ok supported id c).
  { intros id c'. rewrite set_suite_iff, find_suite_iff by auto. unfold usable. tauto. }
  induction preference as [|a pre IH]; cbn.
  { split; [discriminate|]. intros ([|] & id & after & E & _); discriminate. }
  destruct (set_suite table ok a supported) as [c'|] eqn:F.
  - split.
    + intros [= <-]. exists [], a, pre. split; [reflexivity|]. split; [apply SU; auto|]. intros ? ? [].
    + intros (before & id & after & E & U & N). destruct before as [|b before]; cbn in E.
      * injection E as <- <-. apply SU in U. congruence.
      * injection E as <- E. exfalso. apply (N a c'); [left; reflexivity|]. apply SU; auto.
  - rewrite IH. split.
    + intros (before & id & after & E & U & N). exists (a :: before), id, after. subst. split; [reflexivity|]. split; [auto|].
      intros id' c' [<-|H]; [|apply N; auto]. intros U'. apply SU in U'. congruence.
    + intros (before & id & after & E & U & N). destruct before as [|b before]; cbn in E.
      * injection E as <- <-. apply SU in U. congruence.
      * injection E as <- E. exists before, id, after. split; [auto|]. split; [auto|]. intros. apply N. right; auto.
Qed.
Lemma select_none table ok preference supported : NoDup (map su_id table) ->
  (select_suite table ok preference supported = None <-> forall id c, In id preference -> ~ usable table ok supported id c).
Proof.
  intros ND. split.
  - intros E id c Hin U. induction preference as [|a pre IH]; cbn in *; [auto|].
    destruct (set_suite table ok a supported) eqn:F; [discriminate|]. destruct Hin as [<-|Hin]; [|auto].
    destruct U as (U1 & U2 & U3 & U4).
    assert (set_suite table ok a supported = Some c) by (apply set_suite_iff; rewrite find_suite_iff by auto; auto). congruence.
  - intros H. destruct (select_suite table ok preference supported) eqn:E; [|reflexivity].
    apply select_iff in E as (b & id & a & -> & U & _); auto. exfalso. apply (H id s); [apply in_elt|auto].
Qed.
(** the suite the server picks: the first one of the preferring side's list that the other side lists, the library implements and the
    connection can use; none when there is no such suite.  Holds for the standard and for the GM table. *)
Theorem C66_server_selection (gm : bool) (ok : suite -> bool) (preferServer : bool) (server client : list Z) :
  let table := if gm then gmCipherSuites else cipherSuites in
  let preference := if preferServer then server else client in
  let other := if preferServer then client else server in
  (forall c, negotiate_suite table ok preferServer server client = Some c <->
     exists before id after, preference = before ++ id :: after /\
       (In id other /\ In c table /\ su_id c = id /\ ok c = true) /\
       forall id' c', In id' before -> ~ (In id' other /\ In c' table /\ su_id c' = id' /\ ok c' = true)) /\
  (negotiate_suite table ok preferServer server client = None <->
     forall id c, In id preference -> ~ (In id other /\ In c table /\ su_id c = id /\ ok c = true)).
Proof.
  cbv zeta. assert (ND : NoDup (map su_id (if gm then gmCipherSuites else cipherSuites))) by (destruct gm; apply tables_nodup).
  unfold negotiate_suite. split; [intros c|]; destruct preferServer; first [apply select_iff | apply select_none]; auto.
Qed.
(** a suite that needs TLS 1.2 is never picked on an older version, an ECDHE suite never without a common curve, and the server's key
    must fit: [ok] as the two setCipherSuite functions compute it *)
Theorem C66_suite_conditions (ell ecdsa rsaS rsaD : bool) (version : Z) (c : suite) :
  std_suite_ok ell ecdsa rsaS rsaD version c = true <->
  (Z.land (su_flags c) suiteTLS12 <> 0 -> VersionTLS12 <= version) /\
  (Z.land (su_flags c) suiteECDHE <> 0 -> ell = true /\ (Z.land (su_flags c) suiteECDSA <> 0 -> ecdsa = true) /\ (Z.land (su_flags c) suiteECDSA = 0 -> rsaS = true)) /\
  (Z.land (su_flags c) suiteECDHE = 0 -> rsaD = true).
Proof.
  unfold std_suite_ok, has_flag.
  destruct (Z.eqb_spec (Z.land (su_flags c) suiteECDHE) 0), (Z.eqb_spec (Z.land (su_flags c) suiteECDSA) 0),
           (Z.eqb_spec (Z.land (su_flags c) suiteTLS12) 0), (Z.ltb_spec version VersionTLS12), ell, ecdsa, rsaS, rsaD; cbn;
    intuition (try discriminate; try lia; try (exfalso; lia)).
Qed.
Lemma C66_hyps :
  negotiate_suite cipherSuites (std_suite_ok true true true true VersionTLS12) false (cfg_cipherSuites None) [0x9999; 0x0035; 0xc02f]
    = Some (mkSuite 0x0035 0) /\
  negotiate_suite cipherSuites (std_suite_ok true true true true VersionTLS12) true (cfg_cipherSuites None) [0x9999; 0x0035; 0xc02f]
    = Some (mkSuite 0xc02f 5) /\
  negotiate_suite gmCipherSuites (gm_suite_ok VersionGMSSL) false (getCipherSuites None) [0xe013] = Some (mkSuite 0xe013 2) /\
  negotiate_suite cipherSuites (std_suite_ok true true true true VersionTLS11) false (cfg_cipherSuites None) [0xc02f] = None.
Proof. repeat split. Qed.
(** an unset list: exactly the implemented suites not marked default-off, each once *)
Theorem C66_default_suites :
  NoDup defaultCipherSuites /\
  (forall id, In id defaultCipherSuites <-> exists s, In s cipherSuites /\ su_id s = id /\ Z.land (su_flags s) suiteDefaultOff = 0).
Proof.
  split.
  - assert (E : (fix nd (l : list Z) := match l with [] => true | x :: t => negb (existsb (Z.eqb x) t) && nd t end) defaultCipherSuites = true) by reflexivity.
    revert E. generalize defaultCipherSuites. induction l as [|x l IH]; intros E; [constructor|].
    apply andb_true_iff in E as [E1 E2]. constructor; auto. intros Hin. apply negb_true_iff in E1.
    assert (existsb (Z.eqb x) l = true) by (apply existsb_exists; exists x; split; [auto|apply Z.eqb_refl]). congruence.
  - intros id. split.
    + assert (F : Forall (fun i => exists s, In s cipherSuites /\ su_id s = i /\ Z.land (su_flags s) suiteDefaultOff = 0) defaultCipherSuites).
      { assert (B : forallb (fun i => existsb (fun s => (su_id s =? i) && (Z.land (su_flags s) suiteDefaultOff =? 0)) cipherSuites) defaultCipherSuites = true) by reflexivity.
        apply Forall_forall. intros i Hi. rewrite forallb_forall in B. apply B in Hi. apply existsb_exists in Hi as (s & Hs & E).
        apply andb_true_iff in E as [E1 E2]. exists s. repeat split; [auto|now apply Z.eqb_eq|now apply Z.eqb_eq]. }
      rewrite Forall_forall in F. apply F.
    + intros (s & Hs & <- & E).
      assert (B : forallb (fun s => negb (Z.land (su_flags s) suiteDefaultOff =? 0) || existsb (Z.eqb (su_id s)) defaultCipherSuites) cipherSuites = true) by reflexivity.
      rewrite forallb_forall in B. apply B in Hs. rewrite E in Hs. change (existsb (Z.eqb (su_id s)) defaultCipherSuites = true) in Hs.
      apply existsb_exists in Hs as (x & Hx & Ex). apply Z.eqb_eq in Ex. rewrite Ex. exact Hx.
Qed.
(** RFC 7507: the connection is refused exactly when the client signals a fallback and offered less than the server's maximum *)
Theorem C66_fallback (suites : list Z) (clientVers maxV : Z) :
  bad_fallback suites clientVers maxV = true <-> In 0x5600 suites /\ clientVers < maxV.
Proof.
  induction suites as [|a l IH]; cbn; [split; [discriminate|tauto]|].
  unfold TLS_FALLBACK_SCSV. destruct (Z.eqb_spec a 0x5600) as [->|E].
  - rewrite Z.ltb_lt. tauto.
  - rewrite IH. split; [tauto|]. intros ([|] & ?); [congruence|tauto].
Qed.
(** protocol negotiation: the first preferred protocol the peer lists; else the peer's first, flagged as no overlap *)
Theorem C66_protocol (protos preference : list (list Z)) :
  (forall p, mutualProtocol protos preference = Ok (p, false) <->
     exists before after, preference = before ++ p :: after /\ In p protos /\ forall q, In q before -> ~ In q protos) /\
  (forall p, mutualProtocol protos preference = Ok (p, true) <->
     (exists rest, protos = p :: rest) /\ forall q, In q preference -> ~ In q protos) /\
  (protos <> [] -> mutualProtocol protos preference <> Panic).
Proof.
  assert (X : forall s, existsb (beqb s) protos = true <-> In s protos).
  { intros s. rewrite existsb_exists. split; [intros (x & H & E); apply beqb_eq in E; now subst|]. intros H. exists s. split; [auto|apply beqb_refl]. }
  assert (MS : forall p, mutual_proto preference protos = Some p <->
     exists before after, preference = before ++ p :: after /\ In p protos /\ forall q, In q before -> ~ In q protos).
  { induction preference as [|s l IH]; cbn; intros p.
    - split; [discriminate|]. intros ([|] & after & E & _); discriminate.
    - destruct (existsb (beqb s) protos) eqn:B.
      + apply X in B. split.
        * intros [= <-]. exists [], l. repeat split; auto.
        * intros ([|b before] & after & E & Hp & N); cbn in E; injection E as <- E; [reflexivity|]. exfalso. apply (N s); [left|]; auto.
      + assert (~ In s protos) by (intros C; apply X in C; congruence). rewrite IH. split.
        * intros (before & after & -> & Hp & N). exists (s :: before), after. repeat split; auto. intros q [<-|Hq]; auto.
        * intros ([|b before] & after & E & Hp & N); cbn in E; injection E as <- E; [tauto|]. exists before, after. repeat split; auto.
          intros. apply N. right; auto. }
  assert (MN : mutual_proto preference protos = None <-> forall q, In q preference -> ~ In q protos).
  { clear MS. induction preference as [|s l IH]; cbn; [split; auto|]. destruct (existsb (beqb s) protos) eqn:B.
    - apply X in B. split; [discriminate|]. intros H. exfalso. apply (H s); auto.
    - assert (~ In s protos) by (intros C; apply X in C; congruence). rewrite IH. split; [intros H' q [<-|Hq]; auto|auto]. }
  unfold mutualProtocol. split; [|split].
  - intros p. rewrite <- MS. destruct (mutual_proto preference protos) as [s|]; [split; congruence|]. destruct protos; split; congruence.
  - intros p. rewrite <- MN. destruct (mutual_proto preference protos) as [s|].
    + split; [congruence|]. intros [_ ?]; discriminate.
    + destruct protos as [|a l]; [split; [discriminate|intros ((r & ?) & _); discriminate]|].
      split; [intros [= <-]; eauto|]. intros ((r & [= <- <-]) & _). reflexivity.
  - intros H. destruct (mutual_proto preference protos); [discriminate|]. destruct protos; [tauto|discriminate].
Qed.

(** ** C69: overlap of the byte ranges [x, x+lx) and [y, y+ly) *)
Theorem C69_any_overlap (x lx y ly : Z) : 0 <= lx -> 0 <= ly ->
  (AnyOverlap x lx y ly = true <-> exists a, x <= a < x + lx /\ y <= a < y + ly).
Proof.
  intros Hx Hy. unfold AnyOverlap. rewrite !andb_true_iff, !Z.ltb_lt, !Z.leb_le. split.
  - intros. exists (Z.max x y). lia.
  - intros (a & ? & ?). lia.
Qed.
Theorem C69_inexact_overlap (x lx y ly : Z) : 0 <= lx -> 0 <= ly ->
  (InexactOverlap x lx y ly = true <-> x <> y /\ exists a, x <= a < x + lx /\ y <= a < y + ly).
Proof.
  intros Hx Hy. unfold InexactOverlap.
  destruct (Z.eqb_spec lx 0) as [->|]; [cbn; split; [discriminate|intros (_ & a & ? & ?); exfalso; lia]|].
  destruct (Z.eqb_spec ly 0) as [->|]; [cbn; split; [discriminate|intros (_ & a & ? & ?); exfalso; lia]|].
  destruct (Z.eqb_spec x y) as [->|]; [cbn; split; [discriminate|tauto]|]. cbn. rewrite C69_any_overlap by auto. tauto.
Qed.
Lemma C69_hyps : AnyOverlap 100 16 115 4 = true /\ AnyOverlap 100 16 116 4 = false /\ InexactOverlap 100 16 100 16 = false /\ InexactOverlap 100 16 101 16 = true.
Proof. repeat split. Qed.

(** ** C67: the client session cache.
    A history is a list of Put and Get calls; its trace pairs each call with what Get returned.  A call touches its key if it is a Put or
    a Get that hit.  The three functions below read a trace backwards (latest call first). *)
Section C67.
Context {St : Type}.
Notation ev := (lop St * option St)%type.
Definition touched (e : ev) : option (list Z) :=
  match e with (LPut k _, _) => Some k | (LGet k, Some _) => Some k | (LGet _, None) => None end.
(** the value most recently Put under k *)
Fixpoint last_put (k : list Z) (rtr : list ev) : option St :=
  match rtr with
  | [] => None
  | (LPut k' v, _) :: r => if list_eq_dec Z.eq_dec k' k then Some v else last_put k r
  | (LGet _, _) :: r => last_put k r
  end.
(** the keys touched since k was last touched; None if k was never touched *)
Fixpoint touched_since (k : list Z) (rtr : list ev) : option (list (list Z)) :=
  match rtr with
  | [] => None
  | e :: r => match touched e with
              | None => touched_since k r
              | Some k' => if list_eq_dec Z.eq_dec k' k then Some []
                           else match touched_since k r with Some l => Some (k' :: l) | None => None end
              end
  end.
(** what an LRU map of capacity cap answers after that trace *)
Definition lru_answer (cap : Z) (k : list Z) (rtr : list ev) : option St :=
  match touched_since k rtr with
  | None => None
  | Some l => if zlen (nodup (list_eq_dec Z.eq_dec) l) <? cap then last_put k rtr else None
  end.

(** abstract cache: association list, most recent first *)
Notation al := (list (list Z * St)).
Definition adel (k : list Z) (l : al) : al := filter (fun p => negb (beqb k (fst p))) l.
Fixpoint alook (k : list Z) (l : al) : option St := match l with [] => None | (k', v) :: l => if beqb k k' then Some v else alook k l end.
Definition aput (cap : Z) (k : list Z) (v : St) (l : al) : al :=
  match alook k l with
  | Some _ => (k, v) :: adel k l
  | None => if zlen l <? cap then (k, v) :: l else (k, v) :: removelast l
  end.
Definition aget (k : list Z) (l : al) : option St * al :=
  match alook k l with Some v => (Some v, (k, v) :: adel k l) | None => (None, l) end.

Record rep (c : lru (St:=St)) (l : al) : Prop := {
  rp_map : map (lc_heap c) (lc_q c) = l;
  rp_nodupq : NoDup (lc_q c);
  rp_fresh : forall e, In e (lc_q c) -> (e < lc_next c)%nat;
  rp_keys : NoDup (map fst l);
  rp_m : forall k e, mlookup k (lc_m c) = Some e <-> In e (lc_q c) /\ fst (lc_heap c e) = k;
  rp_cap : 1 <= lc_cap c;
  rp_len : zlen l <= lc_cap c
}.
Lemma zlen_cons {A} (a : A) l : zlen (a :: l) = zlen l + 1.
Proof. unfold zlen. cbn [length]. lia. Qed.
Lemma NoDup_app_remove_r {A} (l l' : list A) : NoDup (l ++ l') -> NoDup l.
Proof. induction l as [|a l IH]; cbn; [constructor|]. intros H. apply NoDup_cons_iff in H as [H1 H2]. constructor; [|auto]. intros C. apply H1. apply in_or_app; auto. Qed.
Lemma alook_in k l v : alook k l = Some v -> In (k, v) l.
Proof. induction l as [|[k' v'] l IH]; cbn; [discriminate|]. destruct (beqb k k') eqn:B; [apply beqb_eq in B as ->; intros [= ->]; auto|auto]. Qed.
Lemma alook_some k l v : NoDup (map fst l) -> In (k, v) l -> alook k l = Some v.
Proof.
  induction l as [|[k' v'] l IH]; cbn; [tauto|]. intros ND [E|H].
  - injection E as -> ->. now rewrite beqb_refl.
  - inversion ND; subst. destruct (beqb k k') eqn:B; [|auto]. apply beqb_eq in B as ->. exfalso. apply H2. apply in_map_iff. exists (k', v); auto.
Qed.
Lemma alook_none k l : alook k l = None <-> ~ In k (map fst l).
Proof.
  induction l as [|[k' v'] l IH]; cbn; [tauto|]. destruct (beqb k k') eqn:B.
  - apply beqb_eq in B as ->. split; [discriminate|tauto].
  - apply beqb_neq in B. rewrite IH. intuition congruence.
Qed.
Lemma mlookup_minsert k k' e m : mlookup k (minsert k' e m) = if beqb k k' then Some e else mlookup k m.
Proof.
  unfold minsert. cbn. destruct (beqb k k') eqn:B; [reflexivity|]. apply beqb_neq in B.
  unfold mdelete. induction m as [|[a b] m IH]; cbn; [reflexivity|]. destruct (beqb k' a) eqn:C; cbn.
  - apply beqb_eq in C as ->. destruct (beqb k a) eqn:D; [apply beqb_eq in D; congruence|auto].
  - destruct (beqb k a); auto.
Qed.
Lemma mlookup_mdelete k k' m : mlookup k (mdelete k' m) = if beqb k k' then None else mlookup k m.
Proof.
  unfold mdelete. induction m as [|[a b] m IH]; cbn; [now destruct (beqb k k')|]. destruct (beqb k' a) eqn:C; cbn.
  - apply beqb_eq in C as ->. rewrite IH. destruct (beqb k a) eqn:D; reflexivity.
  - rewrite IH. destruct (beqb k a) eqn:D; [|reflexivity]. apply beqb_eq in D as ->. destruct (beqb a k') eqn:F; [|reflexivity].
    apply beqb_eq in F as ->. rewrite beqb_refl in C. discriminate.
Qed.
Lemma filter_neq_notin e (q : list nat) : ~ In e q -> filter (fun x => negb (x =? e)%nat) q = q.
Proof.
  induction q as [|a q IH]; cbn; [reflexivity|]. intros H. destruct (Nat.eqb_spec a e); [tauto|]. cbn. f_equal. tauto.
Qed.
Lemma map_hset_notin h e v q : ~ In e q -> map (hset (St:=St) h e v) q = map h q.
Proof.
  intros H. apply map_ext_in. intros a Ha. unfold hset. destruct (Nat.eqb_spec a e); [subst; tauto|reflexivity].
Qed.
Lemma nodup_key_inj (h : nat -> list Z * St) q e1 e2 : NoDup (map fst (map h q)) -> In e1 q -> In e2 q -> fst (h e1) = fst (h e2) -> e1 = e2.
Proof.
  induction q as [|a q IH]; cbn; [tauto|]. intros ND [<-|H1] [<-|H2] E; apply NoDup_cons_iff in ND as [ND1 ND2]; auto.
  - exfalso. apply ND1. rewrite E. apply in_map, in_map; auto.
  - exfalso. apply ND1. rewrite <- E. apply in_map, in_map; auto.
Qed.
(* removing an element of the queue is removing its key from the abstract list *)
Lemma map_filter_q (h : nat -> list Z * St) q e : NoDup (map fst (map h q)) -> In e q ->
  map h (filter (fun x => negb (x =? e)%nat) q) = adel (fst (h e)) (map h q).
Proof.
  intros ND He. unfold adel. 
  assert (X : forall x, In x q -> (x =? e)%nat = beqb (fst (h e)) (fst (h x))).
  { intros x Hx. destruct (Nat.eqb_spec x e) as [->|N]; [now rewrite beqb_refl|]. symmetry. apply beqb_neq. intros E. apply N. eapply nodup_key_inj; eauto. }
  clear ND He. induction q as [|a q IH]; cbn; [reflexivity|]. rewrite (X a) by (left; reflexivity).
  destruct (beqb (fst (h e)) (fst (h a))); cbn; [|f_equal]; apply IH; intros; apply X; right; auto.
Qed.
Lemma adel_keys k l : map fst (adel k l) = filter (fun x => negb (beqb k x)) (map fst l).
Proof. unfold adel. induction l as [|[a b] l IH]; cbn; [reflexivity|]. destruct (beqb k a); cbn; congruence. Qed.
Lemma adel_notin k l : ~ In k (map fst (adel k l)).
Proof. rewrite adel_keys. intros H. apply filter_In in H as [_ H]. rewrite beqb_refl in H. discriminate. Qed.
Lemma filter_len_le {A} (f : A -> bool) l : zlen (filter f l) <= zlen l.
Proof. unfold zlen. induction l; cbn; [lia|]. destruct (f a); cbn [length]; lia. Qed.
Lemma adel_len_in k l : In k (map fst l) -> zlen (adel k l) < zlen l.
Proof.
  unfold adel, zlen. induction l as [|[a b] l IH]; cbn [map fst In]; [tauto|]. intros H. cbn [filter fst].
  destruct (beqb k a) eqn:B; cbn [negb length].
  - pose proof (filter_len_le (fun p : list Z * St => negb (beqb k (fst p))) l). unfold zlen in *. lia.
  - destruct H as [->|H]; [rewrite beqb_refl in B; discriminate|]. specialize (IH H). lia.
Qed.
Lemma NoDup_filter' {A} (f : A -> bool) l : NoDup l -> NoDup (filter f l).
Proof. apply NoDup_filter. Qed.

(* moving an element to the front, possibly changing its entry to (k, v) with its old key k or with a new one *)
Lemma rep_move c l e k v : rep c l -> In e (lc_q c) -> (fst (lc_heap c e) = k) ->
  forall m', (forall k' e', mlookup k' m' = Some e' <-> mlookup k' (lc_m c) = Some e') ->
  rep (mkLRU m' (moveToFront e (lc_q c)) (hset (lc_heap c) e (k, v)) (lc_cap c) (lc_next c)) ((k, v) :: adel k l).
Proof.
  intros [R1 R2 R3 R4 R5 R6 R7] He Hk m' Hm.
  assert (Kin : In k (map fst l)) by (rewrite <- R1, <- Hk; apply in_map, in_map; auto).
  assert (N : ~ In e (filter (fun x => negb (x =? e)%nat) (lc_q c))).
  { intros H. apply filter_In in H as [_ H]. rewrite Nat.eqb_refl in H. discriminate. }
  assert (ND' : NoDup (map fst (map (lc_heap c) (lc_q c)))) by (rewrite R1; auto).
  constructor; cbn [lc_q lc_m lc_heap lc_cap lc_next].
  - unfold moveToFront. cbn [map]. unfold hset at 1. rewrite Nat.eqb_refl. f_equal.
    rewrite map_hset_notin by auto. rewrite (map_filter_q _ _ e) by auto. now rewrite Hk, R1.
  - unfold moveToFront. constructor; [auto|]. apply NoDup_filter'; auto.
  - intros x [<-|H]; [auto|]. apply filter_In in H as [H _]. auto.
  - cbn. constructor; [apply adel_notin|]. rewrite adel_keys. apply NoDup_filter'; auto.
  - intros k' e'. rewrite Hm, R5. unfold moveToFront. cbn [In]. rewrite filter_In. unfold hset.
    destruct (Nat.eqb_spec e' e) as [->|D].
    + cbn. split; [intros [_ E]; split; [auto|congruence]|]. intros [_ E]; split; [auto|congruence].
    + cbn. split; [intros [A B]; auto|]. intros [[A|[A _]] B]; [congruence|auto].
  - auto.
  - pose proof (adel_len_in k l Kin). rewrite zlen_cons. lia.
Qed.
Lemma hset_same (h : nat -> list Z * St) e : forall x, hset h e (h e) x = h x.
Proof. intros x. unfold hset. destruct (Nat.eqb_spec x e); congruence. Qed.
Lemma rep_ext m q h h' cap nx l : (forall x, h x = h' x) -> rep (mkLRU m q h cap nx) l -> rep (mkLRU m q h' cap nx) l.
Proof.
  intros E [R1 R2 R3 R4 R5 R6 R7]. cbn in *. constructor; cbn; auto.
  - rewrite <- R1. apply map_ext. auto.
  - intros k e. rewrite R5. now rewrite E.
Qed.
Lemma rep_find c l k e : rep c l -> mlookup k (lc_m c) = Some e -> alook k l = Some (snd (lc_heap c e)) /\ In e (lc_q c) /\ fst (lc_heap c e) = k.
Proof.
  intros R H. pose proof R as [R1 R2 R3 R4 R5 R6 R7]. apply R5 in H as [He Hk]. split; [|auto]. apply alook_some; auto.
  rewrite <- R1. rewrite <- Hk. rewrite <- surjective_pairing. apply in_map; auto.
Qed.
Lemma rep_nofind c l k : rep c l -> mlookup k (lc_m c) = None -> alook k l = None.
Proof.
  intros [R1 R2 R3 R4 R5 R6 R7] H. apply alook_none. intros Hin. rewrite <- R1 in Hin.
  apply in_map_iff in Hin as ([a b] & Ea & Hin). apply in_map_iff in Hin as (e & Ee & Hin). cbn in Ea. subst a.
  assert (mlookup k (lc_m c) = Some e) by (apply R5; rewrite Ee; auto). congruence.
Qed.
Lemma rep_put c l k v : rep c l -> exists c', lru_put c k v = Some c' /\ rep c' (aput (lc_cap c) k v l) /\ lc_cap c' = lc_cap c.
Proof.
  intros R. pose proof R as [R1 R2 R3 R4 R5 R6 R7]. unfold lru_put, aput. destruct (mlookup k (lc_m c)) as [e|] eqn:M.
  - destruct (rep_find _ _ _ _ R M) as (A & He & Hk). rewrite A. eexists. split; [reflexivity|]. split; [|reflexivity]. rewrite Hk.
    apply rep_move; auto. tauto.
  - rewrite (rep_nofind _ _ _ R M). assert (LQ : zlen (lc_q c) = zlen l) by (rewrite <- R1; unfold zlen; now rewrite map_length).
    rewrite LQ. assert (Kout : ~ In k (map fst l)) by (apply alook_none; eapply rep_nofind; eauto).
    destruct (Z.ltb_spec (zlen l) (lc_cap c)) as [L|L].
    + eexists. split; [reflexivity|]. split; [|reflexivity].
      assert (F : ~ In (lc_next c) (lc_q c)) by (intros H; apply R3 in H; lia).
      constructor; cbn [lc_q lc_m lc_heap lc_cap lc_next].
      * cbn [map]. unfold hset at 1. rewrite Nat.eqb_refl. rewrite map_hset_notin by auto. congruence.
      * constructor; auto.
      * intros x [<-|H]; [lia|]. apply R3 in H. lia.
      * cbn. constructor; auto.
      * intros k' e'. rewrite mlookup_minsert. unfold hset. destruct (Nat.eqb_spec e' (lc_next c)) as [->|D]; cbn [In fst].
        -- destruct (beqb k' k) eqn:B.
           ++ apply beqb_eq in B as ->. tauto.
           ++ apply beqb_neq in B. rewrite R5. split; [tauto|]. intros [_ ?]; congruence.
        -- destruct (beqb k' k) eqn:B.
           ++ apply beqb_eq in B as ->. split; [intros HH; injection HH as HH; congruence|]. intros [[H|H] E]; [congruence|].
              exfalso. assert (mlookup k (lc_m c) = Some e') by (apply R5; auto). congruence.
           ++ rewrite R5. split; [tauto|]. intros [[H|H] E]; [congruence|tauto].
      * auto.
      * rewrite zlen_cons. lia.
    + destruct (rev (lc_q c)) as [|e rq] eqn:RQ.
      { exfalso. assert (lc_q c = []) by (rewrite <- (rev_involutive (lc_q c)), RQ; reflexivity). rewrite H in LQ. cbn in LQ. lia. }
      eexists. split; [reflexivity|]. split; [|reflexivity].
      assert (Q : lc_q c = rev rq ++ [e]) by (rewrite <- (rev_involutive (lc_q c)), RQ; reflexivity).
      assert (ND : ~ In e (rev rq)) by (rewrite Q in R2; apply NoDup_remove_2 in R2; rewrite app_nil_r in R2; auto).
      assert (MF : moveToFront e (lc_q c) = e :: rev rq).
      { unfold moveToFront. f_equal. rewrite Q, filter_app, filter_neq_notin by auto. cbn. rewrite Nat.eqb_refl. cbn. apply app_nil_r. }
      assert (RL : removelast l = map (lc_heap c) (rev rq)).
      { rewrite <- R1, Q, map_app. cbn. apply removelast_last. }
      assert (LL : l = map (lc_heap c) (rev rq) ++ [lc_heap c e]) by (rewrite <- R1, Q, map_app; reflexivity).
      assert (He : In e (lc_q c)) by (rewrite Q; apply in_elt).
      rewrite MF, RL.
      constructor; cbn [lc_q lc_m lc_heap lc_cap lc_next].
      * cbn [map]. unfold hset at 1. rewrite Nat.eqb_refl. rewrite map_hset_notin by auto. reflexivity.
      * constructor; [auto|]. rewrite Q in R2. apply NoDup_remove_1 in R2. now rewrite app_nil_r in R2.
      * intros x [<-|H]; [auto|]. apply R3. rewrite Q. apply in_or_app; auto.
      * cbn. constructor.
        -- intros H. apply Kout. rewrite LL, map_app. apply in_or_app; auto.
        -- rewrite LL, map_app in R4. cbn in R4. apply NoDup_remove_1 in R4. now rewrite app_nil_r in R4.
      * intros k' e'. rewrite mlookup_minsert, mlookup_mdelete. unfold hset. destruct (Nat.eqb_spec e' e) as [->|D]; cbn [In fst].
        -- destruct (beqb k' k) eqn:B; [apply beqb_eq in B as ->; tauto|]. apply beqb_neq in B.
           destruct (beqb k' (fst (lc_heap c e))) eqn:B2; [split; [discriminate|intros [_ ?]; congruence]|]. apply beqb_neq in B2.
           rewrite R5. split; intros [_ ?]; congruence.
        -- destruct (beqb k' k) eqn:B.
           ++ apply beqb_eq in B as ->. split; [intros HH; injection HH as HH; congruence|]. intros [[H|H] E]; [congruence|]. exfalso.
              assert (mlookup k (lc_m c) = Some e') by (apply R5; split; [rewrite Q; apply in_or_app; auto|auto]). congruence.
           ++ destruct (beqb k' (fst (lc_heap c e))) eqn:B2.
              ** apply beqb_eq in B2. split; [discriminate|]. intros [[H|H] E]; [congruence|]. exfalso. apply D.
                 apply (nodup_key_inj (lc_heap c) (lc_q c)); [now rewrite R1|rewrite Q; apply in_or_app; auto|auto|congruence].
              ** rewrite R5, Q. rewrite in_app_iff. cbn. intuition congruence.
      * auto.
      * rewrite zlen_cons. rewrite LL in R7. unfold zlen in *. rewrite app_length in R7. cbn in R7. lia.
Qed.
Lemma rep_get c l k : rep c l -> fst (lru_get c k) = fst (aget k l) /\ rep (snd (lru_get c k)) (snd (aget k l)) /\ lc_cap (snd (lru_get c k)) = lc_cap c.
Proof.
  intros R. unfold lru_get, aget. destruct (mlookup k (lc_m c)) as [e|] eqn:M.
  - destruct (rep_find _ _ _ _ R M) as (A & He & Hk). rewrite A. cbn [fst snd]. split; [reflexivity|]. split; [|reflexivity].
    apply (rep_ext _ _ (hset (lc_heap c) e (k, snd (lc_heap c e)))).
    + intros x. rewrite <- Hk at 1. rewrite <- surjective_pairing. apply hset_same.
    + apply rep_move; auto. tauto.
  - rewrite (rep_nofind _ _ _ R M). cbn. auto.
Qed.

(** the abstract list against the trace *)
Fixpoint recl (rtr : list ev) : list (list Z) :=
  match rtr with
  | [] => []
  | e :: r => match touched e with None => recl r | Some k => k :: filter (fun x => negb (beqb k x)) (recl r) end
  end.
Definition ainv (cap : Z) (rtr : list ev) (l : al) : Prop :=
  map fst l = firstn (Z.to_nat cap) (recl rtr) /\ forall k v, In (k, v) l -> last_put k rtr = Some v.
Lemma recl_nodup rtr : NoDup (recl rtr).
Proof.
  induction rtr as [|e r IH]; cbn; [constructor|]. destruct (touched e); [|auto]. constructor; [|apply NoDup_filter; auto].
  intros H. apply filter_In in H as [_ H]. rewrite beqb_refl in H. discriminate.
Qed.
Lemma firstn_filter_notin k n (l : list (list Z)) : ~ In k (firstn n l) -> NoDup l ->
  firstn n (filter (fun x => negb (beqb k x)) l) = firstn n l \/ (exists j, (length (firstn n l) = n)%nat /\ j = n).
Proof.
  destruct (Nat.le_gt_cases n (length l)); [right; exists n; split; [now rewrite firstn_length_le|auto]|].
  intros N _. left. rewrite firstn_all2 in N by lia. replace (filter (fun x => negb (beqb k x)) l) with l; [reflexivity|].
  clear H. induction l as [|a l IH]; cbn; [reflexivity|]. cbn in N. destruct (beqb k a) eqn:B; [apply beqb_eq in B; subst; tauto|]. cbn. f_equal. apply IH. tauto.
Qed.
Lemma filter_notin k (l : list (list Z)) : ~ In k l -> filter (fun x => negb (beqb k x)) l = l.
Proof.
  induction l as [|a l IH]; cbn; [reflexivity|]. intros N. destruct (beqb k a) eqn:B; [apply beqb_eq in B; subst; tauto|]. cbn. f_equal. tauto.
Qed.
(* k among the first n: deleting it leaves the first n-1 of the rest *)
Lemma filter_firstn_in k n (l : list (list Z)) : NoDup l -> In k (firstn n l) ->
  filter (fun x => negb (beqb k x)) (firstn n l) = firstn (n - 1) (filter (fun x => negb (beqb k x)) l).
Proof.
  revert n. induction l as [|a l IH]; intros n ND Hin; [now rewrite firstn_nil in Hin|].
  destruct n as [|n]; [destruct Hin|]. cbn [firstn] in *. inversion ND; subst. cbn [filter].
  destruct (beqb k a) eqn:B; cbn [negb].
  - apply beqb_eq in B as <-. rewrite !filter_notin; [f_equal; lia|auto|]. intros H. apply H1. rewrite <- (firstn_skipn n l). apply in_or_app; auto.
  - apply beqb_neq in B. destruct Hin as [->|Hin]; [congruence|]. destruct n as [|n]; [destruct Hin|].
    rewrite IH by auto. replace (Datatypes.S (Datatypes.S n) - 1)%nat with (Datatypes.S (Datatypes.S n - 1)) by lia. reflexivity.
Qed.
Lemma filter_firstn_notin k n (l : list (list Z)) : ~ In k (firstn n l) ->
  firstn (n - 1) (filter (fun x => negb (beqb k x)) l) = firstn (n - 1) l.
Proof.
  revert n. induction l as [|a l IH]; intros n N; [reflexivity|]. destruct n as [|n]; [reflexivity|]. cbn [firstn In] in N.
  cbn [filter]. destruct (beqb k a) eqn:B; [apply beqb_eq in B; subst; tauto|]. cbn [negb].
  destruct n as [|n]; [reflexivity|]. replace (Datatypes.S (Datatypes.S n) - 1)%nat with (Datatypes.S (Datatypes.S n - 1)) by lia. cbn [firstn]. f_equal.
  apply IH. tauto.
Qed.
Lemma ainv_put cap rtr l k v : 1 <= cap -> ainv cap rtr l -> ainv cap ((LPut k v, None) :: rtr) (aput cap k v l).
Proof.
  intros Hc [I1 I2]. pose proof (recl_nodup rtr) as ND. set (n := Z.to_nat cap) in *. assert (Hn : forall (a : list Z) X, firstn n (a :: X) = a :: firstn (n - 1) X)
    by (intros; destruct n as [|n'] eqn:En; [exfalso; lia|cbn [firstn]; f_equal; f_equal; lia]).
  assert (NDl : NoDup (map fst l)) by (rewrite I1; rewrite <- (firstn_skipn n) in ND; apply NoDup_app_remove_r in ND; auto).
  assert (KV : forall k' v', k' <> k -> In (k', v') l -> last_put k' ((LPut k v, None) :: rtr) = Some v').
  { intros k' v' N H. cbn. destruct (list_eq_dec Z.eq_dec k k'); [congruence|]. apply I2; auto. }
  assert (KK : last_put k ((LPut k v, None) :: rtr) = Some v) by (cbn; destruct (list_eq_dec Z.eq_dec k k); congruence).
  unfold aput. destruct (alook k l) as [v0|] eqn:A.
  - apply alook_in in A. assert (Kin : In k (map fst l)) by (apply (in_map fst) in A; auto).
    split.
    + cbn [map fst recl touched]. rewrite adel_keys, I1, Hn. f_equal. rewrite I1 in Kin. apply filter_firstn_in; auto.
    + intros k' v' [E|H]; [injection E as <- <-; auto|]. apply filter_In in H as [H B]. cbn in B. apply KV; [|auto].
      intros ->. rewrite beqb_refl in B. discriminate.
  - apply alook_none in A.
    assert (KV' : forall k' v', In (k', v') l -> last_put k' ((LPut k v, None) :: rtr) = Some v').
    { intros k' v' H. apply KV; [|auto]. intros ->. apply A. apply (in_map fst) in H; auto. }
    destruct (Z.ltb_spec (zlen l) cap) as [L|L].
    + split.
      * cbn [map fst recl touched]. rewrite Hn. f_equal.
        assert (LL : (length (recl rtr) < n)%nat).
        { assert (E : length (map fst l) = length (firstn n (recl rtr))) by congruence. rewrite map_length, firstn_length in E. unfold zlen in L. lia. }
        rewrite I1 in A |- *. rewrite firstn_all2 in A |- * by lia. rewrite filter_notin by auto. symmetry. apply firstn_all2. lia.
      * intros k' v' [E|H]; [injection E as <- <-; auto|auto].
    + assert (LL : (length l = n)%nat).
      { assert (E : length (map fst l) = length (firstn n (recl rtr))) by congruence. rewrite map_length, firstn_length in E. unfold zlen in L. lia. }
      split.
      * cbn [map fst recl touched]. rewrite Hn. f_equal. rewrite filter_firstn_notin by (rewrite <- I1; auto).
        rewrite removelast_firstn_len. rewrite LL. replace (pred n) with (n - 1)%nat by lia. rewrite <- firstn_map, I1, firstn_firstn. f_equal. lia.
      * intros k' v' [E|H]; [injection E as <- <-; auto|]. apply KV'. rewrite removelast_firstn_len in H. rewrite <- (firstn_skipn (pred (length l)) l). apply in_or_app; auto.
Qed.
Lemma ainv_get cap rtr l k : 1 <= cap -> ainv cap rtr l -> ainv cap ((LGet k, fst (aget k l)) :: rtr) (snd (aget k l)).
Proof.
  intros Hc [I1 I2]. pose proof (recl_nodup rtr) as ND. unfold aget. destruct (alook k l) as [v|] eqn:A; cbn [fst snd]; [|split; auto].
  set (n := Z.to_nat cap) in *. assert (Hn : forall (a : list Z) X, firstn n (a :: X) = a :: firstn (n - 1) X)
    by (intros; destruct n as [|n'] eqn:En; [exfalso; lia|cbn [firstn]; f_equal; f_equal; lia]).
  apply alook_in in A. assert (Kin : In k (map fst l)) by (apply (in_map fst) in A; auto). split.
  - cbn [map fst recl touched]. rewrite adel_keys, I1, Hn. f_equal. rewrite I1 in Kin. apply filter_firstn_in; auto.
  - cbn [last_put]. intros k' v' [E|H]; [injection E as <- <-; auto|]. apply filter_In in H as [H _]. auto.
Qed.
Lemma recl_since k rtr :
  match touched_since k rtr with
  | None => ~ In k (recl rtr)
  | Some s => exists A B, recl rtr = A ++ k :: B /\ forall x, In x A <-> In x s
  end.
Proof.
  induction rtr as [|e r IH]; cbn; [tauto|]. destruct (touched e) as [k'|]; [|auto].
  destruct (list_eq_dec Z.eq_dec k' k) as [->|N].
  - exists [], (filter (fun x => negb (beqb k x)) (recl r)). split; [reflexivity|]. tauto.
  - destruct (touched_since k r) as [s|].
    + destruct IH as (A & B & E & H). rewrite E. exists (k' :: filter (fun x => negb (beqb k' x)) A), (filter (fun x => negb (beqb k' x)) B).
      rewrite filter_app. cbn [filter]. assert (X : beqb k' k = false) by (apply beqb_neq; auto). rewrite X. cbn [negb]. split; [reflexivity|].
      intros x. cbn [In]. rewrite filter_In, H, negb_true_iff, beqb_neq. destruct (list_eq_dec Z.eq_dec k' x); intuition congruence.
    + cbn. rewrite filter_In. intros [C|[C _]]; [congruence|auto].
Qed.
Lemma ainv_answer cap rtr l k : 1 <= cap -> ainv cap rtr l -> alook k l = lru_answer cap k rtr.
Proof.
  intros Hc [I1 I2]. pose proof (recl_nodup rtr) as ND. unfold lru_answer. pose proof (recl_since k rtr) as RS.
  destruct (touched_since k rtr) as [s|].
  - destruct RS as (A & B & E & H).
    assert (LA : length A = length (nodup (list_eq_dec Z.eq_dec) s)).
    { apply Permutation_length, NoDup_Permutation; [rewrite E in ND; now apply NoDup_app_remove_r in ND|apply NoDup_nodup|].
      intros x. rewrite nodup_In. apply H. }
    unfold zlen. rewrite <- LA. destruct (Z.ltb_spec (Z.of_nat (length A)) cap) as [L|L].
    + assert (Kin : In k (map fst l)).
      { rewrite I1, E, firstn_app. apply in_or_app. right. destruct (Z.to_nat cap - length A)%nat eqn:D; [lia|]. left. reflexivity. }
      destruct (alook k l) as [v|] eqn:A'; [|apply alook_none in A'; tauto]. apply alook_in, I2 in A'. auto.
    + apply alook_none. rewrite I1, E, firstn_app. replace (Z.to_nat cap - length A)%nat with 0%nat by lia. cbn. rewrite app_nil_r.
      intros C. rewrite E in ND. apply NoDup_remove_2 in ND. apply ND. apply in_or_app. left. rewrite <- (firstn_skipn (Z.to_nat cap) A). apply in_or_app; auto.
  - apply alook_none. rewrite I1. intros C. apply RS. rewrite <- (firstn_skipn (Z.to_nat cap) (recl rtr)). apply in_or_app; auto.
Qed.

Lemma run_rep ops : forall c l rtr, rep c l -> ainv (lc_cap c) rtr l ->
  exists tr c' l', lru_run c ops = Some (tr, c') /\ rep c' l' /\ lc_cap c' = lc_cap c /\ ainv (lc_cap c) (rev tr ++ rtr) l' /\ map fst tr = ops /\
    forall tr1 k r tr2, tr = tr1 ++ (LGet k, r) :: tr2 -> r = lru_answer (lc_cap c) k (rev tr1 ++ rtr).
Proof.
  induction ops as [|o ops IH]; intros c l rtr R I.
  - exists [], c, l. cbn. split; [reflexivity|]. split; [exact R|]. split; [reflexivity|]. split; [exact I|]. split; [reflexivity|]. intros [|] k r tr2 E; discriminate.
  - pose proof (rp_cap _ _ R) as Hc. cbn [lru_run]. destruct o as [k v|k]; cbn [lru_step].
    + destruct (rep_put c l k v R) as (c1 & P & R' & C'). rewrite P.
      destruct (IH c1 _ ((LPut k v, None) :: rtr) R') as (tr & c' & l' & E & Rr & Cc & Ai & Mp & An); [rewrite C'; apply ainv_put; auto|].
      rewrite E. exists ((LPut k v, None) :: tr), c', l'. rewrite C' in *. cbn [rev map fst]. rewrite <- app_assoc. cbn [app].
      split; [reflexivity|]. split; [exact Rr|]. split; [exact Cc|]. split; [exact Ai|]. split; [now rewrite Mp|].
      intros [|x tr1] k' r tr2 E'; cbn in E'; [discriminate|]. injection E' as <- E'. cbn [rev]. rewrite <- app_assoc. cbn [app]. eapply An; eauto.
    + destruct (rep_get c l k R) as (G & R' & C'). destruct (lru_get c k) as [r c1] eqn:LG. cbn [fst snd] in *.
      pose proof (ainv_get (lc_cap c) rtr l k Hc I) as I'. rewrite <- G in I'.
      destruct (IH c1 _ ((LGet k, r) :: rtr) R') as (tr & c' & l' & E & Rr & Cc & Ai & Mp & An); [rewrite C'; auto|].
      rewrite E. exists ((LGet k, r) :: tr), c', l'. rewrite C' in *. cbn [rev map fst]. rewrite <- app_assoc. cbn [app].
      split; [reflexivity|]. split; [exact Rr|]. split; [exact Cc|]. split; [exact Ai|]. split; [now rewrite Mp|].
      intros [|x tr1] k' r' tr2 E'; cbn in E'.
      * injection E' as <- <- _. cbn [rev app]. rewrite <- (ainv_answer (lc_cap c) rtr l k) by auto. rewrite G. unfold aget. destruct (alook k l); reflexivity.
      * injection E' as <- E'. cbn [rev]. rewrite <- app_assoc. cbn [app]. eapply An; eauto.
Qed.

(** C67.  Every history runs without crashing; every Get in it answers as the LRU map of the given capacity (64 when the requested
    capacity is below 1); and the cache never holds more than capacity entries. *)
Theorem C67_lru (dflt : list Z * St) (capacity : Z) (ops : list (lop St)) :
  let cap := if Z_lt_dec capacity 1 then 64 else capacity in
  exists tr c, lru_run (newLRU dflt capacity) ops = Some (tr, c) /\ map fst tr = ops /\
    zlen (lc_q c) <= cap /\ (forall k, mlookup k (lc_m c) <> None -> exists e, In e (lc_q c) /\ fst (lc_heap c e) = k) /\
    forall before k r after, tr = before ++ (LGet k, r) :: after -> r = lru_answer cap k (rev before).
Proof.
  cbv zeta. set (cap := if Z_lt_dec capacity 1 then 64 else capacity).
  assert (EC : lc_cap (newLRU dflt capacity) = cap) by (cbn; unfold cap; destruct (Z.ltb_spec capacity 1), (Z_lt_dec capacity 1); auto; exfalso; lia).
  assert (Hc : 1 <= cap) by (unfold cap; destruct (Z_lt_dec capacity 1); lia).
  assert (R : rep (newLRU dflt capacity) []).
  { constructor; try rewrite EC; auto; cbn; try constructor; try tauto; [discriminate|unfold zlen; cbn; lia]. }
  destruct (run_rep ops _ _ [] R) as (tr & c & l & E & Rc & Cc & _ & Mp & An).
  { split; [|intros ? ? []]. cbn [recl]. now rewrite firstn_nil. }
  exists tr, c. rewrite EC in *. repeat split; auto.
  - pose proof (rp_len _ _ Rc) as L. rewrite <- (rp_map _ _ Rc) in L. unfold zlen in *. rewrite map_length in L. lia.
  - intros k H. destruct (mlookup k (lc_m c)) as [e|] eqn:M; [|tauto]. apply (rp_m _ _ Rc) in M. eauto.
  - intros before k r after Et. apply An in Et. now rewrite app_nil_r in Et.
Qed.
End C67.
(** capacity 2: 1 is used, 2 and 3 are put: 1 was touched before 3, so 2 is evicted by 3 *)
Lemma C67_hyps :
  let ops := [LPut [1] 10; LPut [2] 20; LGet [1]; LPut [3] 30; LGet [2]; LGet [1]; LPut [1] 11; LGet [1]; LGet [3]] in
  match lru_run (newLRU ([], 0) 2) ops with
  | Some (tr, _) => map snd tr = [None; None; Some 10; None; None; Some 10; None; Some 11; Some 30]
  | None => False
  end.
Proof. lazy. exact eq_refl. Qed.

(** ** C68: the certificate a server presents *)
Lemma trim_rev_spec r : exists n, r = repeat dot n ++ trim_dots_rev r /\ (forall a t, trim_dots_rev r = a :: t -> a <> dot).
Proof.
  induction r as [|c r IH]; cbn; [exists 0%nat; split; [reflexivity|discriminate]|].
  destruct (Z.eqb_spec c dot) as [->|N].
  - destruct IH as (n & E & H). exists (Datatypes.S n). cbn. split; [now rewrite <- E|auto].
  - exists 0%nat. split; [reflexivity|]. intros a t [= <- _]. auto.
Qed.
Lemma repeat_snoc {A} (a : A) n : repeat a n ++ [a] = a :: repeat a n.
Proof. induction n; cbn; [reflexivity|]. now rewrite IHn. Qed.
Lemma rev_repeat {A} (a : A) n : rev (repeat a n) = repeat a n.
Proof. induction n; cbn; [reflexivity|]. rewrite IHn. apply repeat_snoc. Qed.
(** [trimmed s name]: name is s without its trailing dots *)
Definition trimmed (s name : list Z) : Prop := (exists n, s = name ++ repeat dot n) /\ forall init a, name = init ++ [a] -> a <> dot.
Lemma trim_dots_spec s : trimmed s (trim_dots s).
Proof.
  unfold trim_dots. destruct (trim_rev_spec (rev s)) as (n & E & H). split.
  - exists n. remember (trim_dots_rev (rev s)) as t eqn:Et. clear Et. apply (f_equal (@rev Z)) in E. rewrite rev_involutive, rev_app_distr, rev_repeat in E. exact E.
  - intros init a Hi. apply (f_equal (@rev Z)) in Hi. rewrite rev_involutive, rev_app_distr in Hi. cbn in Hi. eapply H; eauto.
Qed.
Lemma trimmed_unique s a b : trimmed s a -> trimmed s b -> a = b.
Proof.
  revert a b. induction s as [|x s IH] using rev_ind; intros a b [(n & Ea) Ha] [(m & Eb) Hb].
  - destruct a, b; try discriminate; reflexivity.
  - destruct n as [|n], m as [|m].
    + cbn in *. rewrite app_nil_r in *. congruence.
    + exfalso. cbn [repeat] in Ea, Eb. rewrite app_nil_r in Ea. rewrite <- repeat_snoc, app_assoc in Eb. apply app_inj_tail in Eb as [_ ->].
      apply (Ha s dot); auto.
    + exfalso. cbn [repeat] in Ea, Eb. rewrite app_nil_r in Eb. rewrite <- repeat_snoc, app_assoc in Ea. apply app_inj_tail in Ea as [_ ->].
      apply (Hb s dot); auto.
    + cbn [repeat] in *. rewrite <- repeat_snoc, app_assoc in Ea, Eb. apply app_inj_tail in Ea as [-> _]. apply app_inj_tail in Eb as [Eb _].
      apply IH; split; eauto.
Qed.
(** [labels_of name labels]: name is the labels joined with dots, and no label contains a dot *)
Definition labels_of (name : list Z) (labels : list (list Z)) : Prop :=
  labels <> [] /\ (forall l, In l labels -> ~ In dot l) /\ join_dots labels = name.
Lemma split_nonempty name : forall cur, split_dots cur name <> [].
Proof. induction name as [|c n IH]; intros cur; cbn; [discriminate|]. destruct (c =? dot); [discriminate|apply IH]. Qed.
Lemma split_labels name : forall cur, ~ In dot cur -> labels_of (cur ++ name) (split_dots cur name).
Proof.
  induction name as [|c n IH]; intros cur Hc.
  - cbn. rewrite app_nil_r. repeat split; [discriminate|]. intros l [<-|[]]; auto.
  - cbn [split_dots]. destruct (Z.eqb_spec c dot) as [->|N].
    + destruct (IH [] (fun x => x)) as (H1 & H2 & H3). split; [discriminate|]. split.
      * intros l [<-|H]; auto.
      * cbn [app] in H3. destruct (split_dots [] n) as [|l0 ls] eqn:E; [congruence|]. cbn [join_dots]. cbn [join_dots] in H3. now rewrite H3.
    + replace (cur ++ c :: n) with ((cur ++ [c]) ++ n) by (rewrite <- app_assoc; reflexivity). apply IH.
      intros H. apply in_app_or in H as [H|[H|[]]]; auto.
Qed.
Lemma first_dot_unique a b x y : ~ In dot a -> ~ In dot b -> a ++ dot :: x = b ++ dot :: y -> a = b /\ x = y.
Proof.
  revert b. induction a as [|c a IH]; intros [|d b] Ha Hb E; cbn in *.
  - injection E as ->. auto.
  - injection E as E _. exfalso. apply Hb. auto.
  - injection E as E _. exfalso. apply Ha. auto.
  - injection E as -> E. destruct (IH b) as [-> ->]; auto.
Qed.
Lemma labels_unique name l1 : forall l2, labels_of name l1 -> labels_of name l2 -> l1 = l2.
Proof.
  revert name. induction l1 as [|a l1 IH]; intros name [|b l2] (N1 & D1 & J1) (N2 & D2 & J2); try congruence.
  assert (Ha : ~ In dot a) by (apply D1; left; auto). assert (Hb : ~ In dot b) by (apply D2; left; auto).
  destruct l1 as [|a' l1], l2 as [|b' l2].
  - cbn in *. congruence.
  - cbn [join_dots] in J1. change (b ++ dot :: join_dots (b' :: l2) = name) in J2. exfalso. apply Ha. rewrite J1, <- J2. apply in_elt.
  - cbn [join_dots] in J2. change (a ++ dot :: join_dots (a' :: l1) = name) in J1. exfalso. apply Hb. rewrite J2, <- J1. apply in_elt.
  - change (a ++ dot :: join_dots (a' :: l1) = name) in J1. change (b ++ dot :: join_dots (b' :: l2) = name) in J2.
    rewrite <- J2 in J1. apply first_dot_unique in J1 as [-> J]; auto. f_equal. apply (IH (join_dots (b' :: l2))).
    + repeat split; [discriminate| |auto]. intros l Hl. apply D1. right; auto.
    + repeat split; [discriminate|]. intros l Hl. apply D2. right; auto.
Qed.
Theorem C68_labels_exist_unique (name : list Z) : exists! labels, labels_of name labels.
Proof.
  exists (split_dots [] name). split; [apply (split_labels name [] (fun x => x))|]. intros l H. eapply labels_unique; eauto.
  apply (split_labels name [] (fun x => x)).
Qed.
Theorem C68_trimmed_exists_unique (s : list Z) : exists! name, trimmed s name.
Proof. exists (trim_dots s). split; [apply trim_dots_spec|]. intros n H. eapply trimmed_unique; eauto using trim_dots_spec. Qed.
(** the i-th candidate: the first i labels are replaced by "*" *)
Definition candidate (labels : list (list Z)) (i : nat) : list Z := join_dots (repeat star i ++ skipn i labels).

Section C68.
Context {cert : Type} (toLower : list Z -> list Z).
Lemma wildcard_loop_spec (m : list Z -> option cert) (labels : list (list Z)) : forall fuel i, (i + fuel = length labels)%nat ->
  match wildcard_loop m fuel i (repeat star i ++ skipn i labels) with
  | Some c => exists j, (i < j <= length labels)%nat /\ m (candidate labels j) = Some c /\ forall j', (i < j' < j)%nat -> m (candidate labels j') = None
  | None => forall j, (i < j <= length labels)%nat -> m (candidate labels j) = None
  end.
Proof.
  induction fuel as [|fuel IH]; intros i Hi; cbn [wildcard_loop]; [intros j Hj; exfalso; lia|].
  assert (E : upd i star (repeat star i ++ skipn i labels) = repeat star (i + 1) ++ skipn (i + 1) labels).
  { destruct (skipn i labels) as [|a t] eqn:S; [apply (f_equal (@length _)) in S; rewrite skipn_length in S; cbn in S; lia|].
    assert (T : skipn (i + 1) labels = t) by (change t with (skipn 1 (a :: t)); rewrite <- S, skipn_skipn; f_equal; lia).
    rewrite T. replace (i + 1)%nat with (Datatypes.S i) by lia. cbn [repeat]. rewrite <- repeat_snoc, <- app_assoc. cbn [app].
    assert (U : forall (p : list (list Z)) x y q, upd (length p) y (p ++ x :: q) = p ++ y :: q) by (induction p; intros; cbn; congruence).
    specialize (U (repeat star i) a star t). rewrite repeat_length in U. exact U. }
  cbv zeta. rewrite E. fold (candidate labels (i + 1)). destruct (m (candidate labels (i + 1))) as [c|] eqn:M.
  - exists (i + 1)%nat. split; [lia|]. split; [auto|]. intros j' Hj'. exfalso; lia.
  - specialize (IH (i + 1)%nat ltac:(lia)). destruct (wildcard_loop m fuel (i + 1) (repeat star (i + 1) ++ skipn (i + 1) labels)) as [c|].
    + destruct IH as (j & Hj & Mj & Nj). exists j. split; [lia|]. split; [auto|]. intros j' Hj'. destruct (Nat.eq_dec j' (i + 1)) as [->|]; [auto|apply Nj; lia].
    + intros j Hj. destruct (Nat.eq_dec j (i + 1)) as [->|]; [auto|apply IH; lia].
Qed.
(** C68.  At least two certificates, a name map, and no callback answer: with name = the lower-cased server name without trailing dots and
    labels = its labels, the answer is the certificate mapped to the first mapped candidate (candidate 0 is the name itself), else the first certificate. *)
Theorem C68_by_name (c0 c1 : cert) (more : list cert) (m : list Z -> option cert) (serverName name : list Z) (labels : list (list Z)) :
  trimmed (toLower serverName) name -> labels_of name labels ->
  candidate labels 0 = name /\
  exists c, getCertificate toLower None (c0 :: c1 :: more) (Some m) serverName = (Some c, None) /\
    ((exists i, (i <= length labels)%nat /\ m (candidate labels i) = Some c /\ forall j, (j < i)%nat -> m (candidate labels j) = None) \/
     (c = c0 /\ forall j, (j <= length labels)%nat -> m (candidate labels j) = None)).
Proof.
  intros T L. assert (C0 : candidate labels 0 = name) by (unfold candidate; cbn; apply L). split; [auto|].
  unfold getCertificate. rewrite (trimmed_unique _ _ _ (trim_dots_spec _) T). cbv zeta.
  rewrite (labels_unique name (split_dots [] name) labels (split_labels name [] (fun x => x)) L).
  destruct (m name) as [c|] eqn:M.
  - exists c. split; [reflexivity|]. left. exists 0%nat. split; [lia|]. split; [congruence|]. intros j Hj; exfalso; lia.
  - pose proof (wildcard_loop_spec m labels (length labels) 0 (Nat.add_0_l _)) as W. cbn [repeat skipn app] in W.
    destruct (wildcard_loop m (length labels) 0 labels) as [c|].
    + destruct W as (j & Hj & Mj & Nj). exists c. split; [reflexivity|]. left. exists j. split; [lia|]. split; [auto|].
      intros j' Hj'. destruct j' as [|j']; [congruence|apply Nj; lia].
    + exists c0. split; [reflexivity|]. right. split; [auto|]. intros j Hj. destruct j as [|j]; [congruence|apply W; lia].
Qed.
(** one certificate, or no name map: always the first; none at all: an error; the callback is asked exactly when a server name was sent or
    there are no certificates, and its answer is final unless it is (nil, nil) *)
Theorem C68_other_cases (cb : option (option cert * option Z)) (certs : list cert) (m : option (list Z -> option cert)) (serverName : list Z) :
  (forall c0, certs = [c0] -> getCertificate toLower None certs m serverName = (Some c0, None)) /\
  (forall c0 rest, certs = c0 :: rest -> m = None -> getCertificate toLower None certs m serverName = (Some c0, None)) /\
  (certs = [] -> getCertificate toLower None certs m serverName = (None, Some 1)) /\
  (forall c e, cb = Some (c, e) -> (c <> None \/ e <> None) -> (certs = [] \/ serverName <> []) -> getCertificate toLower cb certs m serverName = (c, e)) /\
  (cb = Some (None, None) \/ (certs <> [] /\ serverName = []) -> getCertificate toLower cb certs m serverName = getCertificate toLower None certs m serverName).
Proof.
  split; [|split; [|split; [|split]]].
  - intros c0 ->. reflexivity.
  - intros c0 rest -> ->. unfold getCertificate. destruct rest; reflexivity.
  - intros ->. reflexivity.
  - intros c e -> H1 H2. unfold getCertificate.
    assert (B : (match certs with [] => true | _ => false end) || (0 <? zlen serverName) = true).
    { destruct H2 as [->|H2]; [reflexivity|]. destruct serverName; [congruence|]. apply orb_true_iff. right. apply Z.ltb_lt. unfold zlen; cbn [length]; lia. }
    rewrite B. destruct c, e; auto. destruct H1; congruence.
  - intros [->|[H1 ->]]; unfold getCertificate.
    + destruct ((match certs with [] => true | _ => false end) || (0 <? zlen serverName)); reflexivity.
    + destruct certs; [congruence|]. destruct cb as [[? ?]|]; reflexivity.
Qed.

(** ** C81: BuildNameToCertificate.  [names der]: the names of the parsed leaf *)
Definition names_of (leaf : cert -> option (list Z)) (parse : list Z -> option (list Z * list (list Z))) (c : cert) : list (list Z) :=
  match leaf c with
  | Some der => match parse der with Some (cn, sans) => (match cn with [] => [] | _ => [cn] end) ++ sans | None => [] end
  | None => []
  end.
Lemma fold_set_spec sans (c : cert) : forall m k, fold_left (fun m san => map_set m san c) sans m k = if in_dec (list_eq_dec Z.eq_dec) k sans then Some c else m k.
Proof.
  induction sans as [|s l IH]; intros m k; cbn [fold_left]; [reflexivity|]. rewrite IH. unfold map_set.
  destruct (in_dec _ k l) as [H|H], (in_dec _ k (s :: l)) as [H'|H']; auto.
  - exfalso. apply H'. right; auto.
  - destruct H' as [->|H']; [now rewrite beqb_refl|tauto].
  - assert (k <> s) by (intros ->; apply H'; left; auto). assert (B : beqb k s = false) by (apply beqb_neq; auto). now rewrite B.
Qed.
Lemma build_spec leaf parse certs : (forall c, In c certs -> leaf c <> None) -> forall m, exists m', build_names leaf parse certs m = Ok m' /\
  forall k, (forall c, m' k = Some c -> (exists before after, certs = before ++ c :: after /\ In k (names_of leaf parse c) /\ forall c', In c' after -> ~ In k (names_of leaf parse c'))
                       \/ (m k = Some c /\ forall c', In c' certs -> ~ In k (names_of leaf parse c'))) /\
            (m' k = None -> m k = None /\ forall c', In c' certs -> ~ In k (names_of leaf parse c')).
Proof.
  induction certs as [|c rest IH]; intros HL m.
  - exists m. cbn. split; [reflexivity|]. intros k. split; [intros; right; auto|intros; auto].
  - cbn [build_names]. destruct (leaf c) as [der|] eqn:EL; [|exfalso; apply (HL c); [left; auto|auto]].
    assert (HL' : forall c, In c rest -> leaf c <> None) by (intros; apply HL; right; auto).
    destruct (parse der) as [[cn sans]|] eqn:EP.
    + cbv zeta. set (m1 := fold_left (fun m san => map_set m san c) sans (if 0 <? zlen cn then map_set m cn c else m)).
      assert (M1 : forall k, m1 k = if in_dec (list_eq_dec Z.eq_dec) k (names_of leaf parse c) then Some c else m k).
      { intros k. unfold m1. rewrite fold_set_spec. unfold names_of. rewrite EL, EP.
        destruct (in_dec _ k sans) as [H|H].
        - destruct (in_dec _ k (_ ++ sans)) as [H'|H']; [reflexivity|]. exfalso. apply H'. apply in_or_app; auto.
        - destruct cn as [|x cn].
          + cbn [app zlen length]. cbn. destruct (in_dec _ k sans); [tauto|reflexivity].
          + assert (B : (0 <? zlen (x :: cn)) = true) by (apply Z.ltb_lt; unfold zlen; cbn [length]; lia). rewrite B. unfold map_set.
            destruct (in_dec _ k ([x :: cn] ++ sans)) as [H'|H'].
            * destruct H' as [->|H']; [now rewrite beqb_refl|tauto].
            * assert (N : beqb k (x :: cn) = false) by (apply beqb_neq; intros ->; apply H'; left; auto). now rewrite N. }
      destruct (IH HL' m1) as (m' & E & H). exists m'. split; [exact E|]. intros k. destruct (H k) as [HA HB]. split.
      * intros d Hd. destruct (HA d Hd) as [(b & a & -> & Hin & Hn)|[Hm Hn]].
        -- left. exists (c :: b), a. auto.
        -- rewrite M1 in Hm. destruct (in_dec _ k (names_of leaf parse c)) as [Hin|Hout].
           ++ injection Hm as <-. left. exists [], rest. auto.
           ++ right. split; [auto|]. intros c' [<-|Hc']; auto.
      * intros Hd. destruct (HB Hd) as [Hm Hn]. rewrite M1 in Hm. destruct (in_dec _ k (names_of leaf parse c)) as [Hin|Hout]; [discriminate|].
        split; [auto|]. intros c' [<-|Hc']; auto.
    + assert (NN : names_of leaf parse c = []) by (unfold names_of; now rewrite EL, EP).
      destruct (IH HL' m) as (m' & E & H). exists m'. split; [exact E|]. intros k. destruct (H k) as [HA HB]. split.
      * intros d Hd. destruct (HA d Hd) as [(b & a & -> & Hin & Hn)|[Hm Hn]].
        -- left. exists (c :: b), a. auto.
        -- right. split; [auto|]. intros c' [<-|Hc']; [rewrite NN; auto|auto].
      * intros Hd. destruct (HB Hd) as [Hm Hn]. split; [auto|]. intros c' [<-|Hc']; [rewrite NN; auto|auto].
Qed.
(** the map sends a name to the last certificate carrying it (as written in the certificate) *)
Theorem C81_name_map_partial leaf parse (certs : list cert) : (forall c, In c certs -> leaf c <> None) ->
  exists m, BuildNameToCertificate leaf parse certs = Ok m /\
  forall k, (forall c, m k = Some c -> exists before after, certs = before ++ c :: after /\ In k (names_of leaf parse c) /\ forall c', In c' after -> ~ In k (names_of leaf parse c')) /\
            (m k = None -> forall c', In c' certs -> ~ In k (names_of leaf parse c')).
Proof.
  intros HL. unfold BuildNameToCertificate. destruct (build_spec leaf parse certs HL (fun _ => None)) as (m & E & H). exists m. split; [exact E|].
  intros k. destruct (H k) as [HA HB]. split; [|intros Hk; apply (HB Hk)]. intros c Hc. destruct (HA c Hc) as [A|[B _]]; [exact A|discriminate].
Qed.
(** a client asking for a name that some certificate carries, spelled in lower case and without trailing dots, gets such a certificate *)
Theorem C81_lower_case_names_partial leaf parse (c0 c1 : cert) (more : list cert) (serverName name : list Z) :
  let certs := c0 :: c1 :: more in
  (forall c, In c certs -> leaf c <> None) -> trimmed (toLower serverName) name -> (exists c, In c certs /\ In name (names_of leaf parse c)) ->
  exists m c, BuildNameToCertificate leaf parse certs = Ok m /\ getCertificate toLower None certs (Some m) serverName = (Some c, None) /\
    In c certs /\ In name (names_of leaf parse c).
Proof.
  cbv zeta. intros HL T (c & Hc & Hn). destruct (C81_name_map_partial leaf parse (c0 :: c1 :: more) HL) as (m & E & H).
  destruct (C68_by_name c0 c1 more m serverName name (split_dots [] name) T (split_labels name [] (fun x => x))) as (C0 & d & G & D).
  exists m, d. split; [exact E|]. split; [exact G|].
  destruct (H name) as [HA HB]. destruct (m name) as [d'|] eqn:M.
  - assert (d = d').
    { destruct D as [(i & Hi & Mi & Ni)|[_ N]].
      - destruct i as [|i]; [congruence|]. specialize (Ni 0%nat ltac:(lia)). congruence.
      - specialize (N 0%nat ltac:(lia)). congruence. }
    subst d'. destruct (HA d eq_refl) as (b & a & -> & Hin & _). split; [apply in_elt|auto].
  - exfalso. apply (HB eq_refl c Hc). auto.
Qed.
End C68.
(** names are compared after lower-casing only the client's side: a certificate for "Ex" is never found, whatever the client sends *)
Definition ascii_lower (s : list Z) : list Z := map (fun c => if (65 <=? c) && (c <=? 90) then c + 32 else c) s.
Lemma C68_hyps :
  let m := map_set (map_set (fun _ => None) [42; 46; 98] 5) [97; 46; 98] 7 in      (* "*.b" -> 5, "a.b" -> 7 *)
  getCertificate ascii_lower None [1; 2] (Some m) [65; 46; 66; 46] = (Some 7, None) /\     (* "A.B." *)
  getCertificate ascii_lower None [1; 2] (Some m) [99; 46; 98] = (Some 5, None) /\         (* "c.b" *)
  getCertificate ascii_lower None [1; 2] (Some m) [99; 46; 99; 46; 98] = (Some 1, None) /\ (* "c.c.b": only "*.c.b", "*.*.b", "*.*.*" are tried *)
  trimmed (ascii_lower [65; 46; 66; 46]) [97; 46; 98] /\ labels_of [97; 46; 98] [[97]; [98]].
Proof.
  repeat split; try reflexivity; try discriminate.
  - exists 1%nat. reflexivity.
  - intros init a H. apply (f_equal (@rev Z)) in H. rewrite rev_app_distr in H. cbn in H. injection H as <- _. discriminate.
  - intros l [<-|[<-|[]]]; cbn; intros [H|[]]; discriminate.
Qed.
Lemma lower_no_upper s x : In x (ascii_lower s) -> x <> 69.
Proof.
  intros H. apply in_map_iff in H as (c & E & _). destruct (Z.leb_spec 65 c), (Z.leb_spec c 90); cbn in E; lia.
Qed.
Theorem C81_upper_case_names_refuted :
  exists (certs : list Z) leaf parse m,
    BuildNameToCertificate leaf parse certs = Ok m /\
    (exists c, In c certs /\ In [69; 120] (names_of leaf parse c)) /\                      (* a certificate for "Ex" *)
    getCertificate ascii_lower None certs (Some m) [69; 120] = (Some 1, None) /\           (* "Ex" requested: the other certificate is presented *)
    forall s, getCertificate ascii_lower None certs (Some m) s = (Some 1, None).
Proof.
  exists [1; 2], (fun c => Some [c]), (fun der => Some (match der with [2] => [69; 120] | _ => [] end, [])).
  eexists. split; [reflexivity|]. split; [exists 2; split; [right; left; reflexivity|cbn; auto]|]. split; [reflexivity|].
  intros s. pose proof (fun x => lower_no_upper s x) as NU. cbn [zlen length]. change (0 <? zlen [69; 120]) with true. cbv iota.
  match goal with |- getCertificate _ _ _ (Some ?m) _ = _ => set (mm := m) end.
  assert (MM : forall k, mm k = None \/ k = [69; 120]).
  { intros k. unfold mm, map_set. cbn [fold_left]. destruct (beqb k [69; 120]) eqn:B; [right; now apply beqb_eq|left]. reflexivity. }
  destruct (C68_by_name ascii_lower 1 2 [] mm s (trim_dots (ascii_lower s)) (split_dots [] (trim_dots (ascii_lower s)))
             (trim_dots_spec _) (split_labels _ [] (fun x => x))) as (C0 & c & G & D).
  rewrite G. destruct D as [(i & Hi & Mi & _)|[-> _]]; [|reflexivity]. exfalso.
  destruct (MM (candidate (split_dots [] (trim_dots (ascii_lower s))) i)) as [N|Q]; [congruence|].
  destruct i as [|i].
  - rewrite C0 in Q. destruct (trim_dots_spec (ascii_lower s)) as [(n & E) _]. apply (NU 69); [rewrite E, Q; left; reflexivity|reflexivity].
  - unfold candidate in Q. cbn [repeat app join_dots] in Q. destruct (repeat star i ++ skipn (Datatypes.S i) _); discriminate.
Qed.

(** ** C79, C80: ticket keys.  A key configured on the config returned by GetConfigForClient is not used: tickets are made with the
    original config's keys (the documentation says the returned config's key is used when it is set and SetSessionTicketKeys was not called) *)
Definition key_set (k : list Z) : Prop := exists b, In b k /\ b <> 0.
Lemma key_set_spec k : existsb (fun b => negb (b =? 0)) k = true <-> key_set k.
Proof.
  rewrite existsb_exists. unfold key_set. split; intros (b & H & E); exists b; (split; [auto|]).
  - apply negb_true_iff, Z.eqb_neq in E; auto.
  - now apply negb_true_iff, Z.eqb_neq.
Qed.
Theorem C79_own_key_ignored_refuted (sha512 : list Z -> list Z) (key : list Z) (o : tconfig) (rnd : option (list Z)) :
  key_set key -> tc_keys (serverInit sha512 (mkTC false key []) (Some o) rnd) = tc_keys o.
Proof. intros H. unfold serverInit. cbn. apply key_set_spec in H. rewrite H. reflexivity. Qed.
(** the documented behaviour otherwise: keys already set are kept; the original's are inherited; without an original the configured key, or
    a random one, is used; a failing random source disables tickets *)
Theorem C79_ticket_keys_partial (sha512 : list Z -> list Z) (c : tconfig) (original : option tconfig) (rnd : option (list Z)) :
  (tc_keys c <> [] \/ tc_disabled c = true -> serverInit sha512 c original rnd = c) /\
  (forall o, tc_keys c = [] -> tc_disabled c = false -> original = Some o -> tc_keys (serverInit sha512 c original rnd) = tc_keys o) /\
  (tc_keys c = [] -> tc_disabled c = false -> original = None -> key_set (tc_key c) ->
     tc_keys (serverInit sha512 c original rnd) = [ticketKeyFromBytes sha512 (tc_key c)]) /\
  (forall r, tc_keys c = [] -> tc_disabled c = false -> original = None -> ~ key_set (tc_key c) -> rnd = Some r ->
     tc_keys (serverInit sha512 c original rnd) = [ticketKeyFromBytes sha512 r]) /\
  (tc_keys c = [] -> tc_disabled c = false -> original = None -> ~ key_set (tc_key c) -> rnd = None ->
     tc_disabled (serverInit sha512 c original rnd) = true).
Proof.
  destruct c as [d k ks]. cbn [tc_keys tc_disabled tc_key]. split; [|split; [|split; [|split]]].
  - intros [H| ->]; unfold serverInit; cbn [tc_disabled tc_keys]; [|reflexivity]. destruct ks; [congruence|]. cbn [length Nat.eqb negb]. now rewrite orb_true_r.
  - intros o -> -> ->. unfold serverInit. cbn. destruct (existsb _ k); reflexivity.
  - intros -> -> -> H. unfold serverInit. cbn. apply key_set_spec in H. rewrite H. reflexivity.
  - intros r -> -> -> H ->. unfold serverInit. cbn. destruct (existsb _ k) eqn:E; [apply key_set_spec in E; tauto|reflexivity].
  - intros -> -> -> H ->. unfold serverInit. cbn. destruct (existsb _ k) eqn:E; [apply key_set_spec in E; tauto|reflexivity].
Qed.
(** C80: a config with tickets enabled can be left without any key: the original had tickets disabled.  encryptTicket then indexes keys[0]. *)
Theorem C80_enabled_without_keys_refuted (sha512 : list Z -> list Z) (key : list Z) (rnd : option (list Z)) :
  let original := serverInit sha512 (mkTC true key []) None rnd in
  let c := serverInit sha512 (mkTC false key []) (Some original) rnd in
  tc_disabled c = false /\ tc_keys c = [].
Proof. cbv zeta. unfold serverInit. cbn. destruct (existsb _ key); split; reflexivity. Qed.
(** otherwise: if the original (when there is one) has a key, then tickets are disabled or there is a key *)
Theorem C80_keys_present_partial (sha512 : list Z -> list Z) (c : tconfig) (original : option tconfig) (rnd : option (list Z)) :
  (forall o, original = Some o -> tc_keys o <> []) ->
  let c' := serverInit sha512 c original rnd in tc_disabled c' = true \/ tc_keys c' <> [].
Proof.
  intros H. cbv zeta. unfold serverInit. destruct c as [d k ks]. cbn [tc_disabled tc_keys tc_key]. destruct d; cbn [orb]; [left; reflexivity|].
  destruct ks as [|a l]; cbn [length Nat.eqb negb]; [|right; discriminate].
  destruct (existsb _ k); destruct original as [o|]; try destruct rnd; cbn; auto; right; try discriminate; apply H; reflexivity.
Qed.
(** SetSessionTicketKeys: crashes exactly on an empty list; otherwise replaces the keys, the first one first *)
Theorem C80_set_keys (sha512 : list Z -> list Z) (c : tconfig) (keys : list (list Z)) :
  (keys = [] <-> SetSessionTicketKeys sha512 c keys = Panic) /\
  (keys <> [] -> exists c', SetSessionTicketKeys sha512 c keys = Ok c' /\ tc_keys c' = map (ticketKeyFromBytes sha512) keys /\ tc_disabled c' = tc_disabled c).
Proof.
  unfold SetSessionTicketKeys. destruct keys; split; try (split; congruence); try congruence. intros _. eexists. split; [reflexivity|]. auto.
Qed.

(** ** C78: GMX509KeyPairs never looks at the encryption private key *)
Section C78.
Context {key pubk : Type} (pem_decode : list Z -> option (list Z * list Z * list Z)) (parse_cert : list Z -> option (option pubk))
        (parse_key : list Z -> option key) (match_key : pubk -> key -> bool).
Theorem C78_encryption_key_ignored_refuted (certPEM keyPEM encCertPEM encKey1 encKey2 : list Z) :
  GMX509KeyPairs pem_decode parse_cert parse_key match_key certPEM keyPEM encCertPEM encKey1 =
  GMX509KeyPairs pem_decode parse_cert parse_key match_key certPEM keyPEM encCertPEM encKey2.
Proof. reflexivity. Qed.
(** what is checked: the signing key belongs to the signing certificate; the chain is exactly the first certificate of each input *)
Theorem C78_signing_key_matches_partial (certPEM keyPEM encCertPEM encKeyPEM : list Z) (chain : list (list Z)) (k : key) :
  GMX509KeyPairs pem_decode parse_cert parse_key match_key certPEM keyPEM encCertPEM encKeyPEM = Ok (chain, k) ->
  exists sign enc pub der, chain = [sign; enc] /\ parse_cert sign = Some (Some pub) /\ parse_key der = Some k /\ match_key pub k = true /\
    (exists more, getCert pem_decode certPEM = Ok (sign :: more)) /\ (exists more, getCert pem_decode encCertPEM = Ok (enc :: more)) /\
    getKey pem_decode (Datatypes.S (length keyPEM)) keyPEM = Ok der.
Proof.
  unfold GMX509KeyPairs. destruct (getCert pem_decode certPEM) as [cs| |]; cbn [rbind]; try discriminate. destruct cs as [|sign more]; [discriminate|].
  destruct (getCert pem_decode encCertPEM) as [es| |]; cbn [rbind]; try discriminate. destruct es as [|enc more2]; [discriminate|].
  destruct (getKey pem_decode (Datatypes.S (length keyPEM)) keyPEM) as [der| |]; cbn [rbind]; try discriminate.
  unfold matchKeyCert. destruct (parse_cert sign) as [[pub|]|] eqn:PC; try discriminate; destruct (parse_key der) as [k'|] eqn:PK; try discriminate.
  destruct (match_key pub k') eqn:MK; cbn [rbind]; [|discriminate]. intros [= <- <-]. exists sign, enc, pub, der. repeat split; eauto.
Qed.
End C78.
(** a wrong encryption key is accepted: one-block "PEM" inputs [type ++ 0 ++ body]; keys and certificates are one byte, equal bytes match *)
Lemma C78_hyps :
  let pd := fun l : list Z => match l with 0 :: c :: r => Some (CERTIFICATE, [c], r) | 1 :: c :: r => Some (PRIVATE_KEY, [c], r) | _ => None end in
  let pc := fun d : list Z => match d with [c] => Some (Some c) | _ => None end in
  let pk := fun d : list Z => match d with [c] => Some c | _ => None end in
  GMX509KeyPairs pd pc pk Z.eqb [0; 7] [1; 7] [0; 9] [1; 99] = Ok ([[7]; [9]], 7) /\
  GMX509KeyPairs pd pc pk Z.eqb [0; 7] [1; 8] [0; 9] [1; 9] = Err 6.
Proof. split; reflexivity. Qed.

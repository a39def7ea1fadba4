(** C137: the server name the ordinary client sends in the clear (handshake_client.go: hostnameInSNI, makeClientHello). *)
From Verif Require Import GoBase GoLemmas TLS_record_model TLS_msg_model TLS_neg_model TLS_hs_model TLS_std_model.
From Verif Require P_TLS_neg.
Open Scope Z_scope.
(** ** Specification *)
(** "[host]" stands for host *)
Definition unbracket (name host : list Z) : Prop :=
  name = 91 :: host ++ [93] \/ (host = name /\ forall h, name <> 91 :: h ++ [93]).
(** "addr%zone" stands for addr; a leading % does not count *)
Definition unzone (host addr : list Z) : Prop :=
  (addr <> [] /\ exists z, host = addr ++ 37 :: z /\ ~ In 37 z) \/ (addr = host /\ forall a z, host = a ++ 37 :: z -> ~ In 37 z -> a = []).
Definition dot : Z := 46.
(** [t] is [s] without its trailing dots *)
Definition without_dots (s t : list Z) : Prop := (exists n, s = t ++ repeat dot n) /\ forall init a, t = init ++ [a] -> a <> dot.

Lemma last_percent_spec s : forall i f, last_percent i s f = if in_dec Z.eq_dec 37 s then (i + last_percent 0 s 0)%nat else f.
Proof.
  induction s as [|c s IH]; intros i f; cbn [last_percent]; [reflexivity|]. rewrite IH, (IH (0 + 1)%nat).
  destruct (Z.eqb_spec c 37) as [->|N].
  - destruct (in_dec Z.eq_dec 37 (37 :: s)) as [_|X]; [|exfalso; apply X; now left]. destruct (in_dec Z.eq_dec 37 s); lia.
  - destruct (in_dec Z.eq_dec 37 s) as [H|H]; (destruct (in_dec Z.eq_dec 37 (c :: s)) as [H2|H2]); try lia; [exfalso; apply H2; now right|]. destruct H2; contradiction.
Qed.
Lemma last_percent_app a z f : ~ In 37 z -> last_percent 0 (a ++ 37 :: z) f = length a.
Proof.
  intros H. revert f. induction a as [|c a IH]; intros f; cbn [app last_percent length].
  - change (37 =? 37) with true. cbv iota. rewrite last_percent_spec. destruct (in_dec Z.eq_dec 37 z); [contradiction|reflexivity].
  - rewrite last_percent_spec. destruct (in_dec Z.eq_dec 37 (a ++ 37 :: z)) as [_|X]; [rewrite IH; lia|]. exfalso. apply X. apply in_or_app. right. now left.
Qed.
Lemma split_last s : (exists a z, s = a ++ 37 :: z /\ ~ In 37 z) \/ ~ In 37 s.
Proof.
  induction s as [|c s IH]; [right; intros []|]. destruct IH as [(a & z & -> & H)|H]; [left; exists (c :: a), z; auto|].
  destruct (Z.eq_dec c 37) as [->|N]; [left; exists [], s; auto|]. right. intros [X|X]; auto.
Qed.
Lemma split_unique a z a' z' : a ++ 37 :: z = a' ++ 37 :: z' -> ~ In 37 z -> ~ In 37 z' -> a = a'.
Proof.
  intros E H H'. assert (L : length a = length a') by (rewrite <- (last_percent_app a z 0 H), <- (last_percent_app a' z' 0 H'), E; reflexivity).
  apply (f_equal (firstn (length a))) in E. rewrite firstn_app, Nat.sub_diag, firstn_all in E. cbn [firstn] in E. rewrite app_nil_r in E. rewrite L, firstn_app, Nat.sub_diag, firstn_all in E. cbn [firstn] in E. now rewrite app_nil_r in E.
Qed.
Lemma unzone_code host addr : unzone host addr -> (let i := last_percent 0 host 0 in if (0 <? i)%nat then firstn i host else host) = addr.
Proof.
  intros H. cbv zeta. destruct H as [(N & z & -> & Hz)|(-> & H)].
  - rewrite last_percent_app by exact Hz. destruct addr as [|c addr]; [contradiction|]. cbn [length]. change (0 <? Datatypes.S (length addr))%nat with true. cbv iota.
    change (Datatypes.S (length addr)) with (length (c :: addr)). rewrite firstn_app, Nat.sub_diag, firstn_all. cbn [firstn]. apply app_nil_r.
  - destruct (split_last host) as [(a & z & E & Hz)|Hn].
    + rewrite (H a z E Hz) in E. subst host. rewrite last_percent_app by exact Hz. reflexivity.
    + assert (E : last_percent 0 host 0 = 0%nat) by (rewrite last_percent_spec; destruct (in_dec Z.eq_dec 37 host); [contradiction|reflexivity]). rewrite E. reflexivity.
Qed.
Lemma unbracket_code name host : unbracket name host ->
  (match name with 91 :: r => match rev name with 93 :: _ => firstn (length r - 1) r | _ => name end | _ => name end) = host.
Proof.
  intros [->|(-> & H)].
  - change (91 :: host ++ [93]) with ((91 :: host) ++ [93]). rewrite rev_app_distr. cbn [rev app]. rewrite app_length. cbn [length]. replace (length host + 1 - 1)%nat with (length host) by lia.
    rewrite firstn_app, Nat.sub_diag, firstn_all. cbn [firstn]. apply app_nil_r.
  - destruct name as [|c r]; [reflexivity|]. destruct (Z.eq_dec c 91) as [->|N].
    2:{ destruct c as [|p|p]; try reflexivity. do 7 (destruct p as [p|p|]; try reflexivity). now contradiction N. }
    destruct (rev (91 :: r)) as [|d l] eqn:E; [reflexivity|]. destruct (Z.eq_dec d 93) as [->|N].
    + exfalso. apply (f_equal (@rev Z)) in E. rewrite rev_involutive in E. cbn [rev] in E. destruct r as [|x r] using rev_ind.
      * change [91] with ([] ++ [91]) in E. apply app_inj_tail in E as [_ E]. discriminate.
      * apply (H r). change (91 :: r ++ [x]) with ((91 :: r) ++ [x]) in E. apply app_inj_tail in E as [E1 ->]. reflexivity.
    + destruct d as [|p|p]; try reflexivity. do 7 (destruct p as [p|p|]; try reflexivity). now contradiction N.
Qed.

Section S.
Context {T : Type} (E : senv T).
(** every name stands for one address *)
Theorem C137_address : forall name, exists host addr, unbracket name host /\ unzone host addr.
Proof.
  intros name. assert (B : exists host, unbracket name host).
  { destruct name as [|c r]; [exists []; right; split; [reflexivity|discriminate]|]. destruct r as [|x r] using rev_ind; [exists [c]; right; split; [reflexivity|intros [|? ?]; discriminate]|]. clear IHr.
    destruct (Z.eq_dec c 91) as [->|N1]; [|exists (c :: r ++ [x]); right; split; [reflexivity|intros h X; injection X as -> _; contradiction]].
    destruct (Z.eq_dec x 93) as [->|N2]; [exists r; now left|]. exists (91 :: r ++ [x]). right. split; [reflexivity|]. intros h X. injection X as X. apply app_inj_tail in X as [_ X]. contradiction. }
  destruct B as (host & B). exists host. destruct (split_last host) as [(a & z & EH & Hz)|Hn].
  - destruct a as [|c a].
    + exists host. split; [exact B|]. right. split; [reflexivity|]. intros a' z' E' H'. symmetry. rewrite EH in E'. exact (split_unique _ _ _ _ E' Hz H').
    + exists (c :: a). split; [exact B|]. left. split; [discriminate|]. exists z. auto.
  - exists host. split; [exact B|]. right. split; [reflexivity|]. intros a z E' _. exfalso. apply Hn. rewrite E'. apply in_or_app. right. now left.
Qed.
(** what the ClientHello carries: nothing when the configured name stands for an IP address, else the name without its trailing dots *)
Theorem C137_sni : forall cfg rn hello host addr, makeClientHello E cfg rn = Ok hello ->
  unbracket (cf_serverName (s_cfg cfg)) host -> unzone host addr ->
  if se_isIP E addr then ch_sni hello = [] else without_dots (cf_serverName (s_cfg cfg)) (ch_sni hello).
Proof.
  intros cfg rn hello host addr H HB HZ. assert (ES : ch_sni hello = hostnameInSNI E (cf_serverName (s_cfg cfg))).
  { unfold makeClientHello in H. cbv zeta in H. destruct (_ && _); [discriminate|]. destruct (existsb _ _); [discriminate|]. destruct (_ <? _); [discriminate|]. destruct (r_hello rn); [|discriminate]. injection H as <-. reflexivity. }
  rewrite ES. unfold hostnameInSNI. cbv zeta. rewrite (unbracket_code _ _ HB). pose proof (unzone_code _ _ HZ) as EZ. cbv zeta in EZ. rewrite EZ.
  destruct (se_isIP E addr); [reflexivity|]. exact (P_TLS_neg.trim_dots_spec _).
Qed.
(** consequences: it never ends with a dot, and a configured IP address is not sent *)
Theorem C137_never_dot : forall cfg rn hello init a, makeClientHello E cfg rn = Ok hello -> ch_sni hello = init ++ [a] -> a <> dot.
Proof.
  intros cfg rn hello init a H HS. destruct (C137_address (cf_serverName (s_cfg cfg))) as (host & addr & HB & HZ). pose proof (C137_sni cfg rn hello host addr H HB HZ) as G.
  destruct (se_isIP E addr); [rewrite G in HS; destruct init; discriminate|]. destruct G as [_ G]. exact (G _ _ HS).
Qed.
Theorem C137_plain_address : forall cfg rn hello, makeClientHello E cfg rn = Ok hello -> se_isIP E (cf_serverName (s_cfg cfg)) = true ->
  ~ In 37 (cf_serverName (s_cfg cfg)) -> ~ In 91 (cf_serverName (s_cfg cfg)) -> ch_sni hello = [].
Proof.
  intros cfg rn hello H HI H37 H91. pose proof (C137_sni cfg rn hello (cf_serverName (s_cfg cfg)) (cf_serverName (s_cfg cfg)) H) as G. rewrite HI in G. apply G.
  - right. split; [reflexivity|]. intros h X. apply H91. rewrite X. now left.
  - right. split; [reflexivity|]. intros a z X _. exfalso. apply H37. rewrite X. apply in_or_app. right. now left.
Qed.
End S.
(** FALSE of the code for an IP address followed by a dot: the check comes before the dots are dropped, so the bare address is sent, for every ParseIP that knows
    "1.2.3.4" and not "1.2.3.4." *)
Theorem C137_dotted_address_refuted : forall T (E : senv T) cfg rn rd, let ip := [49;46;50;46;51;46;52] in
  se_isIP E ip = true -> se_isIP E (ip ++ [dot]) = false -> cf_serverName (s_cfg cfg) = ip ++ [dot] -> cf_protos (s_cfg cfg) = [] -> r_hello rn = Some rd ->
  exists hello, makeClientHello E cfg rn = Ok hello /\ ch_sni hello = ip.
Proof.
  intros T E cfg rn rd ip H1 H2 HN HP HR. unfold makeClientHello. cbv zeta. rewrite HN, HP, HR. cbn [existsb fold_left zlen length Z.of_nat app ip]. 
  eexists. split; [reflexivity|]. cbn [ch_sni].
  change (hostnameInSNI E [49;46;50;46;51;46;52;46] = ip). assert (X : hostnameInSNI E [49;46;50;46;51;46;52;46] = if se_isIP E [49;46;50;46;51;46;52;46] then [] else ip) by reflexivity.
  change (se_isIP E [49;46;50;46;51;46;52;46] = false) in H2. rewrite X, H2. reflexivity.
Qed.

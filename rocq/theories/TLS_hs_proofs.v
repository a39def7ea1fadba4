(** Inversion lemmas for the handshake model: what a call that returned has sent, received and computed. *)
From Verif Require Import GoBase GoLemmas BigBytes Asn1_model X509_spec SM2_model SM3_spec TLS_record_model TLS_prf_model TLS_prf_spec TLS_prf_proofs
  TLS_gmka_model TLS_ticket_model TLS_msg_model TLS_neg_model TLS_hs_model.
From Verif Require X509_model.
Open Scope Z_scope.

(** the handshake messages of a log, in order *)
Definition msg_of (e : event) : list (list Z) := match e with EvSend m | EvRecv m => [m] | _ => [] end.
Definition wire (l : list event) : list (list Z) := flat_map msg_of l.
Definition transcript (l : list event) : list Z := concat (wire l).
Lemma wire_app a b : wire (a ++ b) = wire a ++ wire b. Proof. apply flat_map_app. Qed.
Lemma transcript_app a b : transcript (a ++ b) = transcript a ++ transcript b.
Proof. unfold transcript. rewrite wire_app. apply concat_app. Qed.
(** Go's []byte only holds bytes *)
Definition wire_ok (l : list event) : Prop := bytes (transcript l) /\ zlen (transcript l) < 2 ^ 59.
Lemma wire_ok_app a b : wire_ok (a ++ b) -> wire_ok a /\ wire_ok b.
Proof.
  unfold wire_ok. rewrite transcript_app. intros [H1 H2]. apply bytes_app in H1 as [H1 H3].
  unfold zlen in *. rewrite app_length in H2. split; split; auto; lia.
Qed.
Lemma wire_ok_cons e l : wire_ok (e :: l) -> wire_ok [e] /\ wire_ok l.
Proof. intros H. apply (wire_ok_app [e]). exact H. Qed.
Lemma wire_ok_send m : wire_ok [EvSend m] -> bytes m. Proof. intros [H _]. unfold transcript in H. cbn in H. now rewrite app_nil_r in H. Qed.
Lemma wire_ok_recv m : wire_ok [EvRecv m] -> bytes m. Proof. intros [H _]. unfold transcript in H. cbn in H. now rewrite app_nil_r in H. Qed.

Section Prim.
Context {C : chan}.
Implicit Types s : hst C.
Lemma bind_ok {A B} (m : M C A) (k : A -> M C B) s b s' : bind m k s = (HOk b, s') -> exists a s1, m s = (HOk a, s1) /\ k a s1 = (HOk b, s').
Proof. unfold bind. destruct (m s) as [[a|e| |] s1]; intros H; try discriminate. eauto. Qed.
Lemma ret_ok {A} (a b : A) s s' : ret (C := C) a s = (HOk b, s') -> b = a /\ s' = s.
Proof. unfold ret. intros [= -> ->]. auto. Qed.
Lemma lift_ok {A} (r : hres A) b s s' : lift (C := C) r s = (HOk b, s') -> r = HOk b /\ s' = s.
Proof. unfold lift. intros [= -> ->]. auto. Qed.
Lemma throw_ok {A} e (b : A) s s' : throw (C := C) e s = (HOk b, s') -> False. Proof. discriminate. Qed.
Lemma panic_ok {A} (b : A) s s' : panic (C := C) s = (HOk b, s') -> False. Proof. discriminate. Qed.
Lemma fail_with_ok {A} a e (b : A) s s' : fail_with (C := C) a e s = (HOk b, s') -> False.
Proof. unfold fail_with, bind, alert, throw. cbn. discriminate. Qed.
Lemma unexpected_ok {A} (b : A) s s' : unexpected (C := C) s = (HOk b, s') -> False.
Proof. unfold unexpected, bind, alert, throw. cbn. discriminate. Qed.
Lemma of_res_ok {A} (r : res A) b : of_res r = HOk b -> r = Ok b. Proof. destruct r; cbn; congruence. Qed.
Lemma orfail_ok {A} a (r : hres A) b s s' : orfail (C := C) a r s = (HOk b, s') -> r = HOk b /\ s' = s.
Proof. destruct r; cbn; intros H; try discriminate. injection H as <- <-. auto. Qed.
Lemma recv_raw_ok m s s' : recv_raw (C := C) s = (HOk m, s') -> snd s' = snd s ++ [EvRecv m].
Proof. unfold recv_raw. destruct (cn_read C (fst s)) as [[x| | |] c]; intros H; try discriminate. injection H as <- <-. reflexivity. Qed.
Lemma recv_ccs_ok u s s' : recv_ccs (C := C) s = (HOk u, s') -> snd s' = snd s ++ [EvRecvCCS].
Proof. unfold recv_ccs. destruct (cn_ccs C (fst s)) as [[x| | |] c]; intros H; try discriminate. injection H as <- <-. reflexivity. Qed.
Lemma send_ok m u s s' : send (C := C) m s = (HOk u, s') -> snd s' = snd s ++ [EvSend m].
Proof. unfold send. destruct (cn_write C recordTypeHandshake m (fst s)) as [[x| | |] c]; intros H; try discriminate. injection H as <- <-. reflexivity. Qed.
Lemma send_ccs_ok u s s' : send_ccs (C := C) s = (HOk u, s') -> snd s' = snd s ++ [EvSendCCS].
Proof. unfold send_ccs. destruct (cn_write C recordTypeChangeCipherSpec [1] (fst s)) as [[x| | |] c]; intros H; try discriminate. injection H as <- <-. reflexivity. Qed.
Lemma setvers_ok v h u s s' : setvers (C := C) v h s = (HOk u, s') -> snd s' = snd s.
Proof. unfold setvers. intros [= _ <-]. reflexivity. Qed.
Lemma setkeys_ok b v k u s s' : setkeys (C := C) b v k s = (HOk u, s') -> snd s' = snd s ++ [EvKeys k].
Proof. unfold setkeys. intros [= _ <-]. reflexivity. Qed.
Lemma readHandshake_ok v m raw s s' : readHandshake (C := C) v s = (HOk (m, raw), s') -> parse_msg v raw = Ok m /\ snd s' = snd s ++ [EvRecv raw].
Proof.
  unfold readHandshake. intros H. apply bind_ok in H as (x & s1 & H1 & H). apply recv_raw_ok in H1.
  destruct (parse_msg v x) as [y| |] eqn:EP; [|now apply unexpected_ok in H|discriminate].
  apply ret_ok in H as [[= -> ->] ->]. auto.
Qed.
Lemma wr_ok h msg h' s s' : wr (C := C) h msg s = (HOk h', s') -> fh_Write h msg = Ok h' /\ s' = s.
Proof. unfold wr. intros H. apply lift_ok in H as [H ->]. apply of_res_ok in H. auto. Qed.
Lemma enc_ok r m s s' : enc (C := C) r s = (HOk m, s') -> r = Ok m /\ s' = s.
Proof. unfold enc. intros H. apply lift_ok in H as [H ->]. apply of_res_ok in H. auto. Qed.
Lemma emit_ok h r h' s s' : emit (C := C) h r s = (HOk h', s') -> exists msg, r = Ok msg /\ fh_Write h msg = Ok h' /\ snd s' = snd s ++ [EvSend msg].
Proof.
  unfold emit. intros H. apply bind_ok in H as (m & s1 & H1 & H). apply enc_ok in H1 as [-> ->].
  apply bind_ok in H as (x & s1 & H1 & H). apply wr_ok in H1 as [H1 ->]. apply bind_ok in H as (u & s1 & H2 & H). apply send_ok in H2.
  apply ret_ok in H as [-> ->]. eauto.
Qed.
End Prim.

(** ** Tactics: take a successful run apart *)
Ltac prim H :=
  lazymatch type of H with
  | ret _ _ = _ => apply ret_ok in H as [H ?]
  | lift _ _ = _ => apply lift_ok in H as [H ?]
  | orfail _ _ _ = _ => apply orfail_ok in H as [H ?]
  | wr _ _ _ = _ => apply wr_ok in H as [H ?]
  | enc _ _ = _ => apply enc_ok in H as [H ?]
  | emit _ _ _ = _ => let m := fresh "m" in let Hm := fresh "Hm" in let Hw := fresh "Hw" in apply emit_ok in H as (m & Hm & Hw & H)
  | send _ _ = _ => apply send_ok in H
  | send_ccs _ = _ => apply send_ccs_ok in H
  | recv_ccs _ = _ => apply recv_ccs_ok in H
  | setvers _ _ _ = _ => apply setvers_ok in H
  | setkeys _ _ _ _ = _ => apply setkeys_ok in H
  | readHandshake _ _ = (HOk ?p, _) => first [ let Hp := fresh "Hp" in apply readHandshake_ok in H as [Hp H] | destruct p; let Hp := fresh "Hp" in apply readHandshake_ok in H as [Hp H] ]
  | fail_with _ _ _ = _ => now apply fail_with_ok in H
  | unexpected _ = _ => now apply unexpected_ok in H
  | throw _ _ = _ => now apply throw_ok in H
  | panic _ = _ => now apply panic_ok in H
  end.
Ltac bnd H := let a := fresh "a" in let s := fresh "s" in let E := fresh "E" in apply bind_ok in H as (a & s & E & H); cbv beta in H.

(** ** The server *)
Section ServerInv.
Context {T : Type} (E : env T) {C : chan}.
Implicit Types s : hst C.
Definition cfg_for (cfg : config T) (getcfg : option (clientHello -> res (option (config T)))) (ch : clientHello) (cfg' : config T) : Prop :=
  match getcfg with
  | None => cfg' = cfg
  | Some f => exists r, f ch = Ok r /\ cfg' = match r with Some c => c | None => cfg end
  end.
Lemma server_hello_inv cfg getcfg rn hs s s' : server_hello (C := C) cfg getcfg rn s = (HOk hs, s') ->
  exists random, snd s' = snd s ++ [EvRecv (ss_chraw hs)] /\ parse_msg 0 (ss_chraw hs) = Ok (MClientHello (ss_ch hs)) /\
    cfg_for cfg getcfg (ss_ch hs) (ss_cfg hs) /\ mutualVersion (cf_min (ss_cfg hs)) (cf_max (ss_cfg hs)) (ch_vers (ss_ch hs)) = Some (ss_v hs) /\
    In 0 (ch_comp (ss_ch hs)) /\ ch_reneg (ss_ch hs) = [] /\ r_hello rn = Some random /\
    (exists rest, cf_certs (ss_cfg hs) = ss_c0 hs :: ss_c1 hs :: rest) /\
    sh_vers (ss_sh hs) = ss_v hs /\ sh_random (ss_sh hs) = random /\ sh_comp (ss_sh hs) = 0 /\ sh_sessionId (ss_sh hs) = [] /\
    sh_npn (ss_sh hs) = negb (0 <? zlen (ch_alpn (ss_ch hs))) && ch_npn (ss_ch hs) && (0 <? zlen (cf_protos (ss_cfg hs))) /\
    sh_reneg (ss_sh hs) = [] /\ sh_ticketOn (ss_sh hs) = false /\ sh_alpn (ss_sh hs) = ss_proto hs.
Proof.
  unfold server_hello. intros H. bnd H. destruct a as [msg raw]. prim E0.
  destruct msg; try now apply unexpected_ok in H.
  apply bind_ok in H as (cfg' & s1 & E1 & H). cbv beta in H.
  assert (X1 : cfg_for cfg getcfg m cfg' /\ s1 = s0).
  { unfold cfg_for. destruct getcfg as [f|].
    - bnd E1. prim E2. prim E1. apply of_res_ok in E2. subst. eauto.
    - prim E1. auto. }
  destruct X1 as [Xc ->]. clear E1.
  destruct (mutualVersion (cf_min cfg') (cf_max cfg') (ch_vers m)) as [v|] eqn:EV; [|now apply fail_with_ok in H].
  bnd H. prim E1.
  destruct (existsb (Z.eqb 0) (ch_comp m)) eqn:EC; cbn [negb] in H; [|now apply fail_with_ok in H].
  destruct (r_hello rn) as [random|] eqn:ER; [|now apply fail_with_ok in H].
  destruct (Z.ltb_spec 0 (zlen (ch_reneg m))) as [|HR]; [now apply fail_with_ok in H|].
  bnd H.
  assert (X2 : s2 = s1).
  { destruct (0 <? zlen (ch_alpn m)).
    - bnd E2. prim E3. prim E2. congruence.
    - prim E2. auto. }
  subst s2.
  destruct (cf_certs cfg') as [|c0 [|c1 rest]] eqn:EQ; [now apply fail_with_ok in H..|].
  cbv zeta in H. prim H. subst hs s'. exists random. cbn [ss_cfg ss_v ss_ch ss_chraw ss_sh ss_proto ss_c0 ss_c1 sh_vers sh_random sh_comp sh_sessionId sh_npn sh_reneg sh_ticketOn sh_alpn].
  rewrite E1, E0.
  repeat match goal with |- _ /\ _ => split end; auto.
  - apply existsb_exists in EC as (x & Hx & Ex). apply Z.eqb_eq in Ex. subst x. exact Hx.
  - destruct (ch_reneg m); [reflexivity|unfold zlen in HR; cbn [length] in HR; lia].
  - eauto.
Qed.

Lemma parse_all_ok ders certs : parse_all E ders = Some certs -> Forall2 (fun d c => e_parse E d = Some c) ders certs.
Proof.
  revert certs. induction ders as [|d ders IH]; cbn [parse_all]; intros certs H.
  - injection H as <-. constructor.
  - destruct (e_parse E d) as [c|] eqn:Ed; [|discriminate]. destruct (parse_all E ders) as [cs|]; [|discriminate]. injection H as <-. constructor; auto.
Qed.
(** the options of the client certificate's verification *)
Definition client_verify_opts (cfg : config T) (roots : X509_model.pool) (rest : list (gcert T)) : X509_model.options :=
  X509_model.mkOpts [] (cf_time cfg) (Some (fold_left X509_model.AddCert (map g_cert rest) X509_model.NewCertPool)) roots [2].
Definition client_certs_ok (cfg : config T) (ders : list (list Z)) (certs : list (gcert T)) (chains : list (list cert)) : Prop :=
  Forall2 (fun d c => e_parse E d = Some c) ders certs /\
  (forall c0 rest, certs = c0 :: rest -> VerifyClientCertIfGiven <= cf_auth cfg ->
     exists roots, match cf_clientCAs cfg with Some p => Some p | None => e_sysroots E end = Some roots /\
       x509_verify E (client_verify_opts cfg roots rest) c0 = Some chains) /\
  (forall f, cf_verifyPeer cfg = Some f -> f ders chains = None).
Lemma processCerts_inv cfg ders p s s' : processCertsFromClient E (C := C) cfg ders s = (HOk p, s') ->
  s' = s /\ client_certs_ok cfg ders (snd (fst p)) (snd p) /\
  match snd (fst p) with
  | [] => fst (fst p) = None
  | c0 :: _ => fst (fst p) = Some (g_pub c0) /\ g_pub c0 <> PkOther
  end.
Proof.
  unfold processCertsFromClient. intros H. destruct (parse_all E ders) as [certs|] eqn:EP; [|now apply fail_with_ok in H].
  bnd H. rename a into chains.
  assert (X : s0 = s /\ forall c0 rest, certs = c0 :: rest -> VerifyClientCertIfGiven <= cf_auth cfg ->
     exists roots, match cf_clientCAs cfg with Some p => Some p | None => e_sysroots E end = Some roots /\
       x509_verify E (client_verify_opts cfg roots rest) c0 = Some chains).
  { destruct certs as [|c0 rest]; [prim E0; split; [auto|discriminate]|].
    destruct (Z.leb_spec VerifyClientCertIfGiven (cf_auth cfg)) as [HA|HA].
    - destruct (match cf_clientCAs cfg with Some p0 => Some p0 | None => e_sysroots E end) as [roots|] eqn:ER; [|now apply fail_with_ok in E0].
      cbv zeta in E0. match type of E0 with (match ?v with _ => _ end) _ = _ => destruct v as [ch|] eqn:EV end; [|now apply fail_with_ok in E0].
      prim E0. subst. split; [reflexivity|]. intros c rest' [= <- <-] _. eauto.
    - prim E0. split; [auto|]. intros; exfalso; lia. }
  destruct X as [-> X].
  match type of H with (match ?v with _ => _ end) _ = _ => destruct v as [e|] eqn:EV end; [now apply fail_with_ok in H|].
  assert (XV : forall f, cf_verifyPeer cfg = Some f -> f ders chains = None) by (intros f Ef; rewrite Ef in EV; exact EV).
  destruct certs as [|c0 rest].
  - prim H. subst. cbn [fst snd]. split; [reflexivity|]. split; [split; [now apply parse_all_ok|split; [discriminate|exact XV]]|reflexivity].
  - assert (HP : g_pub c0 <> PkOther /\ p = (Some (g_pub c0), c0 :: rest, chains) /\ s' = s).
    { destruct (g_pub c0); [prim H; split; [discriminate|auto]..|now apply fail_with_ok in H]. }
    destruct HP as (HP & -> & ->). cbn [fst snd]. split; [reflexivity|]. split; [split; [now apply parse_all_ok|split; [exact X|exact XV]]|auto].
Qed.
End ServerInv.

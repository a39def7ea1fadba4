(** The handshake over two record layers: when every step of the record layer that succeeds on one of them succeeds in the same way on the other,
    and keeps their states related, then a handshake that completes on the first completes on the second, with the same result and the same log.
    Only steps that lead to the final log [L] matter. *)
From Verif Require Import GoBase GoLemmas BigBytes Asn1_model X509_spec SM2_model TLS_record_model TLS_prf_model TLS_gmka_model
  TLS_ticket_model TLS_msg_model TLS_neg_model TLS_hs_model.
From Verif Require X509_model.
Open Scope Z_scope.
#[local] Opaque parse_msg fh_Write m_clientHello m_serverHello m_certificate m_serverKeyExchange m_clientKeyExchange m_finished m_certificateRequestGM
  m_certificateVerify m_certificateStatus m_newSessionTicket m_nextProto ka_generateSKX ka_processCKX ka_processSKX ka_generateCKX masterFromPreMasterSecret gm_keys
  newFinishedHashGM newFinishedHash clientSum serverSum encryptTicket PrivSign mutualProtocol hashForClientCertificate x509_verify makeClientHelloGM complete_hello.

Section Sim.
Context (C1 C2 : chan).
Definition srel : Type := CS C1 -> list event -> CS C2 -> Prop.
Context (L : list event).
Definition pre (l : list event) : Prop := exists x, L = l ++ x.
Definition sim {A} (Q : A -> Prop) (R R' : srel) (m1 : M C1 A) (m2 : M C2 A) : Prop :=
  forall c1 l a c1' l', m1 (c1, l) = (HOk a, (c1', l')) -> (exists x, l' = l ++ x) /\
    (pre l' -> Q a -> forall c2, R c1 l c2 -> exists c2', m2 (c2, l) = (HOk a, (c2', l')) /\ R' c1' l' c2').
Definition any {A} : A -> Prop := fun _ => True.
Definition nok {A} (m : M C1 A) : Prop := forall s a s', m s <> (HOk a, s').

Lemma sim_nok {A} Q R R' (m1 : M C1 A) m2 : nok m1 -> sim Q R R' m1 m2. Proof. intros H c1 l a c1' l' E. now apply H in E. Qed.
Lemma nok_throw {A} e : nok (A := A) (throw e). Proof. intros s a s'. discriminate. Qed.
Lemma nok_bind {A B} (m : M C1 A) (k : A -> M C1 B) : (forall a, nok (k a)) -> nok (bind m k).
Proof. intros H s a s'. unfold bind. destruct (m s) as [[x|e| |] s1]; try discriminate. apply H. Qed.
Lemma nok_fail {A} al e : nok (A := A) (fail_with al e). Proof. apply nok_bind. intros _. apply nok_throw. Qed.
Lemma sim_fail {A} Q R R' al e : sim (A := A) Q R R' (fail_with al e) (fail_with al e). Proof. apply sim_nok, nok_fail. Qed.
Lemma sim_fail2 {A} Q R R' al a e : sim (A := A) Q R R' (alert al;;; fail_with a e) (alert al;;; fail_with a e). Proof. apply sim_nok, nok_bind. intros _. apply nok_fail. Qed.
Lemma sim_unexpected {A} Q R R' : sim (A := A) Q R R' unexpected unexpected. Proof. apply sim_fail. Qed.
Lemma sim_alert_throw {A} Q R R' al e : sim (A := A) Q R R' (alert al;;; throw e) (alert al;;; throw e). Proof. apply sim_fail. Qed.
Lemma sim_panic {A} Q R R' : sim (A := A) Q R R' panic panic. Proof. apply sim_nok. intros s a s'. discriminate. Qed.
Lemma here (l : list event) : exists x, l = l ++ x. Proof. exists []. now rewrite app_nil_r. Qed.
Lemma sim_ret {A} Q R (x : A) : sim Q R R (ret x) (ret x). Proof. intros c1 l a c1' l' [= <- <- <-]. split; [apply here|]. intros _ _ c2 H. exists c2. split; [reflexivity|exact H]. Qed.
Lemma sim_lift {A} Q R (r : hres A) : sim Q R R (lift r) (lift r). Proof. intros c1 l a c1' l' H. unfold lift in *. injection H as -> <- <-. split; [apply here|]. intros _ _ c2 HR. exists c2. split; [reflexivity|exact HR]. Qed.
Lemma sim_orfail {A} Q R al (r : hres A) : sim Q R R (orfail al r) (orfail al r).
Proof. destruct r as [x|e| |]; cbn [orfail]; [apply sim_ret|apply sim_fail|apply sim_lift|apply sim_lift]. Qed.
Lemma pre_app l x : pre (l ++ x) -> pre l. Proof. intros [y ->]. exists (x ++ y). now rewrite app_assoc. Qed.
Lemma sim_bind {A B} (Q : B -> Prop) R R1 R' (m1 : M C1 A) m2 k1 k2 : sim any R R1 m1 m2 -> (forall a, sim Q R1 R' (k1 a) (k2 a)) -> sim Q R R' (bind m1 k1) (bind m2 k2).
Proof.
  intros H1 H2 c1 l b c1' l' E. unfold bind in E |- *. destruct (m1 (c1, l)) as [[x|e| |] [d1 l1]] eqn:E1; try discriminate.
  destruct (H1 _ _ _ _ _ E1) as ((x1 & ->) & H1'). destruct (H2 _ _ _ _ _ _ E) as ((x2 & ->) & H2'). split; [exists (x1 ++ x2); now rewrite app_assoc|].
  intros HP HQ c2 HR. destruct (H1' (pre_app _ _ HP) I _ HR) as (d2 & E2 & HR1). rewrite E2. now apply H2'.
Qed.
Definition ends {A} (Q : A -> Prop) (m : M C1 A) : Prop := forall s b s', m s = (HOk b, s') -> Q b.
Lemma ends_bind {A B} (Q : B -> Prop) (m : M C1 A) k : (forall a, ends Q (k a)) -> ends Q (bind m k).
Proof. intros H s b s' E. unfold bind in E. destruct (m s) as [[x|e| |] s1]; try discriminate. exact (H x s1 b s' E). Qed.
Lemma ends_ret {A} (Q : A -> Prop) (x : A) : Q x -> ends Q (ret x).
Proof. intros H s b s' E. now injection E as <- _. Qed.

(** ** One relation kept by every step *)
Record closed (isClient : bool) (v0 : Z) (R : srel) : Prop := {
  cl_recv : sim any R R recv_raw recv_raw; cl_ccs : sim any R R recv_ccs recv_ccs; cl_send : forall m, sim any R R (send m) (send m);
  cl_sccs : sim any R R send_ccs send_ccs; cl_keys : forall k, sim any R R (setkeys isClient v0 k) (setkeys isClient v0 k) }.
Section Steps.
Context (isClient : bool) (v0 : Z) (R : srel) (CL : closed isClient v0 R).
Lemma sim_read v : sim any R R (readHandshake v) (readHandshake v).
Proof. unfold readHandshake. eapply sim_bind; [apply CL|]. intros raw. destruct (parse_msg v raw); [apply sim_ret|apply sim_alert_throw|apply sim_panic]. Qed.
Lemma sim_wr h m : sim any R R (wr h m) (wr h m). Proof. apply sim_lift. Qed.
Lemma sim_emit h r : sim any R R (emit h r) (emit h r).
Proof. unfold emit. eapply sim_bind; [apply sim_lift|]. intros m. eapply sim_bind; [apply sim_wr|]. intros h'. eapply sim_bind; [apply CL|]. intros _. apply sim_ret. Qed.
End Steps.
(** the empty relation: what is left is that the log only grows *)
Definition none : srel := fun _ _ _ => False.
Lemma sim_none_ext {A} (Q : A -> Prop) R m1 m2 c1 l a c1' l' : sim Q none R m1 m2 -> m1 (c1, l) = (HOk a, (c1', l')) -> exists x, l' = l ++ x.
Proof. intros H E. exact (proj1 (H _ _ _ _ _ E)). Qed.
(** a continuation that never ends well *)
Lemma sim_bind_bad {A B} (Q : B -> Prop) R R' (m1 : M C1 A) m2 k1 k2 : (forall c l a c' l', m1 (c, l) = (HOk a, (c', l')) -> exists x, l' = l ++ x) ->
  (forall a, sim any none none (k1 a) (k2 a)) -> (forall a, ends (fun b => ~ Q b) (k1 a)) -> sim Q R R' (bind m1 k1) (bind m2 k2).
Proof.
  intros H1 H2 H3 c1 l b c1' l' E. unfold bind in E. destruct (m1 (c1, l)) as [[x|e| |] [d1 l1]] eqn:E1; try discriminate. split.
  - apply H1 in E1 as (x1 & ->). destruct (sim_none_ext _ _ _ _ _ _ _ _ _ (H2 x) E) as (x2 & ->). exists (x1 ++ x2). now rewrite app_assoc.
  - intros _ HQ. exfalso. exact (H3 _ _ _ _ E HQ).
Qed.
(** a step whose result has to satisfy [Q1], which every continuation that ends well confirms *)
Lemma sim_bind_q {A B} (Q1 : A -> Prop) (Q : B -> Prop) R R1 R' (m1 : M C1 A) m2 k1 k2 : (forall a, Q1 a \/ ~ Q1 a) -> sim Q1 R R1 m1 m2 ->
  (forall a, Q1 a -> sim Q R1 R' (k1 a) (k2 a)) -> (forall a, sim any none none (k1 a) (k2 a)) -> (forall a, ~ Q1 a -> ends (fun b => ~ Q b) (k1 a)) -> sim Q R R' (bind m1 k1) (bind m2 k2).
Proof.
  intros HD H1 H2 H2x H3 c1 l b c1' l' E. unfold bind in E |- *. destruct (m1 (c1, l)) as [[x|e| |] [d1 l1]] eqn:E1; try discriminate.
  destruct (H1 _ _ _ _ _ E1) as ((x1 & ->) & H1'). destruct (sim_none_ext _ _ _ _ _ _ _ _ _ (H2x x) E) as (x2 & ->). split; [exists (x1 ++ x2); now rewrite app_assoc|].
  intros HP HQ c2 HR. destruct (HD x) as [Qx|Nx]; [|exfalso; eapply H3; eassumption].
  destruct (H1' (pre_app _ _ HP) Qx _ HR) as (d2 & E2 & HR1). rewrite E2. destruct (H2 x Qx _ _ _ _ _ E) as (_ & H2'). now apply H2'.
Qed.
Lemma closed_none b v : closed b v none.
Proof.
  constructor.
  - intros c1 l a c1' l' H. split; [|intros _ _ c2 []]. unfold recv_raw in H. cbn [fst snd] in H. destruct (cn_read C1 c1) as [[m|e| |] c3]; try discriminate. injection H as _ _ <-. eauto.
  - intros c1 l a c1' l' H. split; [|intros _ _ c2 []]. unfold recv_ccs in H. cbn [fst snd] in H. destruct (cn_ccs C1 c1) as [[m|e| |] c3]; try discriminate. injection H as _ _ <-. eauto.
  - intros m c1 l a c1' l' H. split; [|intros _ _ c2 []]. unfold send in H. cbn [fst snd] in H. destruct (cn_write C1 _ _ c1) as [[u|e| |] c3]; try discriminate. injection H as _ _ <-. eauto.
  - intros c1 l a c1' l' H. split; [|intros _ _ c2 []]. unfold send_ccs in H. cbn [fst snd] in H. destruct (cn_write C1 _ _ c1) as [[u|e| |] c3]; try discriminate. injection H as _ _ <-. eauto.
  - intros k c1 l a c1' l' H. split; [|intros _ _ c2 []]. injection H as _ _ <-. cbn. eauto.
Qed.
End Sim.
Arguments any {A}.

Ltac sim_step CL :=
  cbv zeta;
  match goal with
  | |- sim _ _ _ _ _ _ (fail_with _ _) _ => apply sim_fail
  | |- sim _ _ _ _ _ _ unexpected _ => apply sim_unexpected
  | |- sim _ _ _ _ _ _ panic _ => apply sim_panic
  | |- sim _ _ _ _ _ _ (ret _) _ => apply sim_ret
  | |- sim _ _ _ _ _ _ (lift _) _ => apply sim_lift
  | |- sim _ _ _ _ _ _ (orfail _ _) _ => apply sim_orfail
  | |- sim _ _ _ _ _ _ (wr _ _) _ => apply sim_wr
  | |- sim _ _ _ _ _ _ (enc _) _ => apply sim_lift
  | |- sim _ _ _ _ _ _ (emit _ _) _ => eapply sim_emit; exact CL
  | |- sim _ _ _ _ _ _ (readHandshake _) _ => eapply sim_read; exact CL
  | |- sim _ _ _ _ _ _ recv_ccs _ => apply CL
  | |- sim _ _ _ _ _ _ send_ccs _ => apply CL
  | |- sim _ _ _ _ _ _ (send _) _ => apply CL
  | |- sim _ _ _ _ _ _ (setkeys _ _ _) _ => apply CL
  | |- sim _ _ _ _ _ _ (bind (alert _) (fun _ => fail_with _ _)) _ => apply sim_fail2
  | |- sim _ _ _ _ _ _ (bind (alert _) (fun _ => throw _)) _ => apply sim_alert_throw
  | |- sim _ _ _ _ _ _ (bind _ _) _ => eapply sim_bind; [|intros ?]
  | |- sim _ _ _ _ _ _ (match ?x with _ => _ end) _ => destruct x
  end.

Section Walk.
Context {T : Type} (E : env T) (C1 C2 : chan) (L : list event).
Notation sim := (sim C1 C2 L). Notation closed := (closed C1 C2 L).

Section Server.
Context (v0 : Z) (R0 R1 R : srel C1 C2) (CL : closed false v0 R).
Lemma sim_processCerts cfg ders : sim any R R (processCertsFromClient E cfg ders) (processCertsFromClient E cfg ders).
Proof. unfold processCertsFromClient. repeat sim_step CL. Qed.
Lemma sim_server_hello cfg getcfg rn : sim any R0 R1 recv_raw recv_raw -> sim any R1 R (setvers v0 true) (setvers v0 true) ->
  sim (fun h => ss_v h = v0) R0 R (server_hello (T := T) cfg getcfg rn) (server_hello cfg getcfg rn).
Proof.
  intros HR HV. unfold server_hello. eapply sim_bind with (R1 := R1).
  { unfold readHandshake. eapply sim_bind; [exact HR|]. intros raw. destruct (parse_msg 0 raw); [apply sim_ret|apply sim_alert_throw|apply sim_panic]. }
  intros [msg raw]. destruct msg; try apply sim_unexpected. eapply sim_bind with (R1 := R1). { repeat sim_step CL. }
  intros cfg'. destruct (mutualVersion _ _ _) as [v|]; [|apply sim_fail].
  destruct (Z.eq_dec v v0) as [->|NV].
  - eapply sim_bind; [exact HV|]. intros _. repeat sim_step CL.
  - apply sim_bind_bad.
    + intros c l a c' l' [= _ _ <-]. apply here.
    + intros _. pose proof (closed_none C1 C2 L false v0) as CN. repeat sim_step CN.
    + intros _. destruct (negb _); [intros s b s'; discriminate|]. destruct (r_hello rn); [|intros s b s'; discriminate]. destruct (0 <? zlen (ch_reneg m)); [intros s b s'; discriminate|].
      apply ends_bind. intros al. cbv zeta. destruct (cf_certs cfg') as [|a1 [|a2 rest]]; [intros s b s'; discriminate|intros s b s'; discriminate|]. apply ends_ret. exact NV.
Qed.
Lemma sim_server_suite h : sim any R R (server_suite (T := T) h) (server_suite h). Proof. unfold server_suite. repeat sim_step CL. Qed.
Lemma sim_server_full hs su rn : sim any R R (server_full E hs su rn) (server_full E hs su rn).
Proof. unfold server_full. cbv zeta. repeat (match goal with |- TLS_hs_sim.sim _ _ _ _ _ _ (processCertsFromClient _ _ _) _ => apply sim_processCerts | _ => idtac end; sim_step CL). Qed.
Lemma sim_server_keys m cr sr : sim any R R (server_keys E C1 v0 m cr sr) (server_keys E C2 v0 m cr sr). Proof. unfold server_keys. repeat sim_step CL. Qed.
Lemma sim_server_readFinished v npn h m : sim any R R (server_readFinished C1 v npn h m) (server_readFinished C2 v npn h m). Proof. unfold server_readFinished. repeat sim_step CL. Qed.
Lemma sim_ticket cfg rn on v id m ders h : sim any R R (sendSessionTicket E C1 cfg rn on v id m ders h) (sendSessionTicket E C2 cfg rn on v id m ders h). Proof. unfold sendSessionTicket. repeat sim_step CL. Qed.
Lemma sim_server_sendFinished h m : sim any R R (server_sendFinished C1 h m) (server_sendFinished C2 h m). Proof. unfold server_sendFinished. repeat sim_step CL. Qed.
Lemma sim_server_resume hs st su : sim any R R (server_resume E C1 hs st su) (server_resume E C2 hs st su).
Proof. unfold server_resume. cbv zeta. repeat (match goal with |- TLS_hs_sim.sim _ _ _ _ _ _ (processCertsFromClient _ _ _) _ => apply sim_processCerts | _ => idtac end; sim_step CL). Qed.
End Server.
Ltac server_rest CL :=
  eapply sim_bind; [eapply sim_server_resume; exact CL|]; intros [[[sh h] certs] chains]; eapply sim_bind; [eapply sim_server_keys; exact CL|]; intros _; eapply sim_bind; [eapply sim_ticket; exact CL|]; intros h1;
  eapply sim_bind; [eapply sim_server_sendFinished; exact CL|]; intros [h2 sfin]; eapply sim_bind; [eapply sim_server_readFinished; exact CL|]; intros [[h3 x] proto]; apply sim_ret.
Ltac server_rest2 CL :=
  eapply sim_bind; [eapply sim_server_suite; exact CL|]; intros su; eapply sim_bind; [eapply sim_server_full; exact CL|]; intros f; eapply sim_bind; [eapply sim_server_keys; exact CL|]; intros _;
  eapply sim_bind; [eapply sim_server_readFinished; exact CL|]; intros [[h1 cfin] proto]; eapply sim_bind; [eapply sim_ticket; exact CL|]; intros h2; eapply sim_bind; [eapply sim_server_sendFinished; exact CL|]; intros _; apply sim_ret.
Theorem server_sim (v0 : Z) (R0 R1 R : srel C1 C2) (CL : closed false v0 R) cfg getcfg rn : sim any R0 R1 recv_raw recv_raw -> sim any R1 R (setvers v0 true) (setvers v0 true) ->
  sim (fun r => hr_vers r = v0) R0 R (serverHandshakeGM E C1 cfg getcfg rn) (serverHandshakeGM E C2 cfg getcfg rn).
Proof.
  intros HR HV. unfold serverHandshakeGM. eapply sim_bind_q with (Q1 := fun h => ss_v h = v0); [intros a; destruct (Z.eq_dec (ss_v a) v0); [now left|now right]|eapply sim_server_hello; eassumption| | |].
  - intros hs EV. cbv zeta. rewrite !EV. destruct (checkForResumption E hs) as [[st su]|]; [server_rest CL|server_rest2 CL].
  - intros hs. cbv zeta. pose proof (closed_none C1 C2 L false (ss_v hs)) as CN. destruct (checkForResumption E hs) as [[st su]|]; [server_rest CN|server_rest2 CN].
  - intros hs NV. cbv zeta. destruct (checkForResumption E hs) as [[st su]|].
    + apply ends_bind. intros [[[sh h] certs] chains]. apply ends_bind. intros _. apply ends_bind. intros h1. apply ends_bind. intros [h2 sfin]. apply ends_bind. intros [[h3 x] proto]. now apply ends_ret.
    + apply ends_bind. intros sx. apply ends_bind. intros f. apply ends_bind. intros _. apply ends_bind. intros [[h1 cfin] proto]. apply ends_bind. intros h2. apply ends_bind. intros _. now apply ends_ret.
Qed.

Section Client.
Context (R0 R : srel C1 C2) (CL : closed true VersionGMSSL R).
Lemma sim_check_certs : forall ders i, sim any R R (check_certs E i ders) (check_certs E i ders).
Proof. induction ders as [|d ders IH]; intros i; cbn [check_certs]; [apply sim_ret|]. repeat (match goal with |- TLS_hs_sim.sim _ _ _ _ _ _ (check_certs _ _ _) _ => apply IH | _ => idtac end; sim_step CL). Qed.
Lemma sim_verify_certs cfg roots : forall cs i inter chains, sim any R R (verify_certs E cfg roots i inter cs chains) (verify_certs E cfg roots i inter cs chains).
Proof. induction cs as [|d cs IH]; intros i inter chains; cbn [verify_certs]; [apply sim_ret|]. destruct (x509_verify _ _ _); [apply IH|apply sim_fail]. Qed.
Lemma sim_psh hello sh su ses : sim any R R (processServerHello (T := T) hello sh su ses) (processServerHello hello sh su ses). Proof. unfold processServerHello. repeat sim_step CL. Qed.
Lemma sim_getcert cfg cas : sim any R R (client_getCertificate E C1 cfg cas) (client_getCertificate E C2 cfg cas).
Proof. unfold client_getCertificate. destruct (cf_getClientCert cfg); [apply sim_orfail|]. destruct (find_chain E cas (cf_certs cfg)); [apply sim_ret|apply sim_fail2|apply sim_panic]. Qed.
Lemma sim_client_full cfg rn hello sh su h : sim any R R (client_full E cfg rn hello sh su h) (client_full E cfg rn hello sh su h).
Proof.
  unfold client_full. repeat (match goal with |- TLS_hs_sim.sim _ _ _ _ _ _ (check_certs _ _ _) _ => apply sim_check_certs | |- TLS_hs_sim.sim _ _ _ _ _ _ (verify_certs _ _ _ _ _ _ _) _ => apply sim_verify_certs
    | |- TLS_hs_sim.sim _ _ _ _ _ _ (client_getCertificate _ _ _ _) _ => apply sim_getcert | _ => idtac end; sim_step CL).
Qed.
Lemma sim_client_keys m cr sr : sim any R R (client_keys E C1 m cr sr) (client_keys E C2 m cr sr). Proof. unfold client_keys. repeat sim_step CL. Qed.
Lemma sim_client_sendFinished cfg sh h m : sim any R R (client_sendFinished (T := T) C1 cfg sh h m) (client_sendFinished C2 cfg sh h m). Proof. unfold client_sendFinished. repeat sim_step CL. Qed.
Lemma sim_readTicket sh su m peer chains h : sim any R R (readSessionTicket (T := T) C1 sh su m peer chains h) (readSessionTicket C2 sh su m peer chains h). Proof. unfold readSessionTicket. repeat sim_step CL. Qed.
Lemma sim_client_readFinished h m : sim any R R (client_readFinished C1 h m) (client_readFinished C2 h m). Proof. unfold client_readFinished. repeat sim_step CL. Qed.
Theorem client_sim cfg cache rn : sim any R0 R (setvers VersionGMSSL false) (setvers VersionGMSSL false) -> sim any R0 R (clientHandshakeGM E C1 cfg cache rn) (clientHandshakeGM E C2 cfg cache rn).
Proof.
  intros HV. unfold clientHandshakeGM. eapply sim_bind; [exact HV|]. intros _. eapply sim_bind; [apply sim_lift|]. intros hello0. eapply sim_bind; [apply sim_lift|]. intros [hello ses].
  eapply sim_bind; [apply sim_lift|]. intros chraw. eapply sim_bind; [apply CL|]. intros _. eapply sim_bind; [eapply sim_read; exact CL|]. intros [msg raw]. cbn [fst snd]. destruct msg; try apply sim_unexpected.
  destruct (negb _); [apply sim_fail|]. destruct (mutualCipherSuiteGM _ _) as [su|]; [|apply sim_fail].
  eapply sim_bind; [apply sim_psh|]. intros resumed. eapply sim_bind; [apply sim_lift|]. intros h0. cbv zeta. eapply sim_bind; [apply sim_wr|]. intros h1. eapply sim_bind; [apply sim_wr|]. intros h2.
  destruct resumed as [s|].
  - eapply sim_bind; [apply sim_client_keys|]. intros _. eapply sim_bind; [apply sim_readTicket|]. intros [h3 ns]. eapply sim_bind; [apply sim_client_readFinished|]. intros [h4 sfin].
    eapply sim_bind; [apply sim_client_sendFinished|]. intros [[h5 cfin] proto]. apply sim_ret.
  - eapply sim_bind; [apply sim_client_full|]. intros f. eapply sim_bind; [apply sim_client_keys|]. intros _. eapply sim_bind; [apply sim_client_sendFinished|]. intros [[h5 cfin] proto].
    eapply sim_bind; [apply sim_readTicket|]. intros [h3 ns]. eapply sim_bind; [apply sim_client_readFinished|]. intros [h4 sfin]. apply sim_ret.
Qed.
End Client.
End Walk.

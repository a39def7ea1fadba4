(** Where a completed handshake installs keys and changes ciphers: once each, the keys first. *)
From Verif Require Import GoBase GoLemmas BigBytes Asn1_model X509_spec SM2_model TLS_record_model TLS_prf_model TLS_gmka_model
  TLS_ticket_model TLS_msg_model TLS_neg_model TLS_hs_model TLS_hs_sim.
From Verif Require X509_model.
Open Scope Z_scope.
#[local] Opaque parse_msg fh_Write m_clientHello m_serverHello m_certificate m_serverKeyExchange m_clientKeyExchange m_finished m_certificateRequestGM
  m_certificateVerify m_certificateStatus m_newSessionTicket m_nextProto ka_generateSKX ka_processCKX ka_processSKX ka_generateCKX masterFromPreMasterSecret gm_keys
  newFinishedHashGM newFinishedHash clientSum serverSum encryptTicket PrivSign mutualProtocol hashForClientCertificate x509_verify makeClientHelloGM complete_hello.

Inductive mark := Keyed | InOn | OutOn.
Definition mark_of (e : event) : list mark := match e with EvKeys _ => [Keyed] | EvRecvCCS => [InOn] | EvSendCCS => [OutOn] | _ => [] end.
Definition marks (l : list event) : list mark := flat_map mark_of l.
Lemma marks_app a b : marks (a ++ b) = marks a ++ marks b. Proof. apply flat_map_app. Qed.

Section Marks.
Context {C : chan}.
Definition adds {A} (k : list mark) (m : M C A) : Prop := forall c l a c' l', m (c, l) = (HOk a, (c', l')) -> marks l' = marks l ++ k.
Lemma adds_bind {A B} k1 k2 (m : M C A) (k : A -> M C B) : adds k1 m -> (forall a, adds k2 (k a)) -> adds (k1 ++ k2) (bind m k).
Proof.
  intros H1 H2 c l b c' l' H. unfold bind in H. destruct (m (c, l)) as [[x|e| |] [c1 l1]] eqn:E; try discriminate. apply H1 in E. apply H2 in H. rewrite H, E. now rewrite app_assoc.
Qed.
Lemma adds_bind0 {A B} k2 (m : M C A) (k : A -> M C B) : adds [] m -> (forall a, adds k2 (k a)) -> adds k2 (bind m k).
Proof. apply (adds_bind []). Qed.
Lemma adds_throw {A} k e : adds (A := A) k (throw e). Proof. intros c l a c' l' H. discriminate. Qed.
Lemma adds_panic {A} k : adds (A := A) k panic. Proof. intros c l a c' l' H. discriminate. Qed.
Lemma adds_fail {A} k al e : adds (A := A) k (fail_with al e). Proof. intros c l a c' l' H. discriminate. Qed.
Lemma adds_unexpected {A} k : adds (A := A) k unexpected. Proof. apply adds_fail. Qed.
Lemma adds_ret {A} (x : A) : adds [] (ret x). Proof. intros c l a c' l' [= _ _ <-]. now rewrite app_nil_r. Qed.
Lemma adds_lift {A} (r : hres A) : adds [] (lift r). Proof. intros c l a c' l' H. unfold lift in H. injection H as _ _ <-. now rewrite app_nil_r. Qed.
Lemma adds_alert a : adds [] (alert a). Proof. intros c l x c' l' [= _ _ <-]. cbn [snd]. now rewrite marks_app. Qed.
Lemma adds_setvers v b : adds [] (setvers v b). Proof. intros c l x c' l' [= _ _ <-]. now rewrite app_nil_r. Qed.
Lemma adds_orfail {A} al (r : hres A) : adds [] (orfail al r). Proof. destruct r; [apply adds_ret|apply adds_fail|apply adds_lift|apply adds_lift]. Qed.
Lemma adds_setkeys b v k : adds [Keyed] (setkeys b v k). Proof. intros c l x c' l' [= _ _ <-]. cbn [snd]. now rewrite marks_app. Qed.
Lemma adds_recv : adds [] recv_raw.
Proof. intros c l x c' l' H. unfold recv_raw in H. cbn [fst snd] in H. destruct (cn_read C c) as [[m|e| |] c1]; try discriminate. injection H as _ _ <-. now rewrite marks_app. Qed.
Lemma adds_recv_ccs : adds [InOn] recv_ccs.
Proof. intros c l x c' l' H. unfold recv_ccs in H. cbn [fst snd] in H. destruct (cn_ccs C c) as [[m|e| |] c1]; try discriminate. injection H as _ _ <-. now rewrite marks_app. Qed.
Lemma adds_send m : adds [] (send m).
Proof. intros c l x c' l' H. unfold send in H. cbn [fst snd] in H. destruct (cn_write C _ _ c) as [[u|e| |] c1]; try discriminate. injection H as _ _ <-. now rewrite marks_app. Qed.
Lemma adds_send_ccs : adds [OutOn] send_ccs.
Proof. intros c l x c' l' H. unfold send_ccs in H. cbn [fst snd] in H. destruct (cn_write C _ _ c) as [[u|e| |] c1]; try discriminate. injection H as _ _ <-. now rewrite marks_app. Qed.
Lemma adds_read v : adds [] (readHandshake v).
Proof. unfold readHandshake. apply adds_bind0; [apply adds_recv|]. intros raw. destruct (parse_msg v raw); [apply adds_ret|apply adds_fail|apply adds_panic]. Qed.
Lemma adds_wr h m : adds [] (wr h m). Proof. apply adds_lift. Qed.
Lemma adds_emit h r : adds [] (emit h r).
Proof. unfold emit. apply adds_bind0; [apply adds_lift|]. intros m. apply adds_bind0; [apply adds_wr|]. intros h'. apply adds_bind0; [apply adds_send|]. intros _. apply adds_ret. Qed.
Ltac adds0 :=
  repeat (cbv zeta; match goal with
  | |- adds [] (fail_with _ _) => apply adds_fail | |- adds [] unexpected => apply adds_unexpected | |- adds [] panic => apply adds_panic | |- adds [] (throw _) => apply adds_throw
  | |- adds [] (ret _) => apply adds_ret | |- adds [] (lift _) => apply adds_lift | |- adds [] (orfail _ _) => apply adds_orfail | |- adds [] (wr _ _) => apply adds_wr
  | |- adds [] (enc _) => apply adds_lift | |- adds [] (emit _ _) => apply adds_emit | |- adds [] (readHandshake _) => apply adds_read | |- adds [] (send _) => apply adds_send
  | |- adds [] (alert _) => apply adds_alert | |- adds [] (setvers _ _) => apply adds_setvers
  | H : forall _, adds [] _ |- _ => apply H
  | |- adds [] (bind _ _) => apply adds_bind0; [|intros ?]
  | |- adds [] (match ?x with _ => _ end) => destruct x
  end).
Section W.
Context {T : Type} (E : env T).
Lemma adds_hello cfg getcfg rn : adds [] (server_hello (T := T) cfg getcfg rn). Proof. unfold server_hello. adds0. Qed.
Lemma adds_suite h : adds [] (server_suite (T := T) h). Proof. unfold server_suite. adds0. Qed.
Lemma adds_process cfg ders : adds [] (processCertsFromClient E cfg ders). Proof. unfold processCertsFromClient. adds0. Qed.
Lemma adds_sfull hs su rn : adds [] (server_full E hs su rn).
Proof. pose proof adds_process as P. unfold server_full. cbv zeta. adds0; try apply P; adds0. Qed.
Lemma adds_resume hs st su : adds [] (server_resume E C hs st su).
Proof. pose proof adds_process as P. unfold server_resume. cbv zeta. adds0; try apply P; adds0. Qed.
Lemma adds_skeys v m cr sr : adds [Keyed] (server_keys E C v m cr sr). Proof. unfold server_keys. apply adds_bind0; [apply adds_lift|]. intros k. apply adds_setkeys. Qed.
Lemma adds_srf v npn h m : adds [InOn] (server_readFinished C v npn h m).
Proof. unfold server_readFinished. apply (adds_bind [InOn] []); [apply adds_recv_ccs|]. intros _. adds0. Qed.
Lemma adds_ticket cfg rn on v id m ders h : adds [] (sendSessionTicket E C cfg rn on v id m ders h). Proof. unfold sendSessionTicket. adds0. Qed.
Lemma adds_ssf h m : adds [OutOn] (server_sendFinished C h m).
Proof. unfold server_sendFinished. apply (adds_bind [OutOn] []); [apply adds_send_ccs|]. intros _. adds0. Qed.
Lemma adds_check : forall ders i, adds [] (check_certs E i ders).
Proof. induction ders as [|d ders IH]; intros i; cbn [check_certs]; adds0. Qed.
Lemma adds_verify cfg roots : forall cs i inter chains, adds [] (verify_certs E cfg roots i inter cs chains).
Proof. induction cs as [|d cs IH]; intros i inter chains; cbn [verify_certs]; [apply adds_ret|]. destruct (x509_verify _ _ _); [apply IH|apply adds_fail]. Qed.
Lemma adds_psh hello sh su ses : adds [] (processServerHello (T := T) hello sh su ses). Proof. unfold processServerHello. adds0. Qed.
Lemma adds_getcert cfg cas : adds [] (client_getCertificate E C cfg cas). Proof. unfold client_getCertificate. adds0. Qed.
Lemma adds_cfull cfg rn hello sh su h : adds [] (client_full E cfg rn hello sh su h).
Proof. unfold client_full. repeat (adds0; try apply adds_check; try apply adds_verify; try apply adds_getcert). Qed.
Lemma adds_ckeys m cr sr : adds [Keyed] (client_keys E C m cr sr). Proof. unfold client_keys. apply adds_bind0; [apply adds_lift|]. intros k. apply adds_setkeys. Qed.
Lemma adds_csf cfg sh h m : adds [OutOn] (client_sendFinished (T := T) C cfg sh h m).
Proof. unfold client_sendFinished. apply (adds_bind [OutOn] []); [apply adds_send_ccs|]. intros _. adds0. Qed.
Lemma adds_rt sh su m peer chains h : adds [] (readSessionTicket (T := T) C sh su m peer chains h). Proof. unfold readSessionTicket. adds0. Qed.
Lemma adds_crf h m : adds [InOn] (client_readFinished C h m).
Proof. unfold client_readFinished. apply (adds_bind [InOn] []); [apply adds_recv_ccs|]. intros _. adds0. Qed.
(** the full handshake and the resumed one exchange the roles of the two directions *)
Definition flow_marks (isClient resumed : bool) : list mark := if Bool.eqb isClient resumed then [Keyed; InOn; OutOn] else [Keyed; OutOn; InOn].
Definition both {A} (k : list mark) (Q : A -> Prop) (m : M C A) : Prop := adds k m /\ ends C Q m.
Lemma both_bind {A B} k1 k2 (Q : B -> Prop) (m : M C A) (k : A -> M C B) : adds k1 m -> (forall a, both k2 Q (k a)) -> both (k1 ++ k2) Q (bind m k).
Proof. intros H1 H2. split; [apply adds_bind; [exact H1|]|apply ends_bind]; intros a; apply H2. Qed.
Lemma both_bind0 {A B} k2 (Q : B -> Prop) (m : M C A) (k : A -> M C B) : adds [] m -> (forall a, both k2 Q (k a)) -> both k2 Q (bind m k). Proof. apply (both_bind []). Qed.
Lemma both_ret {A} (Q : A -> Prop) (x : A) : Q x -> both [] Q (ret x). Proof. intros H. split; [apply adds_ret|now apply ends_ret]. Qed.
Lemma both_use {A} k (Q : A -> Prop) (m : M C A) c l a c' l' : both k Q m -> m (c, l) = (HOk a, (c', l')) -> marks l' = marks l ++ k /\ Q a.
Proof. intros [H1 H2] H. split; [eapply H1|eapply H2]; exact H. Qed.
Lemma server_marks cfg getcfg rn c l r c' l' : serverHandshakeGM E C cfg getcfg rn (c, l) = (HOk r, (c', l')) -> marks l' = marks l ++ flow_marks false (hr_resumed r).
Proof.
  intros H. unfold serverHandshakeGM in H. unfold bind at 1 in H. destruct (server_hello cfg getcfg rn (c, l)) as [[hs|e| |] [c2 l2]] eqn:E0; try discriminate.
  apply adds_hello in E0. rewrite app_nil_r in E0. rewrite <- E0. cbv zeta in H. destruct (checkForResumption E hs) as [[st su]|].
  - eapply (both_use [Keyed; OutOn; InOn] (fun r => hr_resumed r = true)) in H as [H1 H2]; [rewrite H2; exact H1|].
    apply both_bind0; [apply adds_resume|]. intros [[[sh h] certs] chains]. apply (both_bind [Keyed] [OutOn; InOn]); [apply adds_skeys|]. intros _. apply both_bind0; [apply adds_ticket|]. intros h1.
    apply (both_bind [OutOn] [InOn]); [apply adds_ssf|]. intros [h2 sfin]. apply (both_bind [InOn] []); [apply adds_srf|]. intros [[h3 x] proto]. now apply both_ret.
  - eapply (both_use [Keyed; InOn; OutOn] (fun r => hr_resumed r = false)) in H as [H1 H2]; [rewrite H2; exact H1|].
    apply both_bind0; [apply adds_suite|]. intros su. apply both_bind0; [apply adds_sfull|]. intros f. apply (both_bind [Keyed] [InOn; OutOn]); [apply adds_skeys|]. intros _.
    apply (both_bind [InOn] [OutOn]); [apply adds_srf|]. intros [[h1 cfin] proto]. apply both_bind0; [apply adds_ticket|]. intros h2. apply (both_bind [OutOn] []); [apply adds_ssf|]. intros _. now apply both_ret.
Qed.
Lemma client_marks cfg cache rn c l r c' l' : clientHandshakeGM E C cfg cache rn (c, l) = (HOk r, (c', l')) -> marks l' = marks l ++ flow_marks true (hr_resumed (fst r)) /\ hr_vers (fst r) = VersionGMSSL.
Proof.
  intros H. unfold clientHandshakeGM in H. unfold bind at 1 in H. cbn [setvers fst snd] in H. revert H. generalize (cn_vers C VersionGMSSL false c). clear c. intros c H.
  unfold bind at 1 in H. unfold lift at 1 in H. destruct (of_res (makeClientHelloGM cfg rn)) as [hello0|e| |]; try discriminate.
  unfold bind at 1 in H. unfold lift at 1 in H. destruct (of_res (complete_hello cfg cache rn hello0)) as [[hello ses]|e| |]; try discriminate.
  unfold bind at 1 in H. unfold enc, lift at 1 in H. destruct (of_res (m_clientHello hello)) as [chraw|e| |]; try discriminate.
  unfold bind at 1 in H. destruct (send chraw (c, l)) as [[u|e| |] [c1 l1]] eqn:E1; try discriminate. apply adds_send in E1. rewrite app_nil_r in E1. rewrite <- E1.
  unfold bind at 1 in H. destruct (readHandshake VersionGMSSL (c1, l1)) as [[[msg raw]|e| |] [c2 l2]] eqn:E2; try discriminate. apply adds_read in E2. rewrite app_nil_r in E2. rewrite <- E2.
  cbn [fst snd] in H. destruct msg; try discriminate. destruct (negb _); [discriminate|]. destruct (mutualCipherSuiteGM _ _) as [su|]; [|discriminate].
  unfold bind at 1 in H. destruct (processServerHello hello m su ses (c2, l2)) as [[resumed|e| |] [c3 l3]] eqn:E3; try discriminate. apply adds_psh in E3. rewrite app_nil_r in E3. rewrite <- E3.
  unfold bind at 1 in H. unfold lift at 1 in H. destruct (of_res newFinishedHashGM) as [h0|e| |]; try discriminate. cbv zeta in H.
  unfold bind at 1 in H. match type of H with context [wr ?h chraw (c3, l3)] => destruct (wr h chraw (c3, l3)) as [[h1|e| |] [c4 l4]] eqn:E4; try discriminate end. apply adds_wr in E4. rewrite app_nil_r in E4. rewrite <- E4.
  unfold bind at 1 in H. match type of H with context [wr ?h raw (c4, l4)] => destruct (wr h raw (c4, l4)) as [[h2|e| |] [c5 l5]] eqn:E5; try discriminate end. apply adds_wr in E5. rewrite app_nil_r in E5. rewrite <- E5.
  destruct resumed as [s|].
  - eapply (both_use [Keyed; InOn; OutOn] (fun r => hr_resumed (fst r) = true /\ hr_vers (fst r) = VersionGMSSL)) in H as [H1 [H2 H3]]; [rewrite H2; split; [exact H1|exact H3]|].
    apply (both_bind [Keyed] [InOn; OutOn]); [apply adds_ckeys|]. intros _. apply both_bind0; [apply adds_rt|]. intros [h3 ns]. apply (both_bind [InOn] [OutOn]); [apply adds_crf|]. intros [h4 sfin].
    apply (both_bind [OutOn] []); [apply adds_csf|]. intros [[h5 cfin] proto]. now apply both_ret.
  - eapply (both_use [Keyed; OutOn; InOn] (fun r => hr_resumed (fst r) = false /\ hr_vers (fst r) = VersionGMSSL)) in H as [H1 [H2 H3]]; [rewrite H2; split; [exact H1|exact H3]|].
    apply both_bind0; [apply adds_cfull|]. intros f. apply (both_bind [Keyed] [OutOn; InOn]); [apply adds_ckeys|]. intros _. apply (both_bind [OutOn] [InOn]); [apply adds_csf|]. intros [[h5 cfin] proto].
    apply both_bind0; [apply adds_rt|]. intros [h3 ns]. apply (both_bind [InOn] []); [apply adds_crf|]. intros [h4 sfin]. now apply both_ret.
Qed.
End W.
End Marks.

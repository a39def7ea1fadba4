(** Specification vocabulary for the handshake theorems: the visible steps of a handshake, the flows GM/T 0024 prescribes, and what the
    values on the wire have to be.  It only reads the log of events and the fields of the results. *)
From Verif Require Import GoBase GoLemmas SM3_spec TLS_prf_model TLS_prf_spec TLS_msg_model TLS_msg_proofs TLS_hs_model TLS_hs_proofs.
Open Scope Z_scope.

(** type of a handshake message: its first byte *)
Definition mtype (m : list Z) : Z := match m with t :: _ => t | [] => -1 end.
(** handshake message types of the RFC / GM/T 0024 *)
Definition tClientHello := 1. Definition tServerHello := 2. Definition tNewSessionTicket := 4. Definition tCertificate := 11. Definition tServerKeyExchange := 12.
Definition tCertificateRequest := 13. Definition tServerHelloDone := 14. Definition tCertificateVerify := 15. Definition tClientKeyExchange := 16.
Definition tFinished := 20. Definition tCertificateStatus := 22. Definition tNextProtocol := 67.
Inductive step := Out (t : Z) | In_ (t : Z) | OutCCS | InCCS | OutAlert (a : Z).
(** the messages, change-cipher-spec records and alerts of a log; installing keys leaves no trace on the wire *)
Definition step_of (e : event) : list step :=
  match e with EvSend m => [Out (mtype m)] | EvRecv m => [In_ (mtype m)] | EvSendCCS => [OutCCS] | EvRecvCCS => [InCCS] | EvKeys _ => [] | EvAlert a => [OutAlert a] end.
Definition steps (l : list event) : list step := flat_map step_of l.
Definition opt (b : bool) (s : step) : list step := if b then [s] else [].
(** A full GM handshake seen by the server: [st] certificate status, [rq] certificate request, [cv] client certificate and signature,
    [np] next protocol, [tk] session ticket *)
Definition server_flow (st rq cv np tk : bool) : list step :=
  [In_ tClientHello; Out tServerHello; Out tCertificate] ++ opt st (Out tCertificateStatus) ++ [Out tServerKeyExchange] ++ opt rq (Out tCertificateRequest) ++ [Out tServerHelloDone] ++
  opt rq (In_ tCertificate) ++ [In_ tClientKeyExchange] ++ opt cv (In_ tCertificateVerify) ++ [InCCS] ++ opt np (In_ tNextProtocol) ++ [In_ tFinished] ++
  opt tk (Out tNewSessionTicket) ++ [OutCCS; Out tFinished].
(** ... and by the client; [sk]: the server sent a ServerKeyExchange *)
Definition client_flow (sk rq cv np tk : bool) : list step :=
  [Out tClientHello; In_ tServerHello; In_ tCertificate] ++ opt sk (In_ tServerKeyExchange) ++ opt rq (In_ tCertificateRequest) ++ [In_ tServerHelloDone] ++
  opt rq (Out tCertificate) ++ [Out tClientKeyExchange] ++ opt cv (Out tCertificateVerify) ++ [OutCCS] ++ opt np (Out tNextProtocol) ++ [Out tFinished] ++
  opt tk (In_ tNewSessionTicket) ++ [InCCS; In_ tFinished].
(** the six keys of a GM connection are the 128 bytes of the key block, in order *)
Definition cuts_block (kb : keyblock) (block : list Z) : Prop :=
  block = kb_clientMAC kb ++ kb_serverMAC kb ++ kb_clientKey kb ++ kb_serverKey kb ++ kb_clientIV kb ++ kb_serverIV kb /\
  length (kb_clientMAC kb) = 32%nat /\ length (kb_serverMAC kb) = 32%nat /\ length (kb_clientKey kb) = 16%nat /\ length (kb_serverKey kb) = 16%nat /\
  length (kb_clientIV kb) = 16%nat /\ length (kb_serverIV kb) = 16%nat.
(** the keys a log installs *)
Definition keys_of (l : list event) : list keyblock := flat_map (fun e => match e with EvKeys k => [k] | _ => [] end) l.

(** ** Lemmas *)
Lemma steps_app a b : steps (a ++ b) = steps a ++ steps b. Proof. apply flat_map_app. Qed.
Lemma keys_of_app a b : keys_of (a ++ b) = keys_of a ++ keys_of b. Proof. apply flat_map_app. Qed.
Lemma fill_type size t p m : fill size (t :: p) = Ok m -> mtype m = t.
Proof. unfold fill. destruct (_ <=? _); [|discriminate]. intros [= <-]. reflexivity. Qed.
Lemma fill_ok size p m : fill size p = Ok m -> exists k, m = p ++ zeros k.
Proof. unfold fill. destruct (_ <=? _); [|discriminate]. intros [= <-]. eauto. Qed.
Lemma t_clientHello m w : m_clientHello m = Ok w -> mtype w = 1.
Proof. unfold m_clientHello. destruct (existsb _ _); [discriminate|]. apply fill_type. Qed.
Lemma t_serverHello m w : m_serverHello m = Ok w -> mtype w = 2.
Proof. unfold m_serverHello. destruct (_ && _); [discriminate|]. apply fill_type. Qed.
Lemma t_certificate m w : m_certificate m = Ok w -> mtype w = 11. Proof. apply fill_type. Qed.
Lemma t_skx m w : m_serverKeyExchange m = Ok w -> mtype w = 12. Proof. apply fill_type. Qed.
Lemma t_ckx m w : m_clientKeyExchange m = Ok w -> mtype w = 16. Proof. apply fill_type. Qed.
Lemma t_finished m w : m_finished m = Ok w -> mtype w = 20. Proof. apply fill_type. Qed.
Lemma t_status m w : m_certificateStatus m = Ok w -> mtype w = 22.
Proof. unfold m_certificateStatus. destruct (_ =? _); [apply fill_type|intros [= <-]; reflexivity]. Qed.
Lemma t_req a b w : m_certificateRequestGM a b = Ok w -> mtype w = 13. Proof. apply fill_type. Qed.
Lemma t_cv a b w : m_certificateVerify a b = Ok w -> mtype w = 15. Proof. apply fill_type. Qed.
Lemma t_np a w : m_nextProto a = Ok w -> mtype w = 67. Proof. apply fill_type. Qed.
Lemma t_ticket a w : m_newSessionTicket a = Ok w -> mtype w = 4. Proof. apply fill_type. Qed.
Definition type_of (x : hmsg) : Z :=
  match x with
  | MHelloRequest => 0 | MClientHello _ => 1 | MServerHello _ => 2 | MNewSessionTicket _ => 4 | MCertificate _ => 11 | MCertificateRequest _ => 13
  | MCertificateStatus _ => 22 | MServerKeyExchange _ => 12 | MServerHelloDone => 14 | MClientKeyExchange _ => 16 | MCertificateVerify _ _ => 15 | MNextProto _ => 67 | MFinished _ => 20
  end.
Lemma rmap_ok {A B} (f : A -> B) r x : rmap f r = Ok x -> exists a, r = Ok a /\ x = f a.
Proof. destruct r; cbn; intros [= <-]. eauto. Qed.
Lemma parse_type v m x : parse_msg v m = Ok x -> mtype m = type_of x.
Proof.
  destruct m as [|t m]; [discriminate|]. unfold parse_msg. cbn [mtype].
  repeat match goal with |- (if ?t =? ?n then _ else _) = _ -> _ => destruct (Z.eqb_spec t n) as [->|]; [intros H; apply rmap_ok in H as (a & _ & ->); reflexivity|] end.
  discriminate.
Qed.
Lemma parse_finished v m vd : parse_msg v m = Ok (MFinished vd) -> (4 <= length m)%nat /\ vd = skipn 4 m.
Proof.
  intros H. pose proof (parse_type _ _ _ H) as Ht. destruct m as [|t m]; [discriminate|]. cbn [mtype type_of] in Ht. subst t. cbn in H. apply rmap_ok in H as (a & H & [= <-]).
  unfold u_finished, fails in H. destruct (Z.ltb_spec (zlen (20 :: m)) 4); [discriminate|]. unfold sl_from in H.
  destruct (_ && _) in H; [|discriminate]. injection H as <-. split; [unfold zlen in *; lia|reflexivity].
Qed.
Lemma finished_wire vd w : m_finished vd = Ok w -> length vd = 12%nat -> w = [20; 0; 0; 12] ++ vd.
Proof.
  intros H L. unfold m_finished in H. assert (Z12 : zlen vd = 12) by (unfold zlen; lia). rewrite Z12 in H. unfold fill in H.
  replace (zlen ([20; 0; 0; u8 12] ++ vd)) with 16 in H by (unfold zlen; rewrite app_length, L; reflexivity). injection H as <-. cbn [app zeros repeat Z.to_nat Z.sub]. now rewrite app_nil_r.
Qed.
(** an event that occurs once marks a unique place *)
Lemma unique_event {X} (P : X -> Prop) (l A B pre post : list X) a x : l = A ++ a :: B -> ~ Exists P A -> ~ Exists P B -> l = pre ++ x :: post -> P x -> pre = A /\ x = a /\ post = B.
Proof.
  intros -> NA NB H Px. revert pre H NA. induction A as [|y A IH]; intros pre H NA.
  - destruct pre as [|z pre]; cbn [app] in H.
    + injection H as <- <-. auto.
    + injection H as <- H. exfalso. apply NB. rewrite H. apply Exists_app. right. constructor. exact Px.
  - destruct pre as [|z pre]; cbn [app] in H.
    + injection H as <- _. exfalso. apply NA. constructor. exact Px.
    + injection H as <- H. destruct (IH pre H) as (-> & -> & ->); [|auto]. intros HX. apply NA. now constructor 2.
Qed.
Definition recv_type (t : Z) (e : event) : Prop := exists m, e = EvRecv m /\ mtype m = t.
Definition send_type (t : Z) (e : event) : Prop := exists m, e = EvSend m /\ mtype m = t.
Lemma no_recv t l : ~ In (In_ t) (steps l) -> ~ Exists (recv_type t) l.
Proof.
  intros H HX. apply H. apply Exists_exists in HX as (e & Hin & m & -> & <-). unfold steps. apply in_flat_map. exists (EvRecv m). cbn. auto.
Qed.
Lemma no_send t l : ~ In (Out t) (steps l) -> ~ Exists (send_type t) l.
Proof.
  intros H HX. apply H. apply Exists_exists in HX as (e & Hin & m & -> & <-). unfold steps. apply in_flat_map. exists (EvSend m). cbn. auto.
Qed.

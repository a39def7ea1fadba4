(** C138: does an ordinary TLS client use only what it offered?  Suites, signature algorithms and NPN protocols: yes (C126, C128).  ALPN protocols, key exchange groups and TLS 1.2 suites
    at lower versions: no.  The servers below are built from the specification; each of them holds the key of the certificate the client verifies. *)
From Verif Require Import GoBase GoLemmas BigBytes X509_spec SM2_model TLS_record_model TLS_prf_model TLS_prf_spec TLS_prf_proofs
  TLS_gmka_model TLS_ticket_model TLS_msg_model TLS_neg_model TLS_hs_model TLS_hs_proofs TLS_hs_spec TLS_hs_run TLS_std_model TLS_std_spec TLS_std_server TLS_std_client
  P_TLS_hs_server P_TLS_hs_client P_TLS_hs_agree P_TLS_std_server P_TLS_std_server2 P_TLS_std_client P_TLS_std_client2 P_TLS_std_agree P_TLS_std_example.
From Verif Require X509_model P_TLS_prf.
Open Scope Z_scope.

Definition ocl (mx : Z) (suites : list Z) (protos : list (list Z)) (curves : list Z) : sconfig unit :=
  mkSCfg (mkCfg 0 mx (Some suites) false protos [] 0 None (Some ypool) [97; 46; 98] false 50 false [] None None (fun _ _ => None)) [] None None curves None.
(** the server's first flight, what the client's log is after it, and the flight with the Finished message the specification prescribes *)
Definition flight (sh : serverHello) (skx : list (list Z)) : list item := Eval cbv beta in
  match m_serverHello sh, m_certificate [[48; 1]] with
  | Ok a, Ok b => [IMsg a; IMsg b] ++ flat_map (fun k => match m_serverKeyExchange k with Ok m => [IMsg m] | _ => [] end) skx ++ [IMsg m_serverHelloDone] | _, _ => [] end.
Definition finish (cfg : sconfig unit) (ver : version) (master : list Z) (fl : list item) : list item :=
  match m_finished (server_finished yHs ver master (transcript (snd (snd (crun cfg None (yrn 3 [7]) None fl))))) with Ok m => fl ++ [ICCS; IMsg m] | _ => [] end.
Definition rsa_master (ver : version) (vers : list Z) : list Z := PRF yHs ver 48 (vers ++ repeat 3 46) ascii_master_secret (repeat 3 32 ++ repeat 4 32).

(** 1: the client offers the protocols h1 and h2; the server names h3 *)
Definition o1 := ocl 0 [0x002f] [[104; 49]; [104; 50]] [].
Definition o1_cin : list item := Eval vm_compute in finish o1 (TLS12 false) (rsa_master (TLS12 false) [3; 3]) (flight (mkSH 0x0303 (repeat 4 32) [] 0x002f 0 false [] false [] false [] true [104; 51]) []).
(** 2: the client offers the group X25519 only; the server uses P-256 *)
Definition o2 := ocl 0 [0xc02f] [] [29].
Definition o2_params : list Z := [3; 0; 23; 32] ++ repeat (ypow 6 9) 32.
Definition o2_skx : list Z := Eval vm_compute in
  match hashForServerKeyExchange yE signaturePKCS1v15 hSHA256 0x0303 [repeat 3 32; repeat 4 32; o2_params] with
  | Ok d => let sig := ysig 1 signaturePKCS1v15 hSHA256 d in o2_params ++ [4; 1] ++ [0; zlen sig] ++ sig | _ => [] end.
Definition o2_cin : list item := Eval vm_compute in
  finish o2 (TLS12 false) (PRF yHs (TLS12 false) 48 (repeat (ypow (ypow 6 9) 3) 32) ascii_master_secret (repeat 3 32 ++ repeat 4 32)) (flight (mkSH 0x0303 (repeat 4 32) [] 0xc02f 0 false [] false [] false [] true []) [o2_skx]).
(** 3: the server chooses TLS 1.0 and a suite that exists for TLS 1.2 only *)
Definition o3 := ocl 0 [0x009c] [] [].
Definition o3_cin : list item := Eval vm_compute in finish o3 TLS10 (rsa_master TLS10 [3; 3]) (flight (mkSH 0x0301 (repeat 4 32) [] 0x009c 0 false [] false [] false [] true []) []).

Definition done (cfg : sconfig unit) (i : list item) (X : sclient unit -> list event -> bool) : bool :=
  match crun cfg None (yrn 3 [7]) None i with (HOk rc, (_, cl)) => X rc cl | _ => false end.

Lemma done_ok cfg i X : done cfg i X = true -> exists rc cl, std_client_completes yE script cfg [] None (yrn 3 [7]) None i rc cl /\ X rc cl = true.
Proof.
  unfold done, crun, std_client_completes. intros H. destruct (std_clientHandshake _ _ _ _ _ _ _ _) as [[rc| | |] [cc cl]]; try discriminate. exists rc, cl. split; [eexists; reflexivity|exact H].
Qed.
Definition skxs (l : list event) : list (list Z) := flat_map (fun e => match e with EvRecv m => if mtype m =? tServerKeyExchange then match u_serverKeyExchange m with Ok k => [k] | _ => [] end else [] | _ => [] end) l.
Lemma skxs_in l k : In k (skxs l) -> exists m, In (EvRecv m) l /\ mtype m = tServerKeyExchange /\ u_serverKeyExchange m = Ok k.
Proof.
  unfold skxs. intros H. apply in_flat_map in H as (e & He & Hk). destruct e as [|m| | | |]; try destruct Hk. destruct (Z.eqb_spec (mtype m) tServerKeyExchange) as [T|]; [|destruct Hk].
  destruct (u_serverKeyExchange m) as [k'| |] eqn:U; try destruct Hk as [<-|[]]; try destruct Hk. exists m. auto.
Qed.

(** A protocol the client did not offer.  The server's certificate is verified, the handshake completes, and ConnectionState reports that protocol as negotiated. *)
Theorem C138_protocol_refuted : exists cfg rn inbox rc log, std_client_completes yE script cfg [] None rn None inbox rc log /\ cf_skip (s_cfg cfg) = false /\
  cf_protos (s_cfg cfg) = [[104; 49]; [104; 50]] /\ hr_proto (cl_hr rc) = [104; 51].
Proof.
  assert (D : done o1 o1_cin (fun rc _ => beqb (hr_proto (cl_hr rc)) [104; 51]) = true) by (vm_compute; exact eq_refl).
  apply done_ok in D as (rc & cl & H & X). apply beqb_eq in X. exists o1, (yrn 3 [7]), o1_cin, rc, cl. split; [exact H|]. split; [reflexivity|]. split; [reflexivity|exact X].
Qed.
(** A group the client did not offer: its only group is X25519, and the key is exchanged over P-256. *)
Theorem C138_group_refuted : exists cfg rn inbox rc log m key point alg sig params, std_client_completes yE script cfg [] None rn None inbox rc log /\ cf_skip (s_cfg cfg) = false /\
  s_curves cfg = [29] /\ (exists ch, hello_sent log ch /\ ch_curves ch = [29]) /\
  In (EvRecv m) log /\ mtype m = tServerKeyExchange /\ u_serverKeyExchange m = Ok key /\ skx_parts (hr_vers (cl_hr rc)) key 23 point alg sig params /\ ecdhe_suite (hr_suite (cl_hr rc)) = true.
Proof.
  assert (D : done o2 o2_cin (fun rc l => existsb (beqb o2_skx) (skxs l) && (hr_vers (cl_hr rc) =? 0x0303) && (hr_suite (cl_hr rc) =? 0xc02f)) = true) by (vm_compute; exact eq_refl).
  apply done_ok in D as (rc & cl & H & X). apply andb_prop in X as [X X3]. apply andb_prop in X as [X X2]. apply Z.eqb_eq in X2, X3. apply existsb_exists in X as (k & Hk & E). apply beqb_eq in E. subst k.
  destruct (skxs_in _ _ Hk) as (m & M1 & M2 & M3). exists o2, (yrn 3 [7]), o2_cin, rc, cl, m, o2_skx, (repeat (ypow 6 9) 32), 0x0401, (skipn 40 o2_skx), o2_params.
  split; [exact H|]. split; [reflexivity|]. split; [reflexivity|]. split.
  - destruct (C126_client_negotiation yE script yHs (yh 64) yworld _ _ _ _ _ _ _ _ H) as (ch & sh & Hc & _ & (_ & _ & _ & _ & _ & CC & _) & _). exists ch. split; [exact Hc|exact CC].
  - split; [exact M1|]. split; [exact M2|]. split; [exact M3|]. rewrite X2, X3. split; [|reflexivity].
    exists 0, 23, 4, 1, 0, (zlen (skipn 40 o2_skx)). split; [reflexivity|]. split; [reflexivity|]. split; [reflexivity|]. split; [reflexivity|]. vm_compute. exact eq_refl.
Qed.
(** A TLS 1.2 suite (AES-GCM) at TLS 1.0. *)
Theorem C138_suite_version_refuted : exists cfg rn inbox rc log, std_client_completes yE script cfg [] None rn None inbox rc log /\ cf_skip (s_cfg cfg) = false /\
  hr_vers (cl_hr rc) = 0x0301 /\ tls12_suite (hr_suite (cl_hr rc)) = true.
Proof.
  assert (D : done o3 o3_cin (fun rc _ => (hr_vers (cl_hr rc) =? 0x0301) && tls12_suite (hr_suite (cl_hr rc))) = true) by (vm_compute; exact eq_refl).
  apply done_ok in D as (rc & cl & H & X). apply andb_prop in X as [X1 X2]. apply Z.eqb_eq in X1. exists o3, (yrn 3 [7]), o3_cin, rc, cl. split; [exact H|]. split; [reflexivity|]. split; [exact X1|exact X2].
Qed.

(** What does hold, for every client, server and world: the suite was offered; the signature algorithm (which TLS 1.2 names) was offered; the group is one of the four the library
    implements, and the point is of the right length or on the curve; an NPN protocol is one of the client's own. *)
Theorem C138_offered_partial {T} (E : senv T) (C : chan) Hs H512 : std_world_ok E Hs H512 -> forall cfg addr cache rn pr c r log,
  std_client_completes E C cfg addr cache rn pr c r log -> hr_resumed (cl_hr r) = false -> wire_ok log -> std_client_random_ok rn -> groups_ok E -> prior_ok pr ->
  exists ch sh, hello_sent log ch /\ server_hello_read log sh /\ In (hr_suite (cl_hr r)) (ch_suites ch) /\
    (sh_alpn sh <> [] -> ch_alpn ch <> []) /\ (sh_npn sh = true -> In (hr_proto (cl_hr r)) (ch_alpn ch)) /\
    (ecdhe_suite (hr_suite (cl_hr r)) = true -> exists m key curve point alg sig params, In (EvRecv m) log /\ mtype m = tServerKeyExchange /\ u_serverKeyExchange m = Ok key /\
       skx_parts (hr_vers (cl_hr r)) key curve point alg sig params /\ In curve [29; 23; 24; 25] /\ (0x0303 <= hr_vers (cl_hr r) -> exists hello, hello_sent log hello /\ In alg (ch_sigalgs hello)) /\
       (curve = 29 -> zlen point = 32) /\ (curve <> 29 -> kx_point (se_nist E curve) point = true)).
Proof.
  intros HW cfg addr cache rn pr c r log H HR WO RO GO PO.
  destruct (C126_client_negotiation E C Hs H512 HW _ _ _ _ _ _ _ _ H) as (ch & sh & Hc & Hh & (_ & _ & _ & _ & CA & _) & (_ & _ & _ & _ & CS & _) & A1 & _ & A3).
  destruct (C128_client_secrets E C Hs H512 HW _ _ _ _ _ _ _ _ H HR WO RO GO PO) as (ch' & sh' & leaf & rest & ver & lens & kb & mck & ct & pms & Hc' & _ & _ & _ & _ & _ & _ & _ & _ & _ & _ & EX).
  exists ch, sh. split; [exact Hc|]. split; [exact Hh|]. split; [exact CS|]. split. { intros N. rewrite CA. now apply A1. } split.
  { intros N. rewrite CA. destruct (A3 N) as [P [(b & a & _ & I & _)|[(o & ->) _]]]; [exact I|now left]. }
  intros EE. destruct (EX EE) as (m & key & curve & g & point & alg & sig & params & kind & hash & priv & pub & I & Tm & U & SP & G & _ & SA & _ & _ & P1 & P2 & _).
  exists m, key, curve, point, alg, sig, params. split; [exact I|]. split; [exact Tm|]. split; [exact U|]. split; [exact SP|].
  assert (XC : In curve [29; 23; 24; 25] /\ (curve <> 29 -> g = se_nist E curve)).
  { unfold group in G. destruct (Z.eqb_spec curve 29) as [->|N]; [split; [now left|congruence]|]. destruct (existsb (Z.eqb curve) [23; 24; 25]) eqn:EB; [|discriminate].
    apply existsb_exists in EB as (x & Hx & Ex). apply Z.eqb_eq in Ex. subst x. split; [right; exact Hx|]. intros _. congruence. }
  destruct XC as [XI XG]. split; [exact XI|]. split.
  { intros V. exists ch'. split; [exact Hc'|exact (SA V)]. }
  split; [exact P1|]. intros N. rewrite <- (XG N). now apply P2.
Qed.

(** Model of /repo/tls/tls.go: DialWithDialer, Dial, Listen (97-175), as a concurrent system: the calling goroutine, the timer of time.AfterFunc and the
    goroutine that runs the handshake, scheduled one step at a time, with the buffered channel errChannel between them.
    - net.Dialer.Dial and Conn.Handshake are the environment: any result, after any number of steps of the others.
    - Errors are numbers; [None] is the nil error.  Durations are integers (nanoseconds); [until] is time.Until(dialer.Deadline) at the start. *)
From Verif Require Import GoBase GoLemmas.
Open Scope Z_scope.

Definition eTimeout : Z := 1.                                  (* timeoutError, tls.go:86 *)
(** tls.go:101-111: 0 means that there is no limit *)
Definition dial_timeout (timeout : Z) (until : option Z) : Z :=
  match until with
  | None => timeout
  | Some d => if (timeout =? 0) || (d <? timeout) then d else timeout
  end.
(** strings.LastIndex(s, ":"), from position [i]; None is -1 *)
Fixpoint last_colon (i : nat) (s : list Z) (found : option nat) : option nat :=
  match s with [] => found | c :: s => last_colon (i + 1) s (if c =? 58 then Some i else found) end.
(** tls.go:126-143: the ServerName of the configuration that is used; the rest of it is the caller's (Config.Clone) *)
Definition dial_server_name (serverName addr : list Z) : list Z :=
  let colonPos := match last_colon 0 addr None with None => length addr | Some i => i end in
  let hostname := firstn colonPos addr in
  match serverName with [] => hostname | _ => serverName end.

(** the caller *)
Inductive dresult := DConn | DErr (e : Z).
Inductive mpc := MStart | MDial | MShake | MWait | MRet (r : dresult).
(** time.AfterFunc: not created, running, in [errChannel <- timeoutError{}], done *)
Inductive tpc := TNone | TArmed | TSend | TDone.
(** the goroutine: not started, in conn.Handshake(), in [errChannel <- e], done *)
Inductive gpc := GNone | GRun | GSend (e : option Z) | GDone.
Record dst := mkD { d_main : mpc; d_timer : tpc; d_gor : gpc;
                    d_ch : list (option Z);         (* errChannel, capacity 2 *)
                    d_raw : bool;                   (* a raw connection has been opened *)
                    d_closed : bool;                (* rawConn.Close() has been called by DialWithDialer *)
                    d_hs : option (option Z);       (* how conn.Handshake() ended, once it has *)
                    d_sent : list (option Z) }.     (* everything sent on errChannel so far (not part of the program) *)
Definition dinit : dst := mkD MStart TNone GNone [] false false None [].
Definition chan_cap : nat := 2.                                (* tls.go:114 *)
(** tls.go:149-164 *)
Definition ret (e : option Z) : mpc := match e with None => MRet DConn | Some e => MRet (DErr e) end.
Definition failed (e : option Z) : bool := match e with None => false | Some _ => true end.
(** one step; [t] is the effective timeout *)
Inductive dstep (t : Z) : dst -> dst -> Prop :=
| SStart s : d_main s = MStart ->                                                          (* 112-118 *)
    dstep t s (mkD MDial (if t =? 0 then d_timer s else TArmed) (d_gor s) (d_ch s) (d_raw s) (d_closed s) (d_hs s) (d_sent s))
| SDialErr s e : d_main s = MDial ->                                                       (* 120-123 *)
    dstep t s (mkD (MRet (DErr e)) (d_timer s) (d_gor s) (d_ch s) (d_raw s) (d_closed s) (d_hs s) (d_sent s))
| SDial s : d_main s = MDial ->                                                            (* 120, 145-155 *)
    dstep t s (if t =? 0 then mkD MShake (d_timer s) (d_gor s) (d_ch s) true (d_closed s) (d_hs s) (d_sent s)
               else mkD MWait (d_timer s) GRun (d_ch s) true (d_closed s) (d_hs s) (d_sent s))
| SShake s e : d_main s = MShake ->                                                        (* 148, 158-163 *)
    dstep t s (mkD (ret e) (d_timer s) (d_gor s) (d_ch s) (d_raw s) (d_closed s || failed e) (Some e) (d_sent s))
| SRecv s e rest : d_main s = MWait -> d_ch s = e :: rest ->                               (* 154, 158-163 *)
    dstep t s (mkD (ret e) (d_timer s) (d_gor s) rest (d_raw s) (d_closed s || failed e) (d_hs s) (d_sent s))
| SFire s : d_timer s = TArmed ->                                                          (* 115-117: the time has come *)
    dstep t s (mkD (d_main s) TSend (d_gor s) (d_ch s) (d_raw s) (d_closed s) (d_hs s) (d_sent s))
| STimer s : d_timer s = TSend -> (length (d_ch s) < chan_cap)%nat ->
    dstep t s (mkD (d_main s) TDone (d_gor s) (d_ch s ++ [Some eTimeout]) (d_raw s) (d_closed s) (d_hs s) (d_sent s ++ [Some eTimeout]))
| SDone s e : d_gor s = GRun ->                                                            (* 151: Handshake returns *)
    dstep t s (mkD (d_main s) (d_timer s) (GSend e) (d_ch s) (d_raw s) (d_closed s) (Some e) (d_sent s))
| SGor s e : d_gor s = GSend e -> (length (d_ch s) < chan_cap)%nat ->
    dstep t s (mkD (d_main s) (d_timer s) GDone (d_ch s ++ [e]) (d_raw s) (d_closed s) (d_hs s) (d_sent s ++ [e])).
(** the states some schedule leads to *)
Inductive dreach (t : Z) : dst -> Prop :=
| dreach0 : dreach t dinit
| dreachS s s' : dreach t s -> dstep t s s' -> dreach t s'.
(** tls.go:72-84 Listen: refused without a way to get a certificate (a nil config: hasConfig = false) *)
Definition listen_refused (hasConfig : bool) (nCerts : nat) (hasGetCertificate : bool) : bool :=
  negb hasConfig || ((nCerts =? 0)%nat && negb hasGetCertificate).

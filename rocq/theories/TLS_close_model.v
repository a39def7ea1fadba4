(** Model of the interlock between Write, Close and CloseWrite of /repo/tls/conn.go as a small-step concurrent system: any number of
    calls, each scheduled one atomic step at a time.  Atomic steps are the sync/atomic operations on activeCall, taking and releasing
    the mutex c.out, and, under that mutex, reading and setting closeNotifySent and handing a record to the transport.
    Simplified: what happens between these steps (handshake, encryption) only decides between going on and returning an error
    (the argument [go] of [step]); records are just their kind. *)
From Verif Require Import GoBase GoLemmas.
Open Scope Z_scope.

Inductive wres := WOk | WErrClosed | WErrShutdown | WErr.
Inductive cres := COk | CErrClosed.
(** program points *)
Inductive pc :=
| W0                       (* Write, conn.go:1035-1036: load activeCall *)
| W1 (x : Z)               (* 1037-1040: compare-and-swap x to x+2 *)
| W2                       (* 1046: Handshake *)
| W3                       (* 1050: c.out.Lock *)
| W4                       (* 1053-1063: c.out.err, handshakeComplete, closeNotifySent *)
| W4b                      (* 1075-1089: write the record(s), unlock *)
| W5 (r : wres)            (* 1041: deferred atomic add of -2 *)
| WDone (r : wres)
| C0                       (* Close, 1204: load activeCall *)
| C1 (x : Z)               (* 1205-1210: compare-and-swap x to x|1 *)
| C2 (x : Z)               (* 1213-1225: interrupted Write, or handshake incomplete: no alert *)
| C3                       (* 1219, 1228: c.conn.Close *)
| CDone (r : cres)
| N0 (close : bool)        (* closeNotify (from Close, or from CloseWrite): 1250 c.out.Lock *)
| N1 (close : bool)        (* 1253: closeNotifySent? *)
| Nw (close : bool)        (* 1254: write the alert *)
| Ns (close : bool)        (* 1255: set closeNotifySent, unlock *)
| NDone                    (* CloseWrite returned *)
| A0                       (* sendAlert (756-760) of any other alert: c.out.Lock *)
| A1                       (* write it, unlock *)
| ADone.
Inductive rec_kind := App | Notify | Alert.
Record state := mkS { s_active : Z; s_sent : bool; s_lock : option nat; s_log : list rec_kind; s_closedT : nat; s_calls : list pc }.
Definition set_pc (s : state) (i : nat) (p : pc) : state := mkS (s_active s) (s_sent s) (s_lock s) (s_log s) (s_closedT s) (upd i p (s_calls s)).
Definition set_active (s : state) (x : Z) : state := mkS x (s_sent s) (s_lock s) (s_log s) (s_closedT s) (s_calls s).
Definition set_lock (s : state) (l : option nat) : state := mkS (s_active s) (s_sent s) l (s_log s) (s_closedT s) (s_calls s).
Definition set_sent (s : state) : state := mkS (s_active s) true (s_lock s) (s_log s) (s_closedT s) (s_calls s).
Definition add_log (s : state) (k : rec_kind) : state := mkS (s_active s) (s_sent s) (s_lock s) (s_log s ++ [k]) (s_closedT s) (s_calls s).
Definition add_close (s : state) : state := mkS (s_active s) (s_sent s) (s_lock s) (s_log s) (S (s_closedT s)) (s_calls s).
(** int32 arithmetic *)
Definition i32 (z : Z) : Z := let r := z mod 2 ^ 32 in if r <? 2 ^ 31 then r else r - 2 ^ 32.
(** after closeNotify: Close goes on to close the transport, CloseWrite returns *)
Definition after_notify (close : bool) : pc := if close then C3 else NDone.

(** one step of call [i]; None: the call has returned or is blocked on the mutex *)
Definition step (s : state) (i : nat) (go : bool) : option state :=
  match nth_error (s_calls s) i with
  | None => None
  | Some p =>
      match p with
      | W0 => let x := s_active s in
              if negb (Z.land x 1 =? 0) then Some (set_pc s i (WDone WErrClosed)) else Some (set_pc s i (W1 x))
      | W1 x => if s_active s =? x then Some (set_pc (set_active s (i32 (x + 2))) i W2) else Some (set_pc s i W0)
      | W2 => Some (set_pc s i (if go then W3 else W5 WErr))
      | W3 => match s_lock s with None => Some (set_pc (set_lock s (Some i)) i W4) | Some _ => None end
      | W4 => if negb go then Some (set_pc (set_lock s None) i (W5 WErr))
              else if s_sent s then Some (set_pc (set_lock s None) i (W5 WErrShutdown))
              else Some (set_pc s i W4b)
      | W4b => Some (set_pc (set_lock (add_log s App) None) i (W5 (if go then WOk else WErr)))
      | W5 r => Some (set_pc (set_active s (i32 (s_active s - 2))) i (WDone r))
      | WDone _ => None
      | C0 => let x := s_active s in
              if negb (Z.land x 1 =? 0) then Some (set_pc s i (CDone CErrClosed)) else Some (set_pc s i (C1 x))
      | C1 x => if s_active s =? x then Some (set_pc (set_active s (i32 (Z.lor x 1))) i (C2 x)) else Some (set_pc s i C0)
      | C2 x => if negb (x =? 0) then Some (set_pc s i C3) else Some (set_pc s i (if go then N0 true else C3))
      | C3 => Some (set_pc (add_close s) i (CDone COk))
      | CDone _ => None
      | N0 c => match s_lock s with None => Some (set_pc (set_lock s (Some i)) i (N1 c)) | Some _ => None end
      | N1 c => if s_sent s then Some (set_pc (set_lock s None) i (after_notify c)) else Some (set_pc s i (Nw c))
      | Nw c => Some (set_pc (add_log s Notify) i (Ns c))
      | Ns c => Some (set_pc (set_lock (set_sent s) None) i (after_notify c))
      | NDone => None
      | A0 => match s_lock s with None => Some (set_pc (set_lock s (Some i)) i A1) | Some _ => None end
      | A1 => Some (set_pc (set_lock (add_log s Alert) None) i ADone)
      | ADone => None
      end
  end.
(** a fresh connection with the given calls, none of which has started *)
Definition fresh (p : pc) : Prop := p = W0 \/ p = C0 \/ p = N0 false \/ p = A0.
Definition init (calls : list pc) : state := mkS 0 false None [] 0 calls.
(** any interleaving *)
Inductive steps : state -> state -> Prop :=
| steps_refl s : steps s s
| steps_step s i go s1 s2 : step s i go = Some s1 -> steps s1 s2 -> steps s s2.

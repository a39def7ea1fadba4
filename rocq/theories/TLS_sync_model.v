(** Model of the locking of tls.Conn (/repo/tls/conn.go) as a small-step concurrent system: any number of calls of Handshake, Read,
    Write, CloseWrite and ConnectionState on one connection, scheduled one step at a time.  The state is the three mutexes
    (handshakeMutex, in, out), handshakeStatus, handshakeErr and the handshake counter.  What a call does between two of these steps
    (parsing, encryption, network I/O) only decides how it goes on: the argument [choice] of [step], so every behaviour of the peer and of
    the transport is covered.  The interlock activeCall between Write and Close is the subject of TLS_close_model.v; Close is Close's
    closeNotify, which is CloseWrite.  A mutex is not reentrant; waiting for the transport is a step, not a wait. *)
From Verif Require Import GoBase GoLemmas.
Open Scope Z_scope.

(** Config.Renegotiation (common.go:289-305) and c.isClient.  [PolOther]: any other value *)
Inductive policy := RenegotiateNever | RenegotiateOnceAsClient | RenegotiateFreelyAsClient | PolOther.
Record cfg := mkC { isClient : bool; pol : policy }.
(** what handshakeStatus = 1 is worth to a reader: handshake records are accepted after the handshake, conn.go:724 *)
Definition reneg_ok (c : cfg) : bool := isClient c && negb (match pol c with RenegotiateNever => true | _ => false end).

(** why Handshake is running: the call it was made by *)
Inductive caller := KHandshake | KRead | KWrite.
(** a handshake: the first one (Handshake, conn.go:1263) or a renegotiation (handleRenegotiation, conn.go:1093) *)
Inductive hkind := First (k : caller) | Reneg.
(** results: error values are numbers *)
Inductive rres := ROk | RErr | RHs (e : Z).                  (* RHs: the error of Handshake *)
Inductive wres := WOk | WErr | WInternal | WHs (e : Z).      (* WInternal: alertInternalError, conn.go:1059 *)
Inductive pc :=
| H0 (k : caller)      (* 1264: handshakeMutex.Lock *)
| H1 (k : caller)      (* 1267-1272: handshakeErr, handshakeComplete *)
| H2 (k : caller)      (* 1274: in.Lock *)
| HS (h : hkind)       (* 1277-1285, 1126: inside clientHandshake / serverHandshake / serverHandshakeGM *)
| HSw (h : hkind)      (* writeRecord, sendAlert (756, 944) inside the handshake: out.Lock *)
| HSo (h : hkind)      (* ... writing, with out held *)
| HSu (h : hkind)      (* flush (853-863), and sendAlertLocked in readHandshake (963): writing, with out NOT held *)
| H4 (h : hkind)       (* the handshake has stored handshakeStatus = 1 and returns nil *)
| HX (k : caller) (e : option Z)  (* in has been unlocked; deferred handshakeMutex.Unlock, 1265 *)
| R0                   (* Read, 1143: in.Lock *)
| R1                   (* 1150-1193: readRecord(recordTypeApplicationData) *)
| R1w                  (* sendAlert: out.Lock; an error is returned afterwards *)
| R1o
| R2                   (* handleRenegotiation, 1094: readHandshake *)
| R2u                  (* sendAlertLocked in readHandshake (963): writing, with out NOT held *)
| R3                   (* 1104-1118: the policy *)
| R4                   (* 1122: handshakeMutex.Lock *)
| R5                   (* 1125: handshakeStatus = 0 *)
| RX (r : rres)        (* deferred in.Unlock *)
| W0                   (* Write, 1050: out.Lock *)
| W1                   (* 1053-1064 *)
| W2                   (* 1078-1089: writing, with out held *)
| N0                   (* CloseWrite / Close, 1240, 1224: handshakeComplete *)
| N1                   (* closeNotify, 1248: out.Lock *)
| N2                   (* 1251-1254: writing, with out held *)
| S0                   (* ConnectionState, 1304: handshakeMutex.Lock *)
| S1                   (* 1307-1333 *)
| HDone (e : option Z) | RDone (r : rres) | WDone (r : wres) | NDone | SDone (complete : bool).
Inductive event := EStart (h : hkind) | EEnd (h : hkind) (e : option Z).
Record state := mkS { s_hm : option nat; s_in : option nat; s_out : option nat;
                      s_status : bool; s_err : option Z; s_count : nat; s_log : list event; s_calls : list pc }.
Definition set_pc (s : state) (i : nat) (p : pc) : state :=
  mkS (s_hm s) (s_in s) (s_out s) (s_status s) (s_err s) (s_count s) (s_log s) (upd i p (s_calls s)).
Definition set_hm (s : state) (l : option nat) : state := mkS l (s_in s) (s_out s) (s_status s) (s_err s) (s_count s) (s_log s) (s_calls s).
Definition set_in (s : state) (l : option nat) : state := mkS (s_hm s) l (s_out s) (s_status s) (s_err s) (s_count s) (s_log s) (s_calls s).
Definition set_out (s : state) (l : option nat) : state := mkS (s_hm s) (s_in s) l (s_status s) (s_err s) (s_count s) (s_log s) (s_calls s).
Definition set_status (s : state) (b : bool) : state := mkS (s_hm s) (s_in s) (s_out s) b (s_err s) (s_count s) (s_log s) (s_calls s).
Definition set_err (s : state) (e : option Z) : state := mkS (s_hm s) (s_in s) (s_out s) (s_status s) e (s_count s) (s_log s) (s_calls s).
Definition inc_count (s : state) : state := mkS (s_hm s) (s_in s) (s_out s) (s_status s) (s_err s) (S (s_count s)) (s_log s) (s_calls s).
Definition add_log (s : state) (e : event) : state := mkS (s_hm s) (s_in s) (s_out s) (s_status s) (s_err s) (s_count s) (s_log s ++ [e]) (s_calls s).

(** Handshake returned nil / e to its caller *)
Definition pass (k : caller) : pc := match k with KHandshake => HDone None | KRead => R0 | KWrite => W0 end.
Definition stop (k : caller) (e : Z) : pc := match k with KHandshake => HDone (Some e) | KRead => RDone (RHs e) | KWrite => WDone (WHs e) end.

(** how a call goes on where the code between two steps decides *)
Inductive choice := Go | Send | Raw | Fail (e : Z).
Definition is_fail (c : choice) : bool := match c with Fail _ => true | _ => false end.
(** one step of call [i]; None: the call has returned or waits for a mutex *)
Definition step (g : cfg) (s : state) (i : nat) (c : choice) : option state :=
  match nth_error (s_calls s) i with
  | None => None
  | Some p =>
      match p with
      | H0 k => match s_hm s with None => Some (set_pc (set_hm s (Some i)) i (H1 k)) | Some _ => None end
      | H1 k => match s_err s with
                | Some e => Some (set_pc (set_hm s None) i (stop k e))
                | None => if s_status s then Some (set_pc (set_hm s None) i (pass k)) else Some (set_pc s i (H2 k))
                end
      | H2 k => match s_in s with None => Some (set_pc (add_log (set_in s (Some i)) (EStart (First k))) i (HS (First k))) | Some _ => None end
      | HS h => match c with
                | Go => Some (set_pc (set_status s true) i (H4 h))
                | Send => Some (set_pc s i (HSw h))
                | Raw => Some (set_pc s i (HSu h))
                | Fail e => (* handshakeErr = e *)
                    let s := add_log (set_err s (Some e)) (EEnd h (Some e)) in
                    Some (match h with First k => set_pc (set_in s None) i (HX k (Some e)) | Reneg => set_pc (set_hm s None) i (RX RErr) end)
                end
      | HSw h => match s_out s with None => Some (set_pc (set_out s (Some i)) i (HSo h)) | Some _ => None end
      | HSo h => Some (set_pc (set_out s None) i (HS h))
      | HSu h => Some (set_pc s i (HS h))
      | H4 h => let s := add_log (inc_count s) (EEnd h None) in
                Some (match h with First k => set_pc (set_in s None) i (HX k None) | Reneg => set_pc (set_hm s None) i R1 end)
      | HX k e => Some (set_pc (set_hm s None) i (match e with Some e => stop k e | None => pass k end))
      | R0 => match s_in s with None => Some (set_pc (set_in s (Some i)) i R1) | Some _ => None end
      | R1 => match c with
              | Go => Some (set_pc s i (RX ROk))
              | Send => Some (set_pc s i R1w)
              | Raw => if reneg_ok g && s_status s then Some (set_pc s i R2) else Some (set_pc s i R1w)
              | Fail _ => Some (set_pc s i (RX RErr))
              end
      | R1w => match s_out s with None => Some (set_pc (set_out s (Some i)) i R1o) | Some _ => None end
      | R1o => Some (set_pc (set_out s None) i (RX RErr))
      | R2 => match c with
              | Go => Some (set_pc s i R3)
              | Send => Some (set_pc s i R1w)
              | Raw => Some (set_pc s i R2u)
              | Fail _ => Some (set_pc s i (RX RErr))
              end
      | R2u => Some (set_pc s i (RX RErr))
      | R3 => if negb (isClient g) then Some (set_pc s i R1w)
              else match pol g with
                   | RenegotiateNever => Some (set_pc s i R1w)
                   | RenegotiateOnceAsClient => if (1 <? s_count s)%nat then Some (set_pc s i R1w) else Some (set_pc s i R4)
                   | RenegotiateFreelyAsClient => Some (set_pc s i R4)
                   | PolOther => Some (set_pc s i R1w)
                   end
      | R4 => match s_hm s with None => Some (set_pc (set_hm s (Some i)) i R5) | Some _ => None end
      | R5 => Some (set_pc (add_log (set_status s false) (EStart Reneg)) i (HS Reneg))
      | RX r => Some (set_pc (set_in s None) i (RDone r))
      | W0 => match s_out s with None => Some (set_pc (set_out s (Some i)) i W1) | Some _ => None end
      | W1 => if is_fail c then Some (set_pc (set_out s None) i (WDone WErr))
              else if s_status s then Some (set_pc s i W2) else Some (set_pc (set_out s None) i (WDone WInternal))
      | W2 => Some (set_pc (set_out s None) i (WDone (if is_fail c then WErr else WOk)))
      | N0 => Some (set_pc s i (if s_status s then N1 else NDone))
      | N1 => match s_out s with None => Some (set_pc (set_out s (Some i)) i N2) | Some _ => None end
      | N2 => Some (set_pc (set_out s None) i NDone)
      | S0 => match s_hm s with None => Some (set_pc (set_hm s (Some i)) i S1) | Some _ => None end
      | S1 => Some (set_pc (set_hm s None) i (SDone (s_status s)))
      | HDone _ | RDone _ | WDone _ | NDone | SDone _ => None
      end
  end.
(** a new connection with the given calls, none of which has started *)
Definition fresh (p : pc) : Prop := (exists k, p = H0 k) \/ p = N0 \/ p = S0.
Definition init (calls : list pc) : state := mkS None None None false None 0 [] calls.
Inductive steps (g : cfg) : state -> state -> Prop :=
| steps_refl s : steps g s s
| steps_step s i c s1 s2 : step g s i c = Some s1 -> steps g s1 s2 -> steps g s s2.
(** reachable by some schedule from some set of calls *)
Definition reachable (g : cfg) (s : state) : Prop := exists calls, Forall fresh calls /\ steps g (init calls) s.

(** *** vocabulary of the claims *)
Definition returned (p : pc) : bool := match p with HDone _ | RDone _ | WDone _ | NDone | SDone _ => true | _ => false end.
(** the mutex a call is waiting for: 0 handshakeMutex, 1 in, 2 out *)
Definition wants (p : pc) : option nat :=
  match p with H0 _ | R4 | S0 => Some 0%nat | H2 _ | R0 => Some 1%nat | HSw _ | R1w | W0 | N1 => Some 2%nat | _ => None end.
Definition lock (s : state) (m : nat) : option nat := match m with 0%nat => s_hm s | 1%nat => s_in s | _ => s_out s end.
(** call i waits for a mutex held by call j *)
Definition waits (s : state) (i j : nat) : Prop := exists p m, nth_error (s_calls s) i = Some p /\ wants p = Some m /\ lock s m = Some j.
Inductive waits_chain (s : state) : nat -> nat -> Prop :=
| wc_refl i : waits_chain s i i
| wc_step i j k : waits s i j -> waits_chain s j k -> waits_chain s i k.
(** writing to the transport *)
Definition writing (p : pc) : bool := match p with HSo _ | HSu _ | R1o | R2u | W2 | N2 => true | _ => false end.

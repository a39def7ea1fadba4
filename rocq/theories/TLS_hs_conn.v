(** The record layer under the handshake: the [chan] of TLS_hs_model made of the record layer model (TLS_record_model).
    /repo/tls/conn.go: readHandshake's loop (950-977), sendAlert (738-760), writeRecord (940-948), and the calls
    readRecord(recordTypeChangeCipherSpec) of the four readFinished functions; gm_handshake_client_double.go:381-402 and
    gm_handshake_server_double.go:513-536 establishKeys; gm_support.go:118-143 (SM4-CBC and HMAC-SM3).
    - c.conn is the pair of the incoming [transport] and the list of records written (transport writes succeed).
    - A record that cannot be written because the random source fails leaves no partial write behind in the model. *)
From Verif Require Import GoBase GoLemmas CBC SM3_spec SM4_spec HMAC TLS_record_model P_TLS_record TLS_hs_model.
Open Scope Z_scope.

(** A connection during its handshake: reading side, writing side, c.out.err (the alert it wraps), the network, and the explicit IV that
    config.rand() delivers for the i-th record written (None: the reader fails) *)
Record link := mkLink { k_c : conn; k_w : wconn; k_oerr : option Z; k_t : transport; k_iv : nat -> option (list Z) }.
Definition with_c (l : link) (c : conn) : link := mkLink c (k_w l) (k_oerr l) (k_t l) (k_iv l).
Definition with_w (l : link) (w : wconn) : link := mkLink (k_c l) w (k_oerr l) (k_t l) (k_iv l).
Definition with_ct (l : link) (c : conn) (t : transport) : link := mkLink c (k_w l) (k_oerr l) t (k_iv l).
Definition with_out (w : wconn) (h : half) : wconn := mkW (w_vers w) h (w_dyn w) (w_bytesSent w) (w_packetsSent w) (w_log w).

(** common.go:34 *)
Definition maxHandshake : Z := 65536.
(** errors as the handshake model sees them; all different *)
Definition err_code (e : terr) : Z :=
  match e with
  | EEof => 1000 | EUnexpectedEof => 1001 | ETemp => 1002 | EWant => 1003 | ETooManyWarn => 1004 | ENoProgress => 1005
  | ELocal a => 2000 + a | ERemote a => 3000 + a | EHeader a => 4000 + a
  end.
(** conn.go:738-760 sendAlert: warning level for no_renegotiation and close_notify; c.out.err unless close_notify.
    [put_alert]: what reaches the network and c.out.err *)
Definition alert_level (a : Z) : Z := if (a =? alertNoRenegotiation) || (a =? alertCloseNotify) then 1 else 2.
Definition put_alert (l : link) (a : Z) : link :=
  let w := match writeRecordLocked (k_w l) recordTypeAlert [alert_level a; a] (fun i => k_iv l (length (w_log (k_w l)) + i)%nat) with
           | Ok (w, _) => w | _ => k_w l end in
  mkLink (k_c l) w (if a =? alertCloseNotify then k_oerr l else Some a) (k_t l) (k_iv l).
Definition l_alert (a : Z) (l : link) : link := put_alert (with_c l (sent (k_c l) a)) a.
(** conn.go:867-948 writeRecord *)
Definition l_write (typ : Z) (data : list Z) (l : link) : hres unit * link :=
  match writeRecordLocked (k_w l) typ data (fun i => k_iv l (length (w_log (k_w l)) + i)%nat) with
  | Ok (w, _) =>
      if typ =? recordTypeChangeCipherSpec then
        match changeCipherSpec (w_out w) with
        | Ok h => (HOk tt, with_w l (with_out w h))
        | Err a => (HErr (2000 + a), l_alert a (with_w l w))
        | Panic => (HPanic, with_w l w)
        end
      else (HOk tt, with_w l w)
  | Err e => (HErr e, l)
  | Panic => (HPanic, l)
  end.
(** conn.go:567-735 readRecord; the alerts it sends are written to the network *)
Definition l_readRecord (want : Z) (l : link) : hres unit * link :=
  match readRecord (k_c l) (k_t l) want with
  | Ok (c, e, t) =>
      (match e with None => HOk tt | Some e => HErr (err_code e) end,
       fold_left put_alert (skipn (length (c_alerts (k_c l))) (c_alerts c)) (with_ct l c t))
  | Err e => (HErr e, l)
  | Panic => (HPanic, l)
  end.
(** conn.go:951-958 and 966-973: read records until [n] bytes of handshake messages are there.  Every record read uses up bytes of the
    network's stream, so the fuel never runs out (TLS_hs_conn_proofs.need_fuel). *)
Fixpoint need (fuel : nat) (n : nat) (l : link) : hres unit * link :=
  if (n <=? length (c_hand (k_c l)))%nat then (HOk tt, l)
  else match fuel with
  | O => (HLoop, l)
  | Datatypes.S f =>
      match c_err (k_c l) with
      | Some e => (HErr (err_code e), l)
      | None => match l_readRecord recordTypeHandshake l with (HOk _, l) => need f n l | r => r end
      end
  end.
Definition l_fuel (l : link) : nat := Datatypes.S (length (c_raw (k_c l)) + length (t_rest (k_t l))).
(** conn.go:960-965, 974: the length field; c.in.err is a plain error there, written ELocal alertInternalError here *)
Definition msg_len (hand : list Z) : Z := 65536 * nth 1 hand 0 + 256 * nth 2 hand 0 + nth 3 hand 0.
Definition l_read (l : link) : hres (list Z) * link :=
  match need (l_fuel l) 4 l with
  | (HOk _, l) =>
      let n := msg_len (c_hand (k_c l)) in
      if maxHandshake <? n then
        let l := l_alert alertInternalError l in (HErr (2000 + alertInternalError), with_c l (failed (k_c l) (ELocal alertInternalError)))
      else
        let n := (4 + Z.to_nat n)%nat in
        match need (l_fuel l) n l with
        | (HOk _, l) => (HOk (firstn n (c_hand (k_c l))), with_c l (with_hand (k_c l) (skipn n (c_hand (k_c l)))))
        | (HErr e, l) => (HErr e, l) | (HPanic, l) => (HPanic, l) | (HLoop, l) => (HLoop, l)
        end
  | (HErr e, l) => (HErr e, l) | (HPanic, l) => (HPanic, l) | (HLoop, l) => (HLoop, l)
  end.
(** gm_handshake_client_double.go:497-500, gm_handshake_server_double.go:540-543: the result of readRecord is dropped, c.in.err decides *)
Definition l_ccs (l : link) : hres unit * link :=
  match l_readRecord recordTypeChangeCipherSpec l with
  | (HPanic, l) => (HPanic, l) | (HLoop, l) => (HLoop, l)
  | (_, l) => (match c_err (k_c l) with None => HOk tt | Some e => HErr (err_code e) end, l)
  end.
(** c.vers is shared by both directions *)
Definition l_vers (v : Z) (have : bool) (l : link) : link :=
  let c := k_c l in let w := k_w l in
  mkLink (mkConn have v (c_complete c) (c_reneg c) (c_in c) (c_err c) (c_raw c) (c_hand c) (c_input c) (c_warn c) (c_alerts c))
         (mkW v (w_out w) (w_dyn w) (w_bytesSent w) (w_packetsSent w) (w_log w)) (k_oerr l) (k_t l) (k_iv l).
(** establishKeys: the client writes with the client's keys, the server with the server's.  suite.cipher: gm_support.go:124-132,
    suite.mac: gm_support.go:134-143 *)
Definition read_keys (isClient : bool) (k : keyblock) : list Z * list Z * list Z :=
  if isClient then (kb_serverMAC k, kb_serverKey k, kb_serverIV k) else (kb_clientMAC k, kb_clientKey k, kb_clientIV k).
Definition prep (h : half) (isRead : bool) (v : Z) (ks : list Z * list Z * list Z) : half :=
  let '(mk, key, iv) := ks in
  prepareCipherSpec h v (Some (if isRead then Cbc false 16 (sm4_dec key) iv else Cbc true 16 (sm4_enc key) iv)) (Some (gm_mac mk)).
Definition l_keys (isClient : bool) (v : Z) (k : keyblock) (l : link) : link :=
  with_w (with_c l (with_in (k_c l) (prep (c_in (k_c l)) true v (read_keys isClient k))))
         (with_out (k_w l) (prep (w_out (k_w l)) false v (read_keys (negb isClient) k))).
Definition net : chan := mkChan link l_read l_ccs l_write l_alert l_vers l_keys.

(** tls.Client / tls.Server (tls.go:27-40): a fresh connection.  [reneg]: isClient and Renegotiation <> RenegotiateNever; [dyn]: not
    DynamicRecordSizingDisabled *)
Definition fresh_half : half := mkHalf 0 None None (zeros 8) None None.
Definition fresh (reneg dyn : bool) (iv : nat -> option (list Z)) (t : transport) : link :=
  mkLink (mkConn false 0 false reneg fresh_half None [] [] None 0 []) (mkW 0 fresh_half dyn 0 0 []) None t iv.

(** Model of ConnectionState and ExportKeyingMaterial: /repo/tls/conn.go:1302-1335, /repo/tls/common.go:179-185, /repo/tls/prf.go:353-359,
    /repo/tls/handshake_client.go:289, handshake_server.go:107, gm_handshake_client.go:155, gm_handshake_server.go:105 (c.ekm = ekmFromMasterSecret(...)).
    The connection is what its handshake left behind: None before the handshake is complete.  Fields that are copied without use here (certificates, names, SCTs) are left out. *)
From Verif Require Import GoBase GoLemmas TLS_prf_model TLS_neg_model TLS_hs_model TLS_std_model.
Open Scope Z_scope.
(** common.go:290-302 *)
Definition RenegotiateNever : Z := 0.
(** the closure in a ConnectionState: nil, noExportedKeyingMaterial, or ekmFromMasterSecret's *)
Inductive ekm := EkmNil | EkmNone | EkmOf (version : Z) (sha384 : bool) (master clientRandom serverRandom : list Z).
Record connState := mkCS { cs_complete : bool; cs_version : Z; cs_suite : Z; cs_resumed : bool; cs_unique : option (list Z); cs_ekm : ekm }.
(** suite.flags & suiteSHA384 of the suite with this id (a GM suite is not in the table and has no flag) *)
Definition suite_sha384 (id : Z) : bool := existsb (fun su => (su_id su =? id) && su_sha384 su) cipherSuites.
(** conn.go:1302-1335; clientFinishedIsFirst is true exactly when the session was not resumed (handshake_client.go:260,280 and the like) *)
Definition ConnectionState {T} (h : option (hresult T)) (renegotiation : Z) : connState :=
  match h with
  | None => mkCS false 0 0 false None EkmNil
  | Some r =>
      let clientFinishedIsFirst := negb (hr_resumed r) in
      mkCS true (hr_vers r) (hr_suite r) (hr_resumed r)
        (if negb (hr_resumed r) then Some (if clientFinishedIsFirst then hr_clientFinished r else hr_serverFinished r) else None)
        (if negb (renegotiation =? RenegotiateNever) then EkmNone
         else EkmOf (hr_vers r) (suite_sha384 (hr_suite r)) (hr_master r) (hr_clientRandom r) (hr_serverRandom r))
  end.
(** common.go:183-185: a call of the closure.  Calling a nil function panics.  Error 3: renegotiation is enabled (prf.go:355-357). *)
Definition ExportKeyingMaterial (L : stdlib) (cs : connState) (label : list Z) (context : option (list Z)) (len : Z) : res (list Z) :=
  match cs_ekm cs with
  | EkmNil => Panic
  | EkmNone => Err 3
  | EkmOf v f ms cr sr => ekmFromMasterSecret L v f ms cr sr label context len
  end.

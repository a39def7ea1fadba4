(** Model of /repo/tls/ticket.go and of ticketKeyFromBytes, serverInit, SetSessionTicketKeys (/repo/tls/common.go:536-660).
    AES, SHA-256 and SHA-512 of the standard library are parameters. *)
From Verif Require Import GoBase GoLemmas HMAC.
Open Scope Z_scope.

(** ticket.go:20-28 *)
Record sessionState := mkSS { ss_vers : Z; ss_cipherSuite : Z; ss_masterSecret : list Z; ss_certificates : list (list Z); ss_usedOldKey : bool }.

(** byte(x >> 8k), ..., byte(x): k+1 bytes *)
Definition hi_lo (x : Z) : list Z := [u8 (Z.shiftr x 8); u8 x].
Definition len4 (x : Z) : list Z := [u8 (Z.shiftr x 24); u8 (Z.shiftr x 16); u8 (Z.shiftr x 8); u8 x].
(** ticket.go:54-89 marshal *)
Definition marshal_state (s : sessionState) : list Z :=
  hi_lo (ss_vers s) ++ hi_lo (ss_cipherSuite s) ++ hi_lo (zlen (ss_masterSecret s)) ++ ss_masterSecret s ++
  hi_lo (zlen (ss_certificates s)) ++ concat (map (fun c => len4 (zlen c) ++ c) (ss_certificates s)).

Definition rd2 (d : list Z) : Z := Z.lor (Z.shiftl (nth 0 d 0) 8) (nth 1 d 0).
Definition rd4 (d : list Z) : Z := Z.lor (Z.lor (Z.lor (Z.shiftl (nth 0 d 0) 24) (Z.shiftl (nth 1 d 0) 16)) (Z.shiftl (nth 2 d 0) 8)) (nth 3 d 0).
(** ticket.go:110-126: the loop over the certificates; None = return false *)
Fixpoint unmarshal_certs (num : nat) (data : list Z) (acc : list (list Z)) : option (list (list Z) * list Z) :=
  match num with
  | O => Some (acc, data)
  | S num =>
      if zlen data <? 4 then None
      else
        let certLen := rd4 data in
        let data := skipn 4 data in
        if certLen <? 0 then None
        else if zlen data <? certLen then None
        else unmarshal_certs num (skipn (Z.to_nat certLen) data) (acc ++ [firstn (Z.to_nat certLen) data])
  end.
(** ticket.go:91-129 unmarshal; [old] is the value of usedOldKey, which it does not touch *)
Definition unmarshal_state (old : bool) (data : list Z) : option sessionState :=
  if zlen data <? 8 then None
  else
    let vers := rd2 data in
    let cipherSuite := rd2 (skipn 2 data) in
    let masterSecretLen := rd2 (skipn 4 data) in
    let data := skipn 6 data in
    if zlen data <? masterSecretLen then None
    else
      let masterSecret := firstn (Z.to_nat masterSecretLen) data in
      let data := skipn (Z.to_nat masterSecretLen) data in
      if zlen data <? 2 then None
      else
        let numCerts := rd2 data in
        let data := skipn 2 data in
        match unmarshal_certs (Z.to_nat numCerts) data [] with
        | None => None
        | Some (certs, data) => if zlen data =? 0 then Some (mkSS vers cipherSuite masterSecret certs old) else None
        end.

(** common.go:539-546, 551-557 *)
Record ticketKey := mkTK { k_name : list Z; k_aes : list Z; k_hmac : list Z }.
Definition ticketKeyFromBytes (sha512 : list Z -> list Z) (b : list Z) : ticketKey :=
  let hashed := sha512 b in
  mkTK (firstn 16 hashed) (firstn 16 (skipn 16 hashed)) (firstn 16 (skipn 32 hashed)).

(** crypto/cipher NewCTR(block, iv).XORKeyStream: the 16-byte counter is incremented as a big-endian number, modulo 2^128 *)
Definition ctr_stream (E : list Z -> list Z) (iv : list Z) (n : nat) : list Z :=
  firstn n (concat (map (fun i => E (be_bytes 16 (be_val iv + Z.of_nat i))) (seq 0 (n / 16 + 1)))).
Definition ctr_xor (E : list Z -> list Z) (iv data : list Z) : list Z := xorl data (ctr_stream E iv (length data)).

Section Tickets.
Context (aes : list Z -> list Z -> list Z) (sha256 : list Z -> list Z).

(** ticket.go:131-155 encryptTicket; [iv] = the 16 bytes read from config.rand() (None: the reader failed, error 1);
    [keys] = config.ticketKeys() *)
Definition encryptTicket (iv : option (list Z)) (keys : list ticketKey) (state : sessionState) : res (list Z) :=
  let serialized := marshal_state state in
  match iv with
  | None => Err 1
  | Some iv =>
      match keys with
      | [] => Panic
      | key :: _ =>
          let body := k_name key ++ iv ++ ctr_xor (aes (k_aes key)) iv serialized in
          Ok (body ++ hmac sha256 64 (k_hmac key) body)
      end
  end.
(** the first key with that name, and its index *)
Fixpoint find_key (name : list Z) (i : nat) (keys : list ticketKey) : option (nat * ticketKey) :=
  match keys with
  | [] => None
  | k :: ks => if beqb name (k_name k) then Some (i, k) else find_key name (i + 1) ks
  end.
(** ticket.go:157-200 decryptTicket: Some = (state, true), None = (_, false) *)
Definition decryptTicket (disabled : bool) (keys : list ticketKey) (encrypted : list Z) : option sessionState :=
  if disabled || (length encrypted <? 16 + 16 + 32)%nat then None
  else
    let keyName := firstn 16 encrypted in
    let iv := firstn 16 (skipn 16 encrypted) in
    let macBytes := skipn (length encrypted - 32) encrypted in
    match find_key keyName 0 keys with
    | None => None
    | Some (keyIndex, key) =>
        let expected := hmac sha256 64 (k_hmac key) (firstn (length encrypted - 32) encrypted) in
        if negb (beqb macBytes expected) then None
        else
          let ciphertext := skipn 32 (firstn (length encrypted - 32) encrypted) in
          let plaintext := ctr_xor (aes (k_aes key)) iv ciphertext in
          unmarshal_state (0 <? Z.of_nat keyIndex) plaintext
    end.
End Tickets.

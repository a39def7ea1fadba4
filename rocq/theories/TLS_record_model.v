(** Model of the record layer of /repo/tls/conn.go: halfConn (145-448), block reading (450-546), readRecord (567-735),
    alerts (738-760), maxPayloadSizeForWrite/writeRecordLocked (793-940), Write (1033-1090), Read (1132-1197).
    Ciphers, MACs and AEADs are parameters held in the connection state.  Buffer reuse (free lists, capacities, digest
    buffers) is not modelled: a block is the list of its bytes. *)
From Verif Require Import GoBase GoLemmas CBC.
Open Scope Z_scope.

(** common.go:24-31, 33-40, 57-62 and alert.go *)
Definition VersionSSL30 : Z := 0x0300. Definition VersionTLS10 : Z := 0x0301. Definition VersionTLS11 : Z := 0x0302.
Definition VersionTLS12 : Z := 0x0303. Definition VersionGMSSL : Z := 0x0101.
Definition maxPlaintext : Z := 16384. Definition maxCiphertext : Z := 16384 + 2048. Definition maxWarnAlertCount : Z := 5.
Definition recordTypeChangeCipherSpec : Z := 20. Definition recordTypeAlert : Z := 21.
Definition recordTypeHandshake : Z := 22. Definition recordTypeApplicationData : Z := 23.
Definition alertCloseNotify : Z := 0. Definition alertUnexpectedMessage : Z := 10. Definition alertBadRecordMAC : Z := 20.
Definition alertRecordOverflow : Z := 22. Definition alertProtocolVersion : Z := 70. Definition alertInternalError : Z := 80.
Definition alertNoRenegotiation : Z := 100.

(** ** halfConn *)
Record aeadT := mkAead { a_nonce : nat; a_over : nat;              (* explicitNonceLen, Overhead *)
                         a_seal : list Z -> list Z -> list Z -> list Z;          (* nonce plaintext ad *)
                         a_open : list Z -> list Z -> list Z -> option (list Z) }.
(** cipher.Stream: key stream and position; cbcMode: encrypter or decrypter over a block function, with its chaining IV *)
Inductive cph := Stream (ks : nat -> Z) (pos : nat) | Aead (a : aeadT) | Cbc (enc : bool) (bs : nat) (F : list Z -> list Z) (iv : list Z).
Record macT := mkMac { m_size : nat; m_fun : list Z -> list Z -> list Z -> list Z }.   (* MAC(seq, header, data, _) *)
Record half := mkHalf { h_version : Z; h_cipher : option cph; h_mac : option macT; h_seq : list Z;
                        h_nextCipher : option cph; h_nextMac : option macT }.
Definition set_cipher (h : half) (c : option cph) : half := mkHalf (h_version h) c (h_mac h) (h_seq h) (h_nextCipher h) (h_nextMac h).
Definition set_seq (h : half) (s : list Z) : half := mkHalf (h_version h) (h_cipher h) (h_mac h) s (h_nextCipher h) (h_nextMac h).

(** conn.go:170-176 prepareCipherSpec *)
Definition prepareCipherSpec (h : half) (version : Z) (c : option cph) (m : option macT) : half :=
  mkHalf version (h_cipher h) (h_mac h) (h_seq h) c m.
(** conn.go:178-192 changeCipherSpec *)
Definition changeCipherSpec (h : half) : res half :=
  match h_nextCipher h with
  | None => Err alertInternalError
  | Some _ => Ok (mkHalf (h_version h) (h_nextCipher h) (h_nextMac h) (map (fun _ => 0) (h_seq h)) None None)
  end.
(** conn.go:194-206 incSeq, from index [i-1] down; None = panic *)
Fixpoint inc_from (i : nat) (seq : list Z) : option (list Z) :=
  match i with
  | O => None
  | S j => let v := u8 (nth j seq 0 + 1) in
           let seq := upd j v seq in
           if negb (v =? 0) then Some seq else inc_from j seq
  end.
Definition incSeq (h : half) : res half :=
  match inc_from 8 (h_seq h) with Some s => Ok (set_seq h s) | None => Panic end.

(** int32(x) >> 31, as a byte *)
Definition s32 (z : Z) : Z := let r := z mod 2 ^ 32 in if r <? 2 ^ 31 then r else r - 2 ^ 32.
Definition s8 (z : Z) : Z := let r := z mod 2 ^ 8 in if r <? 2 ^ 7 then r else r - 2 ^ 8.
Definition not64 (t : Z) : Z := 2 ^ 64 - 1 - t.
Definition msb_mask (t : Z) : Z := u8 (Z.shiftr (s32 (not64 t)) 31).
(** conn.go:208-245 extractPadding *)
Definition pad_step (payload : list Z) (paddingLen : Z) (good : Z) (i : nat) : Z :=
  let t := u64 (paddingLen - Z.of_nat i) in
  let mask := msb_mask t in
  let b := nth (length payload - 1 - i) payload 0 in
  Z.ldiff good (Z.lxor (Z.land mask paddingLen) (Z.land mask b)).
Definition pad_final (good : Z) : Z :=
  let good := Z.land good (u8 (Z.shiftl good 4)) in
  let good := Z.land good (u8 (Z.shiftl good 2)) in
  let good := Z.land good (u8 (Z.shiftl good 1)) in
  u8 (Z.shiftr (s8 good) 7).
Definition extractPadding (payload : list Z) : Z * Z :=
  match payload with
  | [] => (0, 0)
  | _ =>
      let paddingLen := last payload 0 in
      let t := u64 (zlen payload - 1 - paddingLen) in
      let good := msb_mask t in
      let toCheck := if 256 >? zlen payload then length payload else 256%nat in
      let good := fold_left (pad_step payload paddingLen) (seq 0 toCheck) good in
      (paddingLen + 1, pad_final good)
  end.
(** conn.go:247-260 extractPaddingSSL30 *)
Definition extractPaddingSSL30 (payload : list Z) : Z * Z :=
  match payload with
  | [] => (0, 0)
  | _ => let paddingLen := last payload 0 + 1 in if zlen payload <? paddingLen then (0, 0) else (paddingLen, 255)
  end.
(** conn.go:262-264 roundUp *)
Definition roundUp (a b : nat) : nat := (a + (b - a mod b) mod b)%nat.

(** crypto/cipher CryptBlocks of a CBC mode object: output and new chaining IV; panics on a partial block *)
Definition last_block (bs : nat) (iv data : list Z) : list Z := match data with [] => iv | _ => skipn (length data - bs) data end.
Definition CryptBlocks (enc : bool) (bs : nat) (F : list Z -> list Z) (iv data : list Z) : res (list Z * list Z) :=
  if negb (length data mod bs =? 0)%nat then Panic
  else if enc then let out := cbc_e F iv (chunks bs data) in Ok (out, last_block bs iv out)
  else Ok (cbc_d F iv (chunks bs data), last_block bs iv data).
Definition keystream (ks : nat -> Z) (pos n : nat) : list Z := map ks (seq pos n).

Definition explicit_version (v : Z) : bool := (VersionTLS11 <=? v) || (v =? VersionGMSSL).
(** additionalData: seq, the first three header bytes, the length *)
Definition additional (seq hdr : list Z) (n : Z) : list Z := seq ++ firstn 3 hdr ++ [u8 (Z.shiftr n 8); u8 n].

(** conn.go:275-371 decrypt.  The result: [DecOk prefixLen data h'] or [DecBad h'] (alertBadRecordMAC; the sequence number of h'
    is unchanged, the cipher state may have advanced). *)
Inductive dec_result := DecOk (prefixLen : nat) (data : list Z) (h : half) | DecBad (h : half).
(** the cipher switch: explicit IV / nonce bytes, deciphered payload, paddingLen, paddingGood, new cipher; None = bad record *)
Definition decipher (h : half) (hdr payload : list Z) (macSize : nat) : res (option (list Z * list Z * Z * Z * option cph)) :=
  match h_cipher h with
  | None => Ok (Some ([], payload, 0, 255, None))
  | Some (Stream ks pos) => Ok (Some ([], xorl payload (keystream ks pos (length payload)), 0, 255, Some (Stream ks (pos + length payload))))
  | Some (Aead a) =>
      let explicitIVLen := a_nonce a in
      if (length payload <? explicitIVLen)%nat then Ok None
      else
        let nonce0 := firstn explicitIVLen payload in
        let payload := skipn explicitIVLen payload in
        let nonce := match nonce0 with [] => h_seq h | _ => nonce0 end in
        let n := zlen payload - Z.of_nat (a_over a) in
        match a_open a nonce payload (additional (h_seq h) hdr n) with
        | None => Ok None
        | Some p => Ok (Some (nonce0, p, 0, 255, Some (Aead a)))
        end
  | Some (Cbc enc bs F iv) =>
      let explicitIVLen := if explicit_version (h_version h) then bs else 0%nat in
      if negb (length payload mod bs =? 0)%nat || (length payload <? roundUp (explicitIVLen + macSize + 1) bs)%nat then Ok None
      else
        let iv := if (0 <? explicitIVLen)%nat then firstn explicitIVLen payload else iv in
        let eiv := firstn explicitIVLen payload in
        let payload := skipn explicitIVLen payload in
        do r <- CryptBlocks enc bs F iv payload;
        let '(out, iv') := r in
        let '(paddingLen, good) := if h_version h =? VersionSSL30 then extractPaddingSSL30 out else extractPadding out in
        Ok (Some (eiv, out, paddingLen, good, Some (Cbc enc bs F iv')))
  end.
Definition decrypt (h : half) (data : list Z) : res dec_result :=
  if (length data <? 5)%nat then Panic
  else
    let hdr := firstn 5 data in
    let macSize := match h_mac h with Some m => m_size m | None => 0%nat end in
    do d <- decipher h hdr (skipn 5 data) macSize;
    match d with
    | None => Ok (DecBad h)
    | Some (eiv, payload, paddingLen, paddingGood, c') =>
        let h := set_cipher h c' in
        match h_mac h with
        | None => do h' <- incSeq h; Ok (DecOk (5 + length eiv) (hdr ++ eiv ++ payload) h')
        | Some m =>
            if (length payload <? macSize)%nat then Ok (DecBad h)
            else
              let n := zlen payload - Z.of_nat macSize - paddingLen in
              let n := if Z.shiftr (u32 n) 31 =? 1 then 0 else n in
              if (n <? 0) || (zlen payload <? n + Z.of_nat macSize) then Panic
              else
                let hdr := firstn 3 hdr ++ [u8 (Z.shiftr n 8); u8 n] in
                let remoteMAC := firstn macSize (skipn (Z.to_nat n) payload) in
                let localMAC := m_fun m (h_seq h) hdr (firstn (Z.to_nat n) payload) in
                if negb (beqb localMAC remoteMAC) || negb (paddingGood =? 255) then Ok (DecBad h)
                else do h' <- incSeq h; Ok (DecOk (5 + length eiv) (hdr ++ eiv ++ firstn (Z.to_nat n) payload) h')
        end
    end.

(** conn.go:379-389 padToBlockSize *)
Definition padToBlockSize (payload : list Z) (bs : nat) : list Z * list Z :=
  let overrun := (length payload mod bs)%nat in
  let paddingLen := (bs - overrun)%nat in
  (firstn (length payload - overrun) payload,
   skipn (length payload - overrun) payload ++ repeat (u8 (Z.of_nat paddingLen - 1)) paddingLen).
(** conn.go:392-448 encrypt (b.data includes header and explicit IV); AEAD ciphertexts are assumed to have length payload+Overhead *)
Definition encipher (h : half) (data : list Z) (explicitIVLen : nat) : res (list Z * option cph) :=
  let hdr := firstn 5 data in
  let payload := skipn 5 data in
  match h_cipher h with
  | None => Ok (data, None)
  | Some (Stream ks pos) => Ok (hdr ++ xorl payload (keystream ks pos (length payload)), Some (Stream ks (pos + length payload)))
  | Some (Aead a) =>
      let payloadLen := zlen data - 5 - Z.of_nat explicitIVLen in
      let nonce0 := firstn explicitIVLen payload in
      let nonce := match nonce0 with [] => h_seq h | _ => nonce0 end in
      Ok (hdr ++ nonce0 ++ a_seal a nonce (skipn explicitIVLen payload) (additional (h_seq h) hdr payloadLen), Some (Aead a))
  | Some (Cbc enc bs F iv) =>
      let iv := if (0 <? explicitIVLen)%nat then firstn explicitIVLen payload else iv in
      let eiv := firstn explicitIVLen payload in
      let payload := skipn explicitIVLen payload in
      let '(prefix, finalBlock) := padToBlockSize payload bs in
      do r1 <- CryptBlocks enc bs F iv prefix;
      let '(o1, iv1) := r1 in
      do r2 <- CryptBlocks enc bs F iv1 finalBlock;
      let '(o2, iv2) := r2 in
      Ok (hdr ++ eiv ++ o1 ++ o2, Some (Cbc enc bs F iv2))
  end.
Definition encrypt (h : half) (data : list Z) (explicitIVLen : nat) : res (list Z * half) :=
  if (length data <? 5 + explicitIVLen)%nat then Panic
  else
    let data := match h_mac h with
                | Some m => data ++ m_fun m (h_seq h) (firstn 5 data) (skipn (5 + explicitIVLen) data)
                | None => data
                end in
    do r <- encipher h data explicitIVLen;
    let '(data, c') := r in
    let n := zlen data - 5 in
    let data := firstn 3 data ++ [u8 (Z.shiftr n 8); u8 n] ++ skipn 5 data in
    do h' <- incSeq (set_cipher h c'); Ok (data, h').

(** ** The transport: the bytes still to arrive, and how many of them each Read delivers (a positive number; [None] = a temporary
    network error instead).  The schedule may deliver more than asked for, up to the buffer's capacity, which is not modelled. *)
Record transport := mkTr { t_rest : list Z; t_sched : list (option nat) }.
Inductive nerr := NTemp | NEof.
(** one r.Read; at the end of the stream, and when the schedule is exhausted, everything left is delivered, then EOF *)
Definition t_read (t : transport) : list Z * option nerr * transport :=
  match t_sched t with
  | None :: s => ([], Some NTemp, mkTr (t_rest t) s)
  | Some k :: s => match t_rest t with
                   | [] => ([], Some NEof, mkTr [] s)
                   | _ => (firstn (S k) (t_rest t), None, mkTr (skipn (S k) (t_rest t)) s)
                   end
  | [] => match t_rest t with [] => ([], Some NEof, t) | r => (r, None, mkTr [] []) end
  end.
(** conn.go:481-506 readFromUntil; [fuel]: one unit per Read *)
Fixpoint read_loop (fuel : nat) (t : transport) (data : list Z) (n : nat) : list Z * option nerr * transport :=
  match fuel with
  | O => (data, Some NEof, t)
  | S f =>
      let '(m, err, t) := t_read t in
      let data := data ++ m in
      if (n <=? length data)%nat then (data, None, t)
      else match err with Some e => (data, Some e, t) | None => read_loop f t data n end
  end.
Definition readFromUntil (t : transport) (data : list Z) (n : nat) : list Z * option nerr * transport :=
  if (n <=? length data)%nat then (data, None, t) else read_loop (length (t_rest t) + length (t_sched t) + 2) t data n.

(** ** Conn, reading side *)
Inductive terr :=
| ELocal (alert : Z)                  (* "local error": an alert was sent *)
| ERemote (alert : Z)                 (* "remote error" *)
| EEof | EUnexpectedEof | ETemp       (* io.EOF, io.ErrUnexpectedEOF, a temporary net.Error *)
| EHeader (alert : Z)                 (* RecordHeaderError, after sending that alert *)
| EWant                               (* record type requested out of phase *)
| ETooManyWarn | ENoProgress.
Record conn := mkConn { c_haveVers : bool; c_vers : Z; c_complete : bool; c_reneg : bool;   (* isClient && Renegotiation <> Never *)
                        c_in : half; c_err : option terr; c_raw : list Z; c_hand : list Z;
                        c_input : option (list Z); c_warn : Z; c_alerts : list Z }.         (* alerts sent *)
Definition sent (c : conn) (a : Z) : conn :=
  mkConn (c_haveVers c) (c_vers c) (c_complete c) (c_reneg c) (c_in c) (c_err c) (c_raw c) (c_hand c) (c_input c) (c_warn c) (c_alerts c ++ [a]).
Definition failed (c : conn) (e : terr) : conn :=
  mkConn (c_haveVers c) (c_vers c) (c_complete c) (c_reneg c) (c_in c) (Some e) (c_raw c) (c_hand c) (c_input c) (c_warn c) (c_alerts c).
(** c.in.setErrorLocked(c.sendAlert(a)): sendAlert returns a net.OpError wrapping the alert (none of the alerts used is close_notify) *)
Definition fail_alert (c : conn) (a : Z) : conn := failed (sent c a) (ELocal a).
Definition with_raw (c : conn) (r : list Z) : conn :=
  mkConn (c_haveVers c) (c_vers c) (c_complete c) (c_reneg c) (c_in c) (c_err c) r (c_hand c) (c_input c) (c_warn c) (c_alerts c).
Definition with_in (c : conn) (h : half) : conn :=
  mkConn (c_haveVers c) (c_vers c) (c_complete c) (c_reneg c) h (c_err c) (c_raw c) (c_hand c) (c_input c) (c_warn c) (c_alerts c).
Definition with_hand (c : conn) (h : list Z) : conn :=
  mkConn (c_haveVers c) (c_vers c) (c_complete c) (c_reneg c) (c_in c) (c_err c) (c_raw c) h (c_input c) (c_warn c) (c_alerts c).
Definition with_input (c : conn) (i : option (list Z)) : conn :=
  mkConn (c_haveVers c) (c_vers c) (c_complete c) (c_reneg c) (c_in c) (c_err c) (c_raw c) (c_hand c) i (c_warn c) (c_alerts c).
Definition with_warn (c : conn) (w : Z) : conn :=
  mkConn (c_haveVers c) (c_vers c) (c_complete c) (c_reneg c) (c_in c) (c_err c) (c_raw c) (c_hand c) (c_input c) w (c_alerts c).

(** the result of handling one record: read another one ("goto Again"), or return c.in.err *)
Inductive outcome := Again (c : conn) | Ret (c : conn) (e : option terr).
Definition ret (c : conn) : outcome := Ret c (c_err c).
Definition ret_err (c : conn) (e : terr) : outcome := Ret (failed c e) (Some e).

(** conn.go:652-734: after decryption, with the plaintext [data] *)
Definition handle (c : conn) (want typ : Z) (data : list Z) : res outcome :=
  if maxPlaintext <? zlen data then Ok (ret (fail_alert c alertRecordOverflow))
  else
    let c := if negb (typ =? recordTypeAlert) && (0 <? length data)%nat then with_warn c 0 else c in
    if typ =? recordTypeAlert then
      if negb (length data =? 2)%nat then Ok (ret (fail_alert c alertUnexpectedMessage))
      else if nth 1 data 0 =? alertCloseNotify then Ok (ret (failed c EEof))
      else if nth 0 data 0 =? 1 then
        let c := with_warn c (c_warn c + 1) in
        if maxWarnAlertCount <? c_warn c then Ok (ret_err (sent c alertUnexpectedMessage) ETooManyWarn) else Ok (Again c)
      else if nth 0 data 0 =? 2 then Ok (ret (failed c (ERemote (nth 1 data 0))))
      else Ok (ret (fail_alert c alertUnexpectedMessage))
    else if typ =? recordTypeChangeCipherSpec then
      if negb (typ =? want) || negb (length data =? 1)%nat || negb (nth 0 data 0 =? 1) then Ok (ret (fail_alert c alertUnexpectedMessage))
      else if (0 <? length (c_hand c))%nat then Ok (ret (fail_alert c alertUnexpectedMessage))
      else match changeCipherSpec (c_in c) with
           | Ok h => Ok (ret (with_in c h))
           | Err a => Ok (ret (fail_alert c a))
           | Panic => Panic
           end
    else if typ =? recordTypeApplicationData then
      if negb (typ =? want) then Ok (ret (fail_alert c alertUnexpectedMessage))
      else Ok (ret (with_input c (Some data)))
    else if typ =? recordTypeHandshake then
      if negb (typ =? want) && negb (c_reneg c) then Ok (ret (fail_alert c alertNoRenegotiation))
      else Ok (ret (with_hand c (c_hand c ++ data)))
    else Ok (ret (fail_alert c alertUnexpectedMessage)).
(** conn.go:640-651: split the block, decrypt it and handle the plaintext *)
Definition process (c : conn) (want : Z) (rec : list Z) : res outcome :=
  do d <- decrypt (c_in c) rec;
  match d with
  | DecBad h => Ok (ret (fail_alert (with_in c h) alertBadRecordMAC))
  | DecOk off data h => handle (with_in c h) want (nth 0 rec 0) (skipn off data)
  end.
(** conn.go:604-632: the checks on the header [hd] (at least 5 bytes); Some = refused *)
Definition bad_header (c : conn) (want : Z) (hd : list Z) : option outcome :=
  let typ := nth 0 hd 0 in
  let vers := 256 * nth 1 hd 0 + nth 2 hd 0 in
  let n := 256 * nth 3 hd 0 + nth 4 hd 0 in
  if (want =? recordTypeHandshake) && (typ =? 0x80) then Some (ret_err (sent c alertProtocolVersion) (EHeader alertProtocolVersion))
  else if c_haveVers c && negb (vers =? c_vers c) then Some (ret_err (sent c alertProtocolVersion) (EHeader alertProtocolVersion))
  else if maxCiphertext <? n then Some (ret_err (sent c alertRecordOverflow) (EHeader alertRecordOverflow))
  else if negb (c_haveVers c) && ((negb (typ =? recordTypeAlert) && negb (typ =? want)) || (0x1000 <=? vers))
       then Some (ret_err (sent c alertUnexpectedMessage) (EHeader alertUnexpectedMessage))
  else None.
Definition net_fail (c : conn) (e : nerr) (eof : terr) : outcome :=
  match e with NTemp => Ret c (Some ETemp) | NEof => ret_err c eof end.
(** conn.go:587-651: one record *)
Definition one_record (c : conn) (t : transport) (want : Z) : res (outcome * transport) :=
  let '(b, err, t) := readFromUntil t (c_raw c) 5 in
  let c := with_raw c b in
  match err with
  | Some e => Ok (net_fail c e EEof, t)
  | None =>
      match bad_header c want b with
      | Some o => Ok (o, t)
      | None =>
          let n := Z.to_nat (256 * nth 3 b 0 + nth 4 b 0) in
          let '(b, err, t) := readFromUntil t b (5 + n) in
          match err with
          | Some e => Ok (net_fail (with_raw c b) e EUnexpectedEof, t)
          | None => do o <- process (with_raw c (skipn (5 + n) b)) want (firstn (5 + n) b); Ok (o, t)
          end
      end
  end.
(** the "goto Again" loop; at most maxWarnAlertCount + 1 rounds are needed (fuel 8), see the proofs *)
Fixpoint record_loop (fuel : nat) (c : conn) (t : transport) (want : Z) : res (conn * option terr * transport) :=
  match fuel with
  | O => Panic
  | S f =>
      do r <- one_record c t want;
      let '(o, t) := r in
      match o with Ret c e => Ok (c, e, t) | Again c => record_loop f c t want end
  end.
(** conn.go:567-735 readRecord *)
Definition readRecord (c : conn) (t : transport) (want : Z) : res (conn * option terr * transport) :=
  let bad_want := if (want =? recordTypeHandshake) || (want =? recordTypeChangeCipherSpec) then c_complete c
                  else if want =? recordTypeApplicationData then negb (c_complete c) else true in
  if bad_want then Ok (failed (sent c alertInternalError) EWant, Some EWant, t)
  else record_loop 8 c t want.

(** conn.go:1132-1197 Read after a completed handshake, with a buffer of [k] bytes.  [None]: handshake bytes arrived and
    handleRenegotiation would run (not modelled). *)
Fixpoint fill_input (fuel : nat) (c : conn) (t : transport) : res (option (conn * option terr * transport)) :=
  match fuel with
  | O => Panic
  | S f =>
      match c_input c, c_err c with
      | None, None =>
          do r <- readRecord c t recordTypeApplicationData;
          let '(c, e, t) := r in
          match e with
          | Some e => Ok (Some (c, Some e, t))
          | None => if (0 <? length (c_hand c))%nat then Ok None else fill_input f c t
          end
      | _, _ => Ok (Some (c, None, t))
      end
  end.
Fixpoint read_iter (fuel : nat) (c : conn) (t : transport) (k : nat) : res (option (conn * list Z * option terr * transport)) :=
  match fuel with
  | O => Ok (Some (c, [], Some ENoProgress, t))
  | S f =>
      do r <- fill_input 2 c t;
      match r with
      | None => Ok None
      | Some (c, Some e, t) => Ok (Some (c, [], Some e, t))
      | Some (c, None, t) =>
          match c_err c with
          | Some e => Ok (Some (c, [], Some e, t))
          | None =>
              match c_input c with
              | None => Panic
              | Some d =>
                  let out := firstn k d in
                  let c := with_input c (if (length d <=? k)%nat then None else Some (skipn k d)) in
                  do r2 <- (if negb (length out =? 0)%nat && (length d <=? k)%nat && (0 <? length (c_raw c))%nat && (nth 0 (c_raw c) 0 =? recordTypeAlert)
                            then do r <- readRecord c t recordTypeApplicationData; Ok r
                            else Ok (c, None, t));
                  let '(c, e, t) := r2 in
                  if negb (length out =? 0)%nat || (match e with Some _ => true | None => false end)
                  then Ok (Some (c, out, e, t))
                  else read_iter f c t k
              end
          end
      end
  end.
Definition Read (c : conn) (t : transport) (k : nat) : res (option (conn * list Z * option terr * transport)) :=
  if (k =? 0)%nat then Ok (Some (c, [], None, t)) else read_iter 101 c t k.

(** ** Conn, writing side *)
Record wconn := mkW { w_vers : Z; w_out : half; w_dyn : bool;           (* DynamicRecordSizingDisabled = negb w_dyn *)
                      w_bytesSent : Z; w_packetsSent : Z; w_log : list (list Z) }.   (* records written to the transport *)
(** conn.go:793-838 maxPayloadSizeForWrite: the limit and the new packet counter *)
Definition tcpMSSEstimate : Z := 1208.
Definition recordSizeBoostThreshold : Z := 128 * 1024.
Definition maxPayloadSizeForWrite (w : wconn) (typ : Z) (explicitIVLen : nat) : Z * Z :=
  if negb (w_dyn w) || negb (typ =? recordTypeApplicationData) then (maxPlaintext, w_packetsSent w)
  else if recordSizeBoostThreshold <=? w_bytesSent w then (maxPlaintext, w_packetsSent w)
  else
    let macSize := match h_mac (w_out w) with Some m => Z.of_nat (m_size m) | None => 0 end in
    let payloadBytes := tcpMSSEstimate - 5 - Z.of_nat explicitIVLen in
    let payloadBytes := match h_cipher (w_out w) with
                        | None => payloadBytes
                        | Some (Stream _ _) => payloadBytes - macSize
                        | Some (Aead a) => payloadBytes - Z.of_nat (a_over a)
                        | Some (Cbc _ bs _ _) => Z.ldiff payloadBytes (Z.of_nat bs - 1) - 1 - macSize
                        end in
    let pkt := w_packetsSent w in
    if 1000 <? pkt then (maxPlaintext, pkt + 1)
    else let n := payloadBytes * (pkt + 1) in ((if maxPlaintext <? n then maxPlaintext else n), pkt + 1).
(** conn.go:872-897: explicit IV length for the current cipher, and whether it is the sequence number *)
Definition explicit_iv_len (h : half) : nat * bool :=
  match h_cipher h with
  | Some (Cbc _ bs _ _) => (if explicit_version (h_version h) then bs else 0%nat, false)
  | Some (Aead a) => (a_nonce a, (0 <? a_nonce a)%nat)
  | _ => (0%nat, false)
  end.
(** copy(dst, src) into a fresh zeroed buffer of n bytes *)
Definition fit (n : nat) (src : list Z) : list Z := firstn n src ++ zeros (n - length src).
(** conn.go:898-933: one record carrying the first m bytes.  [rnd] supplies explicit IVs (None = the random source failed).
    The transport write is assumed to succeed. *)
Definition record_header (w : wconn) (typ : Z) (m : Z) : list Z :=
  let vers := if w_vers w =? 0 then VersionTLS10 else w_vers w in
  [u8 typ; u8 (Z.shiftr vers 8); u8 vers; u8 (Z.shiftr m 8); u8 m].
Definition write_one (w : wconn) (typ : Z) (data : list Z) (rnd : option (list Z)) : res (wconn * nat) :=
  let '(explicitIVLen, isSeq) := explicit_iv_len (w_out w) in
  let '(maxPayload, packets) := maxPayloadSizeForWrite w typ explicitIVLen in
  let m := if maxPayload <? zlen data then maxPayload else zlen data in
  if m <? 0 then Panic
  else
    let chunk := firstn (Z.to_nat m) data in
    let iv := if (0 <? explicitIVLen)%nat then (if isSeq then Some (fit explicitIVLen (h_seq (w_out w))) else rnd) else Some [] in
    match iv with
    | None => Err 1
    | Some iv =>
        do r <- encrypt (w_out w) (record_header w typ m ++ iv ++ chunk) explicitIVLen;
        let '(rec, h') := r in
        Ok (mkW (w_vers w) h' (w_dyn w) (w_bytesSent w + zlen rec) packets (w_log w ++ [rec]), Z.to_nat m)
    end.
(** conn.go:867-940 writeRecordLocked (not ChangeCipherSpec); [rnds] supplies one explicit IV per record; the fuel is the
    length of the data, enough when every record carries at least one byte *)
Fixpoint write_loop (fuel : nat) (w : wconn) (typ : Z) (data : list Z) (rnds : nat -> option (list Z)) (n : Z) : res (wconn * Z) :=
  match data with
  | [] => Ok (w, n)
  | _ => match fuel with
         | O => Panic
         | S f => do r <- write_one w typ data (rnds 0%nat);
                  let '(w', m) := r in
                  write_loop f w' typ (skipn m data) (fun i => rnds (S i)) (n + Z.of_nat m)
         end
  end.
Definition writeRecordLocked (w : wconn) (typ : Z) (data : list Z) (rnds : nat -> option (list Z)) : res (wconn * Z) :=
  write_loop (length data) w typ data rnds 0.
(** conn.go:1033-1090 Write, past the interlock and the state checks: 1/n-1 splitting *)
Definition is_block_mode (h : half) : bool := match h_cipher h with Some (Cbc _ _ _ _) => true | _ => false end.
Definition Write (w : wconn) (b : list Z) (rnds : nat -> option (list Z)) : res (wconn * Z) :=
  if (1 <? length b)%nat && (w_vers w <=? VersionTLS10) && negb (w_vers w =? VersionGMSSL) && is_block_mode (w_out w) then
    do r <- writeRecordLocked w recordTypeApplicationData (firstn 1 b) rnds;
    let '(w, _) := r in
    do r <- writeRecordLocked w recordTypeApplicationData (skipn 1 b) (fun i => rnds (S i));
    let '(w, n) := r in Ok (w, n + 1)
  else writeRecordLocked w recordTypeApplicationData b rnds.

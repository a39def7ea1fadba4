(** Model of /repo/tls/handshake_messages.go and /repo/tls/gm_handshake_messages.go: encoders and decoders of the handshake messages.
    A message is the record of its fields, without the cached encoding [raw]: [m_X] models marshal on a message whose raw is nil,
    [u_X] models unmarshal.  nil and empty slices are identified (every reader of the fields uses len).
    unmarshal returns a bool: [Ok m] is "true, with fields m", [Err 0] is "false" (the caller then drops the message), [Panic] an index or
    slice expression out of range (a slice expression beyond len but within cap would not panic in Go; here it counts as Panic). *)
From Verif Require Import GoBase GoLemmas.
Open Scope Z_scope.

(** ** Go primitives *)
(** d[i] *)
Definition idx (d : list Z) (i : Z) : res Z := if (0 <=? i) && (i <? zlen d) then Ok (nth (Z.to_nat i) d 0) else Panic.
(** d[n:] *)
Definition sl_from (d : list Z) (n : Z) : res (list Z) := if (0 <=? n) && (n <=? zlen d) then Ok (skipn (Z.to_nat n) d) else Panic.
(** d[:n] *)
Definition sl_to (d : list Z) (n : Z) : res (list Z) := if (0 <=? n) && (n <=? zlen d) then Ok (firstn (Z.to_nat n) d) else Panic.
(** d[a:b] *)
Definition sl (d : list Z) (a b : Z) : res (list Z) := do t <- sl_to d b; sl_from t a.
(** int(d[i])<<8 | int(d[i+1]) (also written with + in certificateVerifyMsg and newSessionTicketMsg) *)
Definition be16 (d : list Z) (i : Z) : res Z := do a <- idx d i; do b <- idx d (i + 1); Ok (Z.lor (Z.shiftl a 8) b).
(** uint32(d[i])<<16 | uint32(d[i+1])<<8 | uint32(d[i+2]) *)
Definition be24 (d : list Z) (i : Z) : res Z := do a <- idx d i; do b <- idx d (i + 1); do c <- idx d (i + 2); Ok (Z.lor (Z.lor (Z.shiftl a 16) (Z.shiftl b 8)) c).
Definition fails {A} (c : bool) (k : res A) : res A := if c then Err 0 else k.
(** for len(d) != 0 { (a, d) = body(a, d) }; running out of fuel counts as Panic *)
Fixpoint wloop {A} (body : A -> list Z -> res (A * list Z)) (fuel : nat) (a : A) (d : list Z) : res A :=
  match d with
  | [] => Ok a
  | _ => match fuel with
         | O => Panic
         | S fuel => do r <- body a d; wloop body fuel (fst r) (snd r)
         end
  end.
Definition wrun {A} (body : A -> list Z -> res (A * list Z)) (a : A) (d : list Z) : res A := wloop body (length d) a d.
(** n times: u16 = d[0]<<8|d[1]; d = d[2:] (the ClientHello cipher suites are read with growing indices instead) *)
Fixpoint rd_u16s (n : nat) (d : list Z) : res (list Z) :=
  match n with
  | O => Ok []
  | S n => do v <- be16 d 0; do d <- sl_from d 2; do r <- rd_u16s n d; Ok (v :: r)
  end.
(** byte(x>>8), byte(x) *)
Definition b2 (x : Z) : list Z := [u8 (Z.shiftr x 8); u8 x].
(** byte(x>>16), byte(x>>8), byte(x) *)
Definition b3 (x : Z) : list Z := [u8 (Z.shiftr x 16); u8 (Z.shiftr x 8); u8 x].
(** x := make([]byte, size), then filled from left to right with [pieces]: the unwritten rest stays 0, writing past the end panics
    (a final [copy] past the end would be cut short instead; no such copy occurs when the theorems' hypotheses hold) *)
Definition fill (size : Z) (pieces : list Z) : res (list Z) :=
  if zlen pieces <=? size then Ok (pieces ++ zeros (Z.to_nat (size - zlen pieces))) else Panic.
(** copy(x[6:38], random) *)
Definition copy32 (r : list Z) : list Z := firstn 32 r ++ zeros (32 - length r).
Definition sum_len (ls : list (list Z)) : Z := fold_left (fun a l => a + zlen l) ls 0.

(** ** ClientHello, handshake_messages.go:12-31 *)
Record clientHello := mkCH { ch_vers : Z; ch_random : list Z; ch_sessionId : list Z; ch_suites : list Z; ch_comp : list Z; ch_npn : bool; ch_sni : list Z; ch_ocsp : bool; ch_scts : bool; ch_curves : list Z; ch_points : list Z; ch_ticketOn : bool; ch_ticket : list Z; ch_sigalgs : list Z; ch_reneg : list Z; ch_renegOn : bool; ch_alpn : list (list Z) }.
Definition set_ch_vers (m : clientHello) (v : Z) : clientHello := mkCH v (ch_random m) (ch_sessionId m) (ch_suites m) (ch_comp m) (ch_npn m) (ch_sni m) (ch_ocsp m) (ch_scts m) (ch_curves m) (ch_points m) (ch_ticketOn m) (ch_ticket m) (ch_sigalgs m) (ch_reneg m) (ch_renegOn m) (ch_alpn m).
Definition set_ch_random (m : clientHello) (v : list Z) : clientHello := mkCH (ch_vers m) v (ch_sessionId m) (ch_suites m) (ch_comp m) (ch_npn m) (ch_sni m) (ch_ocsp m) (ch_scts m) (ch_curves m) (ch_points m) (ch_ticketOn m) (ch_ticket m) (ch_sigalgs m) (ch_reneg m) (ch_renegOn m) (ch_alpn m).
Definition set_ch_sessionId (m : clientHello) (v : list Z) : clientHello := mkCH (ch_vers m) (ch_random m) v (ch_suites m) (ch_comp m) (ch_npn m) (ch_sni m) (ch_ocsp m) (ch_scts m) (ch_curves m) (ch_points m) (ch_ticketOn m) (ch_ticket m) (ch_sigalgs m) (ch_reneg m) (ch_renegOn m) (ch_alpn m).
Definition set_ch_suites (m : clientHello) (v : list Z) : clientHello := mkCH (ch_vers m) (ch_random m) (ch_sessionId m) v (ch_comp m) (ch_npn m) (ch_sni m) (ch_ocsp m) (ch_scts m) (ch_curves m) (ch_points m) (ch_ticketOn m) (ch_ticket m) (ch_sigalgs m) (ch_reneg m) (ch_renegOn m) (ch_alpn m).
Definition set_ch_comp (m : clientHello) (v : list Z) : clientHello := mkCH (ch_vers m) (ch_random m) (ch_sessionId m) (ch_suites m) v (ch_npn m) (ch_sni m) (ch_ocsp m) (ch_scts m) (ch_curves m) (ch_points m) (ch_ticketOn m) (ch_ticket m) (ch_sigalgs m) (ch_reneg m) (ch_renegOn m) (ch_alpn m).
Definition set_ch_npn (m : clientHello) (v : bool) : clientHello := mkCH (ch_vers m) (ch_random m) (ch_sessionId m) (ch_suites m) (ch_comp m) v (ch_sni m) (ch_ocsp m) (ch_scts m) (ch_curves m) (ch_points m) (ch_ticketOn m) (ch_ticket m) (ch_sigalgs m) (ch_reneg m) (ch_renegOn m) (ch_alpn m).
Definition set_ch_sni (m : clientHello) (v : list Z) : clientHello := mkCH (ch_vers m) (ch_random m) (ch_sessionId m) (ch_suites m) (ch_comp m) (ch_npn m) v (ch_ocsp m) (ch_scts m) (ch_curves m) (ch_points m) (ch_ticketOn m) (ch_ticket m) (ch_sigalgs m) (ch_reneg m) (ch_renegOn m) (ch_alpn m).
Definition set_ch_ocsp (m : clientHello) (v : bool) : clientHello := mkCH (ch_vers m) (ch_random m) (ch_sessionId m) (ch_suites m) (ch_comp m) (ch_npn m) (ch_sni m) v (ch_scts m) (ch_curves m) (ch_points m) (ch_ticketOn m) (ch_ticket m) (ch_sigalgs m) (ch_reneg m) (ch_renegOn m) (ch_alpn m).
Definition set_ch_scts (m : clientHello) (v : bool) : clientHello := mkCH (ch_vers m) (ch_random m) (ch_sessionId m) (ch_suites m) (ch_comp m) (ch_npn m) (ch_sni m) (ch_ocsp m) v (ch_curves m) (ch_points m) (ch_ticketOn m) (ch_ticket m) (ch_sigalgs m) (ch_reneg m) (ch_renegOn m) (ch_alpn m).
Definition set_ch_curves (m : clientHello) (v : list Z) : clientHello := mkCH (ch_vers m) (ch_random m) (ch_sessionId m) (ch_suites m) (ch_comp m) (ch_npn m) (ch_sni m) (ch_ocsp m) (ch_scts m) v (ch_points m) (ch_ticketOn m) (ch_ticket m) (ch_sigalgs m) (ch_reneg m) (ch_renegOn m) (ch_alpn m).
Definition set_ch_points (m : clientHello) (v : list Z) : clientHello := mkCH (ch_vers m) (ch_random m) (ch_sessionId m) (ch_suites m) (ch_comp m) (ch_npn m) (ch_sni m) (ch_ocsp m) (ch_scts m) (ch_curves m) v (ch_ticketOn m) (ch_ticket m) (ch_sigalgs m) (ch_reneg m) (ch_renegOn m) (ch_alpn m).
Definition set_ch_ticketOn (m : clientHello) (v : bool) : clientHello := mkCH (ch_vers m) (ch_random m) (ch_sessionId m) (ch_suites m) (ch_comp m) (ch_npn m) (ch_sni m) (ch_ocsp m) (ch_scts m) (ch_curves m) (ch_points m) v (ch_ticket m) (ch_sigalgs m) (ch_reneg m) (ch_renegOn m) (ch_alpn m).
Definition set_ch_ticket (m : clientHello) (v : list Z) : clientHello := mkCH (ch_vers m) (ch_random m) (ch_sessionId m) (ch_suites m) (ch_comp m) (ch_npn m) (ch_sni m) (ch_ocsp m) (ch_scts m) (ch_curves m) (ch_points m) (ch_ticketOn m) v (ch_sigalgs m) (ch_reneg m) (ch_renegOn m) (ch_alpn m).
Definition set_ch_sigalgs (m : clientHello) (v : list Z) : clientHello := mkCH (ch_vers m) (ch_random m) (ch_sessionId m) (ch_suites m) (ch_comp m) (ch_npn m) (ch_sni m) (ch_ocsp m) (ch_scts m) (ch_curves m) (ch_points m) (ch_ticketOn m) (ch_ticket m) v (ch_reneg m) (ch_renegOn m) (ch_alpn m).
Definition set_ch_reneg (m : clientHello) (v : list Z) : clientHello := mkCH (ch_vers m) (ch_random m) (ch_sessionId m) (ch_suites m) (ch_comp m) (ch_npn m) (ch_sni m) (ch_ocsp m) (ch_scts m) (ch_curves m) (ch_points m) (ch_ticketOn m) (ch_ticket m) (ch_sigalgs m) v (ch_renegOn m) (ch_alpn m).
Definition set_ch_renegOn (m : clientHello) (v : bool) : clientHello := mkCH (ch_vers m) (ch_random m) (ch_sessionId m) (ch_suites m) (ch_comp m) (ch_npn m) (ch_sni m) (ch_ocsp m) (ch_scts m) (ch_curves m) (ch_points m) (ch_ticketOn m) (ch_ticket m) (ch_sigalgs m) (ch_reneg m) v (ch_alpn m).
Definition set_ch_alpn (m : clientHello) (v : list (list Z)) : clientHello := mkCH (ch_vers m) (ch_random m) (ch_sessionId m) (ch_suites m) (ch_comp m) (ch_npn m) (ch_sni m) (ch_ocsp m) (ch_scts m) (ch_curves m) (ch_points m) (ch_ticketOn m) (ch_ticket m) (ch_sigalgs m) (ch_reneg m) (ch_renegOn m) v.

Definition ch_empty : clientHello := mkCH 0 [] [] [] [] false [] false false [] [] false [] [] [] false [].
Definition bad_alpn (s : list Z) : bool := (zlen s =? 0) || (255 <? zlen s).
(** handshake_messages.go:65-115: numExtensions and extensionsLength before the 4-byte headers are added *)
Definition ch_numExt (m : clientHello) : Z :=
  Z.b2z (ch_npn m) + Z.b2z (ch_ocsp m) + Z.b2z (0 <? zlen (ch_sni m)) + Z.b2z (0 <? zlen (ch_curves m)) + Z.b2z (0 <? zlen (ch_points m)) +
  Z.b2z (ch_ticketOn m) + Z.b2z (0 <? zlen (ch_sigalgs m)) + Z.b2z (ch_renegOn m) + Z.b2z (0 <? zlen (ch_alpn m)) + Z.b2z (ch_scts m).
Definition ch_extLen (m : clientHello) : Z :=
  (if ch_ocsp m then 1 + 2 + 2 else 0) + (if 0 <? zlen (ch_sni m) then 5 + zlen (ch_sni m) else 0) +
  (if 0 <? zlen (ch_curves m) then 2 + 2 * zlen (ch_curves m) else 0) + (if 0 <? zlen (ch_points m) then 1 + zlen (ch_points m) else 0) +
  (if ch_ticketOn m then zlen (ch_ticket m) else 0) + (if 0 <? zlen (ch_sigalgs m) then 2 + 2 * zlen (ch_sigalgs m) else 0) +
  (if ch_renegOn m then 1 + zlen (ch_reneg m) else 0) +
  (if 0 <? zlen (ch_alpn m) then 2 + (zlen (ch_alpn m) + sum_len (ch_alpn m)) else 0).
(** handshake_messages.go:139-294, one extension after the other *)
Definition alpn_strings (ps : list (list Z)) : list Z := concat (map (fun s => u8 (zlen s) :: s) ps).
Definition ch_extensions (m : clientHello) : list Z :=
  (if ch_npn m then b2 13172 ++ [0; 0] else []) ++
  (if 0 <? zlen (ch_sni m) then b2 0 ++ b2 (zlen (ch_sni m) + 5) ++ b2 (zlen (ch_sni m) + 3) ++ [0] ++ b2 (zlen (ch_sni m)) ++ ch_sni m else []) ++
  (if ch_ocsp m then b2 5 ++ [0; 5; 1; 0; 0; 0; 0] else []) ++
  (if 0 <? zlen (ch_curves m) then b2 10 ++ b2 (2 + 2 * zlen (ch_curves m)) ++ b2 (2 * zlen (ch_curves m)) ++ concat (map b2 (ch_curves m)) else []) ++
  (if 0 <? zlen (ch_points m) then b2 11 ++ b2 (1 + zlen (ch_points m)) ++ [u8 (zlen (ch_points m))] ++ ch_points m else []) ++
  (if ch_ticketOn m then b2 35 ++ b2 (zlen (ch_ticket m)) ++ ch_ticket m else []) ++
  (if 0 <? zlen (ch_sigalgs m) then b2 13 ++ b2 (2 + 2 * zlen (ch_sigalgs m)) ++ b2 (2 * zlen (ch_sigalgs m)) ++ concat (map b2 (ch_sigalgs m)) else []) ++
  (if ch_renegOn m then b2 0xff01 ++ [0; u8 (zlen (ch_reneg m) + 1)] ++ [u8 (zlen (ch_reneg m))] ++ ch_reneg m else []) ++
  (if 0 <? zlen (ch_alpn m) then b2 16 ++ b2 (zlen (alpn_strings (ch_alpn m)) + 2) ++ b2 (zlen (alpn_strings (ch_alpn m))) ++ alpn_strings (ch_alpn m) else []) ++
  (if ch_scts m then b2 18 ++ [0; 0] else []).
(** handshake_messages.go:59-298 *)
Definition m_clientHello (m : clientHello) : res (list Z) :=
  if existsb bad_alpn (ch_alpn m) then Panic
  else
    let length := 2 + 32 + 1 + zlen (ch_sessionId m) + 2 + zlen (ch_suites m) * 2 + 1 + zlen (ch_comp m) in
    let numExtensions := ch_numExt m in
    let extensionsLength := ch_extLen m + (if 0 <? numExtensions then 4 * numExtensions else 0) in
    let length := length + (if 0 <? numExtensions then 2 + extensionsLength else 0) in
    fill (4 + length)
      ([1] ++ b3 length ++ b2 (ch_vers m) ++ copy32 (ch_random m) ++ [u8 (zlen (ch_sessionId m))] ++ ch_sessionId m ++
       [u8 (Z.shiftr (zlen (ch_suites m)) 7); u8 (Z.shiftl (zlen (ch_suites m)) 1)] ++ concat (map b2 (ch_suites m)) ++
       [u8 (zlen (ch_comp m))] ++ ch_comp m ++ (if 0 <? numExtensions then b2 extensionsLength else []) ++ ch_extensions m).

(** handshake_messages.go:377-408: the server name loop; [break] empties the remaining input *)
Definition sni_body (m : clientHello) (d : list Z) : res (clientHello * list Z) :=
  fails (zlen d <? 3)
   (do nameType <- idx d 0; do nameLen <- be16 d 1; do d <- sl_from d 3;
    fails (zlen d <? nameLen)
     (do name <- sl_to d nameLen;
      if nameType =? 0 then
        fails ((0 <? zlen name) && (last name 0 =? 46)) (Ok (set_ch_sni m name, []))
      else do d <- sl_from d nameLen; Ok (m, d))).
(** handshake_messages.go:484-493 *)
Definition alpn_body (acc : list (list Z)) (d : list Z) : res (list (list Z) * list Z) :=
  do stringLen <- idx d 0; do d <- sl_from d 1;
  fails ((stringLen =? 0) || (zlen d <? stringLen))
   (do s <- sl_to d stringLen; do d <- sl_from d stringLen; Ok (acc ++ [s], d)).
(** handshake_messages.go:376-499: the switch on the extension number; [data] starts after the extension header and is at least [length] long *)
Definition ch_ext (m : clientHello) (extension length : Z) (data : list Z) : res clientHello :=
  if extension =? 0 then
    do d <- sl_to data length;
    fails (zlen d <? 2) (do namesLen <- be16 d 0; do d <- sl_from d 2; fails (negb (zlen d =? namesLen)) (wrun sni_body m d))
  else if extension =? 13172 then fails (0 <? length) (Ok (set_ch_npn m true))
  else if extension =? 5 then
    (if 0 <? length then do t <- idx data 0; Ok (set_ch_ocsp m (t =? 1)) else Ok (set_ch_ocsp m false))
  else if extension =? 10 then
    fails (length <? 2)
     (do l <- be16 data 0; fails ((l mod 2 =? 1) || negb (length =? l + 2))
       (do d <- sl_from data 2; do cs <- rd_u16s (Z.to_nat (l / 2)) d; Ok (set_ch_curves m cs)))
  else if extension =? 11 then
    fails (length <? 1)
     (do l <- idx data 0; fails (negb (length =? l + 1))
       (do d <- sl_from data 1; Ok (set_ch_points m (firstn (Z.to_nat l) d ++ zeros (Z.to_nat l - List.length d)))))
  else if extension =? 35 then do t <- sl_to data length; Ok (set_ch_ticket (set_ch_ticketOn m true) t)
  else if extension =? 13 then
    fails ((length <? 2) || negb (Z.land length 1 =? 0))
     (do l <- be16 data 0; fails (negb (l =? length - 2))
       (do d <- sl_from data 2; do cs <- rd_u16s (Z.to_nat (l / 2)) d; Ok (set_ch_sigalgs m cs)))
  else if extension =? 0xff01 then
    fails (length =? 0)
     (do d <- sl_to data length; do l <- idx d 0; do d <- sl_from d 1;
      fails (negb (l =? zlen d)) (Ok (set_ch_renegOn (set_ch_reneg m d) true)))
  else if extension =? 16 then
    fails (length <? 2)
     (do l <- be16 data 0; fails (negb (l =? length - 2))
       (do d <- sl data 2 length; do ps <- wrun alpn_body (ch_alpn m) d; Ok (set_ch_alpn m ps)))
  else if extension =? 18 then fails (negb (length =? 0)) (Ok (set_ch_scts m true))
  else Ok m.
(** handshake_messages.go:364-375, 500: one turn of the extension loop (the same code in ServerHello, :737-748, :829) *)
Definition ext_body {M} (sw : M -> Z -> Z -> list Z -> res M) (m : M) (data : list Z) : res (M * list Z) :=
  fails (zlen data <? 4)
   (do extension <- be16 data 0; do length <- be16 data 2; do data <- sl_from data 4;
    fails (zlen data <? length)
     (do m <- sw m extension length data; do data <- sl_from data length; Ok (m, data))).
(** handshake_messages.go:300-504; [m] is the receiver *)
Definition u_clientHello (m : clientHello) (data : list Z) : res clientHello :=
  fails (zlen data <? 42)
   (do vers <- be16 data 4; do random <- sl data 6 38; do sessionIdLen <- idx data 38;
    fails ((32 <? sessionIdLen) || (zlen data <? 39 + sessionIdLen))
     (do sessionId <- sl data 39 (39 + sessionIdLen); do data <- sl_from data (39 + sessionIdLen);
      fails (zlen data <? 2)
       (do cipherSuiteLen <- be16 data 0;
        fails ((cipherSuiteLen mod 2 =? 1) || (zlen data <? 2 + cipherSuiteLen))
         (do sd <- sl_from data 2; do suites <- rd_u16s (Z.to_nat (cipherSuiteLen / 2)) sd;
          let m := if existsb (fun x => x =? 0x00ff) suites then set_ch_renegOn m true else m in
          do data <- sl_from data (2 + cipherSuiteLen);
          fails (zlen data <? 1)
           (do compLen <- idx data 0;
            fails (zlen data <? 1 + compLen)
             (do comp <- sl data 1 (1 + compLen); do data <- sl_from data (1 + compLen);
              let m := mkCH vers random sessionId suites comp false [] false false (ch_curves m) (ch_points m) false [] [] (ch_reneg m) (ch_renegOn m) [] in
              if zlen data =? 0 then Ok m
              else fails (zlen data <? 2)
                    (do extensionsLength <- be16 data 0; do data <- sl_from data 2;
                     fails (negb (extensionsLength =? zlen data)) (wrun (ext_body ch_ext) m data)))))))).

(** ** ServerHello, handshake_messages.go:506-521 *)
Record serverHello := mkSH { sh_vers : Z; sh_random : list Z; sh_sessionId : list Z; sh_suite : Z; sh_comp : Z; sh_npn : bool; sh_protos : list (list Z); sh_ocsp : bool; sh_scts : list (list Z); sh_ticketOn : bool; sh_reneg : list Z; sh_renegOn : bool; sh_alpn : list Z }.
Definition set_sh_vers (m : serverHello) (v : Z) : serverHello := mkSH v (sh_random m) (sh_sessionId m) (sh_suite m) (sh_comp m) (sh_npn m) (sh_protos m) (sh_ocsp m) (sh_scts m) (sh_ticketOn m) (sh_reneg m) (sh_renegOn m) (sh_alpn m).
Definition set_sh_random (m : serverHello) (v : list Z) : serverHello := mkSH (sh_vers m) v (sh_sessionId m) (sh_suite m) (sh_comp m) (sh_npn m) (sh_protos m) (sh_ocsp m) (sh_scts m) (sh_ticketOn m) (sh_reneg m) (sh_renegOn m) (sh_alpn m).
Definition set_sh_sessionId (m : serverHello) (v : list Z) : serverHello := mkSH (sh_vers m) (sh_random m) v (sh_suite m) (sh_comp m) (sh_npn m) (sh_protos m) (sh_ocsp m) (sh_scts m) (sh_ticketOn m) (sh_reneg m) (sh_renegOn m) (sh_alpn m).
Definition set_sh_suite (m : serverHello) (v : Z) : serverHello := mkSH (sh_vers m) (sh_random m) (sh_sessionId m) v (sh_comp m) (sh_npn m) (sh_protos m) (sh_ocsp m) (sh_scts m) (sh_ticketOn m) (sh_reneg m) (sh_renegOn m) (sh_alpn m).
Definition set_sh_comp (m : serverHello) (v : Z) : serverHello := mkSH (sh_vers m) (sh_random m) (sh_sessionId m) (sh_suite m) v (sh_npn m) (sh_protos m) (sh_ocsp m) (sh_scts m) (sh_ticketOn m) (sh_reneg m) (sh_renegOn m) (sh_alpn m).
Definition set_sh_npn (m : serverHello) (v : bool) : serverHello := mkSH (sh_vers m) (sh_random m) (sh_sessionId m) (sh_suite m) (sh_comp m) v (sh_protos m) (sh_ocsp m) (sh_scts m) (sh_ticketOn m) (sh_reneg m) (sh_renegOn m) (sh_alpn m).
Definition set_sh_protos (m : serverHello) (v : list (list Z)) : serverHello := mkSH (sh_vers m) (sh_random m) (sh_sessionId m) (sh_suite m) (sh_comp m) (sh_npn m) v (sh_ocsp m) (sh_scts m) (sh_ticketOn m) (sh_reneg m) (sh_renegOn m) (sh_alpn m).
Definition set_sh_ocsp (m : serverHello) (v : bool) : serverHello := mkSH (sh_vers m) (sh_random m) (sh_sessionId m) (sh_suite m) (sh_comp m) (sh_npn m) (sh_protos m) v (sh_scts m) (sh_ticketOn m) (sh_reneg m) (sh_renegOn m) (sh_alpn m).
Definition set_sh_scts (m : serverHello) (v : list (list Z)) : serverHello := mkSH (sh_vers m) (sh_random m) (sh_sessionId m) (sh_suite m) (sh_comp m) (sh_npn m) (sh_protos m) (sh_ocsp m) v (sh_ticketOn m) (sh_reneg m) (sh_renegOn m) (sh_alpn m).
Definition set_sh_ticketOn (m : serverHello) (v : bool) : serverHello := mkSH (sh_vers m) (sh_random m) (sh_sessionId m) (sh_suite m) (sh_comp m) (sh_npn m) (sh_protos m) (sh_ocsp m) (sh_scts m) v (sh_reneg m) (sh_renegOn m) (sh_alpn m).
Definition set_sh_reneg (m : serverHello) (v : list Z) : serverHello := mkSH (sh_vers m) (sh_random m) (sh_sessionId m) (sh_suite m) (sh_comp m) (sh_npn m) (sh_protos m) (sh_ocsp m) (sh_scts m) (sh_ticketOn m) v (sh_renegOn m) (sh_alpn m).
Definition set_sh_renegOn (m : serverHello) (v : bool) : serverHello := mkSH (sh_vers m) (sh_random m) (sh_sessionId m) (sh_suite m) (sh_comp m) (sh_npn m) (sh_protos m) (sh_ocsp m) (sh_scts m) (sh_ticketOn m) (sh_reneg m) v (sh_alpn m).
Definition set_sh_alpn (m : serverHello) (v : list Z) : serverHello := mkSH (sh_vers m) (sh_random m) (sh_sessionId m) (sh_suite m) (sh_comp m) (sh_npn m) (sh_protos m) (sh_ocsp m) (sh_scts m) (sh_ticketOn m) (sh_reneg m) (sh_renegOn m) v.

Definition sh_empty : serverHello := mkSH 0 [] [] 0 0 false [] false [] false [] false [].
(** handshake_messages.go:562-570 *)
Definition sh_protoLen (m : serverHello) : Z := sum_len (sh_protos m) + zlen (sh_protos m).
(** handshake_messages.go:583-595 *)
Definition sh_sctLen (m : serverHello) : Z := fold_left (fun a s => a + (zlen s + 2)) (sh_scts m) 0.
Definition sh_numExt (m : serverHello) : Z :=
  Z.b2z (sh_npn m) + Z.b2z (sh_ocsp m) + Z.b2z (sh_ticketOn m) + Z.b2z (sh_renegOn m) + Z.b2z (0 <? zlen (sh_alpn m)) + Z.b2z (0 <? zlen (sh_scts m)).
Definition sh_extLen (m : serverHello) : Z :=
  (if sh_npn m then sh_protoLen m else 0) + (if sh_renegOn m then 1 + zlen (sh_reneg m) else 0) +
  (if 0 <? zlen (sh_alpn m) then 2 + 1 + zlen (sh_alpn m) else 0) + (if 0 <? zlen (sh_scts m) then 2 + sh_sctLen m else 0).
(** handshake_messages.go:630-642: protocol names longer than 255 bytes are cut *)
Definition proto_enc (v : list Z) : list Z := let l := if 255 <? zlen v then 255 else zlen v in u8 l :: firstn (Z.to_nat l) v.
(** handshake_messages.go:618-691 *)
Definition sh_extensions (m : serverHello) : list Z :=
  (if sh_npn m then b2 13172 ++ b2 (sh_protoLen m) ++ concat (map proto_enc (sh_protos m)) else []) ++
  (if sh_ocsp m then b2 5 ++ [0; 0] else []) ++
  (if sh_ticketOn m then b2 35 ++ [0; 0] else []) ++
  (if sh_renegOn m then b2 0xff01 ++ [0; u8 (zlen (sh_reneg m) + 1)] ++ [u8 (zlen (sh_reneg m))] ++ sh_reneg m else []) ++
  (if 0 <? zlen (sh_alpn m) then b2 16 ++ b2 (2 + 1 + zlen (sh_alpn m)) ++ b2 (1 + zlen (sh_alpn m)) ++ [u8 (zlen (sh_alpn m))] ++ sh_alpn m else []) ++
  (if 0 <? sh_sctLen m then b2 18 ++ b2 (sh_sctLen m + 2) ++ b2 (sh_sctLen m) ++ concat (map (fun s => b2 (zlen s) ++ s) (sh_scts m)) else []).
(** handshake_messages.go:553-695 *)
Definition m_serverHello (m : serverHello) : res (list Z) :=
  if (0 <? zlen (sh_alpn m)) && (256 <=? zlen (sh_alpn m)) then Panic
  else
    let numExtensions := sh_numExt m in
    let extensionsLength := sh_extLen m + (if 0 <? numExtensions then 4 * numExtensions else 0) in
    let length := 38 + zlen (sh_sessionId m) + (if 0 <? numExtensions then 2 + extensionsLength else 0) in
    fill (4 + length)
      ([2] ++ b3 length ++ b2 (sh_vers m) ++ copy32 (sh_random m) ++ [u8 (zlen (sh_sessionId m))] ++ sh_sessionId m ++
       b2 (sh_suite m) ++ [sh_comp m] ++ (if 0 <? numExtensions then b2 extensionsLength else []) ++ sh_extensions m).
(** handshake_messages.go:753-761 is the same loop as [alpn_body]; handshake_messages.go:818-826 *)
Definition sct_body (acc : list (list Z)) (d : list Z) : res (list (list Z) * list Z) :=
  fails (zlen d <? 2)
   (do sctLen <- be16 d 0; do d <- sl_from d 2;
    fails ((sctLen =? 0) || (zlen d <? sctLen))
     (do s <- sl_to d sctLen; do d <- sl_from d sctLen; Ok (acc ++ [s], d))).
(** handshake_messages.go:749-828 *)
Definition sh_ext (m : serverHello) (extension length : Z) (data : list Z) : res serverHello :=
  if extension =? 13172 then
    do d <- sl_to data length; do ps <- wrun alpn_body (sh_protos m) d; Ok (set_sh_protos (set_sh_npn m true) ps)
  else if extension =? 5 then fails (0 <? length) (Ok (set_sh_ocsp m true))
  else if extension =? 35 then fails (0 <? length) (Ok (set_sh_ticketOn m true))
  else if extension =? 0xff01 then
    fails (length =? 0)
     (do d <- sl_to data length; do l <- idx d 0; do d <- sl_from d 1;
      fails (negb (l =? zlen d)) (Ok (set_sh_renegOn (set_sh_reneg m d) true)))
  else if extension =? 16 then
    do d <- sl_to data length;
    fails (zlen d <? 3)
     (do l <- be16 d 0; fails (negb (l =? zlen d - 2))
       (do d <- sl_from d 2; do l <- idx d 0;
        fails (negb (l =? zlen d - 1)) (do d <- sl_from d 1; fails (zlen d =? 0) (Ok (set_sh_alpn m d)))))
  else if extension =? 18 then
    do d <- sl_to data length;
    fails (zlen d <? 2)
     (do l <- be16 d 0; do d <- sl_from d 2;
      fails (negb (zlen d =? l) || (l =? 0)) (do ss <- wrun sct_body [] d; Ok (set_sh_scts m ss)))
  else Ok m.
(** handshake_messages.go:697-833 *)
Definition u_serverHello (m : serverHello) (data : list Z) : res serverHello :=
  fails (zlen data <? 42)
   (do vers <- be16 data 4; do random <- sl data 6 38; do sessionIdLen <- idx data 38;
    fails ((32 <? sessionIdLen) || (zlen data <? 39 + sessionIdLen))
     (do sessionId <- sl data 39 (39 + sessionIdLen); do data <- sl_from data (39 + sessionIdLen);
      fails (zlen data <? 3)
       (do suite <- be16 data 0; do comp <- idx data 2; do data <- sl_from data 3;
        let m := mkSH vers random sessionId suite comp false [] false [] false (sh_reneg m) (sh_renegOn m) [] in
        if zlen data =? 0 then Ok m
        else fails (zlen data <? 2)
              (do extensionsLength <- be16 data 0; do data <- sl_from data 2;
               fails (negb (zlen data =? extensionsLength)) (wrun (ext_body sh_ext) m data))))).

(** ** Certificate, handshake_messages.go:852-885, 887-922 *)
Definition m_certificate (certs : list (list Z)) : res (list Z) :=
  let i := sum_len certs in
  let length := 3 + 3 * zlen certs + i in
  fill (4 + length) ([11] ++ b3 length ++ b3 (length - 3) ++ concat (map (fun c => b3 (zlen c) ++ c) certs)).
(** :882-893, counting the certificates; [certsLen] is a uint32 *)
Fixpoint count_certs (fuel : nat) (certsLen : Z) (numCerts : nat) (d : list Z) : res nat :=
  if 0 <? certsLen then
    match fuel with
    | O => Panic
    | S fuel =>
        fails (zlen d <? 4)
         (do certLen <- be24 d 0;
          fails (u32 (zlen d) <? u32 (3 + certLen))
           (do d <- sl_from d (u32 (3 + certLen)); count_certs fuel (u32 (certsLen - (3 + certLen))) (numCerts + 1) d))
    end
  else Ok numCerts.
(** :895-902 *)
Fixpoint take_certs (numCerts : nat) (d : list Z) : res (list (list Z)) :=
  match numCerts with
  | O => Ok []
  | S n => do certLen <- be24 d 0; do c <- sl d 3 (u32 (3 + certLen)); do d <- sl_from d (u32 (3 + certLen)); do r <- take_certs n d; Ok (c :: r)
  end.
Definition u_certificate (data : list Z) : res (list (list Z)) :=
  fails (zlen data <? 7)
   (do certsLen <- be24 data 4;
    fails (negb (u32 (zlen data) =? u32 (certsLen + 7)))
     (do d <- sl_from data 7; do n <- count_certs (Datatypes.S (List.length data)) certsLen 0 d; take_certs n d)).

(** ** ServerKeyExchange, ClientKeyExchange, Finished: handshake_messages.go:939-962, 1062-1089, 1106-1126 *)
Definition m_serverKeyExchange (key : list Z) : res (list Z) := fill (zlen key + 4) ([12] ++ b3 (zlen key) ++ key).
Definition u_serverKeyExchange (data : list Z) : res (list Z) := fails (zlen data <? 4) (sl_from data 4).
Definition m_clientKeyExchange (ct : list Z) : res (list Z) := fill (zlen ct + 4) ([16] ++ b3 (zlen ct) ++ ct).
Definition u_clientKeyExchange (data : list Z) : res (list Z) :=
  fails (zlen data <? 4) (do l <- be24 data 1; fails (negb (l =? zlen data - 4)) (sl_from data 4)).
Definition m_finished (vd : list Z) : res (list Z) := fill (4 + zlen vd) ([20; 0; 0; u8 (zlen vd)] ++ vd).
Definition u_finished (data : list Z) : res (list Z) := fails (zlen data <? 4) (sl_from data 4).

(** ** CertificateStatus, handshake_messages.go:981-1028 *)
Definition m_certificateStatus (m : Z * list Z) : res (list Z) :=
  if fst m =? 1 then
    let l := zlen (snd m) + 4 in fill (4 + 4 + zlen (snd m)) ([22] ++ b3 l ++ [1] ++ b3 (l - 4) ++ snd m)
  else Ok [22; 0; 0; 1; fst m].
Definition u_certificateStatus (data : list Z) : res (Z * list Z) :=
  fails (zlen data <? 5)
   (do statusType <- idx data 4;
    if statusType =? 1 then
      fails (zlen data <? 8)
       (do respLen <- be24 data 5; fails (negb (u32 (zlen data) =? u32 (4 + 4 + respLen))) (do r <- sl_from data 8; Ok (statusType, r)))
    else Ok (statusType, [])).

(** ** ServerHelloDone, HelloRequest: handshake_messages.go:1037-1045, 1497-1503 *)
Definition m_serverHelloDone : list Z := [14; 0; 0; 0].
Definition u_serverHelloDone (data : list Z) : res unit := fails (negb (zlen data =? 4)) (Ok tt).
Definition m_helloRequest : list Z := [0; 0; 0; 0].
Definition u_helloRequest (data : list Z) : res unit := fails (negb (zlen data =? 4)) (Ok tt).

(** ** NextProtocol, handshake_messages.go:1143-1196 *)
Definition m_nextProto (proto : list Z) : res (list Z) :=
  let l := if 255 <? zlen proto then 255 else zlen proto in
  let padding := 32 - (l + 2) mod 32 in
  let length := l + padding + 2 in
  fill (length + 4) ([67] ++ b3 length ++ [u8 l] ++ firstn (Z.to_nat l) proto ++ [u8 padding]).
Definition u_nextProto (data : list Z) : res (list Z) :=
  fails (zlen data <? 5)
   (do data <- sl_from data 4; do protoLen <- idx data 0; do data <- sl_from data 1;
    fails (zlen data <? protoLen)
     (do proto <- sl_to data protoLen; do data <- sl_from data protoLen;
      fails (zlen data <? 1)
       (do paddingLen <- idx data 0; do data <- sl_from data 1; fails (negb (zlen data =? paddingLen)) (Ok proto)))).

(** ** CertificateRequest, handshake_messages.go:1222-1351; [hasSig] = m.hasSignatureAndHash of the receiver.
    With hasSig = false these are exactly gm_handshake_messages.go:28-117 (certificateRequestMsgGM). *)
Record certRequest := mkCR { cr_types : list Z; cr_sigs : list Z; cr_cas : list (list Z) }.
Definition cas_len (cas : list (list Z)) : Z := fold_left (fun a c => a + (2 + zlen c)) cas 0.
Definition m_certificateRequest (hasSig : bool) (m : certRequest) : res (list Z) :=
  let casLength := cas_len (cr_cas m) in
  let length := 1 + zlen (cr_types m) + 2 + casLength + (if hasSig then 2 + 2 * zlen (cr_sigs m) else 0) in
  fill (4 + length)
    ([13] ++ b3 length ++ [u8 (zlen (cr_types m))] ++ cr_types m ++
     (if hasSig then b2 (zlen (cr_sigs m) * 2) ++ concat (map b2 (cr_sigs m)) else []) ++
     b2 casLength ++ concat (map (fun c => b2 (zlen c) ++ c) (cr_cas m))).
Definition ca_body (acc : list (list Z)) (cas : list Z) : res (list (list Z) * list Z) :=
  fails (zlen cas <? 2)
   (do caLen <- be16 cas 0; do cas <- sl_from cas 2;
    fails (zlen cas <? caLen) (do c <- sl_to cas caLen; do cas <- sl_from cas caLen; Ok (acc ++ [c], cas))).
Definition u_certificateRequest (hasSig : bool) (data : list Z) : res certRequest :=
  fails (zlen data <? 5)
   (do length <- be24 data 1;
    fails (negb (u32 (u32 (zlen data) - 4) =? length))
     (do numCertTypes <- idx data 4; do data <- sl_from data 5;
      fails ((numCertTypes =? 0) || (zlen data <=? numCertTypes))
       (do types <- sl_to data numCertTypes; do data <- sl_from data numCertTypes;
        do sd <- (if hasSig then
                    fails (zlen data <? 2)
                     (do n <- be16 data 0; do data <- sl_from data 2;
                      fails (negb (Z.land n 1 =? 0))
                       (fails (zlen data <? n)
                         (do ss <- rd_u16s (Z.to_nat (n / 2)) data; do data <- sl_from data (2 * (n / 2)); Ok (ss, data))))
                  else Ok ([], data));
        let data := snd sd in
        fails (zlen data <? 2)
         (do casLength <- be16 data 0; do data <- sl_from data 2;
          fails (zlen data <? casLength)
           (do cas <- sl_to data casLength; do data <- sl_from data casLength;
            do authorities <- wrun ca_body [] cas;
            fails (negb (zlen data =? 0)) (Ok (mkCR types (fst sd) authorities))))))).
Definition m_certificateRequestGM (types : list Z) (cas : list (list Z)) : res (list Z) := m_certificateRequest false (mkCR types [] cas).
Definition u_certificateRequestGM (data : list Z) : res certRequest := u_certificateRequest false data.

(** ** CertificateVerify, handshake_messages.go:1372-1432 *)
Definition m_certificateVerify (hasSig : bool) (m : Z * list Z) : res (list Z) :=
  let siglength := zlen (snd m) in
  let length := 2 + siglength + (if hasSig then 2 else 0) in
  fill (4 + length) ([15] ++ b3 length ++ (if hasSig then b2 (fst m) else []) ++ b2 siglength ++ snd m).
Definition u_certificateVerify (hasSig : bool) (alg0 : Z) (data : list Z) : res (Z * list Z) :=
  fails (zlen data <? 6)
   (do length <- be24 data 1;
    fails (negb (u32 (u32 (zlen data) - 4) =? length))
     (do data <- sl_from data 4;
      do ad <- (if hasSig then do a <- be16 data 0; do data <- sl_from data 2; Ok (a, data) else Ok (alg0, data));
      let data := snd ad in
      fails (zlen data <? 2)
       (do siglength <- be16 data 0; do data <- sl_from data 2; fails (negb (zlen data =? siglength)) (Ok (fst ad, data))))).

(** ** NewSessionTicket, handshake_messages.go:1450-1492 *)
Definition m_newSessionTicket (ticket : list Z) : res (list Z) :=
  let length := 2 + 4 + zlen ticket in
  fill (4 + length) ([4] ++ b3 length ++ [0; 0; 0; 0] ++ b2 (zlen ticket) ++ ticket).
Definition u_newSessionTicket (data : list Z) : res (list Z) :=
  fails (zlen data <? 10)
   (do length <- be24 data 1;
    fails (negb (u32 (u32 (zlen data) - 4) =? length))
     (do ticketLen <- be16 data 8; fails (negb (zlen data - 10 =? ticketLen)) (sl_from data 10))).

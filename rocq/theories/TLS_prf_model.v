(** Model of /repo/tls/prf.go and of newFinishedHashGM (/repo/tls/gm_support.go:146-170).
    Hash objects are modelled with their state (Write / Sum / Reset); the SM3 object is the model of /repo/sm3, the objects of the
    standard library (MD5, SHA-1, SHA-256, SHA-384) are parameters.  HMAC objects follow crypto/hmac of the standard library. *)
From Verif Require Import GoBase GoLemmas TLS_record_model.
From Verif Require SM3_model.
Open Scope Z_scope.

(** hash.Hash: h_new is the constructor (it can fail only for HMAC, which hashes a long key); h_sum is Sum(in). *)
Record hashI := mkHashI { hs : Type; h_new : res hs; h_write : hs -> list Z -> hs; h_sum : hs -> list Z -> res (list Z * hs);
                          h_reset : hs -> hs; h_bs : nat }.
(** /repo/sm3/sm3.go New, Write, Sum, Reset, BlockSize = 64 *)
Definition sm3I : hashI :=
  mkHashI SM3_model.digest (Ok SM3_model.New) (fun d p => fst (SM3_model.Write d p))
          (fun d inp => do r <- SM3_model.Sum d inp; Ok (r, d)) SM3_model.Reset 64.

(** crypto/hmac New, Write, Sum, Reset: state (inner, outer, ipad, opad) *)
Definition hmacI (I : hashI) (key : list Z) : hashI :=
  mkHashI (hs I * hs I * list Z * list Z)
    (do outer <- h_new I; do inner <- h_new I;
     do ko <- (if (h_bs I <? length key)%nat then h_sum I (h_write I outer key) [] else Ok (key, outer));
     let '(k, outer) := ko in
     let pad := k ++ zeros (h_bs I - length k) in
     let ipad := map (Z.lxor 0x36) pad in
     let opad := map (Z.lxor 0x5c) pad in
     Ok (h_write I inner ipad, outer, ipad, opad))
    (fun s p => let '(inner, outer, ipad, opad) := s in (h_write I inner p, outer, ipad, opad))
    (fun s inp => let '(inner, outer, ipad, opad) := s in
       do r <- h_sum I inner inp; let '(v, inner) := r in
       let outer := h_reset I outer in
       let outer := h_write I outer opad in
       let outer := h_write I outer (skipn (length inp) v) in
       do r <- h_sum I outer (firstn (length inp) v); let '(v, outer) := r in
       Ok (v, (inner, outer, ipad, opad)))
    (fun s => let '(inner, outer, ipad, opad) := s in (h_write I (h_reset I inner) ipad, outer, ipad, opad))
    (h_bs I).

(** prf.go:21-25 splitPreMasterSecret *)
Definition splitPreMasterSecret (secret : list Z) : list Z * list Z :=
  (firstn ((length secret + 1) / 2) secret, skipn (length secret / 2) secret).

(** prf.go:28-47 pHash: [out] holds the bytes of result filled so far, [n] = len(result).  An iteration always adds at least one
    byte when the hash has a nonempty output; [fuel] bounds the iterations (running out of fuel = non-termination = Panic). *)
Fixpoint pHash_loop (I : hashI) (fuel : nat) (n : nat) (h : hs I) (a seed out : list Z) : res (list Z) :=
  if (n <=? length out)%nat then Ok out
  else match fuel with
  | O => Panic
  | S fuel =>
      let h := h_reset I h in
      let h := h_write I (h_write I h a) seed in
      do r <- h_sum I h []; let '(b, h) := r in
      let out := out ++ firstn (n - length out) b in
      let h := h_reset I h in
      let h := h_write I h a in
      do r <- h_sum I h []; let '(a, h) := r in
      pHash_loop I fuel n h a seed out
  end.
Definition pHash (n : nat) (secret seed : list Z) (hash : hashI) : res (list Z) :=
  let I := hmacI hash secret in
  do h <- h_new I;
  do r <- h_sum I (h_write I h seed) []; let '(a, h) := r in
  pHash_loop I n n h a seed [].

(** prf.go:50-66 prf10, 69-77 prf12, 81-112 prf30; the first argument is len(result) *)
Definition prf10 (md5I sha1I : hashI) (n : nat) (secret label seed : list Z) : res (list Z) :=
  let labelAndSeed := label ++ seed in
  let '(s1, s2) := splitPreMasterSecret secret in
  do result <- pHash n s1 labelAndSeed md5I;
  do result2 <- pHash n s2 labelAndSeed sha1I;
  Ok (xorl result result2).
Definition prf12 (hash : hashI) (n : nat) (secret label seed : list Z) : res (list Z) := pHash n secret (label ++ seed) hash.
Fixpoint prf30_loop (md5I sha1I : hashI) (fuel n i : nat) (hs1 : hs sha1I) (hm5 : hs md5I) (secret seed out : list Z) : res (list Z) :=
  if (n <=? length out)%nat then Ok out
  else match fuel with
  | O => Panic
  | S fuel =>
      if (11 <=? i)%nat then Panic                       (* b[j] with j = 11: index out of range of [11]byte *)
      else
      let b := repeat (u8 (65 + Z.of_nat i)) (i + 1) in
      let hs1 := h_write sha1I (h_write sha1I (h_write sha1I (h_reset sha1I hs1) b) secret) seed in
      do r <- h_sum sha1I hs1 []; let '(digest, hs1) := r in
      let hm5 := h_write md5I (h_write md5I (h_reset md5I hm5) secret) digest in
      do r <- h_sum md5I hm5 []; let '(v, hm5) := r in
      prf30_loop md5I sha1I fuel n (i + 1) hs1 hm5 secret seed (out ++ firstn (n - length out) v)
  end.
Definition prf30 (md5I sha1I : hashI) (n : nat) (secret label seed : list Z) : res (list Z) :=
  do hs1 <- h_new sha1I; do hm5 <- h_new md5I; prf30_loop md5I sha1I n n 0 hs1 hm5 secret seed [].

(** the hash packages of the standard library *)
Record stdlib := mkStd { std_md5 : hashI; std_sha1 : hashI; std_sha256 : hashI; std_sha384 : hashI }.
Definition prfT := nat -> list Z -> list Z -> list Z -> res (list Z).

(** prf.go:125-141 prfAndHashForVersion, 143-146 prfForVersion.  [sha384] = suite.flags&suiteSHA384 != 0. *)
Inductive hashId := H_none | H_SHA256 | H_SHA384.
Definition prfAndHashForVersion (L : stdlib) (version : Z) (sha384 : bool) : res (prfT * hashId) :=
  if version =? VersionSSL30 then Ok (prf30 (std_md5 L) (std_sha1 L), H_none)
  else if (version =? VersionTLS10) || (version =? VersionTLS11) then Ok (prf10 (std_md5 L) (std_sha1 L), H_none)
  else if version =? VersionTLS12 then
    (if sha384 then Ok (prf12 (std_sha384 L), H_SHA384) else Ok (prf12 (std_sha256 L), H_SHA256))
  else if version =? VersionGMSSL then Ok (prf12 sm3I, H_none)
  else Panic.
Definition prfForVersion (L : stdlib) (version : Z) (sha384 : bool) : res prfT :=
  do r <- prfAndHashForVersion L version sha384; Ok (fst r).

(** prf.go:120-123: the labels, as ASCII *)
Definition masterSecretLabel : list Z := [109; 97; 115; 116; 101; 114; 32; 115; 101; 99; 114; 101; 116].
Definition keyExpansionLabel : list Z := [107; 101; 121; 32; 101; 120; 112; 97; 110; 115; 105; 111; 110].
Definition clientFinishedLabel : list Z := [99; 108; 105; 101; 110; 116; 32; 102; 105; 110; 105; 115; 104; 101; 100].
Definition serverFinishedLabel : list Z := [115; 101; 114; 118; 101; 114; 32; 102; 105; 110; 105; 115; 104; 101; 100].

(** prf.go:150-158 masterFromPreMasterSecret *)
Definition masterFromPreMasterSecret (L : stdlib) (version : Z) (sha384 : bool) (preMasterSecret clientRandom serverRandom : list Z) : res (list Z) :=
  let seed := clientRandom ++ serverRandom in
  do prf <- prfForVersion L version sha384;
  prf 48%nat preMasterSecret masterSecretLabel seed.

(** prf.go:163-185 keysFromMasterSecret (lengths are non-negative: they are constants of the cipher suites) *)
Definition keysFromMasterSecret (L : stdlib) (version : Z) (sha384 : bool) (masterSecret clientRandom serverRandom : list Z) (macLen keyLen ivLen : nat)
  : res (list Z * list Z * list Z * list Z * list Z * list Z) :=
  let seed := serverRandom ++ clientRandom in
  let n := (2 * macLen + 2 * keyLen + 2 * ivLen)%nat in
  do prf <- prfForVersion L version sha384;
  do keyMaterial <- prf n masterSecret keyExpansionLabel seed;
  let clientMAC := firstn macLen keyMaterial in
  let keyMaterial := skipn macLen keyMaterial in
  let serverMAC := firstn macLen keyMaterial in
  let keyMaterial := skipn macLen keyMaterial in
  let clientKey := firstn keyLen keyMaterial in
  let keyMaterial := skipn keyLen keyMaterial in
  let serverKey := firstn keyLen keyMaterial in
  let keyMaterial := skipn keyLen keyMaterial in
  let clientIV := firstn ivLen keyMaterial in
  let keyMaterial := skipn ivLen keyMaterial in
  let serverIV := firstn ivLen keyMaterial in
  Ok (clientMAC, serverMAC, clientKey, serverKey, clientIV, serverIV).

(** ** finishedHash.  A hash object behind the hash.Hash interface; gm_support.go:146-165 nilMD5Hash *)
Record hobj := mkObj { o_I : hashI; o_s : hs o_I }.
Definition nilMD5I : hashI := mkHashI unit (Ok tt) (fun s _ => s) (fun s _ => Ok ([], s)) (fun s => s) 0.
Definition o_new (I : hashI) : res hobj := do s <- h_new I; Ok (mkObj I s).
Definition o_write (o : hobj) (p : list Z) : hobj := mkObj (o_I o) (h_write (o_I o) (o_s o) p).
Definition o_reset (o : hobj) : hobj := mkObj (o_I o) (h_reset (o_I o) (o_s o)).
Definition o_sum (o : hobj) (inp : list Z) : res (list Z * hobj) := do r <- h_sum (o_I o) (o_s o) inp; Ok (fst r, mkObj (o_I o) (snd r)).

(** prf.go:216-232 *)
Record finishedHash := mkFH { fh_client : hobj; fh_server : hobj; fh_clientMD5 : option hobj; fh_serverMD5 : option hobj;
                              fh_buffer : option (list Z); fh_version : Z; fh_prf : prfT }.
(** prf.go:205-217 newFinishedHash *)
Definition newFinishedHash (L : stdlib) (version : Z) (sha384 : bool) : res finishedHash :=
  let buffer := if (version =? VersionSSL30) || (VersionTLS12 <=? version) then Some [] else None in
  do ph <- prfAndHashForVersion L version sha384;
  let '(prf, hash) := ph in
  match hash with
  | H_none =>
      do c <- o_new (std_sha1 L); do s <- o_new (std_sha1 L); do cm <- o_new (std_md5 L); do sm <- o_new (std_md5 L);
      Ok (mkFH c s (Some cm) (Some sm) buffer version prf)
  | H_SHA256 => do c <- o_new (std_sha256 L); do s <- o_new (std_sha256 L); Ok (mkFH c s None None buffer version prf)
  | H_SHA384 => do c <- o_new (std_sha384 L); do s <- o_new (std_sha384 L); Ok (mkFH c s None None buffer version prf)
  end.
(** gm_support.go:167-170 newFinishedHashGM *)
Definition newFinishedHashGM : res finishedHash :=
  do c <- o_new sm3I; do s <- o_new sm3I; do cm <- o_new nilMD5I; do sm <- o_new nilMD5I;
  Ok (mkFH c s (Some cm) (Some sm) (Some []) VersionGMSSL (prf12 sm3I)).

(** prf.go:234-248 Write *)
Definition fh_Write (h : finishedHash) (msg : list Z) : res finishedHash :=
  let c := o_write (fh_client h) msg in
  let s := o_write (fh_server h) msg in
  do md <- (if fh_version h <? VersionTLS12 then
              match fh_clientMD5 h, fh_serverMD5 h with
              | Some cm, Some sm => Ok (Some (o_write cm msg), Some (o_write sm msg))
              | _, _ => Panic                                     (* method call on a nil interface *)
              end
            else Ok (fh_clientMD5 h, fh_serverMD5 h));
  let buffer := match fh_buffer h with Some b => Some (b ++ msg) | None => None end in
  Ok (mkFH c s (fst md) (snd md) buffer (fh_version h) (fh_prf h)).
(** prf.go:250-258 Sum.  The receiver is a copy, but the hash objects are shared: the new objects are returned. *)
Definition fh_Sum (h : finishedHash) : res (list Z * finishedHash) :=
  if (VersionTLS12 <=? fh_version h) || (fh_version h =? VersionGMSSL) then
    do r <- o_sum (fh_client h) [];
    Ok (fst r, mkFH (snd r) (fh_server h) (fh_clientMD5 h) (fh_serverMD5 h) (fh_buffer h) (fh_version h) (fh_prf h))
  else
    match fh_clientMD5 h with
    | None => Panic
    | Some cm =>
        do r <- o_sum cm []; let '(out, cm) := r in
        do r <- o_sum (fh_client h) out; let '(out, c) := r in
        Ok (out, mkFH c (fh_server h) (Some cm) (fh_serverMD5 h) (fh_buffer h) (fh_version h) (fh_prf h))
    end.
(** cipher_suites.go:253-255 *)
Definition ssl30Pad1 : list Z := repeat 0x36 48.
Definition ssl30Pad2 : list Z := repeat 0x5c 48.
(** prf.go:263-291 finishedSum30: the objects are left in the state after the last Sum *)
Definition finishedSum30 (md5 sha1 : hobj) (masterSecret magic : list Z) : res (list Z * hobj * hobj) :=
  let md5 := o_write (o_write (o_write md5 magic) masterSecret) ssl30Pad1 in
  do r <- o_sum md5 []; let '(md5Digest, md5) := r in
  let md5 := o_write (o_write (o_write (o_reset md5) masterSecret) ssl30Pad2) md5Digest in
  do r <- o_sum md5 []; let '(md5Digest, md5) := r in
  let sha1 := o_write (o_write (o_write sha1 magic) masterSecret) (firstn 40 ssl30Pad1) in
  do r <- o_sum sha1 []; let '(sha1Digest, sha1) := r in
  let sha1 := o_write (o_write (o_write (o_reset sha1) masterSecret) (firstn 40 ssl30Pad2)) sha1Digest in
  do r <- o_sum sha1 []; let '(sha1Digest, sha1) := r in
  Ok (md5Digest ++ sha1Digest, md5, sha1).
(** prf.go:293-294 *)
Definition ssl3ClientFinishedMagic : list Z := [0x43; 0x4c; 0x4e; 0x54].
Definition ssl3ServerFinishedMagic : list Z := [0x53; 0x52; 0x56; 0x52].
(** prf.go:298-306 clientSum, 310-318 serverSum *)
Definition clientSum (h : finishedHash) (masterSecret : list Z) : res (list Z * finishedHash) :=
  if fh_version h =? VersionSSL30 then
    match fh_clientMD5 h with
    | None => Panic
    | Some cm =>
        do r <- finishedSum30 cm (fh_client h) masterSecret ssl3ClientFinishedMagic; let '(v, cm, c) := r in
        Ok (v, mkFH c (fh_server h) (Some cm) (fh_serverMD5 h) (fh_buffer h) (fh_version h) (fh_prf h))
    end
  else
    do r <- fh_Sum h; let '(sum, h) := r in
    do out <- fh_prf h 12%nat masterSecret clientFinishedLabel sum;
    Ok (out, h).
Definition serverSum (h : finishedHash) (masterSecret : list Z) : res (list Z * finishedHash) :=
  if fh_version h =? VersionSSL30 then
    match fh_serverMD5 h with
    | None => Panic
    | Some sm =>
        do r <- finishedSum30 sm (fh_server h) masterSecret ssl3ServerFinishedMagic; let '(v, sm, s) := r in
        Ok (v, mkFH (fh_client h) s (fh_clientMD5 h) (Some sm) (fh_buffer h) (fh_version h) (fh_prf h))
    end
  else
    do r <- fh_Sum h; let '(sum, h) := r in
    do out <- fh_prf h 12%nat masterSecret serverFinishedLabel sum;
    Ok (out, h).
(** common.go:131-136 signature types; the error is numbered 1 *)
Definition signaturePKCS1v15 : Z := 16. Definition signatureECDSA : Z := 17.
(** prf.go:322-352 hashForClientCertificate; [hashAlg] is the constructor behind crypto.Hash *)
Definition hashForClientCertificate (L : stdlib) (h : finishedHash) (sigType : Z) (hashAlg : hashI) (masterSecret : list Z) : res (list Z * finishedHash) :=
  if ((fh_version h =? VersionSSL30) || (VersionTLS12 <=? fh_version h)) && (match fh_buffer h with None => true | Some _ => false end) then Panic
  else if fh_version h =? VersionSSL30 then
    if negb (sigType =? signaturePKCS1v15) then Err 1
    else
      do m <- o_new (std_md5 L); do s <- o_new (std_sha1 L);
      match fh_buffer h with
      | None => Panic
      | Some b => do r <- finishedSum30 (o_write m b) (o_write s b) masterSecret []; let '(v, _, _) := r in Ok (v, h)
      end
  else if VersionTLS12 <=? fh_version h then
    match fh_buffer h with
    | None => Panic
    | Some b => do o <- o_new hashAlg; do r <- o_sum (o_write o b) []; Ok (fst r, h)
    end
  else if sigType =? signatureECDSA then
    do r <- o_sum (fh_server h) []; Ok (fst r, mkFH (fh_client h) (snd r) (fh_clientMD5 h) (fh_serverMD5 h) (fh_buffer h) (fh_version h) (fh_prf h))
  else fh_Sum h.
(** prf.go:356-358 discardHandshakeBuffer *)
Definition discardHandshakeBuffer (h : finishedHash) : finishedHash :=
  mkFH (fh_client h) (fh_server h) (fh_clientMD5 h) (fh_serverMD5 h) None (fh_version h) (fh_prf h).

(** prf.go:369-403 ekmFromMasterSecret; a nil context is None; a negative length panics (makeslice).
    Errors: 1 reserved label, 2 context too long. *)
Definition reservedLabels : list (list Z) := [clientFinishedLabel; serverFinishedLabel; masterSecretLabel; keyExpansionLabel].
Definition ekmFromMasterSecret (L : stdlib) (version : Z) (sha384 : bool) (masterSecret clientRandom serverRandom : list Z)
    (label : list Z) (context : option (list Z)) (len : Z) : res (list Z) :=
  if existsb (beqb label) reservedLabels then Err 1
  else
    let seed := clientRandom ++ serverRandom in
    do seed <- match context with
               | None => Ok seed
               | Some c => if 2 ^ 16 <=? zlen c then Err 2 else Ok (seed ++ [u8 (Z.shiftr (zlen c) 8); u8 (zlen c)] ++ c)
               end;
    if len <? 0 then Panic
    else do prf <- prfForVersion L version sha384; prf (Z.to_nat len) masterSecret label seed.

(** Model of the record MAC objects of /repo/tls/cipher_suites.go (126-147, 245-325) and of macSM3 (/repo/tls/gm_support.go:140-143):
    objects around a mutable hash.Hash (TLS_prf_model).  Timing is not modelled. *)
From Verif Require Import GoBase GoLemmas TLS_record_model TLS_prf_model.
From Verif Require SM3_model.
Open Scope Z_scope.
(** cipher_suites.go:282-302 cthWrapper, newConstantTimeHash: Sum is replaced by ConstantTimeSum *)
Definition cth (I : hashI) (ctsum : hs I -> list Z -> res (list Z * hs I)) : hashI := mkHashI (hs I) (h_new I) (h_write I) ctsum (h_reset I) (h_bs I).
(** sm3.go ConstantTimeSum *)
Definition sm3_ctsum (d : SM3_model.digest) (b : list Z) : res (list Z * SM3_model.digest) := h_sum sm3I d b.
(** one call of MAC; [extra] None is nil *)
Record mcall := mkCall { k_buf : list Z; k_seq : list Z; k_hdr : list Z; k_data : list Z; k_extra : option (list Z) }.
(** cipher_suites.go:316-326 tls10MAC.MAC: the result and the new state of the hash *)
Definition tls10MAC (I : hashI) (h : hs I) (c : mcall) : res (list Z * hs I) :=
  let h := h_reset I h in
  let h := h_write I (h_write I (h_write I h (k_seq c)) (k_hdr c)) (k_data c) in
  do r <- h_sum I h (firstn 0 (k_buf c));
  Ok (fst r, match k_extra c with Some e => h_write I (snd r) e | None => snd r end).
(** cipher_suites.go:259-280 ssl30MAC.MAC; [size] = h.Size() *)
Definition ssl30MAC (I : hashI) (size : nat) (key : list Z) (h : hs I) (c : mcall) : res (list Z * hs I) :=
  if (length (k_hdr c) <? 5)%nat then Panic
  else
    let padLength := if (size =? 20)%nat then 40%nat else 48%nat in
    let h := h_write I (h_write I (h_reset I h) key) (firstn padLength (repeat 0x36 48)) in
    let h := h_write I (h_write I h (k_seq c)) (firstn 1 (k_hdr c)) in
    let h := h_write I (h_write I h (firstn 2 (skipn 3 (k_hdr c)))) (k_data c) in
    do r <- h_sum I h (firstn 0 (k_buf c));
    let digestBuf := fst r in
    let h := h_write I (h_write I (h_reset I (snd r)) key) (firstn padLength (repeat 0x5c 48)) in
    h_sum I (h_write I h digestBuf) (firstn 0 digestBuf).
(** successive calls on one object *)
Fixpoint calls {S} (f : S -> mcall -> res (list Z * S)) (s : S) (cs : list mcall) : res (list (list Z)) :=
  match cs with [] => Ok [] | c :: cs => do r <- f s c; do l <- calls f (snd r) cs; Ok (fst r :: l) end.
(** gm_support.go:141-143 macSM3, cipher_suites.go:141-147 macSHA256: a new object, then the calls *)
Definition macSM3 (key : list Z) (cs : list mcall) : res (list (list Z)) :=
  let I := hmacI (cth sm3I sm3_ctsum) key in do h <- h_new I; calls (tls10MAC I) h cs.
Definition macSHA256 (sha256 : hashI) (key : list Z) (cs : list mcall) : res (list (list Z)) :=
  let I := hmacI sha256 key in do h <- h_new I; calls (tls10MAC I) h cs.
(** cipher_suites.go:127-139 macSHA1; [ctsum]: ConstantTimeSum of crypto/sha1 *)
Definition macSHA1 (sha1 : hashI) (ctsum : hs sha1 -> list Z -> res (list Z * hs sha1)) (version : Z) (key : list Z) (cs : list mcall) : res (list (list Z)) :=
  if version =? VersionSSL30 then do h <- h_new sha1; calls (ssl30MAC sha1 20 key) h cs
  else let I := hmacI (cth sha1 ctsum) key in do h <- h_new I; calls (tls10MAC I) h cs.

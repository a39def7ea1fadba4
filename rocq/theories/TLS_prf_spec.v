(** Specification of the TLS pseudo-random functions and Finished values, from RFC 5246 section 5 and 7.4.9, RFC 2246 (TLS 1.0/1.1),
    RFC 6101 (SSL 3.0), RFC 5705 (exporters) and GM/T 0024 (SM3).  Independent of the model. *)
From Verif Require Import GoBase HMAC SM3_spec.
Open Scope Z_scope.

(** The hash functions of the standard library, as mathematical functions. *)
Record hashes := mkHashes { MD5 : list Z -> list Z; SHA1 : list Z -> list Z; SHA256 : list Z -> list Z; SHA384 : list Z -> list Z }.
Definition good_hash (H : list Z -> list Z) (size : nat) : Prop := forall m, bytes m -> bytes (H m) /\ length (H m) = size.
Definition good_hashes (Hs : hashes) : Prop :=
  good_hash (MD5 Hs) 16 /\ good_hash (SHA1 Hs) 20 /\ good_hash (SHA256 Hs) 32 /\ good_hash (SHA384 Hs) 48.

(** RFC 5246 section 5: A(0) = seed, A(i) = HMAC(secret, A(i-1)); P_hash is the infinite byte stream
    HMAC(secret, A(1) + seed) + HMAC(secret, A(2) + seed) + ...  Byte j of it, and its first n bytes: *)
Fixpoint A (mac : list Z -> list Z) (seed : list Z) (i : nat) : list Z :=
  match i with O => seed | Datatypes.S k => mac (A mac seed k) end.
Definition P_byte (mac : list Z -> list Z) (size : nat) (seed : list Z) (j : nat) : Z :=
  nth (j mod size) (mac (A mac seed (j / size + 1) ++ seed)) 0.
Definition P_hash (mac : list Z -> list Z) (size : nat) (seed : list Z) (n : nat) : list Z := map (P_byte mac size seed) (seq 0 n).

(** SSL 3.0: block i is MD5(secret + SHA1(i+1 copies of the letter number i + secret + seed)) *)
Definition S3_byte (Hs : hashes) (secret seed : list Z) (j : nat) : Z :=
  let i := (j / 16)%nat in
  nth (j mod 16) (MD5 Hs (secret ++ SHA1 Hs (repeat (65 + Z.of_nat i) (i + 1) ++ secret ++ seed))) 0.

(** Protocol versions and the PRF of each: first n bytes of PRF(secret, label, seed). *)
Inductive version := SSL30 | TLS10 | TLS11 | TLS12 (sha384 : bool) | GMSSL.
Definition PRF (Hs : hashes) (v : version) (n : nat) (secret label seed : list Z) : list Z :=
  match v with
  | SSL30 => map (S3_byte Hs secret seed) (seq 0 n)
  | TLS10 | TLS11 =>
      let s1 := firstn ((length secret + 1) / 2) secret in       (* first and last half, sharing the middle byte *)
      let s2 := skipn (length secret / 2) secret in
      xorl (P_hash (hmac (MD5 Hs) 64 s1) 16 (label ++ seed) n) (P_hash (hmac (SHA1 Hs) 64 s2) 20 (label ++ seed) n)
  | TLS12 false => P_hash (hmac (SHA256 Hs) 64 secret) 32 (label ++ seed) n
  | TLS12 true => P_hash (hmac (SHA384 Hs) 128 secret) 48 (label ++ seed) n
  | GMSSL => P_hash (hmac sm3 64 secret) 32 (label ++ seed) n
  end.

(** The hash of a transcript that goes into the Finished messages (TLS), and the Finished value itself. *)
Definition transcript_hash (Hs : hashes) (v : version) (t : list Z) : list Z :=
  match v with
  | GMSSL => sm3 t
  | TLS12 false => SHA256 Hs t
  | TLS12 true => SHA384 Hs t
  | _ => MD5 Hs t ++ SHA1 Hs t
  end.
Definition ssl3_verify (Hs : hashes) (t magic secret : list Z) : list Z :=
  MD5 Hs (secret ++ repeat 0x5c 48 ++ MD5 Hs (t ++ magic ++ secret ++ repeat 0x36 48)) ++
  SHA1 Hs (secret ++ repeat 0x5c 40 ++ SHA1 Hs (t ++ magic ++ secret ++ repeat 0x36 40)).
(** labels *)
Definition ascii_master_secret := [0x6d;0x61;0x73;0x74;0x65;0x72;0x20;0x73;0x65;0x63;0x72;0x65;0x74].
Definition ascii_key_expansion := [0x6b;0x65;0x79;0x20;0x65;0x78;0x70;0x61;0x6e;0x73;0x69;0x6f;0x6e].
Definition ascii_client_finished := [0x63;0x6c;0x69;0x65;0x6e;0x74;0x20;0x66;0x69;0x6e;0x69;0x73;0x68;0x65;0x64].
Definition ascii_server_finished := [0x73;0x65;0x72;0x76;0x65;0x72;0x20;0x66;0x69;0x6e;0x69;0x73;0x68;0x65;0x64].
Definition client_finished (Hs : hashes) (v : version) (secret t : list Z) : list Z :=
  match v with
  | SSL30 => ssl3_verify Hs t [0x43; 0x4c; 0x4e; 0x54] secret
  | _ => PRF Hs v 12 secret ascii_client_finished (transcript_hash Hs v t)
  end.
Definition server_finished (Hs : hashes) (v : version) (secret t : list Z) : list Z :=
  match v with
  | SSL30 => ssl3_verify Hs t [0x53; 0x52; 0x56; 0x52] secret
  | _ => PRF Hs v 12 secret ascii_server_finished (transcript_hash Hs v t)
  end.
(** RFC 5705: the seed of an exporter; an absent context differs from an empty one. *)
Definition exporter_seed (client_random server_random : list Z) (context : option (list Z)) : list Z :=
  client_random ++ server_random ++ match context with None => [] | Some c => be_bytes 2 (zlen c) ++ c end.
(** RFC 5246 6.3: the key block is cut into these six parts, in this order. *)
Record keys := mkKeys { client_mac : list Z; server_mac : list Z; client_key : list Z; server_key : list Z; client_iv : list Z; server_iv : list Z }.
Definition cuts (macLen keyLen ivLen : nat) (k : keys) (block : list Z) : Prop :=
  block = client_mac k ++ server_mac k ++ client_key k ++ server_key k ++ client_iv k ++ server_iv k /\
  length (client_mac k) = macLen /\ length (server_mac k) = macLen /\ length (client_key k) = keyLen /\ length (server_key k) = keyLen /\
  length (client_iv k) = ivLen /\ length (server_iv k) = ivLen.

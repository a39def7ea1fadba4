(** Property theorems for package sm4 (C05-C11). *)
From Verif Require Import GoBase GoLemmas SM4_spec SM4_model SM4_proofs SM4_modes.
Open Scope Z_scope.
Ltac Zify.zify_post_hook ::= Z.div_mod_to_equations.
#[local] Opaque sm4_enc sm4_dec round_keys ecb_enc cbc_enc.

(** C05: block encryption/decryption is GB/T 32907 SM4: the first 16 bytes of [dst] become the SM4 image of the
    first 16 bytes of [src], the rest of [dst] is unchanged. *)
Theorem C05_block_is_SM4 : forall key dst src c,
  bytes key -> bytes src -> (16 <= length dst)%nat -> (16 <= length src)%nat -> length key = 16%nat ->
  NewCipher key = Ok c ->
  Encrypt c dst src = Ok (sm4_enc key src ++ skipn 16 dst) /\
  Decrypt c dst src = Ok (sm4_dec key src ++ skipn 16 dst).
Proof.
  intros key dst src c Hk Hs Hd Hls Hl Hc. split.
  - rewrite (Encrypt_spec key dst src c) by auto. rewrite firstn_all2 by (rewrite sm4_enc_length; lia). reflexivity.
  - rewrite (Decrypt_spec key dst src c) by auto. rewrite firstn_all2 by (rewrite sm4_dec_length; lia). reflexivity.
Qed.
Print Assumptions C05_block_is_SM4.
(** the hypotheses are met by every 16-byte key *)
Theorem C05_hyps : forall key, bytes key -> length key = 16%nat -> exists c, NewCipher key = Ok c.
Proof. intros key Hk Hl. exists (round_keys key). now apply NewCipher_ok. Qed.
Example C05_example : (do c <- NewCipher (be_bytes 16 0x0123456789abcdeffedcba9876543210);
   Encrypt c (zeros 16) (be_bytes 16 0x0123456789abcdeffedcba9876543210))
  = Ok (be_bytes 16 0x681edf34d206965e86b3e94f536e4246).
Proof. vm_compute. reflexivity. Qed.

(** C06: Decrypt inverts Encrypt and vice versa. *)
Theorem C06_decrypt_inverts_encrypt : forall key b c,
  bytes key -> bytes b -> length b = 16%nat -> NewCipher key = Ok c ->
  (do e <- Encrypt c (zeros 16) b; Decrypt c (zeros 16) e) = Ok b /\
  (do d <- Decrypt c (zeros 16) b; Encrypt c (zeros 16) d) = Ok b.
Proof.
  intros key b c Hk Hb Hl Hc.
  assert (Hlk : length key = 16%nat).
  { destruct (Nat.eq_dec (length key) 16); auto. rewrite NewCipher_bad in Hc by auto. discriminate. }
  rewrite NewCipher_ok in Hc by auto. injection Hc as <-.
  rewrite Encrypt16, Decrypt16 by (auto; lia). cbn [rbind].
  rewrite Decrypt16; [|apply sm4_enc_bytes|rewrite sm4_enc_length; lia].
  rewrite Encrypt16; [|apply sm4_dec_bytes|rewrite sm4_dec_length; lia].
  now rewrite sm4_dec_enc, sm4_enc_dec.
Qed.
Print Assumptions C06_decrypt_inverts_encrypt.

(** C07: exactly the 16-byte keys are accepted, in all three entry points and both modes; the error carries the length. *)
Theorem C07_key_size : forall key inp m, bytes key -> bytes inp ->
  (length key = 16%nat ->
     (exists c, NewCipher key = Ok c) /\ (forall e, Sm4Ecb key inp m <> Err e) /\ (forall e, Sm4Cbc key inp m <> Err e)) /\
  (length key <> 16%nat ->
     NewCipher key = Err (KeySizeError (zlen key)) /\
     Sm4Ecb key inp m = Err (KeySizeError (zlen key)) /\
     Sm4Cbc key inp m = Err (KeySizeError (zlen key))).
Proof.
  intros key inp m Hk Hi. split; intros Hl.
  - split; [exists (round_keys key); now apply NewCipher_ok|].
    destruct m.
    + rewrite ecb_enc_eq, cbc_enc_eq by auto. split; discriminate.
    + destruct (list_eq_dec Z.eq_dec inp []) as [->|Hne].
      * rewrite ecb_dec_empty, cbc_dec_empty by auto. split; discriminate.
      * destruct (ecb_outcome key Hk Hl inp Hi Hne) as [(?&?&?&->)|(?&->)];
        destruct (cbc_outcome key Hk Hl inp Hi Hne) as [(?&?&?&->)|(?&->)]; split; discriminate.
  - rewrite NewCipher_bad by auto. unfold Sm4Ecb, Sm4Cbc. apply Nat.eqb_neq in Hl. rewrite Hl. auto.
Qed.
Print Assumptions C07_key_size.

(** C08: ECB is the blockwise encryption of the PKCS#7-padded message, has the right length and round-trips. *)
Theorem C08_ecb_round_trip : forall key m, bytes key -> length key = 16%nat -> bytes m ->
  exists c, Sm4Ecb key m ENC = Ok (Some c) /\ c = ecb_enc key m /\ zlen c = 16 * (zlen m / 16 + 1) /\
            Sm4Ecb key c DEC = Ok (Some m).
Proof.
  intros key m Hk Hl Hm. exists (ecb_enc key m).
  split; [now apply ecb_enc_eq|]. split; [reflexivity|]. split; [|now apply ecb_round_trip].
  unfold zlen. rewrite ecb_enc_length by auto. apply pkcs7_length.
Qed.
Print Assumptions C08_ecb_round_trip.

(** C09: CBC with the zero IV, round-trips. *)
Theorem C09_cbc_round_trip : forall key m, bytes key -> length key = 16%nat -> bytes m ->
  exists c, Sm4Cbc key m ENC = Ok (Some c) /\ c = cbc_enc key m /\ zlen c = 16 * (zlen m / 16 + 1) /\
            Sm4Cbc key c DEC = Ok (Some m).
Proof.
  intros key m Hk Hl Hm. exists (cbc_enc key m).
  split; [now apply cbc_enc_eq|]. split; [reflexivity|]. split; [|now apply cbc_round_trip].
  unfold zlen. rewrite cbc_enc_length by auto. apply pkcs7_length.
Qed.
Print Assumptions C09_cbc_round_trip.
Example C08_C09_hyps : bytes (zeros 16) /\ length (zeros 16) = 16%nat /\ bytes [1;2;3;255].
Proof. split; [apply bytes_zeros|]. split; [reflexivity|]. repeat constructor; cbv; congruence. Qed.

(** C10 is FALSE of the code: for every key, malformed ciphertext is decrypted to (nil, nil) - no error - and
    the empty ciphertext crashes. *)
Theorem C10_malformed_reported_refuted : forall key, bytes key -> length key = 16%nat ->
  (exists c, bytes c /\ c <> [] /\ (forall m, bytes m -> Sm4Ecb key m ENC <> Ok (Some c)) /\ Sm4Ecb key c DEC = Ok None) /\
  (exists c, bytes c /\ c <> [] /\ (forall m, bytes m -> Sm4Cbc key m ENC <> Ok (Some c)) /\ Sm4Cbc key c DEC = Ok None) /\
  Sm4Ecb key [] DEC = Panic /\ Sm4Cbc key [] DEC = Panic.
Proof.
  intros key Hk Hl. assert (H5 : bytes [5]) by (repeat constructor; cbv; congruence).
  split; [|split; [|split; [now apply ecb_dec_empty|now apply cbc_dec_empty]]]; exists [5]; split; auto; (split; [discriminate|]).
  - split.
    + intros m Hm. rewrite ecb_enc_eq by auto. intros E. injection E as E. apply (f_equal (@length Z)) in E.
      rewrite ecb_enc_length in E by auto. pose proof (pkcs7_length m). rewrite E in H. cbn [length Z.of_nat] in H. pose proof (zlen_nonneg m). lia.
    + destruct (ecb_outcome key Hk Hl [5] H5 ltac:(discriminate)) as [(m&Hm&E&_)|(_&E)]; [|exact E].
      apply (f_equal (@length Z)) in E. rewrite ecb_enc_length in E by auto. pose proof (pkcs7_length m). rewrite E in H. cbn [length Z.of_nat] in H. pose proof (zlen_nonneg m). lia.
  - split.
    + intros m Hm. rewrite cbc_enc_eq by auto. intros E. injection E as E. apply (f_equal (@length Z)) in E.
      rewrite cbc_enc_length in E by auto. pose proof (pkcs7_length m). rewrite E in H. cbn [length Z.of_nat] in H. pose proof (zlen_nonneg m). lia.
    + destruct (cbc_outcome key Hk Hl [5] H5 ltac:(discriminate)) as [(m&Hm&E&_)|(_&E)]; [|exact E].
      apply (f_equal (@length Z)) in E. rewrite cbc_enc_length in E by auto. pose proof (pkcs7_length m). rewrite E in H. cbn [length Z.of_nat] in H. pose proof (zlen_nonneg m). lia.
Qed.
Print Assumptions C10_malformed_reported_refuted.
(** What does hold: on every nonempty input the result is either the unique message whose encryption the input is,
    or (nil, nil); it never panics and never returns any other data. *)
Theorem C10_decrypt_outcome_partial : forall key c, bytes key -> length key = 16%nat -> bytes c -> c <> [] ->
  ((exists m, bytes m /\ Sm4Ecb key m ENC = Ok (Some c) /\ Sm4Ecb key c DEC = Ok (Some m)) \/
   ((forall m, bytes m -> Sm4Ecb key m ENC <> Ok (Some c)) /\ Sm4Ecb key c DEC = Ok None)) /\
  ((exists m, bytes m /\ Sm4Cbc key m ENC = Ok (Some c) /\ Sm4Cbc key c DEC = Ok (Some m)) \/
   ((forall m, bytes m -> Sm4Cbc key m ENC <> Ok (Some c)) /\ Sm4Cbc key c DEC = Ok None)).
Proof.
  intros key c Hk Hl Hc Hne. split.
  - destruct (ecb_outcome key Hk Hl c Hc Hne) as [(m&Hm&E&D)|(N&D)]; [left; exists m|right].
    + rewrite ecb_enc_eq by auto. rewrite E. auto.
    + split; auto. intros m Hm. rewrite ecb_enc_eq by auto. intros E. injection E as E. now apply (N m).
  - destruct (cbc_outcome key Hk Hl c Hc Hne) as [(m&Hm&E&D)|(N&D)]; [left; exists m|right].
    + rewrite cbc_enc_eq by auto. rewrite E. auto.
    + split; auto. intros m Hm. rewrite cbc_enc_eq by auto. intros E. injection E as E. now apply (N m).
Qed.
Print Assumptions C10_decrypt_outcome_partial.

(** C11 is FALSE of the code: with enough spare capacity, encryption overwrites the bytes after the slice. *)
Theorem C11_caller_memory_refuted : exists arr off len, bytes arr /\ (off + len <= length arr)%nat /\
  helper_effect arr off len ENC <> arr.
Proof. exists (repeat 7 20), 0%nat, 3%nat. split; [apply bytes_repeat; red; lia|]. split; [cbn; lia|]. vm_compute. discriminate. Qed.
Print Assumptions C11_caller_memory_refuted.
(** What does hold: the bytes up to the end of the slice are never changed; decryption changes nothing; and nothing
    changes when the spare capacity is smaller than the padding. *)
Theorem C11_caller_memory_partial : forall arr off len, (off + len <= length arr)%nat ->
  (forall m, firstn (off + len) (helper_effect arr off len m) = firstn (off + len) arr) /\
  helper_effect arr off len DEC = arr /\
  ((length arr - (off + len) < 16 - len mod 16)%nat -> helper_effect arr off len ENC = arr).
Proof.
  intros arr off len H. split; [intros m; now apply helper_effect_within|]. split; [reflexivity|].
  intros H1. apply helper_effect_nospare. lia.
Qed.
Print Assumptions C11_caller_memory_partial.

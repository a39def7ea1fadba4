(** HMAC (RFC 2104; crypto/hmac of the standard library) over a hash with block size B, and HMAC-SM3. *)
From Verif Require Import GoBase GoLemmas SM3_spec SM3_proofs.
Open Scope Z_scope.

Definition hmac_key (H : list Z -> list Z) (B : nat) (key : list Z) : list Z :=
  let k := if (B <? length key)%nat then H key else key in k ++ zeros (B - length k).
Definition hmac (H : list Z -> list Z) (B : nat) (key m : list Z) : list Z :=
  let k := hmac_key H B key in H (map (Z.lxor 0x5c) k ++ H (map (Z.lxor 0x36) k ++ m)).
Lemma bytes_zeros n : bytes (zeros n).
Proof. unfold bytes, zeros. apply Forall_forall. intros x Hx. apply repeat_spec in Hx. subst. unfold is_byte. lia. Qed.
Lemma byte_lxor a b : is_byte a -> is_byte b -> is_byte (Z.lxor a b).
Proof.
  intros Ha Hb. pose proof (xorl_bytes [a] [b]) as X. cbn in X. apply bytes_cons with (l := []). apply X; apply bytes_cons; (split; [assumption|constructor]).
Qed.
Lemma bytes_map_lxor v l : is_byte v -> bytes l -> bytes (map (Z.lxor v) l).
Proof. intros Hv Hl. unfold bytes in *. rewrite Forall_forall in *. intros x Hx. apply in_map_iff in Hx as (y & <- & Hy). apply byte_lxor; auto. Qed.
(** HMAC-SM3 has 32 bytes *)
Lemma hmac_sm3_length key m : bytes key -> bytes m -> length (hmac sm3 64 key m) = 32%nat /\ bytes (hmac sm3 64 key m).
Proof.
  intros Hk Hm. unfold hmac. set (k := hmac_key sm3 64 key).
  assert (Bk : bytes k). { unfold k, hmac_key. apply bytes_app. split; [|apply bytes_zeros]. destruct (64 <? length key)%nat; [now apply sm3_length|exact Hk]. }
  apply sm3_length. apply bytes_app. split; [apply bytes_map_lxor; [unfold is_byte; lia|exact Bk]|].
  apply sm3_length. apply bytes_app. split; [apply bytes_map_lxor; [unfold is_byte; lia|exact Bk]|exact Hm].
Qed.

(** math/big byte conversions (standard library contracts, not part of /repo):
    [Bytes z] is [z.Bytes()]: the minimal big-endian encoding of |z|; [SetBytes] is [be_val] of GoBase. *)
From Verif Require Import GoBase GoLemmas.
Open Scope Z_scope.

Definition nbytes (z : Z) : nat := if z =? 0 then 0%nat else Z.to_nat (Z.log2 (Z.abs z) / 8 + 1).
Definition Bytes (z : Z) : list Z := be_bytes (nbytes z) (Z.abs z).
(** "if n := len(b); n < 32 { b = append(padding[:32-n], b...) }" *)
Definition pad32 (b : list Z) : list Z := zeros (32 - length b) ++ b.

Lemma nbytes_bound z : Z.abs z < 256 ^ Z.of_nat (nbytes z).
Proof.
  unfold nbytes. destruct (Z.eqb_spec z 0) as [->|Hz]; [reflexivity|].
  pose proof (Z.log2_nonneg (Z.abs z)).
  assert (Hp : 0 <= Z.log2 (Z.abs z) / 8) by (apply Z.div_pos; lia).
  rewrite Z2Nat.id by lia.
  replace 256 with (2 ^ 8) by reflexivity. rewrite <- Z.pow_mul_r by lia.
  assert (Hl : Z.abs z < 2 ^ (Z.succ (Z.log2 (Z.abs z)))) by (apply Z.log2_spec; lia).
  eapply Z.lt_le_trans; [exact Hl|]. apply Z.pow_le_mono_r; [lia|].
  pose proof (Z.div_mod (Z.log2 (Z.abs z)) 8 ltac:(lia)). pose proof (Z.mod_pos_bound (Z.log2 (Z.abs z)) 8 ltac:(lia)). lia.
Qed.
Lemma nbytes_le z k : Z.abs z < 256 ^ Z.of_nat k -> (nbytes z <= k)%nat.
Proof.
  intros H. unfold nbytes. destruct (Z.eqb_spec z 0) as [->|Hz]; [lia|].
  destruct k as [|k].
  { cbn in H. lia. }
  pose proof (Z.log2_nonneg (Z.abs z)).
  assert (Hl : Z.log2 (Z.abs z) < 8 * Z.of_nat (S k)).
  { apply Z.log2_lt_pow2; [lia|]. rewrite Z.pow_mul_r by lia. exact H. }
  assert (Z.log2 (Z.abs z) / 8 < Z.of_nat (S k)) by (apply Z.div_lt_upper_bound; lia). lia.
Qed.
Lemma Bytes_bytes z : bytes (Bytes z). Proof. apply be_bytes_bytes. Qed.
Lemma Bytes_length z : length (Bytes z) = nbytes z. Proof. apply be_bytes_length. Qed.
Lemma be_val_Bytes z : 0 <= z -> be_val (Bytes z) = z.
Proof. intros H. unfold Bytes. pose proof (nbytes_bound z). rewrite Z.abs_eq in * by lia. apply be_val_be_bytes_small. lia. Qed.
Lemma be_bytes_pad n k z : (n <= k)%nat -> 0 <= z < 256 ^ Z.of_nat n -> be_bytes k z = zeros (k - n) ++ be_bytes n z.
Proof.
  intros H Hz. apply be_val_inj.
  - apply be_bytes_bytes.
  - apply bytes_app; split; [apply bytes_zeros|apply be_bytes_bytes].
  - rewrite app_length, !be_bytes_length, zeros_length. lia.
  - rewrite be_val_zeros, (be_val_be_bytes_small n z) by lia. apply be_val_be_bytes_small.
    split; [lia|]. eapply Z.lt_le_trans; [apply Hz|]. apply Z.pow_le_mono_r; lia.
Qed.
Lemma pad32_Bytes z : 0 <= z < 2 ^ 256 -> pad32 (Bytes z) = be_bytes 32 z.
Proof.
  intros H. assert (Hn : (nbytes z <= 32)%nat) by (apply nbytes_le; rewrite Z.abs_eq by lia; exact (proj2 H)).
  unfold pad32. rewrite Bytes_length. unfold Bytes. rewrite Z.abs_eq by lia.
  symmetry. apply be_bytes_pad; auto. pose proof (nbytes_bound z). rewrite Z.abs_eq in * by lia. lia.
Qed.
Lemma Bytes_0 : Bytes 0 = []. Proof. reflexivity. Qed.
Lemma Bytes_head z : z <> 0 -> exists h t, Bytes z = h :: t /\ h <> 0.
Proof.
  intros Hz. destruct (Bytes z) as [|h t] eqn:E.
  - pose proof (be_val_Bytes (Z.abs z) ltac:(lia)) as Hb. unfold Bytes, nbytes in *.
    destruct (Z.eqb_spec z 0); [contradiction|]. destruct (Z.eqb_spec (Z.abs z) 0); [lia|].
    rewrite Z.abs_involutive in Hb. rewrite E in Hb. cbn in Hb. lia.
  - exists h, t. split; auto. intros ->.
    assert (Hv : be_val (Bytes (Z.abs z)) = Z.abs z) by (apply be_val_Bytes; lia).
    assert (E2 : Bytes (Z.abs z) = 0 :: t).
    { rewrite <- E. unfold Bytes, nbytes. rewrite Z.abs_involutive. destruct (Z.eqb_spec z 0), (Z.eqb_spec (Z.abs z) 0); lia || auto. }
    rewrite E2, be_val_cons in Hv.
    assert (Hb : bytes t). { pose proof (Bytes_bytes z) as Hb. rewrite E in Hb. now apply bytes_cons in Hb. }
    pose proof (be_val_bound t Hb). assert (Hlt : Z.abs z < 256 ^ Z.of_nat (length t)) by (unfold zlen in *; lia).
    apply nbytes_le in Hlt. rewrite <- Bytes_length, E in Hlt. cbn in Hlt. lia.
Qed.

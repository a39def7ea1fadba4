(** crypto/cipher CBC mode (standard library; used by x509/pem_decrypt.go and tls/conn.go) over an arbitrary block cipher
    with block size [bs], and its round trip. NewCBC*crypter panics on an IV of the wrong length, CryptBlocks on a partial block. *)
From Verif Require Import GoBase GoLemmas.
Open Scope Z_scope.

Section CBC.
Variable bs : nat.
Variable E D : list Z -> list Z.
Fixpoint cbc_e (iv : list Z) (ps : list (list Z)) : list Z :=
  match ps with [] => [] | p :: r => let c := E (xorl p iv) in c ++ cbc_e c r end.
Fixpoint cbc_d (iv : list Z) (cs : list (list Z)) : list Z :=
  match cs with [] => [] | c :: r => xorl (D c) iv ++ cbc_d c r end.
Definition CBCEncrypt (iv data : list Z) : res (list Z) :=
  if negb (length iv =? bs)%nat then Panic
  else if negb (length data mod bs =? 0)%nat then Panic else Ok (cbc_e iv (chunks bs data)).
Definition CBCDecrypt (iv data : list Z) : res (list Z) :=
  if negb (length iv =? bs)%nat then Panic
  else if negb (length data mod bs =? 0)%nat then Panic else Ok (cbc_d iv (chunks bs data)).
(** what the round trip needs of the block cipher *)
Record block_ok : Prop := {
  bo_pos : (0 < bs)%nat;
  bo_len : forall x, bytes x -> length x = bs -> length (E x) = bs /\ bytes (E x);
  bo_inv : forall x, bytes x -> length x = bs -> D (E x) = x }.
Lemma mod0_decomp n : (0 < bs)%nat -> (n mod bs = 0)%nat -> n = (bs * (n / bs))%nat.
Proof. intros H H0. rewrite (Nat.div_mod n bs) at 1 by lia. lia. Qed.
Lemma cbc_round n (OK : block_ok) : forall iv data, bytes iv -> length iv = bs -> bytes data -> length data = (bs * n)%nat ->
  length (cbc_e iv (chunks bs data)) = (bs * n)%nat /\ bytes (cbc_e iv (chunks bs data)) /\
  cbc_d iv (chunks bs (cbc_e iv (chunks bs data))) = data.
Proof.
  pose proof (bo_pos OK) as Hp. induction n as [|n IH]; intros iv data Hiv Hil Hd Hl.
  - rewrite Nat.mul_0_r in *. destruct data; [|discriminate]. rewrite chunks_nil. split; [reflexivity|]. split; [constructor|reflexivity].
  - assert (Hne : data <> []) by (intros ->; cbn in Hl; destruct bs; lia).
    rewrite (chunks_step bs data Hp Hne). cbn [cbc_e].
    set (p := firstn bs data). set (rest := skipn bs data).
    assert (Lp : length p = bs) by (unfold p; rewrite firstn_length; lia).
    assert (Bp : bytes p) by (now apply bytes_firstn).
    assert (Lr : length rest = (bs * n)%nat) by (unfold rest; rewrite skipn_length; lia).
    assert (Br : bytes rest) by (now apply bytes_skipn).
    assert (Lx : length (xorl p iv) = bs) by (rewrite xorl_length; lia).
    assert (Bx : bytes (xorl p iv)) by (now apply xorl_bytes).
    destruct (bo_len OK _ Bx Lx) as [Lc Bc]. set (c := E (xorl p iv)) in *.
    destruct (IH c rest Bc Lc Br Lr) as (I1 & I2 & I3). split; [rewrite app_length; lia|]. split; [now apply bytes_app|].
    rewrite chunks_app by assumption. cbn [cbc_d]. rewrite I3. unfold c. rewrite (bo_inv OK) by assumption. rewrite xorl_involutive by lia.
    unfold p, rest. apply firstn_skipn.
Qed.
Lemma cbc_round_trip (OK : block_ok) iv data : bytes iv -> length iv = bs -> bytes data -> (length data mod bs = 0)%nat ->
  exists c, CBCEncrypt iv data = Ok c /\ length c = length data /\ bytes c /\ CBCDecrypt iv c = Ok data.
Proof.
  intros Hiv Hil Hd Hl. pose proof (bo_pos OK) as Hp. pose proof (mod0_decomp _ Hp Hl) as E1.
  destruct (cbc_round (length data / bs) OK iv data Hiv Hil Hd E1) as (I1 & I2 & I3). rewrite <- E1 in I1.
  exists (cbc_e iv (chunks bs data)). unfold CBCEncrypt, CBCDecrypt. rewrite Hil, Nat.eqb_refl, Hl, I1, Hl, I3. cbn. auto.
Qed.
Lemma cbc_d_length n : (0 < bs)%nat -> forall iv data, length iv = bs -> (forall x, length x = bs -> length (D x) = bs) -> length data = (bs * n)%nat -> length (cbc_d iv (chunks bs data)) = (bs * n)%nat.
Proof.
  intros Hp. induction n as [|n IH]; intros iv data Hil HD Hl.
  - rewrite Nat.mul_0_r in *. destruct data; [|discriminate]. now rewrite chunks_nil.
  - assert (Hne : data <> []) by (intros ->; cbn in Hl; destruct bs; lia).
    rewrite (chunks_step bs data Hp Hne). cbn [cbc_d]. rewrite app_length, xorl_length.
    assert (Lp : length (firstn bs data) = bs) by (rewrite firstn_length; lia). rewrite HD by exact Lp.
    rewrite IH; [lia|exact Lp|exact HD|rewrite skipn_length; lia].
Qed.
End CBC.

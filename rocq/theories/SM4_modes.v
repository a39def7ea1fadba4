(** Proofs about the helpers Sm4Ecb / Sm4Cbc of package sm4. *)
From Verif Require Import GoBase GoLemmas Words SM4_spec SM4_tables SM4_model SM4_proofs.
Open Scope Z_scope.
Ltac Zify.zify_post_hook ::= Z.div_mod_to_equations.
#[local] Opaque round_keys crypt.

Lemma Encrypt_spec key dst src c : bytes key -> bytes src -> length key = 16%nat -> (16 <= length src)%nat ->
  NewCipher key = Ok c -> Encrypt c dst src = Ok (firstn (length dst) (sm4_enc key src) ++ skipn 16 dst).
Proof.
  intros Hk Hs Hlk Hls Hc. rewrite NewCipher_ok in Hc by auto. injection Hc as <-.
  unfold Encrypt. now rewrite cryptBlock_spec by (auto; apply round_keys_length).
Qed.
Lemma Decrypt_spec key dst src c : bytes key -> bytes src -> length key = 16%nat -> (16 <= length src)%nat ->
  NewCipher key = Ok c -> Decrypt c dst src = Ok (firstn (length dst) (sm4_dec key src) ++ skipn 16 dst).
Proof.
  intros Hk Hs Hlk Hls Hc. rewrite NewCipher_ok in Hc by auto. injection Hc as <-.
  unfold Decrypt. now rewrite cryptBlock_spec by (auto; apply round_keys_length).
Qed.
Lemma sm4_enc_length k b : length (sm4_enc k b) = 16%nat. Proof. apply crypt_length. Qed.
Lemma sm4_dec_length k b : length (sm4_dec k b) = 16%nat. Proof. apply crypt_length. Qed.
Lemma sm4_enc_bytes k b : bytes (sm4_enc k b). Proof. apply crypt_bytes. Qed.
Lemma sm4_dec_bytes k b : bytes (sm4_dec k b). Proof. apply crypt_bytes. Qed.
Lemma sm4_dec_enc k b : bytes b -> length b = 16%nat -> sm4_dec k (sm4_enc k b) = b.
Proof. apply crypt_inv. Qed.
Lemma sm4_enc_dec k b : bytes b -> length b = 16%nat -> sm4_enc k (sm4_dec k b) = b.
Proof. intros Hb Hl. unfold sm4_enc, sm4_dec. rewrite <- (rev_involutive (round_keys k)) at 1. now apply crypt_inv. Qed.

Lemma Encrypt16 key src : bytes src -> (16 <= length src)%nat ->
  Encrypt (round_keys key) (zeros 16) src = Ok (sm4_enc key src).
Proof.
  intros. unfold Encrypt. rewrite cryptBlock_spec by (auto; apply round_keys_length).
  rewrite zeros_length, firstn_all2 by (rewrite crypt_length; lia). cbn [zeros skipn repeat]. now rewrite app_nil_r.
Qed.
Lemma Decrypt16 key src : bytes src -> (16 <= length src)%nat ->
  Decrypt (round_keys key) (zeros 16) src = Ok (sm4_dec key src).
Proof.
  intros. unfold Decrypt. rewrite cryptBlock_spec by (auto; apply round_keys_length).
  rewrite zeros_length, firstn_all2 by (rewrite crypt_length; lia). cbn [zeros skipn repeat]. now rewrite app_nil_r.
Qed.

(** Generic chained map over whole blocks; bytes after the last whole block are zero. *)
Fixpoint bmap (h : list Z -> list Z -> list Z * list Z) (iv : list Z) (n : nat) (rest : list Z) : list Z :=
  match n with
  | O => zeros (length rest)
  | Datatypes.S n' => let '(o, iv') := h iv (firstn 16 rest) in o ++ bmap h iv' n' (skipn 16 rest)
  end.

Lemma get_block_at pre rest i : length pre = (i * 16)%nat -> get_block (pre ++ rest) i = firstn 16 rest.
Proof. intros H. unfold get_block. now rewrite skipn_app_l. Qed.
Lemma skipn_zeros a b : skipn a (zeros b) = zeros (b - a).
Proof. unfold zeros. revert b; induction a; intros [|b]; cbn; auto. Qed.
Lemma put_block_at done k i blk : length done = (i * 16)%nat -> put_block (done ++ zeros k) i blk = (done ++ blk) ++ zeros (k - 16).
Proof.
  intros H. unfold put_block. rewrite firstn_app_l by auto.
  rewrite <- skipn_skipn, skipn_app_l by auto. rewrite skipn_zeros. now rewrite app_assoc.
Qed.

Lemma ecb_loop_spec f g n : forall i pre rest done,
  (forall b, bytes b -> length b = 16%nat -> f (zeros 16) b = Ok (g b)) -> (forall b, length (g b) = 16%nat) ->
  length pre = (i * 16)%nat -> length done = (i * 16)%nat -> bytes rest -> (16 * n <= length rest)%nat ->
  ecb_loop f (pre ++ rest) (seq i n) (done ++ zeros (length rest)) = Ok (done ++ bmap (fun iv b => (g b, iv)) [] n rest).
Proof.
  induction n as [|n IH]; intros i pre rest done Hf Hg Hp Hd Hb Hl; cbn [seq ecb_loop bmap]; [reflexivity|].
  rewrite get_block_at by auto. rewrite Hf; [|bts|rewrite firstn_length; lia]. cbn [rbind].
  rewrite put_block_at by auto.
  replace (length rest - 16)%nat with (length (skipn 16 rest)) by apply skipn_length.
  rewrite <- (firstn_skipn 16 rest) at 1. rewrite app_assoc.
  rewrite IH; auto; try (rewrite app_length, ?Hg, ?firstn_length; lia); bts.
  - now rewrite <- app_assoc.
  - rewrite skipn_length; lia.
Qed.
Definition h_cbc_enc key (iv b : list Z) := let c := sm4_enc key (xorl b iv) in (c, c).
Definition h_cbc_dec key (iv b : list Z) := (xorl (sm4_dec key b) iv, b).
Lemma cbc_enc_loop_spec key n : forall i iv pre rest done,
  bytes iv -> length iv = 16%nat ->
  length pre = (i * 16)%nat -> length done = (i * 16)%nat -> bytes rest -> (16 * n <= length rest)%nat ->
  cbc_enc_loop (round_keys key) (pre ++ rest) (seq i n) iv (done ++ zeros (length rest)) = Ok (done ++ bmap (h_cbc_enc key) iv n rest).
Proof.
  induction n as [|n IH]; intros i iv pre rest done Hi Hil Hp Hd Hb Hl; cbn [seq cbc_enc_loop bmap]; [reflexivity|].
  rewrite get_block_at by auto. unfold xor_. rewrite Hil, firstn_length, Nat.min_l by lia.
  rewrite Nat.eqb_refl.
  rewrite Encrypt16; [|apply xorl_bytes; bts|rewrite xorl_length, firstn_length; lia]. cbn [rbind].
  rewrite put_block_at by auto.
  replace (length rest - 16)%nat with (length (skipn 16 rest)) by apply skipn_length.
  rewrite <- (firstn_skipn 16 rest) at 1. rewrite app_assoc.
  rewrite IH; auto; try (rewrite app_length, ?sm4_enc_length, ?firstn_length; lia); bts.
  - unfold h_cbc_enc at 2. now rewrite <- app_assoc.
  - apply sm4_enc_bytes.
  - rewrite skipn_length; lia.
Qed.
Lemma cbc_dec_loop_spec key n : forall i iv pre rest done,
  bytes iv -> length iv = 16%nat ->
  length pre = (i * 16)%nat -> length done = (i * 16)%nat -> bytes rest -> (16 * n <= length rest)%nat ->
  cbc_dec_loop (round_keys key) (pre ++ rest) (seq i n) iv (done ++ zeros (length rest)) = Ok (done ++ bmap (h_cbc_dec key) iv n rest).
Proof.
  induction n as [|n IH]; intros i iv pre rest done Hi Hil Hp Hd Hb Hl; cbn [seq cbc_dec_loop bmap]; [reflexivity|].
  rewrite get_block_at by auto. 
  rewrite Decrypt16; [|bts|rewrite firstn_length; lia]. cbn [rbind].
  unfold xor_. rewrite Hil, sm4_dec_length. rewrite Nat.eqb_refl.
  rewrite put_block_at by auto.
  replace (length rest - 16)%nat with (length (skipn 16 rest)) by apply skipn_length.
  rewrite <- (firstn_skipn 16 rest) at 1. rewrite app_assoc.
  rewrite IH; auto; try (rewrite app_length, ?xorl_length, ?sm4_dec_length, ?firstn_length; lia); bts.
  - unfold h_cbc_dec at 2. now rewrite <- app_assoc.
  - rewrite firstn_length; lia.
  - rewrite skipn_length; lia.
Qed.

(** whole blocks: n = number of blocks and nothing left *)
Lemma bmap_bytes h iv n rest : (forall iv b, bytes iv -> bytes b -> bytes (fst (h iv b)) /\ bytes (snd (h iv b))) ->
  bytes iv -> bytes rest -> bytes (bmap h iv n rest).
Proof.
  intros Hh. revert iv rest. induction n as [|n IH]; intros iv rest Hi Hb; cbn [bmap]; [apply bytes_zeros|].
  specialize (Hh iv (firstn 16 rest) Hi (bytes_firstn 16 rest Hb)). destruct (h iv (firstn 16 rest)) as [o iv'].
  cbn in Hh. destruct Hh as [Ho Hi']. apply bytes_app. split; [exact Ho|]. apply IH; bts.
Qed.
Definition len16 (h : list Z -> list Z -> list Z * list Z) :=
  forall iv b, length iv = 16%nat -> length b = 16%nat -> length (fst (h iv b)) = 16%nat /\ length (snd (h iv b)) = 16%nat.
Lemma bmap_length h : len16 h -> forall n iv rest,
  length iv = 16%nat -> (16 * n <= length rest)%nat -> length (bmap h iv n rest) = length rest.
Proof.
  intros Hh. induction n as [|n IH]; intros iv rest Hi Hl; cbn [bmap]; [apply zeros_length|].
  assert (Hf : length (firstn 16 rest) = 16%nat) by (rewrite firstn_length; lia).
  specialize (Hh iv _ Hi Hf). destruct (h iv (firstn 16 rest)) as [o iv']. cbn in Hh. destruct Hh as [Ho Hi'].
  rewrite app_length, Ho, IH by (auto; rewrite skipn_length; lia). rewrite skipn_length; lia.
Qed.

Lemma bmap_inv he hd n : forall iv rest,
  (forall iv b, bytes iv -> length iv = 16%nat -> bytes b -> length b = 16%nat ->
     let '(c, iv1) := he iv b in hd iv c = (b, iv1) /\ length c = 16%nat /\ bytes iv1 /\ length iv1 = 16%nat) ->
  bytes iv -> length iv = 16%nat -> bytes rest -> length rest = (16 * n)%nat ->
  bmap hd iv n (bmap he iv n rest) = rest.
Proof.
  induction n as [|n IH]; intros iv rest H Hi Hil Hb Hl; cbn [bmap].
  - destruct rest; [reflexivity|cbn in Hl; lia].
  - assert (H' := H iv (firstn 16 rest) Hi Hil (bytes_firstn _ _ Hb)).
    rewrite firstn_length, Nat.min_l in H' by lia. specialize (H' eq_refl).
    destruct (he iv (firstn 16 rest)) as [c iv1]. destruct H' as (E & Hc & Hi1 & Hil1).
    rewrite firstn_app_l, skipn_app_l by auto. rewrite E.
    rewrite IH; auto; bts; [|rewrite skipn_length; lia]. apply firstn_skipn.
Qed.

Lemma bmap_ecb_iv g n : forall iv iv' rest, bmap (fun iv b => (g b, iv)) iv n rest = bmap (fun iv b => (g b, iv)) iv' n rest.
Proof. induction n; intros; cbn [bmap]; [reflexivity|]. f_equal. apply IHn. Qed.

Lemma bmap_ecb_spec g n : forall iv rest, length rest = (16 * n)%nat ->
  bmap (fun iv b => (g b, iv)) iv n rest = concat (map g (chunks 16 rest)).
Proof.
  induction n as [|n IH]; intros iv rest Hl; cbn [bmap].
  - destruct rest; [reflexivity|cbn in Hl; lia].
  - assert (rest <> []) by (intros ->; cbn in Hl; lia).
    rewrite chunks_step by (auto; lia). cbn [map concat]. f_equal. apply IH. rewrite skipn_length; lia.
Qed.
Lemma bmap_cbc_spec key n : forall iv rest, length rest = (16 * n)%nat ->
  bmap (h_cbc_enc key) iv n rest = concat (cbc_blocks (sm4_enc key) iv (chunks 16 rest)).
Proof.
  induction n as [|n IH]; intros iv rest Hl; cbn [bmap].
  - destruct rest; [reflexivity|cbn in Hl; lia].
  - assert (rest <> []) by (intros ->; cbn in Hl; lia).
    rewrite chunks_step by (auto; lia). unfold h_cbc_enc at 1. cbn [cbc_blocks concat]. f_equal.
    apply IH. rewrite skipn_length; lia.
Qed.

(** ** padding *)
Lemma pkcs7_eq m : pkcs7Padding m = pkcs7 m.
Proof. unfold pkcs7Padding, pkcs7. unfold u8. rewrite Z.mod_small by (change (2^8) with 256; unfold zlen; lia). reflexivity. Qed.
Lemma pkcs7_length m : Z.of_nat (length (pkcs7 m)) = 16 * (zlen m / 16 + 1).
Proof. unfold pkcs7. rewrite app_length, repeat_length. unfold zlen. lia. Qed.
Lemma pkcs7_bytes m : bytes m -> bytes (pkcs7 m).
Proof. intros H. unfold pkcs7. apply bytes_app. split; auto. apply bytes_repeat. red. unfold zlen. lia. Qed.
Lemma pkcs7_blocks m : length (pkcs7 m) = (16 * (length (pkcs7 m) / 16))%nat.
Proof. pose proof (pkcs7_length m). unfold zlen in *. lia. Qed.

Lemma unpad_pkcs7 m : pkcs7UnPadding (pkcs7 m) = Ok m.
Proof.
  unfold pkcs7UnPadding, pkcs7.
  assert (Hn : 1 <= 16 - zlen m mod 16 <= 16) by (unfold zlen; lia).
  revert Hn. generalize (16 - zlen m mod 16). intros n Hn.
  rewrite rev_app_distr.
  assert (E : rev (repeat n (Z.to_nat n)) = n :: repeat n (Z.to_nat n - 1)).
  { replace (Z.to_nat n) with (Datatypes.S (Z.to_nat n - 1)) at 1 by lia. generalize (Z.to_nat n - 1)%nat.
    intros k. induction k as [|k IHk]; [reflexivity|]. change (repeat n (Datatypes.S (Datatypes.S k))) with (n :: repeat n (Datatypes.S k)). cbn [rev]. rewrite IHk.
    cbn [app]. f_equal. clear. induction k; [reflexivity|]. cbn. now rewrite IHk. }
  rewrite E. cbn [app].
  replace ((n >? 16) || (n =? 0)) with false by lia.
  rewrite zlen_app. unfold zlen at 2. rewrite repeat_length.
  pose proof (zlen_nonneg m).
  destruct (Z.ltb_spec (zlen m + Z.of_nat (Z.to_nat n)) n); [lia|].
  rewrite app_length, repeat_length. replace (length m + Z.to_nat n - Z.to_nat n)%nat with (length m) by lia.
  rewrite skipn_app_l, firstn_app_l by reflexivity.
  rewrite firstn_all2 by (rewrite repeat_length; lia).
  replace (forallb _ _) with true; [reflexivity|]. symmetry. apply forallb_forall. intros x Hx.
  apply repeat_spec in Hx. subst. unfold u8. rewrite Z.mod_small by lia. apply Z.eqb_refl.
Qed.

(** what pkcs7UnPadding accepts is exactly a padded string (when the length is a multiple of 16) *)
Lemma unpad_sound src m : bytes src -> length src = (16 * (length src / 16))%nat ->
  pkcs7UnPadding src = Ok m -> src = pkcs7 m.
Proof.
  intros Hb Hl. unfold pkcs7UnPadding. destruct (rev src) as [|u t] eqn:Er; [discriminate|].
  destruct ((u >? 16) || (u =? 0)) eqn:Eu; [discriminate|].
  destruct (Z.ltb_spec (zlen src) u) as [|Hu]; [discriminate|].
  destruct (forallb _ _) eqn:Ef; [|discriminate]. intros E. injection E as E.
  assert (Hub : is_byte u) by (apply bytes_rev in Hb; rewrite Er in Hb; now apply bytes_cons in Hb).
  red in Hub. unfold zlen in Hu.
  assert (Hm : length m = (length src - Z.to_nat u)%nat) by (rewrite <- E, firstn_length; lia).
  assert (Hs : skipn (length src - Z.to_nat u) src = repeat u (Z.to_nat u)).
  { set (p := skipn _ src) in *. assert (Hp : length p = Z.to_nat u) by (unfold p; rewrite skipn_length; lia).
    rewrite <- Hp in Ef. rewrite firstn_all in Ef. rewrite <- Hp.
    assert (Eu8 : u8 u = u) by (unfold u8; apply Z.mod_small; lia). rewrite Eu8 in Ef. clear -Ef.
    induction p as [|a p IH]; [reflexivity|]. cbn [forallb length repeat] in *. apply andb_true_iff in Ef as [Ea Ef].
    apply Z.eqb_eq in Ea. subst a. f_equal. now apply IH. }
  unfold pkcs7. unfold zlen. rewrite Hm.
  assert (En : 16 - Z.of_nat (length src - Z.to_nat u) mod 16 = u) by lia.
  rewrite En, <- Hs, <- E. symmetry. apply firstn_skipn.
Qed.
Lemma unpad_no_panic src : bytes src -> (length src = 0 \/ 16 <= length src)%nat -> src <> [] -> pkcs7UnPadding src <> Panic.
Proof.
  intros Hb Hl Hne. unfold pkcs7UnPadding. destruct (rev src) as [|u t] eqn:Er.
  { destruct src; [now elim Hne|]. apply (f_equal (@length Z)) in Er. rewrite rev_length in Er. discriminate. }
  destruct ((u >? 16) || (u =? 0)) eqn:Eu; [discriminate|].
  destruct (Z.ltb_spec (zlen src) u) as [Hz|]; [|destruct (forallb _ _); discriminate].
  unfold zlen in Hz. destruct Hl as [Hl|Hl]; [destruct src; [now elim Hne|discriminate]|]. lia.
Qed.
Lemma unpad_zero_tail a k : (0 < k)%nat -> pkcs7UnPadding (a ++ zeros k) = Err errPadRange.
Proof.
  intros Hk. unfold pkcs7UnPadding. rewrite rev_app_distr.
  assert (E : exists t, rev (zeros k) = 0 :: t).
  { destruct (rev (zeros k)) as [|z t] eqn:Er.
    - apply (f_equal (@length Z)) in Er. rewrite rev_length, zeros_length in Er. cbn in Er. lia.
    - exists t. f_equal. apply (repeat_spec k 0). apply in_rev. unfold zeros in Er. rewrite Er. now left. }
  destruct E as [t ->]. cbn [app]. reflexivity.
Qed.

#[local] Opaque sm4_enc sm4_dec round_keys.
(** ** The helpers *)
Section Helpers.
Variable key : list Z.
Hypothesis Hk : bytes key.
Hypothesis Hl : length key = 16%nat.

Lemma ecb_enc_eq m : bytes m -> Sm4Ecb key m ENC = Ok (Some (ecb_enc key m)).
Proof.
  intros Hm. unfold Sm4Ecb. rewrite Hl. cbn [Nat.eqb negb]. rewrite NewCipher_ok by auto.
  rewrite pkcs7_eq. set (d := pkcs7 m).
  assert (Hd : length d = (16 * (length d / 16))%nat) by apply pkcs7_blocks.
  pose proof (ecb_loop_spec (Encrypt (round_keys key)) (sm4_enc key) (length d / 16) 0 [] d []) as K.
  cbn [app] in K. rewrite K; [|exact (fun b Hb Hbl => Encrypt16 key b Hb ltac:(lia))|exact (sm4_enc_length key)|reflexivity|reflexivity|exact (pkcs7_bytes m Hm)|lia].
  cbn [rbind]. do 2 f_equal. rewrite bmap_ecb_spec by auto. reflexivity.
Qed.
Lemma cbc_enc_eq m : bytes m -> Sm4Cbc key m ENC = Ok (Some (cbc_enc key m)).
Proof.
  intros Hm. unfold Sm4Cbc. rewrite Hl. cbn [Nat.eqb negb]. rewrite NewCipher_ok by auto.
  rewrite pkcs7_eq. set (d := pkcs7 m).
  assert (Hd : length d = (16 * (length d / 16))%nat) by apply pkcs7_blocks.
  pose proof (cbc_enc_loop_spec key (length d / 16) 0 (zeros 16) [] d []) as K.
  cbn [app] in K. rewrite K; [|apply bytes_zeros|reflexivity|reflexivity|reflexivity|exact (pkcs7_bytes m Hm)|lia].
  cbn [rbind]. do 2 f_equal. rewrite bmap_cbc_spec by auto. reflexivity.
Qed.
Definition ecb_dec_raw c := bmap (fun iv b => (sm4_dec key b, iv)) [] (length c / 16) c.
Definition cbc_dec_raw c := bmap (h_cbc_dec key) (zeros 16) (length c / 16) c.
Lemma ecb_dec_eq c : bytes c -> Sm4Ecb key c DEC = unpad_swallow (ecb_dec_raw c).
Proof.
  intros Hc. unfold Sm4Ecb. rewrite Hl. cbn [Nat.eqb negb]. rewrite NewCipher_ok by auto.
  pose proof (ecb_loop_spec (Decrypt (round_keys key)) (sm4_dec key) (length c / 16) 0 [] c []) as K.
  cbn [app] in K. rewrite K; [|exact (fun b Hb Hbl => Decrypt16 key b Hb ltac:(lia))|exact (sm4_dec_length key)|reflexivity|reflexivity|exact Hc|lia]. reflexivity.
Qed.
Lemma cbc_dec_eq c : bytes c -> Sm4Cbc key c DEC = unpad_swallow (cbc_dec_raw c).
Proof.
  intros Hc. unfold Sm4Cbc. rewrite Hl. cbn [Nat.eqb negb]. rewrite NewCipher_ok by auto.
  pose proof (cbc_dec_loop_spec key (length c / 16) 0 (zeros 16) [] c []) as K.
  cbn [app] in K. rewrite K; [|apply bytes_zeros|reflexivity|reflexivity|reflexivity|exact Hc|lia]. reflexivity.
Qed.

Lemma len16_ecb g : (forall b, length (g b) = 16%nat) -> len16 (fun iv b => (g b, iv)).
Proof. intros H iv b Hi Hb. cbn. auto. Qed.
Lemma len16_cbc_enc : len16 (h_cbc_enc key).
Proof. intros iv b Hi Hb. cbn. rewrite sm4_enc_length. auto. Qed.
Lemma len16_cbc_dec : len16 (h_cbc_dec key).
Proof. intros iv b Hi Hb. cbn. rewrite xorl_length, sm4_dec_length, Hi. auto. Qed.

Lemma ecb_enc_length m : length (ecb_enc key m) = length (pkcs7 m).
Proof.
  unfold ecb_enc. rewrite <- (bmap_ecb_spec _ (length (pkcs7 m) / 16) (zeros 16)) by apply pkcs7_blocks.
  apply bmap_length; auto; [|lia]. apply len16_ecb. intros. apply sm4_enc_length.
Qed.
Lemma cbc_enc_length m : length (cbc_enc key m) = length (pkcs7 m).
Proof.
  unfold cbc_enc. rewrite <- (bmap_cbc_spec _ (length (pkcs7 m) / 16) (zeros 16)) by apply pkcs7_blocks.
  apply bmap_length; auto; [|lia]. apply len16_cbc_enc.
Qed.
Lemma ecb_enc_bytes m : bytes m -> bytes (ecb_enc key m).
Proof.
  intros Hm. unfold ecb_enc. rewrite <- (bmap_ecb_spec _ (length (pkcs7 m) / 16) (zeros 16)) by apply pkcs7_blocks.
  apply bmap_bytes; [|apply bytes_zeros|now apply pkcs7_bytes]. intros. cbn. split; auto. apply sm4_enc_bytes.
Qed.
Lemma cbc_enc_bytes m : bytes m -> bytes (cbc_enc key m).
Proof.
  intros Hm. unfold cbc_enc. rewrite <- (bmap_cbc_spec _ (length (pkcs7 m) / 16) (zeros 16)) by apply pkcs7_blocks.
  apply bmap_bytes; [|apply bytes_zeros|now apply pkcs7_bytes]. intros. cbn. split; apply sm4_enc_bytes.
Qed.

Lemma xorl_cancel_r a b : length a = length b -> xorl (xorl a b) b = a.
Proof. intros H. apply xorl_involutive. lia. Qed.

Lemma ecb_dec_enc m : bytes m -> ecb_dec_raw (ecb_enc key m) = pkcs7 m.
Proof.
  intros Hm. unfold ecb_dec_raw. rewrite ecb_enc_length. unfold ecb_enc.
  rewrite <- (bmap_ecb_spec _ (length (pkcs7 m) / 16) (zeros 16)) by apply pkcs7_blocks.
  rewrite (bmap_ecb_iv _ _ [] (zeros 16)).
  apply bmap_inv; auto; [|apply bytes_zeros|now apply pkcs7_bytes|apply pkcs7_blocks].
  intros iv b Hi Hil Hb Hbl. rewrite sm4_dec_enc by auto. auto using sm4_enc_length.
Qed.
Lemma cbc_dec_enc m : bytes m -> cbc_dec_raw (cbc_enc key m) = pkcs7 m.
Proof.
  intros Hm. unfold cbc_dec_raw. rewrite cbc_enc_length. unfold cbc_enc.
  rewrite <- (bmap_cbc_spec _ (length (pkcs7 m) / 16) (zeros 16)) by apply pkcs7_blocks.
  apply bmap_inv; auto; [|apply bytes_zeros|now apply pkcs7_bytes|apply pkcs7_blocks].
  intros iv b Hi Hil Hb Hbl. unfold h_cbc_enc, h_cbc_dec. rewrite sm4_dec_enc.
  - rewrite xorl_cancel_r by lia. auto using sm4_enc_length, sm4_enc_bytes.
  - now apply xorl_bytes.
  - rewrite xorl_length; lia.
Qed.
(** conversely every whole-block ciphertext is the raw encryption of its raw decryption *)
Lemma ecb_enc_dec c m : bytes c -> length c = (16 * (length c / 16))%nat -> ecb_dec_raw c = pkcs7 m -> ecb_enc key m = c.
Proof.
  intros Hc Hlc E. unfold ecb_enc. rewrite <- E. unfold ecb_dec_raw.
  rewrite (bmap_ecb_iv _ _ [] (zeros 16)).
  rewrite <- (bmap_ecb_spec _ (length c / 16) (zeros 16)).
  2:{ rewrite bmap_length; auto; [|lia]. apply len16_ecb. intros. apply sm4_dec_length. }
  apply bmap_inv; auto; [|apply bytes_zeros].
  intros iv b Hi Hil Hb Hbl. rewrite sm4_enc_dec by auto. auto using sm4_dec_length.
Qed.
Lemma cbc_enc_dec c m : bytes c -> length c = (16 * (length c / 16))%nat -> cbc_dec_raw c = pkcs7 m -> cbc_enc key m = c.
Proof.
  intros Hc Hlc E. unfold cbc_enc. rewrite <- E. unfold cbc_dec_raw.
  rewrite <- (bmap_cbc_spec _ (length c / 16) (zeros 16)).
  2:{ rewrite bmap_length; auto; [|lia]. apply len16_cbc_dec. }
  apply bmap_inv; auto; [|apply bytes_zeros].
  intros iv b Hi Hil Hb Hbl. unfold h_cbc_enc, h_cbc_dec. cbv zeta.
  rewrite xorl_cancel_r by (rewrite sm4_dec_length; lia). rewrite sm4_enc_dec by auto.
  rewrite xorl_length, sm4_dec_length. repeat split; auto. lia.
Qed.

Lemma bmap_tail h n : forall iv rest, len16 h -> length iv = 16%nat -> (16 * n <= length rest)%nat ->
  exists a, bmap h iv n rest = a ++ zeros (length rest - 16 * n) .
Proof.
  induction n as [|n IH]; intros iv rest Hh Hi Hr; cbn [bmap].
  - exists []. cbn. f_equal. lia.
  - assert (Hf : length (firstn 16 rest) = 16%nat) by (rewrite firstn_length; lia).
    pose proof (Hh iv _ Hi Hf) as Ho. destruct (h iv (firstn 16 rest)) as [o iv']. cbn in Ho. destruct Ho as [Ho Hi'].
    destruct (IH iv' (skipn 16 rest) Hh Hi') as [a Ea]; [rewrite skipn_length; lia|].
    exists (o ++ a). rewrite Ea, <- app_assoc. do 2 f_equal. rewrite skipn_length. f_equal. lia.
Qed.

(** The outcome of decryption of every nonempty byte string. *)
Lemma dec_outcome raw enc c :
  bytes c -> c <> [] -> bytes (raw c) -> length (raw c) = length c ->
  (forall m, bytes m -> enc m = c -> raw c = pkcs7 m) ->
  (forall m, length c = (16 * (length c / 16))%nat -> raw c = pkcs7 m -> enc m = c) ->
  (exists a, raw c = a ++ zeros (length c - 16 * (length c / 16))) ->
  (forall m, bytes m -> length (enc m) = length (pkcs7 m)) ->
  (exists m, bytes m /\ enc m = c /\ unpad_swallow (raw c) = Ok (Some m)) \/
  ((forall m, bytes m -> enc m <> c) /\ unpad_swallow (raw c) = Ok None).
Proof.
  intros Hc Hne Hrb Hrl Hfw Hbw [a Ha] Hel.
  destruct (Nat.eq_dec (length c) (16 * (length c / 16))) as [E|E].
  - assert (Hrl' : length (raw c) = (16 * (length (raw c) / 16))%nat) by (rewrite Hrl; exact E).
    unfold unpad_swallow. destruct (pkcs7UnPadding (raw c)) as [m|e|] eqn:Eu.
    + left. exists m. apply unpad_sound in Eu; auto.
      assert (bytes m). { rewrite Eu in Hrb. unfold pkcs7 in Hrb. now apply bytes_app in Hrb. }
      auto.
    + right. split; auto. intros m Hm Em. rewrite (Hfw m Hm Em), unpad_pkcs7 in Eu. discriminate.
    + exfalso. revert Eu. apply unpad_no_panic; auto; [lia|].
      intros H0. rewrite H0 in Hrl. destruct c; [now elim Hne|discriminate].
  - right. split.
    + intros m Hm Em. apply E. rewrite <- Em, Hel by auto. apply pkcs7_blocks.
    + unfold unpad_swallow. rewrite Ha, unpad_zero_tail by lia. reflexivity.
Qed.
Lemma ecb_dec_bytes c : bytes c -> bytes (ecb_dec_raw c).
Proof. intros. apply bmap_bytes; auto; [|constructor]. intros. cbn. split; auto. apply sm4_dec_bytes. Qed.
Lemma cbc_dec_bytes c : bytes c -> bytes (cbc_dec_raw c).
Proof. intros. apply bmap_bytes; auto; [|apply bytes_zeros]. intros. cbn. split; auto. apply xorl_bytes; auto. apply sm4_dec_bytes. Qed.

Lemma ecb_outcome c : bytes c -> c <> [] ->
  (exists m, bytes m /\ ecb_enc key m = c /\ Sm4Ecb key c DEC = Ok (Some m)) \/
  ((forall m, bytes m -> ecb_enc key m <> c) /\ Sm4Ecb key c DEC = Ok None).
Proof.
  intros Hc Hne. rewrite ecb_dec_eq by auto.
  apply (dec_outcome ecb_dec_raw (ecb_enc key)); auto.
  - now apply ecb_dec_bytes.
  - unfold ecb_dec_raw. rewrite (bmap_ecb_iv _ _ [] (zeros 16)). apply bmap_length; auto; [|lia].
    apply len16_ecb. intros; apply sm4_dec_length.
  - intros m Hm <-. now apply ecb_dec_enc.
  - intros m. now apply ecb_enc_dec.
  - unfold ecb_dec_raw. rewrite (bmap_ecb_iv _ _ [] (zeros 16)). apply bmap_tail; auto; [|lia].
    apply len16_ecb. intros; apply sm4_dec_length.
  - intros. apply ecb_enc_length.
Qed.
Lemma cbc_outcome c : bytes c -> c <> [] ->
  (exists m, bytes m /\ cbc_enc key m = c /\ Sm4Cbc key c DEC = Ok (Some m)) \/
  ((forall m, bytes m -> cbc_enc key m <> c) /\ Sm4Cbc key c DEC = Ok None).
Proof.
  intros Hc Hne. rewrite cbc_dec_eq by auto.
  apply (dec_outcome cbc_dec_raw (cbc_enc key)); auto.
  - now apply cbc_dec_bytes.
  - unfold cbc_dec_raw. apply bmap_length; auto; [|lia]. apply len16_cbc_dec.
  - intros m Hm <-. now apply cbc_dec_enc.
  - intros m. now apply cbc_enc_dec.
  - unfold cbc_dec_raw. apply bmap_tail; auto; [|lia]. apply len16_cbc_dec.
  - intros. apply cbc_enc_length.
Qed.
Lemma ecb_round_trip m : bytes m -> Sm4Ecb key (ecb_enc key m) DEC = Ok (Some m).
Proof. intros Hm. rewrite ecb_dec_eq by now apply ecb_enc_bytes. rewrite ecb_dec_enc by auto. unfold unpad_swallow. now rewrite unpad_pkcs7. Qed.
Lemma cbc_round_trip m : bytes m -> Sm4Cbc key (cbc_enc key m) DEC = Ok (Some m).
Proof. intros Hm. rewrite cbc_dec_eq by now apply cbc_enc_bytes. rewrite cbc_dec_enc by auto. unfold unpad_swallow. now rewrite unpad_pkcs7. Qed.
Lemma ecb_dec_empty : Sm4Ecb key [] DEC = Panic.
Proof. rewrite ecb_dec_eq by constructor. reflexivity. Qed.
Lemma cbc_dec_empty : Sm4Cbc key [] DEC = Panic.
Proof. rewrite cbc_dec_eq by constructor. reflexivity. Qed.
End Helpers.

(** ** Memory effect *)
Lemma helper_effect_within arr off len m : (off + len <= length arr)%nat ->
  firstn (off + len) (helper_effect arr off len m) = firstn (off + len) arr.
Proof.
  intros H. destruct m; [|reflexivity]. unfold helper_effect, append_effect.
  destruct (Nat.leb _ _); [|reflexivity].
  rewrite firstn_app_l by (rewrite firstn_length; lia). reflexivity.
Qed.
Lemma helper_effect_nospare arr off len m :
  (length arr < off + len + (16 - len mod 16))%nat -> helper_effect arr off len m = arr.
Proof.
  intros H. destruct m; [|reflexivity]. unfold helper_effect, append_effect. rewrite repeat_length.
  destruct (Nat.leb_spec (off + len + Z.to_nat (16 - Z.of_nat len mod 16)) (length arr)) as [H1|]; [|reflexivity]. exfalso. lia.
Qed.

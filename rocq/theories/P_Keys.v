(** C41-C46, C71: encrypted PEM, PBKDF2 and key import/export (x509/pem_decrypt.go, sec1.go, pkcs8.go, utils/keys.go). *)
From Verif Require Import GoBase GoLemmas BigBytes Asn1_model NT Prime_cert SM2_curve_spec SM2_group SM2_jac SM2_order SM2_spec SM2_model SM2_proofs SM4_spec CBC Keys_model Keys_proofs.
Open Scope Z_scope.
(** a case: hLen = 2, prf m = [length m; sum m], 3 iterations, 3 bytes *)
Lemma C44_hyps : let prf := fun m => [zlen m mod 256; fold_right Z.add 0 m mod 256] in
  (forall m, length (prf m) = 2%nat) /\ pbkdf 2 prf [7] 3 3 = [5; 10; 5].
Proof. split; [reflexivity|]. reflexivity. Qed.


#[local] Opaque sm2_p sm2_n sm2_a sm2_b sm2_gx sm2_gy smul pG Bytes be_bytes.

(** ** C44 *)
Theorem C44_pbkdf2 (hLen : nat) (prf : list Z -> list Z) salt iter keyLen :
  (forall m, length (prf m) = hLen) -> 1 <= iter ->
  pbkdf hLen prf salt iter keyLen = rfc_pbkdf2 prf hLen salt iter keyLen.
Proof. intros. now apply pbkdf_spec. Qed.
(** what is assumed of AES-256 and HMAC: E is invertible on 16-byte blocks, MACs have a fixed positive length *)
Definition aes_ok (aesE aesD : list Z -> list Z -> list Z) : Prop :=
  forall key, length key = 32%nat -> bytes key -> block_ok 16 (aesE key) (aesD key).
Definition hmac_ok (hmac : nat -> list Z -> list Z -> list Z) (hsize : nat -> nat) : Prop :=
  forall h k m, length (hmac h k m) = hsize h /\ (0 < hsize h)%nat /\ bytes (hmac h k m).
Lemma aes_hmac_hyps : aes_ok (fun k x => rev (xorl x (firstn 16 k))) (fun k x => xorl (rev x) (firstn 16 k)) /\
  hmac_ok (fun h k m => be_bytes (16 + h) (zlen m)) (fun h => (16 + h)%nat).
Proof.
  split.
  - intros key Hk Hb. assert (L16 : length (firstn 16 key) = 16%nat) by (rewrite firstn_length; lia).
    assert (B16 : bytes (firstn 16 key)) by now apply bytes_firstn. split.
    + lia.
    + intros x Hx Hl. rewrite rev_length, xorl_length. split; [lia|]. apply bytes_rev. now apply xorl_bytes.
    + intros x Hx Hl. rewrite rev_involutive. apply xorl_involutive. lia.
  - intros h k m. split; [apply be_bytes_length|]. split; [lia|apply be_bytes_bytes].
Qed.
Lemma inner_bytes hLen prf : (forall m, bytes (prf m)) -> forall k dk U, bytes dk -> bytes (inner hLen prf k dk U).
Proof.
  intros HB. induction k as [|k IH]; intros dk U Hd; cbn [inner]; [exact Hd|]. apply IH. apply bytes_app. split; [now apply bytes_firstn|].
  apply xorl_bytes; [now apply bytes_skipn|apply HB].
Qed.
Lemma outer_bytes hLen prf : (forall m, bytes (prf m)) -> forall m salt iter b dk, bytes dk -> bytes (outer hLen prf m salt iter b dk).
Proof.
  intros HB. induction m as [|m IH]; intros salt iter b dk Hd; cbn [outer]; [exact Hd|]. apply IH, inner_bytes; [exact HB|]. apply bytes_app. auto.
Qed.

Section PEM.
Variable aesE aesD : list Z -> list Z -> list Z.
Variable hmac : nat -> list Z -> list Z -> list Z.
Variable hsize : nat -> nat.
Hypothesis AES : aes_ok aesE aesD.
Hypothesis HMAC : hmac_ok hmac hsize.
Definition derived (h : nat) (password salt : list Z) (iter : Z) : list Z := pbkdf (hsize h) (hmac h password) salt iter 32.
Lemma derived_ok h password salt iter : length (derived h password salt iter) = 32%nat /\ bytes (derived h password salt iter).
Proof.
  unfold derived. split; [apply pbkdf_len; [intros m; apply HMAC|apply (HMAC h [] [])]|].
  unfold pbkdf. apply bytes_firstn, outer_bytes; [intros m; apply HMAC|constructor].
Qed.
Definition rand_ok (rand : option (list Z * list Z)) : Prop :=
  exists salt iv, rand = Some (salt, iv) /\ length salt = 8%nat /\ length iv = 16%nat /\ bytes salt /\ bytes iv.
Lemma pkcs7_facts m : bytes m -> bytes (pkcs7 m) /\ (length (pkcs7 m) mod 16 = 0)%nat /\ zlen (pkcs7 m) <= zlen m + 16 /\ pkcs7 m <> [] /\
  (forall n, n = 16 - zlen m mod 16 -> 1 <= n <= 16 /\ last (pkcs7 m) 0 = n).
Proof.
  intros Hb. unfold pkcs7. set (n := 16 - zlen m mod 16). assert (Hn : 1 <= n <= 16) by (unfold n; pose proof (Z.mod_pos_bound (zlen m) 16); lia).
  assert (Hz : zlen (m ++ repeat n (Z.to_nat n)) = zlen m + n) by (rewrite zlen_app; unfold zlen at 2; rewrite repeat_length; lia).
  split; [apply bytes_app; split; [exact Hb|apply bytes_repeat; unfold is_byte; lia]|]. split.
  { apply Nat2Z.inj. rewrite Nat2Z.inj_mod. change (Z.of_nat (length (m ++ repeat n (Z.to_nat n)))) with (zlen (m ++ repeat n (Z.to_nat n))). rewrite Hz.
    unfold n. change (Z.of_nat 16) with 16. change (Z.of_nat 0) with 0.
    replace (zlen m + (16 - zlen m mod 16)) with ((zlen m / 16 + 1) * 16) by (pose proof (Z.div_mod (zlen m) 16); lia). apply Z.mod_mul. lia. }
  split; [lia|]. split; [intros E; rewrite E in Hz; rewrite zlen_nil in Hz; pose proof (zlen_nonneg m); lia|].
  intros n' ->. fold n. split; [exact Hn|]. replace (Z.to_nat n) with (Datatypes.S (Z.to_nat (n - 1))) by lia.
  cbn [repeat]. rewrite repeat_cons.
  rewrite app_assoc. apply last_last.
Qed.
(** the block EncryptPEMBlock returns *)
Definition enc_info (salt iv c : list Z) : keyinfo := mkInfo oidPBES2 oidPBKDF2 salt 2048 oidKEYSHA1 [5;0] oidAES256CBC iv c.
Lemma encrypt_result salt iv ty data pwd alg name : cipher_name alg = Some name ->
  length salt = 8%nat -> length iv = 16%nat -> bytes salt -> bytes iv -> bytes data -> zlen data < 2 ^ 28 ->
  exists c dek proc, EncryptPEMBlock aesE hmac hsize (Some (salt, iv)) ty data pwd alg = Ok (mkBlock ty (Some dek) proc (marshal_info (enc_info salt iv c))) /\
    CBCDecrypt 16 (aesD (derived 1 pwd salt 2048)) iv c = Ok (pkcs7 data) /\ length c = length (pkcs7 data) /\
    unmarshal_info (marshal_info (enc_info salt iv c)) = Ok (enc_info salt iv c).
Proof.
  intros Hn Ls Li Bs Bi Bd Hd. unfold EncryptPEMBlock. rewrite Hn. fold (derived 1 pwd salt 2048).
  destruct (derived_ok 1 pwd salt 2048) as [Lk Bk]. set (key := derived 1 pwd salt 2048) in *. clearbody key.
  destruct (pkcs7_facts data Bd) as (P1 & P2 & P3 & P4 & P5).
  destruct (P5 _ eq_refl) as [Hr _].
  replace (data ++ repeat (u8 (16 - zlen data mod 16)) (Z.to_nat (16 - zlen data mod 16))) with (pkcs7 data).
  2:{ unfold pkcs7. replace (u8 (16 - zlen data mod 16)) with (16 - zlen data mod 16) by (symmetry; apply Z.mod_small; lia). reflexivity. }
  destruct (cbc_round_trip 16 _ _ (AES key Lk Bk) iv (pkcs7 data) Bi Li P1 P2) as (c & E1 & E2 & _ & E4).
  cbv zeta. rewrite E1. cbn [rbind]. exists c. do 2 eexists. split; [reflexivity|]. split; [exact E4|]. split; [exact E2|].
  rewrite <- (app_nil_r (marshal_info (enc_info salt iv c))).
  apply unmarshal_marshal_info; try reflexivity; [right; exists 5, []; repeat split; discriminate|cbn; lia|].
  cbn [i_pbes2 i_kdf i_salt i_prf i_prfpar i_enc i_iv i_data enc_info].
  assert (zlen c <= zlen data + 16) by (unfold zlen in *; lia). assert (zlen salt = 8 /\ zlen iv = 16) as [-> ->] by (unfold zlen; lia).
  change (zlen oidPBES2) with 9. change (zlen oidPBKDF2) with 9. change (zlen oidKEYSHA1) with 8. change (zlen [5;0]) with 2. change (zlen oidAES256CBC) with 9. lia.
Qed.
Lemma skipn_pkcs7 m n : n = 16 - zlen m mod 16 -> 1 <= n <= 16 -> length (pkcs7 m) = (length m + Z.to_nat n)%nat /\
  skipn (length (pkcs7 m) - Z.to_nat n) (pkcs7 m) = repeat n (Z.to_nat n) /\ firstn (length (pkcs7 m) - Z.to_nat n) (pkcs7 m) = m.
Proof.
  intros -> Hn. unfold pkcs7. set (n := 16 - zlen m mod 16) in *. rewrite app_length, repeat_length. split; [reflexivity|].
  replace (length m + Z.to_nat n - Z.to_nat n)%nat with (length m) by lia. split; [now apply skipn_app_l|now apply firstn_app_l].
Qed.
Lemma decrypt_own salt iv c pwd data : bytes data ->
  CBCDecrypt 16 (aesD (derived 1 pwd salt 2048)) iv c = Ok (pkcs7 data) ->
  decrypt_info aesD hmac hsize (enc_info salt iv c) pwd = match data with [] => Err 1 | _ => Ok data end.
Proof.
  intros Bd E. unfold decrypt_info. cbn [i_pbes2 i_kdf i_salt i_iter i_prf i_prfpar i_enc i_iv i_data enc_info].
  rewrite !beqb_refl. cbn [negb]. rewrite andb_false_r. change (prf_of oidKEYSHA1) with (Some 1%nat). cbv beta iota zeta. fold (derived 1 pwd salt 2048). rewrite E. cbn [rbind].
  destruct (pkcs7_facts data Bd) as (_ & _ & _ & P4 & P5). destruct (P5 _ eq_refl) as [Hn Hl]. set (n := 16 - zlen data mod 16) in *.
  destruct (skipn_pkcs7 data n eq_refl Hn) as (S1 & S2 & S3).
  destruct (pkcs7 data) as [|b l] eqn:EP; [congruence|]. rewrite <- EP in *. rewrite Hl, S2, S3.
  assert (F : forallb (fun v => Z.to_nat v =? Z.to_nat n)%nat (repeat n (Z.to_nat n)) = true).
  { apply forallb_forall. intros v Hv. apply repeat_spec in Hv. subst. apply Nat.eqb_refl. }
  destruct data as [|d data'].
  - replace (length (pkcs7 []) <=? Z.to_nat n)%nat with true by (symmetry; apply Nat.leb_le; rewrite S1; cbn [length]; lia). reflexivity.
  - replace (length (pkcs7 (d :: data')) <=? Z.to_nat n)%nat with false by (symmetry; apply Nat.leb_gt; rewrite S1; cbn [length]; lia). now rewrite F.
Qed.
(** ** C41 *)
Theorem C41_round_trip_partial salt iv ty data pwd alg name : cipher_name alg = Some name ->
  length salt = 8%nat -> length iv = 16%nat -> bytes salt -> bytes iv -> bytes data -> zlen data < 2 ^ 28 -> data <> [] ->
  exists blk, EncryptPEMBlock aesE hmac hsize (Some (salt, iv)) ty data pwd alg = Ok blk /\
              IsEncryptedPEMBlock blk = true /\ DecryptPEMBlock aesD hmac hsize blk pwd = Ok data.
Proof.
  intros Hn Ls Li Bs Bi Bd Hd Hne. destruct (encrypt_result salt iv ty data pwd alg name Hn Ls Li Bs Bi Bd Hd) as (c & dek & proc & E1 & E2 & E3 & E4).
  eexists. split; [exact E1|]. split; [reflexivity|]. unfold DecryptPEMBlock. cbn [b_bytes]. rewrite E4. cbn [rbind].
  rewrite (decrypt_own salt iv c pwd data Bd E2). destruct data; [congruence|reflexivity].
Qed.
(** the empty message does not round-trip: for every password and random draw decryption reports an error *)
Theorem C41_empty_data_refuted salt iv ty pwd : length salt = 8%nat -> length iv = 16%nat -> bytes salt -> bytes iv ->
  exists blk e, EncryptPEMBlock aesE hmac hsize (Some (salt, iv)) ty [] pwd 5 = Ok blk /\ DecryptPEMBlock aesD hmac hsize blk pwd = Err e.
Proof.
  intros Ls Li Bs Bi. destruct (encrypt_result salt iv ty [] pwd 5 _ eq_refl Ls Li Bs Bi ltac:(constructor) ltac:(cbn; lia)) as (c & dek & proc & E1 & E2 & E3 & E4).
  exists (mkBlock ty (Some dek) proc (marshal_info (enc_info salt iv c))), 1. split; [exact E1|].
  unfold DecryptPEMBlock. cbn [b_bytes]. rewrite E4. cbn [rbind]. now rewrite (decrypt_own salt iv c pwd [] ltac:(constructor) E2).
Qed.
(** ** C42 *)
Definition info_known (i : keyinfo) : option nat :=
  if beqb (i_pbes2 i) oidPBES2 && beqb (i_kdf i) oidPBKDF2 && (beqb (i_enc i) oidAES128CBC || beqb (i_enc i) oidAES256CBC) then prf_of (i_prf i) else None.
(** the exact outcome on every input *)
Theorem C42_outcome_partial i pwd :
  match info_known i with
  | None => exists e, decrypt_info aesD hmac hsize i pwd = Err e
  | Some h =>
      match CBCDecrypt 16 (aesD (derived h pwd (i_salt i) (i_iter i))) (i_iv i) (i_data i) with
      | Ok dec =>
          (dec = [] -> decrypt_info aesD hmac hsize i pwd = Panic) /\
          (bytes dec -> dec <> [] -> forall m, decrypt_info aesD hmac hsize i pwd = Ok m <->
             m <> [] /\ exists n, dec = m ++ repeat (Z.of_nat n) n /\ last dec 0 = Z.of_nat n) /\
          (dec <> [] -> decrypt_info aesD hmac hsize i pwd <> Panic)
      | _ => decrypt_info aesD hmac hsize i pwd = Panic   (* IV not 16 bytes, or data not a multiple of 16 bytes *)
      end
  end.
Proof.
  unfold info_known, decrypt_info. destruct (beqb (i_pbes2 i) oidPBES2); cbn [andb negb]; [|eexists; reflexivity].
  destruct (beqb (i_kdf i) oidPBKDF2); cbn [andb negb]; [|eexists; reflexivity].
  replace (negb (beqb (i_enc i) oidAES128CBC) && negb (beqb (i_enc i) oidAES256CBC)) with (negb (beqb (i_enc i) oidAES128CBC || beqb (i_enc i) oidAES256CBC)) by apply negb_orb.
  destruct (beqb (i_enc i) oidAES128CBC || beqb (i_enc i) oidAES256CBC); cbn [negb]; [|eexists; reflexivity].
  destruct (prf_of (i_prf i)) as [h|]; [|eexists; reflexivity]. cbv zeta. fold (derived h pwd (i_salt i) (i_iter i)).
  unfold CBCDecrypt. destruct (negb _); [reflexivity|]. destruct (negb (_ =? 0)%nat); [reflexivity|]. cbn [rbind].
  generalize (cbc_d (aesD (derived h pwd (i_salt i) (i_iter i))) (i_iv i) (chunks 16 (i_data i))). intros dec.
  split; [intros ->; reflexivity|]. split.
  - intros Bd Hne m. destruct dec as [|b0 l0] eqn:ED; [congruence|]. rewrite <- ED in *. clear ED b0 l0.
    set (pad := Z.to_nat (last dec 0)).
    assert (Hlast : last dec 0 = Z.of_nat pad).
    { unfold pad. rewrite Z2Nat.id; [reflexivity|]. assert (In (last dec 0) dec) by (destruct dec as [|x d] using rev_ind; [congruence|]; rewrite last_last; apply in_app_iff; right; now left).
      unfold bytes in Bd. rewrite Forall_forall in Bd. specialize (Bd _ H). unfold is_byte in Bd. lia. }
    split.
    + destruct (length dec <=? pad)%nat eqn:EL; [discriminate|]. apply Nat.leb_gt in EL.
      destruct (forallb _ _) eqn:EF; [|discriminate]. intros [= <-].
      split. { intros E. apply (f_equal (@length Z)) in E. rewrite firstn_length in E. cbn [length] in E. lia. }
      exists pad. split; [|exact Hlast]. rewrite <- (firstn_skipn (length dec - pad) dec) at 1. f_equal.
      assert (Hl : length (skipn (length dec - pad) dec) = pad) by (rewrite skipn_length; lia).
      assert (Hb : bytes (skipn (length dec - pad) dec)) by now apply bytes_skipn.
      revert Hl Hb EF. generalize (skipn (length dec - pad) dec). clear. intros l Hl Hb EF. rewrite <- Hl at 2. clear Hl.
      induction l as [|x l IH]; [reflexivity|]. cbn [forallb length repeat] in *. apply andb_prop in EF as [E1 E2]. apply bytes_cons in Hb as [Hx Hb].
      rewrite IH at 1 by assumption. f_equal. apply Nat.eqb_eq in E1. unfold is_byte in Hx. lia.
    + intros (Hm & n & E & En). assert (n = pad) as -> by lia. rewrite E at 1. rewrite app_length, repeat_length.
      replace (length m + pad <=? pad)%nat with false by (symmetry; apply Nat.leb_gt; destruct m; [congruence|cbn [length]; lia]).
      assert (EL : (length dec - pad = length m)%nat) by (rewrite E at 1; rewrite app_length, repeat_length; lia). rewrite EL.
      rewrite E at 1. rewrite skipn_app_l by reflexivity.
      replace (forallb (fun v => Z.to_nat v =? pad)%nat (repeat (Z.of_nat pad) pad)) with true.
      2:{ symmetry. apply forallb_forall. intros v Hv. apply repeat_spec in Hv. subst v. apply Nat.eqb_eq. apply Nat2Z.id. }
      rewrite E at 1. now rewrite firstn_app_l.
  - intros Hne. destruct dec; [congruence|]. destruct (_ <=? _)%nat; [discriminate|]. destruct (forallb _ _); discriminate.
Qed.
(** it crashes (e.g. on an IV of 15 bytes), and accepts data that is not padded at all *)
Definition bad_iv_info : keyinfo := mkInfo oidPBES2 oidPBKDF2 [] 1 oidKEYSHA1 [5;0] oidAES256CBC (zeros 15) (zeros 16).
Theorem C42_no_panic_refuted pwd ty : exists b, b_type b = ty /\ DecryptPEMBlock aesD hmac hsize b pwd = Panic.
Proof.
  exists (mkBlock ty None None (marshal_info bad_iv_info)). split; [reflexivity|]. unfold DecryptPEMBlock. cbn [b_bytes].
  assert (E : unmarshal_info (marshal_info bad_iv_info ++ []) = Ok bad_iv_info).
  { apply unmarshal_marshal_info; try reflexivity; [right; exists 5, []; repeat split; discriminate|cbn; lia]. }
  rewrite app_nil_r in E. rewrite E. reflexivity.
Qed.
Theorem C42_padding_checked_refuted pwd ty : exists b m, b_type b = ty /\ DecryptPEMBlock aesD hmac hsize b pwd = Ok m /\
  (forall i, unmarshal_info (b_bytes b) = Ok i -> forall h, info_known i = Some h ->
     exists dec, CBCDecrypt 16 (aesD (derived h pwd (i_salt i) (i_iter i))) (i_iv i) (i_data i) = Ok dec /\ forall m', pkcs7 m' <> dec).
Proof.
  destruct (derived_ok 1 pwd [] 1) as [Lk Bk].
  destruct (cbc_round_trip 16 _ _ (AES _ Lk Bk) (zeros 16) (zeros 16)) as (c & E1 & E2 & B2 & E3); [apply bytes_zeros|reflexivity|apply bytes_zeros|reflexivity|].
  set (i := mkInfo oidPBES2 oidPBKDF2 [] 1 oidKEYSHA1 [5;0] oidAES256CBC (zeros 16) c).
  assert (EU : unmarshal_info (marshal_info i) = Ok i).
  { rewrite <- (app_nil_r (marshal_info i)). apply unmarshal_marshal_info; try reflexivity; [right; exists 5, []; repeat split; discriminate|cbn; lia|].
    cbn [i_pbes2 i_kdf i_salt i_prf i_prfpar i_enc i_iv i_data i]. unfold zlen at 8. rewrite E2. cbn. lia. }
  exists (mkBlock ty None None (marshal_info i)), (zeros 16). split; [reflexivity|]. split.
  - unfold DecryptPEMBlock. cbn [b_bytes]. rewrite EU. cbn [rbind]. unfold decrypt_info. cbn [i_pbes2 i_kdf i_salt i_iter i_prf i_prfpar i_enc i_iv i_data i].
    rewrite !beqb_refl. cbn [negb]. rewrite andb_false_r. change (prf_of oidKEYSHA1) with (Some 1%nat). cbv beta iota zeta. fold (derived 1 pwd [] 1). rewrite E3. reflexivity.
  - cbn [b_bytes]. rewrite EU. intros i' [= <-] h Hh. assert (h = 1%nat) as -> by (vm_compute in Hh; congruence).
    exists (zeros 16). cbn [i_salt i_iter i_iv i_data i]. split; [exact E3|]. intros m' Em.
    assert (Bm : bytes m'). { apply (bytes_app m' (repeat (16 - zlen m' mod 16) (Z.to_nat (16 - zlen m' mod 16)))). fold (pkcs7 m'). rewrite Em. apply bytes_zeros. }
    destruct (pkcs7_facts m' Bm) as (_ & _ & _ & _ & P5). destruct (P5 _ eq_refl) as [H1 H2]. rewrite Em in H2. change (last (zeros 16) 0) with 0 in H2. lia.
Qed.
(** ** C43 *)
(** whatever cipher is requested, the data is encrypted with AES-256-CBC under a PBKDF2-HMAC-SHA1 key, and says so *)
Theorem C43_always_aes256_partial salt iv ty data pwd alg blk :
  length salt = 8%nat -> length iv = 16%nat -> bytes salt -> bytes iv -> bytes data -> zlen data < 2 ^ 28 ->
  EncryptPEMBlock aesE hmac hsize (Some (salt, iv)) ty data pwd alg = Ok blk ->
  exists i, unmarshal_info (b_bytes blk) = Ok i /\ i_enc i = oidAES256CBC /\
    CBCDecrypt 16 (aesD (derived 1 pwd salt 2048)) iv (i_data i) = Ok (pkcs7 data).
Proof.
  intros Ls Li Bs Bi Bd Hd E. destruct (cipher_name alg) as [name|] eqn:Hn; [|unfold EncryptPEMBlock in E; rewrite Hn in E; discriminate].
  destruct (encrypt_result salt iv ty data pwd alg name Hn Ls Li Bs Bi Bd Hd) as (c & dek & proc & E1 & E2 & E3 & E4).
  rewrite E1 in E. apply (f_equal (fun r => match r with Ok b => b_bytes b | _ => [] end)) in E. cbn [b_bytes] in E. rewrite <- E. exists (enc_info salt iv c). split; [exact E4|]. split; [reflexivity|exact E2].
Qed.
(** the requested AES-128 (3) is not what is used *)
Definition requested_oid (alg : Z) : option (list Z) := if alg =? 3 then Some oidAES128CBC else if alg =? 5 then Some oidAES256CBC else None.
Theorem C43_requested_cipher_refuted salt iv ty data pwd :
  length salt = 8%nat -> length iv = 16%nat -> bytes salt -> bytes iv -> bytes data -> zlen data < 2 ^ 28 ->
  exists blk i, EncryptPEMBlock aesE hmac hsize (Some (salt, iv)) ty data pwd 3 = Ok blk /\
    unmarshal_info (b_bytes blk) = Ok i /\ requested_oid 3 <> Some (i_enc i) /\
    (exists blk5, EncryptPEMBlock aesE hmac hsize (Some (salt, iv)) ty data pwd 5 = Ok blk5 /\ b_bytes blk5 = b_bytes blk).
Proof.
  intros Ls Li Bs Bi Bd Hd.
  destruct (encrypt_result salt iv ty data pwd 3 _ eq_refl Ls Li Bs Bi Bd Hd) as (c & dek & proc & E1 & E2 & E3 & E4).
  do 2 eexists. split; [exact E1|]. cbn [b_bytes]. split; [exact E4|]. split; [discriminate|].
  unfold EncryptPEMBlock in E1 |- *. change (cipher_name 3) with (Some [65;69;83;45;49;50;56;45;67;66;67]) in E1. change (cipher_name 5) with (Some [65;69;83;45;50;53;54;45;67;66;67]).
  cbv beta iota zeta in E1 |- *. destruct (CBCEncrypt _ _ _ _); [|discriminate|discriminate]. cbn [rbind] in *. eexists. split; [reflexivity|]. apply (f_equal (fun r => match r with Ok b => b_bytes b | _ => [] end)) in E1. cbn [b_bytes] in *. exact E1.
Qed.
(** ** C71: the label AES-128-CBC makes no difference: such data is decrypted with a 32-byte key, i.e. as AES-256 *)
Theorem C71_aes128_label_refuted pbes2 kdf salt iter prf par iv data pwd :
  decrypt_info aesD hmac hsize (mkInfo pbes2 kdf salt iter prf par oidAES128CBC iv data) pwd =
  decrypt_info aesD hmac hsize (mkInfo pbes2 kdf salt iter prf par oidAES256CBC iv data) pwd.
Proof. reflexivity. Qed.
End PEM.

(** ** C46: which encodings parseECPrivateKey accepts, for any ASN.1 decoder *)
Section EC.
Context {T : Type}.
Variable cv : curve T.
Variable nist_order : nat -> Z.
Variable nist_base : nat -> list Z -> Z * Z.
Theorem C46_parse_ec_private_key unm ncoid der c d x y :
  (forall e, unm der = Ok e -> bytes (e_priv e)) ->
  parseECPrivateKey T cv nist_order nist_base unm ncoid der = Ok (KEC c d x y) <->
  exists e, unm der = Ok e /\ e_version e = 1 /\
            namedCurveFromOID (match ncoid with Some o => o | None => e_oid e end) = Some c /\
            d = be_val (e_priv e) /\ 0 <= d < order nist_order c /\
            (x, y) = baseMult T cv nist_base c (be_bytes (order_len nist_order c) d).
Proof.
  intros HB. unfold parseECPrivateKey. destruct (unm der) as [e|er|] eqn:EU; cbn [rbind].
  2,3: split; [discriminate|intros (e & E & _); discriminate].
  specialize (HB e eq_refl).
  destruct (Z.eqb_spec (e_version e) 1) as [Hv|Hv]; cbn [negb].
  2:{ split; [discriminate|]. intros (e' & [= <-] & H & _). contradiction. }
  destruct (namedCurveFromOID _) as [c'|] eqn:EN.
  2:{ split; [discriminate|]. intros (e' & [= <-] & _ & H & _). congruence. }
  pose proof (be_val_bound (e_priv e) HB) as HV.
  destruct (Z.leb_spec (order nist_order c') (be_val (e_priv e))) as [Ho|Ho].
  { split; [discriminate|]. intros (e' & [= <-] & _ & H & -> & Hr & _). rewrite EN in H. injection H as <-. lia. }
  assert (Hlt : be_val (e_priv e) < 256 ^ Z.of_nat (order_len nist_order c')).
  { unfold order_len. pose proof (nbytes_bound (order nist_order c')). lia. }
  destruct (strip_zeros_val (e_priv e) (order_len nist_order c') HB Hlt) as (k' & E1 & E2 & E3 & E4). rewrite E1.
  rewrite (padded_val k' _ E3 E2), E4.
  destruct (baseMult T cv nist_base c' _) as [x' y'] eqn:EB. split.
  - intros H. injection H as <- <- <- <-. exists e. split; [reflexivity|]. split; [exact Hv|]. split; [exact EN|]. split; [reflexivity|]. split; [lia|]. now rewrite EB.
  - intros (e' & [= <-] & _ & H & -> & Hr & Hxy). rewrite EN in H. injection H as <-. rewrite EB in Hxy. injection Hxy as <- <-. reflexivity.
Qed.
(** the whole PKCS#8 import path rejects everything else with an error, never a crash *)
Theorem C46_no_panic unm ncoid der : (unm der <> Panic) -> (forall e, unm der = Ok e -> bytes (e_priv e)) ->
  parseECPrivateKey T cv nist_order nist_base unm ncoid der <> Panic.
Proof.
  intros HP HB. unfold parseECPrivateKey. destruct (unm der) as [e|er|] eqn:EU; cbn [rbind]; [|discriminate|congruence].
  destruct (negb _); [discriminate|]. destruct (namedCurveFromOID _); [|discriminate]. cbv zeta. destruct (_ <=? _); [discriminate|].
  destruct (strip_zeros _ _); [|discriminate]. destruct (baseMult _ _ _ _ _). discriminate.
Qed.
End EC.

(** ** C45 *)
Definition pem_ok (pemEncode : block -> list Z) (pemDecode : list Z -> option block) : Prop :=
  forall b, b_type b = str_PRIVATE_KEY \/ b_type b = str_ENCRYPTED_PRIVATE_KEY \/ b_type b = str_PUBLIC_KEY ->
            pemEncode b <> [] /\ pemDecode (pemEncode b) = Some b.
Section Export.
Variable aesE aesD : list Z -> list Z -> list Z.
Variable hmac : nat -> list Z -> list Z -> list Z.
Variable hsize : nat -> nat.
Context {T : Type}.
Variable cv : curve T.
Variable nist_order : nat -> Z.
Variable nist_base : nat -> list Z -> Z * Z.
Variable parsePKCS1 : list Z -> res unit.
Variable pemEncode : block -> list Z.
Variable pemDecode : list Z -> option block.
Hypothesis AES : aes_ok aesE aesD.
Hypothesis HMAC : hmac_ok hmac hsize.
Hypothesis PEM : pem_ok pemEncode pemDecode.
Notation expKey := (PrivateKeyToPEM aesE hmac hsize pemEncode).
Notation impKey := (PEMtoPrivateKey aesD hmac hsize T cv nist_order nist_base parsePKCS1 pemDecode).

Lemma sm2_n_range : 0 < sm2_n < 2 ^ 256 /\ sm2_p < 2 ^ 256 /\ order_len nist_order SM2C = 32%nat.
Proof. Transparent sm2_n sm2_p. split; [|split]; [split; vm_compute; reflexivity|vm_compute; reflexivity|vm_compute; reflexivity]. Opaque sm2_n sm2_p. Qed.

Lemma der_tlv_bytes t c : 0 <= t < 256 -> zlen c < 2 ^ 31 -> bytes c -> bytes (der_tlv t c).
Proof.
  intros Ht Hl Hc. unfold der_tlv. apply bytes_cons. split; [exact Ht|]. apply bytes_app. split; [|exact Hc].
  pose proof (zlen_nonneg c) as H0. unfold len_enc. destruct (Z.ltb_spec (zlen c) 128); [apply bytes_cons; split; [unfold is_byte; lia|constructor]|].
  apply bytes_cons. split; [|apply Bytes_bytes]. assert (nbytes (zlen c) <= 4)%nat by (apply nbytes_le; rewrite Z.abs_eq by lia; change (256 ^ Z.of_nat 4) with (2 ^ 32); lia). unfold is_byte. lia.
Qed.
Lemma pkcs8_parse d x y : 1 <= d < sm2_n -> 0 <= x < 2 ^ 256 -> 0 <= y < 2 ^ 256 -> (x, y) = cv_base cv (be_bytes 32 d) ->
  exists b, pkcs8_bytes d x y = Ok b /\ bytes b /\ b <> [] /\ zlen b < 2 ^ 28 /\ 
     ParsePKCS8PrivateKey T cv nist_order nist_base parsePKCS1 b = Ok (KEC SM2C d x y).
Proof.
  intros Hd Hx Hy Hxy. destruct sm2_n_range as (Hn & _ & HL).
  assert (Hd2 : 0 <= d < 2 ^ 256) by lia.
  unfold pkcs8_bytes. assert (Hnb : (nbytes d <= 32)%nat) by (apply nbytes_le; rewrite Z.abs_eq by lia; exact (proj2 Hd2)).
  replace (32 <? nbytes d)%nat with false by (symmetry; apply Nat.ltb_ge; exact Hnb).
  rewrite (pad32_Bytes d Hd2). unfold ellMarshal. rewrite (pad32_Bytes x Hx), (pad32_Bytes y Hy).
  pose proof (be_bytes_length 32 d) as Ld. pose proof (be_bytes_length 32 x) as Lx. pose proof (be_bytes_length 32 y) as Ly.
  pose proof (be_bytes_bytes 32 d) as Bd. pose proof (be_bytes_bytes 32 x) as Bx. pose proof (be_bytes_bytes 32 y) as By.
  set (pub := [4] ++ be_bytes 32 x ++ be_bytes 32 y). assert (Lp : length pub = 65%nat) by (unfold pub; rewrite !app_length, Lx, Ly; reflexivity).
  assert (Bp : bytes pub) by (unfold pub; apply bytes_app; split; [apply bytesb_spec; reflexivity|]; apply bytes_app; auto). clearbody pub.
  set (e := mkEC 1 (be_bytes 32 d) oidNamedCurveSm2 pub).
  assert (Zp : zlen pub = 65) by (unfold zlen; rewrite Lp; reflexivity).
  assert (Zd : zlen (be_bytes 32 d) = 32) by (unfold zlen; rewrite Ld; reflexivity).
  pose proof (unmarshal_marshal_ec e []) as UE. rewrite app_nil_r in UE. cbn [e_version e_priv e_oid e_pub e] in UE. rewrite Zd, Zp in UE.
  specialize (UE ltac:(lia) ltac:(lia) ltac:(cbn; lia) ltac:(lia) eq_refl). fold e in UE.
  assert (LM : zlen (marshal_ec e) <= 400 /\ bytes (marshal_ec e)).
  { unfold marshal_ec, der_seq, der_int, der_octets, der_oid, der_bits. cbn [e_version e_priv e_oid e_pub e concat]. rewrite app_nil_r.
    pose proof (int_content_length 1 ltac:(lia)) as Li. pose proof (der_tlv_length 2 (int_content 1) ltac:(lia)).
    pose proof (der_tlv_length 4 (be_bytes 32 d) ltac:(lia)). assert (Zo : zlen oidNamedCurveSm2 = 8) by reflexivity. pose proof (der_tlv_length 6 oidNamedCurveSm2 ltac:(lia)).
    pose proof (der_tlv_length 160 (der_tlv 6 oidNamedCurveSm2) ltac:(lia)). pose proof (der_tlv_length 3 (0 :: pub) ltac:(rewrite zlen_cons; lia)). rewrite zlen_cons in *.
    pose proof (der_tlv_length 161 (der_tlv 3 (0 :: pub)) ltac:(lia)). 
    split; [etransitivity; [apply der_tlv_length|]; rewrite !zlen_app; lia|].
    apply der_tlv_bytes; [lia|rewrite !zlen_app; lia|]. apply bytes_app; split; [apply der_tlv_bytes; [lia|lia|apply int_content_bytes]|].
    apply bytes_app; split; [apply der_tlv_bytes; [lia|lia|exact Bd]|].
    apply bytes_app; split; apply der_tlv_bytes; try lia; apply der_tlv_bytes; try lia; [apply bytesb_spec; reflexivity|rewrite zlen_cons; lia|apply bytes_cons; split; [unfold is_byte; lia|exact Bp]]. }
  destruct LM as [LM BM]. eexists. split; [reflexivity|].
  pose proof (unmarshal_marshal_pkcs8 oidPublicKeyECDSA sm2_params (marshal_ec e) [] eq_refl) as UP. rewrite app_nil_r in UP.
  specialize (UP ltac:(right; exists 6, oidNamedCurveSm2; repeat split; discriminate) ltac:(reflexivity) ltac:(reflexivity) ltac:(lia)).
  assert (LA : zlen (der_alg oidPublicKeyECDSA sm2_params) = 21 /\ bytes (der_alg oidPublicKeyECDSA sm2_params)) by (split; [reflexivity|apply bytesb_spec; reflexivity]).
  destruct LA as [LA BA]. pose proof (der_int_length 0 ltac:(lia)) as L0. pose proof (der_tlv_length 4 (marshal_ec e) ltac:(lia)) as L4.
  split; [|split; [discriminate|split]].
  - unfold marshal_pkcs8, der_seq, der_octets. cbn [concat]. rewrite app_nil_r. apply der_tlv_bytes; [lia|rewrite !zlen_app; lia|].
    apply bytes_app; split; [unfold der_int; apply der_tlv_bytes; [lia|cbn; lia|apply int_content_bytes]|].
    apply bytes_app; split; [exact BA|]. apply der_tlv_bytes; [lia|lia|exact BM].
  - unfold marshal_pkcs8, der_seq, der_octets. cbn [concat]. rewrite app_nil_r. eapply Z.le_lt_trans; [apply der_tlv_length|]; rewrite !zlen_app; lia.
  - unfold ParsePKCS8PrivateKey. rewrite UP. cbn [rbind]. change (beqb oidPublicKeyECDSA oidPublicKeyRSA) with false. change (beqb oidPublicKeyECDSA oidPublicKeyECDSA) with true.
    cbv iota. change (parse_oid sm2_params) with (@Ok (list Z * list Z) (oidNamedCurveSm2, [])). cbv beta iota.
    apply C46_parse_ec_private_key.
    + intros e' He'. rewrite UE in He'. injection He' as <-. exact Bd.
    + exists e. split; [exact UE|]. split; [reflexivity|]. split; [reflexivity|]. cbn [e_priv e].
      change 256 with (8 * 32) in Hd2. split; [symmetry; apply be_val_be_bytes_small; replace (256 ^ Z.of_nat 32) with (2 ^ (8 * 32)) by reflexivity; exact Hd2|].
      split; [exact (conj (proj1 Hd2) (proj2 Hd))|]. rewrite HL. exact Hxy.
Qed.
(** private keys: exported with or without a password, every key comes back *)
Theorem C45_private_key_round_trip d x y pwd salt iv :
  1 <= d < sm2_n -> 0 <= x < 2 ^ 256 -> 0 <= y < 2 ^ 256 -> (x, y) = cv_base cv (be_bytes 32 d) ->
  length salt = 8%nat -> length iv = 16%nat -> bytes salt -> bytes iv ->
  exists pem, expKey (Some (salt, iv)) d x y pwd = Ok pem /\ impKey pem pwd = Ok (d, x, y) /\
              (pwd <> [] -> exists e, impKey pem [] = Err e).
Proof.
  intros Hd Hx Hy Hxy Ls Li Bs Bi. destruct (pkcs8_parse d x y Hd Hx Hy Hxy) as (b & E1 & Bb & Nb & Lb & E2).
  unfold PrivateKeyToPEM. rewrite E1. cbn [rbind]. destruct pwd as [|p0 pt].
  - eexists. split; [reflexivity|]. split; [|congruence].
    destruct (PEM (mkBlock str_PRIVATE_KEY None None b) ltac:(now left)) as [P1 P2].
    unfold PEMtoPrivateKey. destruct (pemEncode _) as [|h t] eqn:EP; [congruence|]. rewrite P2. cbn [IsEncryptedPEMBlock b_dek b_type b_bytes orb].
    change (beqb str_PRIVATE_KEY str_ENCRYPTED_PRIVATE_KEY) with false. cbv iota. rewrite E2. reflexivity.
  - set (pwd := p0 :: pt).
    destruct (encrypt_result aesE aesD hmac hsize AES HMAC salt iv str_ENCRYPTED_PRIVATE_KEY b pwd 5 _ eq_refl Ls Li Bs Bi Bb Lb) as (c & dek & proc & F1 & F2 & F3 & F4).
    rewrite F1. cbn [rbind]. eexists. split; [reflexivity|]. 
    set (blk := mkBlock str_ENCRYPTED_PRIVATE_KEY (Some dek) proc (marshal_info (enc_info salt iv c))) in *.
    destruct (PEM blk ltac:(right; now left)) as [P1 P2]. unfold PEMtoPrivateKey. destruct (pemEncode blk) as [|h t] eqn:EP; [congruence|]. rewrite P2.
    change (IsEncryptedPEMBlock blk) with true. cbn [orb]. split; [|intros _; eexists; reflexivity].
    unfold pwd at 1. unfold DecryptPEMBlock. change (b_bytes blk) with (marshal_info (enc_info salt iv c)). rewrite F4. cbn [rbind].
    rewrite (decrypt_own aesD hmac hsize salt iv c pwd b Bb F2). destruct b as [|b0 bt]; [congruence|]. cbn [rbind]. rewrite E2. reflexivity.
Qed.
(** public keys *)
Lemma pkix_parse x y : on_curve (Pt x y) -> bytes (MarshalPKIXPublicKey x y) /\ MarshalPKIXPublicKey x y <> [] /\ zlen (MarshalPKIXPublicKey x y) < 2 ^ 28 /\
   ParsePKIXPublicKey (MarshalPKIXPublicKey x y) = Ok (x, y).
Proof.
  intros (Hx & Hy & He). destruct sm2_n_range as (_ & Hp & _). assert (Hx2 : 0 <= x < 2 ^ 256) by lia. assert (Hy2 : 0 <= y < 2 ^ 256) by lia.
  unfold MarshalPKIXPublicKey, ellMarshal. rewrite (pad32_Bytes x Hx2), (pad32_Bytes y Hy2).
  pose proof (be_bytes_length 32 x) as Lx. pose proof (be_bytes_length 32 y) as Ly.
  pose proof (be_bytes_bytes 32 x) as Bx. pose proof (be_bytes_bytes 32 y) as By.
  assert (Vx : be_val (be_bytes 32 x) = x) by (apply be_val_be_bytes_small; replace (256 ^ Z.of_nat 32) with (2 ^ 256) by reflexivity; exact Hx2).
  assert (Vy : be_val (be_bytes 32 y) = y) by (apply be_val_be_bytes_small; replace (256 ^ Z.of_nat 32) with (2 ^ 256) by reflexivity; exact Hy2).
  set (pub := [4] ++ be_bytes 32 x ++ be_bytes 32 y). assert (Lp : length pub = 65%nat) by (unfold pub; rewrite !app_length, Lx, Ly; reflexivity).
  assert (Bp : bytes pub) by (unfold pub; apply bytes_app; split; [apply bytesb_spec; reflexivity|]; apply bytes_app; auto).
  assert (EU : ellUnmarshal pub = Some (x, y)).
  { unfold ellUnmarshal. rewrite Lp. change (65 =? 65)%nat with true. change (nth 0 pub 0) with 4. change (4 =? 4) with true. cbn [negb].
    change (skipn 1 pub) with (be_bytes 32 x ++ be_bytes 32 y). change (skipn 33 pub) with (skipn 32 (be_bytes 32 x ++ be_bytes 32 y)).
    rewrite firstn_app_l, skipn_app_l by (symmetry; assumption). cbv zeta. rewrite Vx, Vy.
    replace (sm2_p <=? x) with false by lia. replace (sm2_p <=? y) with false by lia. cbn [orb]. unfold on_curve_b. rewrite He, Z.eqb_refl. reflexivity. }
  clearbody pub. assert (Zp : zlen pub = 65) by (unfold zlen; rewrite Lp; reflexivity).
  set (alg := der_alg oidPublicKeyECDSA (der_oid oidNamedCurveSm2)).
  assert (LA : zlen alg = 21 /\ bytes alg) by (split; [reflexivity|apply bytesb_spec; reflexivity]). destruct LA as [LA BA].
  assert (PA : forall rest, parse_alg (alg ++ rest) = Ok ((oidPublicKeyECDSA, der_oid oidNamedCurveSm2), rest)).
  { intros rest. apply parse_alg_der; try reflexivity. right. exists 6, oidNamedCurveSm2. repeat split; discriminate. }
  clearbody alg. unfold der_bits. pose proof (der_tlv_length 3 (0 :: pub) ltac:(rewrite zlen_cons; lia)) as L3. rewrite zlen_cons in L3.
  unfold der_seq. cbn [concat]. rewrite app_nil_r. split.
  - apply der_tlv_bytes; [lia|rewrite !zlen_app; lia|]. apply bytes_app. split; [exact BA|]. apply der_tlv_bytes; [lia|rewrite zlen_cons; lia|]. apply bytes_cons. split; [unfold is_byte; lia|exact Bp].
  - split; [discriminate|]. split; [eapply Z.le_lt_trans; [apply der_tlv_length|]; rewrite !zlen_app; lia|].
    unfold ParsePKIXPublicKey. rewrite <- (app_nil_r (der_tlv 48 _)). rewrite parse_field_tlv by (rewrite zlen_app; lia). cbn [rbind fst snd]. rewrite PA. cbn [rbind fst snd].
    rewrite <- (app_nil_r (der_tlv 3 (0 :: pub))). change (der_tlv 3 (0 :: pub)) with (der_bits pub). rewrite parse_bits_der by lia. cbn [rbind fst snd].
    rewrite !beqb_refl. cbn [andb negb]. rewrite RightAlign_0 by exact Bp. rewrite EU. reflexivity.
Qed.
Theorem C45_public_key_round_trip x y pwd salt iv : on_curve (Pt x y) ->
  length salt = 8%nat -> length iv = 16%nat -> bytes salt -> bytes iv ->
  exists pem, PublicKeyToPEM aesE hmac hsize pemEncode (Some (salt, iv)) x y pwd = Ok pem /\
              PEMtoPublicKey aesD hmac hsize pemDecode pem pwd = Ok (x, y) /\
             (pwd <> [] -> exists e, PEMtoPublicKey aesD hmac hsize pemDecode pem [] = Err e).
Proof.
  intros Hc Ls Li Bs Bi. destruct (pkix_parse x y Hc) as (Bb & Nb & Lb & E2).
  unfold PublicKeyToPEM. destruct pwd as [|p0 pt].
  - eexists. split; [reflexivity|]. split; [|congruence].
    destruct (PEM (mkBlock str_PUBLIC_KEY None None (MarshalPKIXPublicKey x y)) ltac:(right; now right)) as [P1 P2].
    unfold PEMtoPublicKey. destruct (pemEncode _) as [|h t] eqn:EP; [congruence|]. rewrite P2. cbn [IsEncryptedPEMBlock b_dek b_bytes]. exact E2.
  - set (pwd := p0 :: pt).
    destruct (encrypt_result aesE aesD hmac hsize AES HMAC salt iv str_PUBLIC_KEY (MarshalPKIXPublicKey x y) pwd 5 _ eq_refl Ls Li Bs Bi Bb Lb) as (c & dek & proc & F1 & F2 & F3 & F4).
    rewrite F1. cbn [rbind]. eexists. split; [reflexivity|]. 
    set (blk := mkBlock str_PUBLIC_KEY (Some dek) proc (marshal_info (enc_info salt iv c))) in *.
    destruct (PEM blk ltac:(right; now right)) as [P1 P2]. unfold PEMtoPublicKey. destruct (pemEncode blk) as [|h t] eqn:EP; [congruence|]. rewrite P2.
    change (IsEncryptedPEMBlock blk) with true. split; [|intros _; eexists; reflexivity].
    unfold pwd at 1. unfold DecryptPEMBlock. change (b_bytes blk) with (marshal_info (enc_info salt iv c)). rewrite F4. cbn [rbind].
    rewrite (decrypt_own aesD hmac hsize salt iv c pwd _ Bb F2). destruct (MarshalPKIXPublicKey x y) as [|b0 bt] eqn:EM; [congruence|]. cbn [rbind]. exact E2.
Qed.
End Export.
(** the hypotheses of C45 can be met: a toy armour, and the point d*G for every d in [1,n-1] *)
Definition wl (l : list Z) : list Z := Z.of_nat (length l) :: l.
Definition rl (b : list Z) : list Z * list Z := match b with [] => ([], []) | n :: t => (firstn (Z.to_nat n) t, skipn (Z.to_nat n) t) end.
Definition wo (o : option (list Z)) : list Z := match o with None => [0] | Some l => 1 :: wl l end.
Definition ro (b : list Z) : option (list Z) * list Z := match b with [] => (None, []) | 0 :: t => (None, t) | _ :: t => (Some (fst (rl t)), snd (rl t)) end.
Lemma rl_wl l r : rl (wl l ++ r) = (l, r).
Proof. unfold rl, wl. cbn [app]. rewrite Nat2Z.id. now rewrite firstn_app_l, skipn_app_l. Qed.
Lemma ro_wo o r : ro (wo o ++ r) = (o, r).
Proof. destruct o as [l|]; [|reflexivity]. unfold wo. cbn [app]. unfold ro. now rewrite rl_wl. Qed.
Definition toyEncode (b : block) : list Z := wl (b_type b) ++ wo (b_dek b) ++ wo (b_proc b) ++ b_bytes b.
Definition toyDecode (l : list Z) : option block :=
  let '(t, l) := rl l in let '(d, l) := ro l in let '(p, l) := ro l in Some (mkBlock t d p l).
Lemma C45_hyps_pem : pem_ok toyEncode toyDecode.
Proof. intros b _. split; [discriminate|]. unfold toyDecode, toyEncode. rewrite rl_wl, ro_wo, ro_wo. destruct b; reflexivity. Qed.
Lemma C45_hyps_key d : 1 <= d < sm2_n ->
  exists x y, smul d pG = Pt x y /\ on_curve (Pt x y) /\ 0 <= x < 2 ^ 256 /\ 0 <= y < 2 ^ 256 /\ (x, y) = cv_base cv_std (be_bytes 32 d).
Proof.
  intros Hd. destruct (sm2_n_range (fun _ => 0)) as (Hn & Hp & _).
  assert (Ho : on_curve (smul d pG)) by (apply on_smul; exact G_on).
  destruct (smul d pG) as [|x y] eqn:E.
  - exfalso. assert (K : smul d pG = smul 0 pG) by (rewrite E; reflexivity). apply kG_inj in K. rewrite Z.sub_0_r, Z.mod_small in K by lia. lia.
  - exists x, y. split; [reflexivity|]. split; [exact Ho|]. destruct Ho as (Hx & Hy & _). split; [lia|]. split; [lia|].
    unfold cv_std. cbn [cv_base]. rewrite be_val_be_bytes_small by (replace (256 ^ Z.of_nat 32) with (2 ^ 256) by reflexivity; lia). rewrite E. reflexivity.
Qed.

(** ** C73: parsed public keys are points of the curve *)
Theorem C73_parsed_keys_on_curve : forall der x y, ParsePKIXPublicKey der = Ok (x, y) -> on_curve (Pt x y).
Proof.
  intros der x y H. unfold ParsePKIXPublicKey in H. destruct (parse_field 48 der) as [top| |]; cbn [rbind] in H; try discriminate.
  destruct (snd top); [|discriminate]. destruct (parse_alg (fst top)) as [a| |]; cbn [rbind] in H; try discriminate.
  destruct (parse_bits (snd a)) as [p| |]; cbn [rbind] in H; try discriminate. destruct (negb _); [discriminate|].
  assert (Bd : bytes (RightAlign (fst p))) by apply be_bytes_bytes. remember (RightAlign (fst p)) as d eqn:Ed. clear Ed. unfold ellUnmarshal in H. destruct (negb _); [discriminate|]. destruct (negb _); [discriminate|]. cbv zeta in H.
  remember (be_val (firstn 32 (skipn 1 d))) as xx eqn:EX. remember (be_val (skipn 33 d)) as yy eqn:EY.
  assert (Px : 0 <= xx) by (rewrite EX; apply be_val_bound, bytes_firstn, bytes_skipn, Bd). assert (Py : 0 <= yy) by (rewrite EY; apply be_val_bound, bytes_skipn, Bd).
  destruct ((sm2_p <=? xx) || (sm2_p <=? yy)) eqn:EL; [discriminate|]. destruct (on_curve_b xx yy) eqn:EO; [|discriminate].
  apply Bool.orb_false_iff in EL as [L1 L2]. apply Z.leb_gt in L1. apply Z.leb_gt in L2. assert (xx = x) by congruence. assert (yy = y) by congruence. subst x y.
  unfold on_curve_b in EO. apply Z.eqb_eq in EO. unfold on_curve. split; [lia|]. split; [lia|]. exact EO.
Qed.
Print Assumptions C73_parsed_keys_on_curve.
(** through the PEM layer too, encrypted or not *)
Theorem C73_pem_keys_on_curve : forall aesD hmac hsize pemDecode raw pwd x y, PEMtoPublicKey aesD hmac hsize pemDecode raw pwd = Ok (x, y) -> on_curve (Pt x y).
Proof.
  intros aesD hmac hsize pemDecode raw pwd x y H. unfold PEMtoPublicKey in H. destruct raw; [discriminate|]. destruct (pemDecode _) as [blk|]; [|discriminate].
  destruct (IsEncryptedPEMBlock blk); [|eapply C73_parsed_keys_on_curve; exact H]. destruct pwd; [discriminate|].
  destruct (DecryptPEMBlock aesD hmac hsize blk _) as [d| |]; cbn [rbind] in H; try discriminate. eapply C73_parsed_keys_on_curve; exact H.
Qed.
Print Assumptions C73_pem_keys_on_curve.

(** Proofs about Keys_model.v. *)
From Verif Require Import GoBase GoLemmas BigBytes Asn1_model NT Prime_cert SM2_curve_spec SM2_spec SM2_model CBC Keys_model.
Open Scope Z_scope.

(** ** PBKDF2 as in RFC 2898 section 5.2 *)
Section Rfc2898.
Variable prf : list Z -> list Z.
(** U_1 = PRF(P, S || INT(i)), U_{j+1} = PRF(P, U_j) *)
Fixpoint rfc_U (salt : list Z) (i : Z) (j : nat) : list Z :=
  match j with O => prf (salt ++ be_bytes 4 i) | S j' => prf (rfc_U salt i j') end.
(** F(P,S,c,i) = U_1 xor ... xor U_c, for c = j + 1 *)
Fixpoint rfc_F (salt : list Z) (i : Z) (j : nat) : list Z :=
  match j with O => rfc_U salt i 0 | S j' => xorl (rfc_F salt i j') (rfc_U salt i j) end.
(** DK = first dkLen octets of T_1 || ... || T_l, l = ceil(dkLen / hLen) *)
Definition rfc_pbkdf2 (hLen : nat) (salt : list Z) (c : Z) (dkLen : nat) : list Z :=
  let l := ((dkLen + hLen - 1) / hLen)%nat in
  firstn dkLen (concat (map (fun i => rfc_F salt (Z.of_nat i) (Z.to_nat c - 1)) (seq 1 l))).
End Rfc2898.
Lemma buf4 b : 0 <= b -> [u8 (Z.shiftr b 24); u8 (Z.shiftr b 16); u8 (Z.shiftr b 8); u8 b] = be_bytes 4 b.
Proof.
  intros H. cbn [be_bytes app]. unfold u8. rewrite !Z.shiftr_div_pow2 by lia. rewrite !Z.div_div by lia.
  reflexivity.
Qed.
Section Pbkdf2.
Variable hLen : nat. Variable prf : list Z -> list Z.
Hypothesis HL : forall m, length (prf m) = hLen.
Lemma rfc_U_len salt i j : length (rfc_U prf salt i j) = hLen.
Proof. destruct j; apply HL. Qed.
Lemma rfc_F_len salt i j : length (rfc_F prf salt i j) = hLen.
Proof. induction j as [|j IH]; cbn [rfc_F]; [apply rfc_U_len|]. rewrite xorl_length, rfc_U_len. lia. Qed.
Lemma inner_spec salt i k : forall j pre, inner hLen prf k (pre ++ rfc_F prf salt i j) (rfc_U prf salt i j) = pre ++ rfc_F prf salt i (j + k).
Proof.
  induction k as [|k IH]; intros j pre; cbn [inner]; [now rewrite Nat.add_0_r|].
  rewrite app_length, rfc_F_len. replace (length pre + hLen - hLen)%nat with (length pre) by lia.
  rewrite firstn_app_l, skipn_app_l by reflexivity. change (prf (rfc_U prf salt i j)) with (rfc_U prf salt i (S j)).
  change (xorl (rfc_F prf salt i j) (rfc_U prf salt i (S j))) with (rfc_F prf salt i (S j)). rewrite IH. f_equal. f_equal. lia.
Qed.
Lemma outer_spec salt iter m : 1 <= iter -> forall b dk, (1 <= b)%nat ->
  outer hLen prf m salt iter (Z.of_nat b) dk = dk ++ concat (map (fun i => rfc_F prf salt (Z.of_nat i) (Z.to_nat iter - 1)) (seq b m)).
Proof.
  intros Hi. induction m as [|m IH]; intros b dk Hb; cbn [outer seq map concat]; [now rewrite app_nil_r|].
  rewrite buf4 by lia. rewrite app_length, HL. replace (length dk + hLen - hLen)%nat with (length dk) by lia.
  rewrite skipn_app_l by reflexivity. change (prf (salt ++ be_bytes 4 (Z.of_nat b))) with (rfc_U prf salt (Z.of_nat b) 0) at 2.
  change (prf (salt ++ be_bytes 4 (Z.of_nat b))) with (rfc_F prf salt (Z.of_nat b) 0) at 1. rewrite inner_spec.
  replace (Z.of_nat b + 1) with (Z.of_nat (S b)) by lia. rewrite IH by lia. rewrite <- app_assoc. f_equal. f_equal. f_equal. lia.
Qed.
Theorem pbkdf_spec salt iter keyLen : 1 <= iter -> pbkdf hLen prf salt iter keyLen = rfc_pbkdf2 prf hLen salt iter keyLen.
Proof. intros Hi. unfold pbkdf, rfc_pbkdf2. change 1 with (Z.of_nat 1) at 1. now rewrite outer_spec by lia. Qed.
Lemma inner_len k : forall dk U, (hLen <= length dk)%nat -> length (inner hLen prf k dk U) = length dk.
Proof.
  induction k as [|k IH]; intros dk U Hd; cbn [inner]; [reflexivity|]. rewrite IH; rewrite app_length, firstn_length, xorl_length, skipn_length, HL; lia.
Qed.
Lemma outer_len m : forall salt iter b dk, length (outer hLen prf m salt iter b dk) = (length dk + hLen * m)%nat.
Proof.
  induction m as [|m IH]; intros salt iter b dk; cbn [outer]; [lia|]. rewrite IH, inner_len; rewrite app_length, HL; lia.
Qed.
Lemma pbkdf_len salt iter keyLen : (0 < hLen)%nat -> length (pbkdf hLen prf salt iter keyLen) = keyLen.
Proof.
  intros Hh. unfold pbkdf. rewrite firstn_length, outer_len. cbn [length].
  assert (keyLen <= hLen * ((keyLen + hLen - 1) / hLen))%nat; [|lia].
  pose proof (Nat.div_mod (keyLen + hLen - 1) hLen ltac:(lia)). pose proof (Nat.mod_upper_bound (keyLen + hLen - 1) hLen ltac:(lia)). lia.
Qed.
End Pbkdf2.

(** ** DER round trips *)
Lemma zlen_cons {A} (x : A) l : zlen (x :: l) = 1 + zlen l. Proof. unfold zlen. cbn [length]. lia. Qed.
Lemma zlen_nil {A} : zlen (@nil A) = 0. Proof. reflexivity. Qed.
Lemma parse_oid_der c rest : zlen c < 2 ^ 31 -> oid_valid c = true -> parse_oid (der_oid c ++ rest) = Ok (c, rest).
Proof. intros H V. unfold parse_oid, der_oid. rewrite parse_field_tlv by exact H. cbn [rbind fst]. now rewrite V. Qed.
Lemma parse_goint_der z rest : 0 <= z < 2 ^ 63 -> parse_goint (der_int z ++ rest) = Ok (z, rest).
Proof.
  intros H. unfold parse_goint. pose proof (int_content_length z ltac:(lia)). rewrite parse_int_der by lia. cbn [rbind fst].
  replace (- 2 ^ 63 <=? z) with true by lia. replace (z <? 2 ^ 63) with true by lia. reflexivity.
Qed.
Lemma parse_any_der t c rest : Z.land t 31 <> 31 -> zlen c < 2 ^ 31 -> parse_any_opt (der_tlv t c ++ rest) = Ok (der_tlv t c, rest).
Proof.
  intros Ht Hc. unfold parse_any_opt. change (der_tlv t c ++ rest) with (t :: (len_enc (zlen c) ++ c) ++ rest).
  destruct (Z.eqb_spec (Z.land t 31) 31); [contradiction|]. change (t :: (len_enc (zlen c) ++ c) ++ rest) with (der_tlv t c ++ rest).
  rewrite parse_field_tlv by exact Hc. cbn [rbind snd]. rewrite app_length. replace (length (der_tlv t c) + length rest - length rest)%nat with (length (der_tlv t c)) by lia.
  rewrite firstn_app_l by reflexivity. replace (Z.land t 31 =? 31) with false by (symmetry; now apply Z.eqb_neq). reflexivity.
Qed.
(** params: absent, or one TLV *)
Definition params_ok (p : list Z) : Prop := p = [] \/ exists t c, p = der_tlv t c /\ Z.land t 31 <> 31 /\ zlen c < 2 ^ 31.
Lemma parse_alg_der oid p rest : zlen oid < 2 ^ 29 -> zlen p < 2 ^ 29 -> oid_valid oid = true -> params_ok p -> parse_alg (der_alg oid p ++ rest) = Ok ((oid, p), rest).
Proof.
  intros Ho Hp V HP. unfold parse_alg, der_alg, der_seq. cbn [concat]. rewrite app_nil_r.
  pose proof (der_tlv_length 6 oid ltac:(lia)). unfold der_oid. rewrite parse_field_tlv by (rewrite zlen_app; lia). cbn [rbind fst snd].
  fold (der_oid oid). rewrite parse_oid_der by (assumption || lia). cbn [rbind fst snd].
  destruct HP as [->|(t & c & -> & Ht & Hc)]; [reflexivity|].
  rewrite <- (app_nil_r (der_tlv t c)) at 1. rewrite parse_any_der by assumption. reflexivity.
Qed.
Lemma parse_bits_der b rest : zlen b < 2 ^ 30 -> parse_bits (der_bits b ++ rest) = Ok ((0, b), rest).
Proof.
  intros H. unfold parse_bits, der_bits. rewrite parse_field_tlv by (rewrite zlen_cons; lia). cbn [rbind fst snd].
  unfold parse_bits_content. change (7 <? 0) with false. change (0 <? 0) with false. cbn [andb orb].
  change (Z.shiftl 1 0 - 1) with 0. rewrite Z.land_0_r. reflexivity.
Qed.
Lemma RightAlign_0 b : bytes b -> RightAlign (0, b) = b.
Proof. intros H. unfold RightAlign. cbn [fst snd]. change (2 ^ 0) with 1. rewrite Z.div_1_r. now apply be_bytes_be_val. Qed.
Lemma parse_explicit_der {A} tag (p : list Z -> res (A * list Z)) d inner v rest : zlen inner < 2 ^ 31 -> inner <> [] -> p inner = Ok (v, []) ->
  parse_explicit tag p d (der_tlv tag inner ++ rest) = Ok (v, rest).
Proof.
  intros H Hn Hp. unfold parse_explicit. destruct (der_tlv tag inner ++ rest) as [|t b] eqn:E; [discriminate|].
  assert (t = tag) as -> by (unfold der_tlv in E; cbn [app] in E; congruence). rewrite Z.eqb_refl, <- E.
  rewrite parse_field_tlv by exact H. cbn [rbind fst snd]. destruct inner; [congruence|]. cbn [length Nat.eqb]. rewrite Hp. reflexivity.
Qed.
Lemma unmarshal_marshal_info i rest : oid_valid (i_pbes2 i) = true -> oid_valid (i_kdf i) = true -> oid_valid (i_prf i) = true -> oid_valid (i_enc i) = true ->
  params_ok (i_prfpar i) -> 0 <= i_iter i < 2 ^ 63 ->
  zlen (i_pbes2 i) + zlen (i_kdf i) + zlen (i_salt i) + zlen (i_prf i) + zlen (i_prfpar i) + zlen (i_enc i) + zlen (i_iv i) + zlen (i_data i) < 2 ^ 29 ->
  unmarshal_info (marshal_info i ++ rest) = Ok i.
Proof.
  intros V1 V2 V3 V4 VP Vi HS. destruct i as [o1 o2 salt iter o3 par o4 iv data]. cbn [i_pbes2 i_kdf i_salt i_iter i_prf i_prfpar i_enc i_iv i_data] in *.
  pose proof (zlen_nonneg o1). pose proof (zlen_nonneg o2). pose proof (zlen_nonneg o3). pose proof (zlen_nonneg o4).
  pose proof (zlen_nonneg salt). pose proof (zlen_nonneg iv). pose proof (zlen_nonneg data). pose proof (zlen_nonneg par).
  unfold marshal_info, unmarshal_info. cbn [i_pbes2 i_kdf i_salt i_iter i_prf i_prfpar i_enc i_iv i_data].
  pose proof (int_content_length iter ltac:(lia)) as Li. pose proof (der_tlv_length 2 (int_content iter) ltac:(lia)).
  set (alg := der_alg o3 par). assert (La : zlen alg <= zlen o3 + zlen par + 12).
  { unfold alg, der_alg, der_seq, der_oid. cbn [concat]. rewrite app_nil_r. pose proof (der_tlv_length 6 o3 ltac:(lia)).
    pose proof (der_tlv_length 48 (der_tlv 6 o3 ++ par)). rewrite zlen_app in *. lia. }
  unfold der_octets, der_oid, der_int. 
  pose proof (der_tlv_length 4 salt ltac:(lia)). pose proof (der_tlv_length 4 iv ltac:(lia)). pose proof (der_tlv_length 4 data ltac:(lia)).
  pose proof (der_tlv_length 6 o1 ltac:(lia)). pose proof (der_tlv_length 6 o2 ltac:(lia)). pose proof (der_tlv_length 6 o4 ltac:(lia)).
  unfold der_seq. cbn [concat]. rewrite !app_nil_r.
  set (kp := der_tlv 48 (der_tlv 4 salt ++ der_tlv 2 (int_content iter) ++ alg)).
  assert (Lkp : zlen kp <= zlen salt + zlen o3 + zlen par + 80) by (unfold kp; etransitivity; [apply der_tlv_length|]; rewrite !zlen_app; lia).
  set (kd := der_tlv 48 (der_tlv 6 o2 ++ kp)).
  assert (Lkd : zlen kd <= zlen o2 + zlen salt + zlen o3 + zlen par + 100) by (unfold kd; etransitivity; [apply der_tlv_length|]; rewrite !zlen_app; lia).
  set (es := der_tlv 48 (der_tlv 6 o4 ++ der_tlv 4 iv)).
  assert (Les : zlen es <= zlen o4 + zlen iv + 20) by (unfold es; etransitivity; [apply der_tlv_length|]; rewrite !zlen_app; lia).
  set (pp := der_tlv 48 (kd ++ es)).
  assert (Lpp : zlen pp <= zlen o2 + zlen salt + zlen o3 + zlen par + zlen o4 + zlen iv + 130) by (unfold pp; etransitivity; [apply der_tlv_length|]; rewrite !zlen_app; lia).
  set (aa := der_tlv 48 (der_tlv 6 o1 ++ pp)).
  assert (Laa : zlen aa <= zlen o1 + zlen o2 + zlen salt + zlen o3 + zlen par + zlen o4 + zlen iv + 150) by (unfold aa; etransitivity; [apply der_tlv_length|]; rewrite !zlen_app; lia).
  rewrite parse_field_tlv by (rewrite !zlen_app; lia). cbn [rbind fst snd].
  unfold aa. rewrite parse_field_tlv by (rewrite !zlen_app; lia). cbn [rbind fst snd].
  fold (der_oid o1). rewrite parse_oid_der by (assumption || lia). cbn [rbind fst snd].
  rewrite <- (app_nil_r pp). unfold pp. rewrite parse_field_tlv by (rewrite !zlen_app; lia). cbn [rbind fst snd].
  unfold kd. rewrite parse_field_tlv by (rewrite !zlen_app; lia). cbn [rbind fst snd].
  fold (der_oid o2). rewrite parse_oid_der by (assumption || lia). cbn [rbind fst snd].
  rewrite <- (app_nil_r kp). unfold kp. rewrite parse_field_tlv by (rewrite !zlen_app; lia). cbn [rbind fst snd].
  rewrite parse_field_tlv by lia. cbn [rbind fst snd].
  fold (der_int iter). rewrite parse_goint_der by lia. cbn [rbind fst snd].
  rewrite <- (app_nil_r alg). unfold alg. rewrite parse_alg_der by (assumption || lia). cbn [rbind fst snd].
  rewrite <- (app_nil_r es). unfold es. rewrite parse_field_tlv by (rewrite !zlen_app; lia). cbn [rbind fst snd].
  fold (der_oid o4). rewrite parse_oid_der by (assumption || lia). cbn [rbind fst snd].
  rewrite <- (app_nil_r (der_tlv 4 iv)). rewrite parse_field_tlv by lia. cbn [rbind fst snd].
  rewrite <- (app_nil_r (der_tlv 4 data)). rewrite parse_field_tlv by lia. reflexivity.
Qed.
Lemma unmarshal_marshal_ec e rest : 0 <= e_version e < 2 ^ 63 -> zlen (e_priv e) < 2 ^ 28 -> zlen (e_oid e) < 2 ^ 28 -> zlen (e_pub e) < 2 ^ 28 ->
  oid_valid (e_oid e) = true -> unmarshal_ec (marshal_ec e ++ rest) = Ok e.
Proof.
  intros Hv Hk Ho Hp V. destruct e as [v k o p]. cbn [e_version e_priv e_oid e_pub] in *. unfold unmarshal_ec, marshal_ec. cbn [e_version e_priv e_oid e_pub].
  pose proof (zlen_nonneg k). pose proof (zlen_nonneg o). pose proof (zlen_nonneg p).
  pose proof (int_content_length v ltac:(lia)) as Li. pose proof (der_tlv_length 2 (int_content v) ltac:(lia)).
  pose proof (der_tlv_length 4 k ltac:(lia)). pose proof (der_tlv_length 6 o ltac:(lia)). pose proof (der_tlv_length 160 (der_tlv 6 o) ltac:(lia)).
  pose proof (der_tlv_length 3 (0 :: p) ltac:(rewrite zlen_cons; lia)). rewrite zlen_cons in *. pose proof (der_tlv_length 161 (der_tlv 3 (0 :: p)) ltac:(lia)).
  unfold der_seq, der_int, der_octets, der_oid, der_bits. cbn [concat]. rewrite app_nil_r.
  rewrite parse_field_tlv by (rewrite !zlen_app; lia). cbn [rbind fst snd].
  fold (der_int v). rewrite parse_goint_der by lia. cbn [rbind fst snd]. rewrite parse_field_tlv by lia. cbn [rbind fst snd].
  rewrite (parse_explicit_der 160 parse_oid [] (der_tlv 6 o) o); [|lia|discriminate|].
  2:{ rewrite <- (app_nil_r (der_tlv 6 o)). apply parse_oid_der; [lia|exact V]. }
  cbn [rbind fst snd]. rewrite <- (app_nil_r (der_tlv 161 (der_tlv 3 (0 :: p)))).
  rewrite (parse_explicit_der 161 parse_bits (0, []) (der_tlv 3 (0 :: p)) (0, p)); [|lia|discriminate|].
  2:{ rewrite <- (app_nil_r (der_tlv 3 (0 :: p))). apply parse_bits_der. lia. }
  reflexivity.
Qed.
Lemma unmarshal_marshal_pkcs8 oid par key rest : oid_valid oid = true -> params_ok par -> zlen oid < 2 ^ 28 -> zlen par < 2 ^ 28 -> zlen key < 2 ^ 28 ->
  unmarshal_pkcs8 (marshal_pkcs8 oid par key ++ rest) = Ok ((oid, par), key).
Proof.
  intros V VP Ho Hp Hk. unfold unmarshal_pkcs8, marshal_pkcs8. set (alg := der_alg oid par).
  pose proof (zlen_nonneg key). pose proof (zlen_nonneg oid). pose proof (zlen_nonneg par).
  assert (La : zlen alg <= zlen oid + zlen par + 12).
  { unfold alg, der_alg, der_seq, der_oid. cbn [concat]. rewrite app_nil_r. pose proof (der_tlv_length 6 oid ltac:(lia)).
    pose proof (der_tlv_length 48 (der_tlv 6 oid ++ par)). rewrite zlen_app in *. lia. }
  pose proof (der_int_length 0 ltac:(lia)). pose proof (der_tlv_length 4 key ltac:(lia)).
  unfold der_seq, der_octets. cbn [concat]. rewrite app_nil_r. rewrite parse_field_tlv by (rewrite !zlen_app; lia). cbn [rbind fst snd].
  rewrite parse_goint_der by lia. cbn [rbind fst snd]. unfold alg. rewrite parse_alg_der by (assumption || lia). cbn [rbind fst snd].
  rewrite <- (app_nil_r (der_tlv 4 key)). rewrite parse_field_tlv by lia. reflexivity.
Qed.
Lemma strip_zeros_short k n : (length k <= n)%nat -> strip_zeros k n = Some k.
Proof. destruct k as [|x t]; [reflexivity|]. intros H. cbn [strip_zeros]. replace (n <? length (x :: t))%nat with false by (symmetry; apply Nat.ltb_ge; lia). reflexivity. Qed.
Lemma strip_zeros_val k n : bytes k -> be_val k < 256 ^ Z.of_nat n -> exists k', strip_zeros k n = Some k' /\ (length k' <= n)%nat /\ bytes k' /\ be_val k' = be_val k.
Proof.
  induction k as [|x t IH]; intros Hb Hv; [exists []; cbn; repeat split; [lia|constructor]|]. cbn [strip_zeros].
  destruct (n <? length (x :: t))%nat eqn:E.
  - apply Nat.ltb_lt in E. cbn [length] in E. apply bytes_cons in Hb as [Hx Ht]. rewrite be_val_cons in *. pose proof (be_val_bound t Ht) as Hbt.
    assert (256 ^ Z.of_nat n <= 256 ^ zlen t) by (apply Z.pow_le_mono_r; unfold zlen; lia).
    unfold is_byte in Hx. assert (x = 0) as -> by nia. rewrite Z.eqb_refl. rewrite Z.mul_0_l, Z.add_0_l in *. now apply IH.
  - apply Nat.ltb_ge in E. exists (x :: t). auto.
Qed.
Lemma padded_val k' n : bytes k' -> (length k' <= n)%nat -> zeros (n - length k') ++ k' = be_bytes n (be_val k').
Proof.
  intros Hb Hl. assert (Hlen : length (zeros (n - length k') ++ k') = n) by (rewrite app_length, zeros_length; lia).
  rewrite <- (be_val_zeros (n - length k') k'). rewrite <- Hlen at 2. symmetry. apply be_bytes_be_val. apply bytes_app. split; [apply bytes_zeros|exact Hb].
Qed.

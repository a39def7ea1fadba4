(** Proofs about SM2_model.v, generic in the curve implementation. *)
From Coq Require Import Znumtheory.
From Verif Require Import GoBase GoLemmas BigBytes Asn1_model SM3_spec SM3_model SM3_hist_spec SM3_proofs NT Prime_cert
  SM2_curve_spec SM2_group SM2_jac SM2_order SM2_spec SM2_model.
Open Scope Z_scope.
Ltac Zify.zify_post_hook ::= Z.div_mod_to_equations.
#[local] Opaque sm3 SumSM3 smul padd zinv Bytes.
Local Notation n := sm2_n.

(** ** SM3 calls never fail *)
Lemma SumSM3_total m : bytes m -> exists h, SumSM3 m = Ok h /\ length h = 32%nat /\ bytes h.
Proof.
  intros Hm. destruct (no_panic [OpWrite m] []) as (h & E & Hl & Hb); [repeat constructor; exact Hm|].
  exists h. split; [|auto]. cbn [app] in E. rewrite <- E.
  pose proof (Sum_writes_SumSM3 [m] ltac:(repeat constructor; exact Hm)) as H. cbn [concat app] in H.
  rewrite app_nil_r in H. rewrite <- H. f_equal. cbn [run_state SM3_model.step writes fold_left]. now destruct (Write New m).
Qed.
Lemma sm3_length_bytes m : bytes m -> zlen m < 2^61 -> length (sm3 m) = 32%nat /\ bytes (sm3 m).
Proof.
  intros Hm Hl. destruct (SumSM3_total m Hm) as (h & E & H1 & H2). rewrite SumSM3_spec in E by auto. injection E as <-. auto.
Qed.

(** ** copies into freshly made arrays *)
Lemma copy_into_zeros k src : (length src <= k)%nat -> copy_into (zeros k) src = src ++ zeros (k - length src).
Proof.
  intros H. unfold copy_into. rewrite zeros_length, firstn_all2 by lia. f_equal.
  unfold zeros. rewrite <- (firstn_skipn (length src) (repeat 0 k)) at 1. rewrite skipn_app.
  rewrite (skipn_all2 (firstn _ _)) by (rewrite firstn_length; lia).
  rewrite firstn_length, repeat_length. replace (length src - Nat.min (length src) k)%nat with 0%nat by lia. cbn [skipn app].
  clear. remember (length src) as j. clear Heqj src. revert j. induction k as [|k IH]; intros [|j]; cbn; auto.
Qed.
Lemma copy_seq z m : length z = 32%nat ->
  (let a := zeros (32 + length m) in let a := copy_into a z in firstn 32 a ++ copy_into (skipn 32 a) m) = z ++ m.
Proof.
  intros Hz. cbn zeta. rewrite copy_into_zeros by lia. rewrite Hz.
  rewrite firstn_app_l, skipn_app_l by auto. f_equal. replace (32 + length m - 32)%nat with (length m) by lia.
  rewrite copy_into_zeros by lia. rewrite Nat.sub_diag. apply app_nil_r.
Qed.
Lemma z_of_app x y : length x = 32%nat -> length y = 32%nat -> z_of x y = x ++ y.
Proof.
  intros Hx Hy. unfold z_of. rewrite copy_into_zeros by lia. rewrite firstn_app_l, skipn_app_l by auto. f_equal.
  rewrite copy_into_zeros by lia. rewrite Hx, Hy. apply app_nil_r.
Qed.
Lemma hash_buf_app x m y : length x = 32%nat -> length y = 32%nat -> hash_buf x m y = x ++ m ++ y.
Proof.
  intros Hx Hy. unfold hash_buf. rewrite copy_into_zeros by lia. rewrite (firstn_app_l 32), (skipn_app_l 32) by auto.
  rewrite Hx. rewrite copy_into_zeros by lia. rewrite (app_assoc x m).
  rewrite firstn_app_l, skipn_app_l by (rewrite app_length; lia). rewrite <- app_assoc. do 2 f_equal.
  rewrite copy_into_zeros by lia. replace (64 + length m - 32 - length m - length y)%nat with 0%nat by lia. apply app_nil_r.
Qed.
Lemma pad32_length b : (length b <= 32)%nat -> length (pad32 b) = 32%nat.
Proof. intros H. unfold pad32. rewrite app_length, zeros_length. lia. Qed.
Lemma pad32_bytes b : bytes b -> bytes (pad32 b).
Proof. intros H. apply bytes_app. split; [apply bytes_zeros|exact H]. Qed.
Lemma Bytes_32 z : 0 <= z < 2^256 -> (length (Bytes z) <= 32)%nat.
Proof. intros H. rewrite Bytes_length. apply nbytes_le. rewrite Z.abs_eq by lia. exact (proj2 H). Qed.

(** ** KDF *)
Lemma kdf_block_length Zs i : bytes Zs -> zlen Zs < 2^60 -> length (kdf_block Zs i) = 32%nat /\ bytes (kdf_block Zs i).
Proof.
  intros Hb Hl. apply sm3_length_bytes.
  - apply bytes_app. split; [exact Hb|apply be_bytes_bytes].
  - rewrite zlen_app. unfold zlen at 2. rewrite be_bytes_length. lia.
Qed.
Lemma concat_blocks_length Zs cts : bytes Zs -> zlen Zs < 2^60 -> length (concat (map (kdf_block Zs) cts)) = (length cts * 32)%nat.
Proof.
  intros Hb Hl. induction cts as [|c cts IH]; [reflexivity|]. cbn [map concat length]. rewrite app_length, IH.
  destruct (kdf_block_length Zs c Hb Hl). lia.
Qed.
Theorem keyDerivation_spec Zs k : bytes Zs -> zlen Zs < 2^60 ->
  keyDerivation Zs (8 * Z.of_nat k) = Ok (Some (kdf Zs k)).
Proof.
  intros Hb Hl. unfold keyDerivation. replace (8 * Z.of_nat k mod 8 =? 0) with true by lia. cbn [negb].
  replace (8 * Z.of_nat k <? 0) with false by lia.
  replace (Z.to_nat ((8 * Z.of_nat k + 255) / 256)) with ((k + 31) / 32)%nat by lia.
  replace (Z.to_nat (8 * Z.of_nat k / 8)) with k by lia. unfold kdf.
  set (l := ((k + 31) / 32)%nat).
  match goal with |- ?loop _ _ = _ => set (lp := loop) end.
  assert (G : forall j d, (d + j = l)%nat ->
            lp (seq (S d) j) (concat (map (kdf_block Zs) (seq 1 d)) ++ zeros (j * 32)) =
            Ok (Some (firstn k (concat (map (kdf_block Zs) (seq 1 l)))))).
  { induction j as [|j IH]; intros d Hd.
    - cbn [seq]. unfold lp. cbn [Nat.mul zeros repeat]. rewrite app_nil_r. replace d with l by lia. reflexivity.
    - cbn [seq]. unfold lp. fold lp.
      assert (Hbl := kdf_block_length Zs (S d) Hb Hl). destruct Hbl as [H1 H2].
      rewrite SumSM3_spec.
      2:{ apply bytes_app. split; [exact Hb|apply be_bytes_bytes]. }
      2:{ rewrite zlen_app. unfold zlen at 2. rewrite be_bytes_length. lia. }
      cbn [rbind]. fold (kdf_block Zs (S d)).
      replace ((S d - 1) * 32)%nat with (length (concat (map (kdf_block Zs) (seq 1 d))))
        by (rewrite concat_blocks_length by auto; rewrite seq_length; lia).
      rewrite firstn_app_l, skipn_app_l by reflexivity.
      rewrite copy_into_zeros by lia.
      replace (S j * 32 - length (kdf_block Zs (S d)))%nat with (j * 32)%nat by lia.
      rewrite app_assoc.
      replace (concat (map (kdf_block Zs) (seq 1 d)) ++ kdf_block Zs (S d)) with (concat (map (kdf_block Zs) (seq 1 (S d)))).
      { apply IH. lia. }
      rewrite seq_S, map_app, concat_app. cbn [map concat Nat.add]. now rewrite app_nil_r. }
  specialize (G l 0%nat eq_refl). cbn [seq map concat app] in G. exact G.
Qed.
Lemma kdf_length Zs k : bytes Zs -> zlen Zs < 2^60 -> length (kdf Zs k) = k.
Proof.
  intros Hb Hl. unfold kdf. rewrite firstn_length, concat_blocks_length, seq_length by auto. lia.
Qed.
Lemma concat_blocks_bytes Zs cts : bytes Zs -> zlen Zs < 2^60 -> bytes (concat (map (kdf_block Zs) cts)).
Proof.
  intros Hb Hl. induction cts as [|c cts IH]; [constructor|]. cbn [map concat]. apply bytes_app.
  split; [now apply kdf_block_length|exact IH].
Qed.
Lemma kdf_bytes Zs k : bytes Zs -> zlen Zs < 2^60 -> bytes (kdf Zs k).
Proof. intros Hb Hl. apply bytes_firstn. now apply concat_blocks_bytes. Qed.
Lemma kdf_prefix Zs k j : bytes Zs -> zlen Zs < 2^60 -> (k <= j)%nat -> kdf Zs k = firstn k (kdf Zs j).
Proof.
  intros Hb Hl Hkj. unfold kdf. rewrite firstn_firstn. replace (Nat.min k j) with k by lia.
  replace ((j + 31) / 32)%nat with ((k + 31) / 32 + ((j + 31) / 32 - (k + 31) / 32))%nat by lia.
  rewrite seq_app, map_app, concat_app, firstn_app, concat_blocks_length, seq_length by auto.
  replace (k - (k + 31) / 32 * 32)%nat with 0%nat by lia. cbn [firstn]. now rewrite app_nil_r.
Qed.

(** ** Identity hash and message hash *)
Lemma Bytes_const z : nbytes z = 32%nat -> 0 <= z -> Bytes z = be_bytes 32 z.
Proof. Transparent Bytes. intros H H0. unfold Bytes. rewrite H, Z.abs_eq by lia. reflexivity. Qed.
#[local] Opaque Bytes.
Lemma Bytes_params : Bytes sm2_a = be_bytes 32 sm2_a /\ Bytes sm2_b = be_bytes 32 sm2_b /\
  Bytes sm2_gx = be_bytes 32 sm2_gx /\ Bytes sm2_gy = be_bytes 32 sm2_gy.
Proof. repeat split; apply Bytes_const; reflexivity || (vm_compute; discriminate). Qed.
Lemma p_lt256 : sm2_p < 2^256. Proof. reflexivity. Qed.
Lemma n_lt256 : sm2_n < 2^256. Proof. reflexivity. Qed.
#[local] Opaque sm2_a sm2_b sm2_gx sm2_gy sm2_p sm2_n.
Lemma entl_eq l : 0 <= l -> [u8 (Z.shiftr (u16 (l * 8)) 8); u8 (u16 (l * 8))] = be_bytes 2 (8 * l).
Proof.
  intros H. unfold u8, u16. cbn [be_bytes app]. rewrite Z.shiftr_div_pow2 by lia. change (2^8) with 256. change (2^16) with 65536.
  f_equal; [lia|f_equal; lia].
Qed.
#[local] Opaque be_bytes.
Lemma zlen_be_bytes k z : zlen (be_bytes k z) = Z.of_nat k.
Proof. unfold zlen. now rewrite be_bytes_length. Qed.
Lemma getZById_spec T (pub : pubkey T) id : bytes id -> zlen id < 2^60 -> 0 <= pX pub < 2^256 -> 0 <= pY pub < 2^256 ->
  getZById pub id = Ok (z_id id (pX pub) (pY pub)).
Proof.
  intros Hb Hl Hx Hy. unfold getZById, z_id. rewrite entl_eq by apply zlen_nonneg.
  destruct Bytes_params as (-> & -> & -> & ->). rewrite !pad32_Bytes by auto.
  apply SumSM3_spec.
  - repeat (apply bytes_app; split); first [exact Hb | apply be_bytes_bytes].
  - rewrite !zlen_app. rewrite !zlen_be_bytes. lia.
Qed.
Lemma z_id_length id x y : bytes id -> zlen id < 2^60 -> length (z_id id x y) = 32%nat /\ bytes (z_id id x y).
Proof.
  intros Hb Hl. apply sm3_length_bytes.
  - repeat (apply bytes_app; split); first [exact Hb | apply be_bytes_bytes].
  - rewrite !zlen_app. rewrite !zlen_be_bytes. lia.
Qed.
Lemma default_id_ok : bytes default_id /\ zlen default_id < 2^60.
Proof. split; [apply bytesb_spec; reflexivity|reflexivity]. Qed.
Lemma getZ_total T (pub : pubkey T) : exists z, getZ pub = Ok z /\ length z = 32%nat /\ bytes z.
Proof.
  apply SumSM3_total. destruct Bytes_params as (-> & -> & -> & ->).
  destruct default_id_ok as [Hd _].
  repeat (apply bytes_app; split); try first [exact Hd | apply be_bytes_bytes | apply pad32_bytes; apply Bytes_bytes].
  - rewrite entl_eq by (vm_compute; discriminate). apply be_bytes_bytes.
  - apply bytes_zeros.
  - apply Bytes_bytes.
  - apply bytes_zeros.
  - apply Bytes_bytes.
Qed.
Lemma hash_msg_total T (pub : pubkey T) msg : bytes msg -> exists e, hash_msg pub msg = Ok e /\ 0 <= e < 2^256.
Proof.
  intros Hm. destruct (getZ_total T pub) as (z & Ez & Hz & Hzb). unfold hash_msg. rewrite Ez. cbn [rbind].
  rewrite copy_seq by auto. destruct (SumSM3_total (z ++ msg)) as (h & Eh & Hh & Hhb); [apply bytes_app; auto|].
  rewrite Eh. cbn [rbind]. eexists. split; [reflexivity|]. pose proof (be_val_bound h Hhb) as Hr.
  unfold zlen in Hr. rewrite Hh in Hr. exact Hr.
Qed.
Lemma aff_range P : on_curve P -> 0 <= fst (aff P) < 2^256 /\ 0 <= snd (aff P) < 2^256.
Proof.
  pose proof p_lt256 as Hp.
  destruct P as [|x y]; cbn; intros H; lia.
Qed.
Lemma hash_msg_spec T (pub : pubkey T) P msg : bytes msg -> zlen msg < 2^60 -> on_curve P -> (pX pub, pY pub) = aff P ->
  hash_msg pub msg = Ok (e_of default_id P msg).
Proof.
  intros Hm Hl HP E. destruct (aff_range P HP) as [Hx Hy]. unfold e_of. rewrite <- E in *. cbn [fst snd] in *.
  destruct default_id_ok as [Hd1 Hd2].
  unfold hash_msg. change (getZ pub) with (getZById pub default_id). rewrite getZById_spec by auto. cbn [rbind].
  destruct (z_id_length default_id (pX pub) (pY pub) Hd1 Hd2) as [Hz1 Hz2].
  rewrite copy_seq by auto. rewrite SumSM3_spec; [reflexivity|apply bytes_app; auto|].
  rewrite zlen_app. unfold zlen at 1. rewrite Hz1. lia.
Qed.

(** ** Nonces and keys *)
Lemma k_range b : 1 <= k_of_bytes b <= n - 1.
Proof. pose proof n_gt3. unfold k_of_bytes. pose proof (Z.mod_pos_bound (be_val b) (n - 1) ltac:(lia)). lia. Qed.
Lemma n_gt1 : 1 < n. Proof. pose proof n_gt3; lia. Qed.
(** every nonce / private key in [1,n-1] is reachable from some 40-byte draw *)
Lemma k_reachable k : 1 <= k <= n - 1 -> exists b, bytes b /\ length b = 40%nat /\ k_of_bytes b = k.
Proof.
  intros H. pose proof n_lt256 as Hn.
  exists (be_bytes 40 (k - 1)). split; [apply be_bytes_bytes|]. split; [apply be_bytes_length|].
  unfold k_of_bytes. rewrite be_val_be_bytes_small.
  - rewrite Z.mod_small by lia. lia.
  - split; [lia|]. eapply Z.lt_trans with (2^256); [lia|reflexivity].
Qed.
Lemma n_ndiv x : 1 <= x <= n - 1 -> ~ (n | x).
Proof. intros H D. apply Z.divide_pos_le in D; lia. Qed.
Lemma ModInverse_ok g : 1 <= g <= n - 1 -> exists i, ModInverse g = Some i /\ 0 <= i < n /\ (i * g) mod n = 1.
Proof.
  intros H. unfold ModInverse. assert (Hg : Z.gcd g n = 1).
  { apply Zgcd_1_rel_prime. apply rel_prime_sym. apply prime_rel_prime; [exact sm2_n_prime|]. now apply n_ndiv. }
  rewrite Hg. cbn [Z.eqb Pos.eqb]. eexists. split; [reflexivity|]. pose proof n_gt3. split; [apply zinv_range; lia|].
  rewrite Z.mul_comm. apply zinv_mul; [exact sm2_n_prime|lia|now apply n_ndiv].
Qed.
Lemma ModInverse_n : ModInverse n = None.
Proof.
  unfold ModInverse. rewrite Z.gcd_diag. pose proof n_gt3. rewrite Z.abs_eq by lia.
  destruct (Z.eqb_spec n 1); [lia|reflexivity].
Qed.

(** a usable private key: D in [1,n-2], public point D*G, cached inverse (if any) right; tables unconstrained *)
Definition key_ok {T} (priv : privkey T) : Prop :=
  1 <= sD priv <= n - 2 /\ (pX (sPub priv), pY (sPub priv)) = aff (smul (sD priv) pG) /\
  match sDInv priv with None => True | Some i => (i * (1 + sD priv)) mod n = 1 end.
(** the curve implementation gives the right answer on these particular calls *)
Definition base_ok {T} (cv : curve T) (k : Z) : Prop := cv_base cv (Bytes k) = aff (smul k pG).
Definition mult_ok {T} (cv : curve T) (P : pt) (k : Z) : Prop := cv_mult cv (fst (aff P)) (snd (aff P)) (Bytes k) = aff (smul k P).
Definition verify_ok {T} (cv : curve T) (pub : pubkey T) (P : pt) (r s : Z) : Prop :=
  verify_point cv pub (Bytes s) (Bytes (r + s)) = aff (padd (smul s pG) (smul (r + s) P)).

Lemma s2_ok T (priv : privkey T) : key_ok priv -> (s2_of priv * (1 + sD priv)) mod n = 1.
Proof.
  intros (HD & _ & HI). unfold s2_of. destruct (sDInv priv) as [i|]; [exact HI|].
  destruct (ModInverse_ok (1 + sD priv) ltac:(lia)) as (i & -> & _ & E). exact E.
Qed.
(** the two signing functions compute the same pair *)
Lemma sign_s_eq k r D i : ((k - r * D) * i) mod n = (((k - (r * D) mod n) mod n) * i) mod n.
Proof. now rewrite (Zminus_mod_idemp_r k (r * D)), Zmult_mod_idemp_l. Qed.
(** the signature equation *)
Lemma sign_equation k r D i : (i * (1 + D)) mod n = 1 ->
  let s := ((k - r * D) * i) mod n in (s + (r + s) * D) mod n = k mod n.
Proof.
  intros Hi s. pose proof n_gt1 as Hn.
  replace (s + (r + s) * D) with (s * (1 + D) + r * D) by ring.
  rewrite <- Zplus_mod_idemp_l. unfold s. rewrite Zmult_mod_idemp_l.
  replace ((k - r * D) * i * (1 + D)) with ((k - r * D) * (i * (1 + D))) by ring.
  rewrite <- Zmult_mod_idemp_r, Hi, Zmult_mod_idemp_r || rewrite <- Zmult_mod_idemp_r, Hi.
  rewrite Z.mul_1_r. rewrite Zplus_mod_idemp_l. f_equal. ring.
Qed.
Lemma sign_point k r s D : (s + (r + s) * D) mod n = k mod n ->
  padd (smul s pG) (smul (r + s) (smul D pG)) = smul k pG.
Proof.
  intros H. rewrite <- smul_mul by exact G_on. rewrite <- smul_add by exact G_on.
  rewrite <- (smul_mod (s + (r + s) * D) pG G_on), H. apply smul_mod. exact G_on.
Qed.
Definition in_range (r s : Z) : Prop := 1 <= r < n /\ 1 <= s < n.
Lemma range_checks T (cv : curve T) pub d r s :
  VerifyWithDigest cv pub d r s = true <-> in_range r s /\ verify_tail cv pub (be_val d) r s = true.
Proof.
  unfold VerifyWithDigest, in_range. destruct ((r <=? 0) || (s <=? 0)) eqn:E1; [split; [discriminate|lia]|].
  destruct ((n <=? r) || (n <=? s)) eqn:E2; [split; [discriminate|lia]|].
  split; [intros H; split; [lia|exact H]|tauto].
Qed.
Lemma verify_range T (cv : curve T) pub m r s : bytes m ->
  exists e, hash_msg pub m = Ok e /\
  ((in_range r s /\ Verify cv pub m r s = Ok (verify_tail cv pub e r s)) \/ (~ in_range r s /\ Verify cv pub m r s = Ok false)).
Proof.
  intros Hm. destruct (hash_msg_total T pub m Hm) as (e & He & _). exists e. split; [exact He|].
  unfold Verify, in_range. destruct ((r <=? 0) || (s <=? 0)) eqn:E1; [right; split; [lia|reflexivity]|].
  destruct ((n <=? r) || (n <=? s)) eqn:E2; [right; split; [lia|reflexivity]|].
  left. rewrite He. split; [lia|reflexivity].
Qed.
Lemma verify_tail_ok T (cv : curve T) pub P e r s : verify_ok cv pub P r s ->
  verify_tail cv pub e r s = ((e + xcoord (padd (smul s pG) (smul (r + s) P))) mod n =? r).
Proof. intros H. unfold verify_tail, xcoord. now rewrite H. Qed.

(** Core of C13/C14: what the signing code produces and when it verifies. *)
Lemma sign_result T (cv : curve T) b priv digest : base_ok cv (k_of_bytes b) ->
  let k := k_of_bytes b in let r := (be_val digest + xcoord (smul k pG)) mod n in
  SignWithDigest cv (Some b) priv digest = Ok (r, ((k - r * sD priv) * s2_of priv) mod n).
Proof.
  intros HB k r. unfold SignWithDigest. cbn [generateRandK option_map]. fold k. unfold base_ok in HB. fold k in HB.
  rewrite HB. unfold r, xcoord. destruct (aff (smul k pG)) as [x y]. cbn [fst]. now rewrite <- sign_s_eq.
Qed.
Lemma sign_msg_result T (cv : curve T) b priv msg e : base_ok cv (k_of_bytes b) -> hash_msg (sPub priv) msg = Ok e ->
  let k := k_of_bytes b in let r := (e + xcoord (smul k pG)) mod n in
  Sign cv (Some b) priv msg = Ok (r, ((k - r * sD priv) * s2_of priv) mod n).
Proof.
  intros HB He k r. unfold Sign. rewrite He. cbn [rbind generateRandK option_map]. fold k. unfold base_ok in HB. fold k in HB.
  rewrite HB. unfold r, xcoord. destruct (aff (smul k pG)) as [x y]. reflexivity.
Qed.
Lemma sign_tail_verifies T (cv : curve T) b priv e : key_ok priv ->
  let k := k_of_bytes b in let r := (e + xcoord (smul k pG)) mod n in let s := ((k - r * sD priv) * s2_of priv) mod n in
  verify_ok cv (sPub priv) (smul (sD priv) pG) r s ->
  verify_tail cv (sPub priv) e r s = true.
Proof.
  intros HK k r s HV. rewrite (verify_tail_ok _ _ _ _ _ _ _ HV).
  rewrite (sign_point k r s (sD priv)).
  - apply Z.eqb_eq. reflexivity.
  - apply sign_equation. now apply s2_ok.
Qed.
Lemma mod_n_range x : 0 <= x mod n < n. Proof. apply Z.mod_pos_bound. pose proof n_gt1; lia. Qed.

(** ** A curve implementation that is right on all curve points *)
Record good_curve {T} (cv : curve T) : Prop := {
  gc_base : forall kb, bytes kb -> cv_base cv kb = aff (smul (be_val kb) pG);
  gc_mult : forall P kb, on_curve P -> bytes kb -> cv_mult cv (fst (aff P)) (snd (aff P)) kb = aff (smul (be_val kb) P);
  gc_add : forall P Q, on_curve P -> on_curve Q ->
    cv_add cv (fst (aff P)) (snd (aff P)) (fst (aff Q)) (snd (aff Q)) = aff (padd P Q);
  gc_comb : forall o P sb tb, cv_opt cv = Some o -> on_curve P -> bytes sb -> bytes tb ->
    o_comb o (o_table o (fst (aff P)) (snd (aff P))) sb tb = aff (padd (smul (be_val sb) pG) (smul (be_val tb) P));
  gc_pre : forall o P kb, cv_opt cv = Some o -> on_curve P -> bytes kb ->
    o_pre o (o_table o (fst (aff P)) (snd (aff P))) kb = aff (smul (be_val kb) P) }.
(** the public key's table, if present, is the one InitPubKeyTable computes for the key's point *)
Definition tab_ok {T} (cv : curve T) (pub : pubkey T) : Prop :=
  pTab pub = None \/ exists o, cv_opt cv = Some o /\ pTab pub = Some (o_table o (pX pub) (pY pub)).

Lemma b_nonzero : sm2_b mod sm2_p <> 0. Proof. vm_compute. discriminate. Qed.
Lemma unaff_aff P : on_curve P -> unaff (fst (aff P)) (snd (aff P)) = P.
Proof.
  destruct P as [|x y]; [reflexivity|]. unfold aff, unaff. cbn [fst snd]. intros (Hx & Hy & E).
  destruct ((x =? 0) && (y =? 0)) eqn:EE; [|reflexivity]. exfalso. apply b_nonzero.
  apply andb_true_iff in EE as [->%Z.eqb_eq ->%Z.eqb_eq].
  replace (0 * 0 * 0 + sm2_a * 0 + sm2_b) with sm2_b in E by ring. rewrite <- E. apply Z.mod_0_l. lia.
Qed.
Theorem cv_std_good : good_curve cv_std.
Proof.
  split; try discriminate; cbn [cv_std cv_base cv_mult cv_add]; intros.
  - reflexivity.
  - now rewrite unaff_aff.
  - now rewrite !unaff_aff.
Qed.
(** the implementation's products have coordinates that fit 32 bytes, also for points off the curve *)
Definition mult_range {T} (cv : curve T) : Prop := forall x y kb, 0 <= x < 2^256 -> 0 <= y < 2^256 -> bytes kb ->
  0 <= fst (cv_mult cv x y kb) < 2^256 /\ 0 <= snd (cv_mult cv x y kb) < 2^256.
Definition pt_fits (P : pt) : Prop := match P with Oinf => True | Pt x y => 0 <= x < 2^256 /\ 0 <= y < 2^256 end.
Lemma padd_fits P Q : pt_fits P -> pt_fits Q -> pt_fits (padd P Q).
Proof.
  destruct P as [|x1 y1], Q as [|x2 y2]; try (intros; assumption). intros _ _. cbn [padd].
  assert (X : forall l x y x', pt_fits (line_third l x y x')).
  { intros l x y x'. unfold line_third. cbn [pt_fits]. assert (0 < sm2_p) by (vm_compute; reflexivity). assert (sm2_p < 2^256) by (vm_compute; reflexivity).
    split; match goal with |- 0 <= ?a mod _ < _ => pose proof (Z.mod_pos_bound a sm2_p ltac:(assumption)) end; lia. }
  destruct (x1 =? x2); [destruct (_ =? 0); [exact I|]|]; apply X.
Qed.
Lemma nmul_fits k P : pt_fits P -> pt_fits (nmul k P).
Proof. intros H. unfold nmul. induction k as [|k IH]; [exact I|]. exact (padd_fits _ _ H IH). Qed.
Theorem cv_std_mult_range : mult_range cv_std.
Proof.
  intros x y kb Hx Hy Hb. cbn [cv_std cv_mult].
  assert (X : pt_fits (unaff x y)) by (unfold unaff; destruct (_ && _); [exact I|split; assumption]).
  assert (Y : pt_fits (smul (be_val kb) (unaff x y))).
  { pose proof (be_val_bound kb Hb) as B. with_strategy transparent [smul] unfold smul. destruct (be_val kb) as [|k|k]; [exact I|now apply nmul_fits|lia]. }
  destruct (smul (be_val kb) (unaff x y)) as [|u v]; [split; split; reflexivity || discriminate|exact Y].
Qed.
(** the points read from a ciphertext fit 32 bytes *)
Lemma be_val_32 l : bytes l -> 0 <= be_val (firstn 32 l) < 2^256.
Proof.
  intros Hb. pose proof (be_val_bound _ (bytes_firstn 32 _ Hb)) as R. split; [apply R|]. eapply Z.lt_le_trans; [apply R|]. unfold zlen.
  change (2^256) with (256 ^ 32). apply Z.pow_le_mono_r; [reflexivity|]. rewrite firstn_length. lia.
Qed.
Section Good.
Context {T : Type} (cv : curve T) (GC : good_curve cv).
Lemma good_base k : 0 <= k -> base_ok cv k.
Proof. intros H. unfold base_ok. rewrite (gc_base cv GC) by apply Bytes_bytes. now rewrite be_val_Bytes. Qed.
Lemma good_mult P k : on_curve P -> 0 <= k -> mult_ok cv P k.
Proof. intros HP H. unfold mult_ok. rewrite (gc_mult cv GC) by (exact HP || apply Bytes_bytes). now rewrite be_val_Bytes. Qed.
Lemma good_verify pub P r s : on_curve P -> (pX pub, pY pub) = aff P -> tab_ok cv pub -> 0 <= r -> 0 <= s -> verify_ok cv pub P r s.
Proof.
  intros HP E HT Hr Hs. unfold verify_ok, verify_point.
  assert (Ex : pX pub = fst (aff P)) by (rewrite <- E; reflexivity).
  assert (Ey : pY pub = snd (aff P)) by (rewrite <- E; reflexivity).
  assert (G : (let '(x11, y11) := cv_mult cv (pX pub) (pY pub) (Bytes (r + s)) in
               let '(x12, y12) := cv_base cv (Bytes s) in cv_add cv x11 y11 x12 y12)
              = aff (padd (smul s pG) (smul (r + s) P))).
  { rewrite Ex, Ey, (good_mult P (r + s) HP ltac:(lia)), (good_base s Hs).
    assert (H1 := on_smul (r + s) P HP). assert (H2 := on_smul s pG G_on).
    rewrite (padd_comm _ _ H2 H1), <- (gc_add cv GC _ _ H1 H2).
    destruct (aff (smul (r + s) P)), (aff (smul s pG)). reflexivity. }
  destruct HT as [HT | (o & Ho & HT)]; rewrite HT; [destruct (cv_opt cv); exact G|].
  rewrite Ho, Ex, Ey, (gc_comb cv GC o P) by (auto using Bytes_bytes). now rewrite !be_val_Bytes by lia.
Qed.
End Good.

(** ** Encryption *)
Definition pre_ok {T} (cv : curve T) (pub : pubkey T) (P : pt) (k : Z) : Prop :=
  match cv_opt cv, pTab pub with
  | Some o, Some tab => o_pre o tab (Bytes k)
  | _, _ => cv_mult cv (pX pub) (pY pub) (Bytes k)
  end = aff (smul k P).
Lemma good_pre {T} (cv : curve T) pub P k : good_curve cv -> on_curve P -> (pX pub, pY pub) = aff P -> tab_ok cv pub -> 0 <= k -> pre_ok cv pub P k.
Proof.
  intros GC HP E HT Hk. unfold pre_ok.
  assert (Ex : pX pub = fst (aff P)) by (rewrite <- E; reflexivity).
  assert (Ey : pY pub = snd (aff P)) by (rewrite <- E; reflexivity).
  destruct HT as [HT | (o & Ho & HT)]; rewrite HT.
  - rewrite Ex, Ey. destruct (cv_opt cv); now apply good_mult.
  - rewrite Ho, Ex, Ey, (gc_pre cv GC o P) by (auto using Bytes_bytes). now rewrite be_val_Bytes.
Qed.
Definition small (S : pt) : Prop := 0 <= fst (aff S) < 2^256 /\ 0 <= snd (aff S) < 2^256.
Lemma on_small S : on_curve S -> small S. Proof. apply aff_range. Qed.
Lemma shared_bytes_ok S : bytes (shared_bytes S) /\ zlen (shared_bytes S) = 64.
Proof. unfold shared_bytes. split; [apply bytes_app; split; apply be_bytes_bytes|]. rewrite zlen_app, !zlen_be_bytes. reflexivity. Qed.
Lemma all_zero_exit_spec t : all_zero_exit t = true <-> t <> [] /\ t = zeros (length t).
Proof.
  unfold all_zero_exit. destruct t as [|a t]; [split; [discriminate|intros [H _]; now contradiction H]|].
  rewrite forallb_forall. split.
  - intros H. split; [discriminate|]. unfold zeros. apply Forall_eq_repeat. apply Forall_forall. intros x Hx.
    specialize (H x Hx). lia.
  - intros [_ ->] x Hx. apply repeat_spec in Hx. lia.
Qed.
Definition usableb (S : pt) (k : nat) : bool := negb (all_zero_exit (kdf (shared_bytes S) k)).
Lemma usableb_spec S k : usableb S k = true <-> kdf_usable S k.
Proof.
  destruct (shared_bytes_ok S) as [H1 H2]. unfold usableb, kdf_usable.
  assert (HL : length (kdf (shared_bytes S) k) = k) by (apply kdf_length; [exact H1|rewrite H2; reflexivity]).
  rewrite negb_true_iff, <- not_true_iff_false, all_zero_exit_spec, HL. split.
  - intros H. destruct k; [now left|right]. intros E. apply H. split; [|exact E]. intros E0. rewrite E0 in HL. discriminate.
  - intros [-> | H] [H3 H4]; [|tauto]. apply H3. now destruct (kdf (shared_bytes S) 0).
Qed.
Lemma kdf_call S (k : nat) L : small S -> L = 8 * Z.of_nat k ->
  keyDerivation (z_of (pad32 (Bytes (fst (aff S)))) (pad32 (Bytes (snd (aff S))))) L = Ok (Some (kdf (shared_bytes S) k)).
Proof.
  intros [H1 H2] ->. destruct (shared_bytes_ok S) as [H3 H4].
  rewrite !pad32_Bytes by auto. rewrite z_of_app by apply be_bytes_length. apply keyDerivation_spec; [exact H3|].
  rewrite H4. reflexivity.
Qed.
Lemma hash_call S m : small S -> bytes m -> zlen m < 2^60 ->
  SumSM3 (hash_buf (pad32 (Bytes (fst (aff S)))) m (pad32 (Bytes (snd (aff S))))) = Ok (c3_of S m).
Proof.
  intros [H1 H2] Hm Hl. rewrite !pad32_Bytes by auto. rewrite hash_buf_app by apply be_bytes_length. apply SumSM3_spec.
  - repeat (apply bytes_app; split); first [exact Hm | apply be_bytes_bytes].
  - rewrite !zlen_app, !zlen_be_bytes. lia.
Qed.
Lemma c3_length S m : bytes m -> zlen m < 2^60 -> length (c3_of S m) = 32%nat /\ bytes (c3_of S m).
Proof.
  intros Hm Hl. apply sm3_length_bytes.
  - repeat (apply bytes_app; split); first [exact Hm | apply be_bytes_bytes].
  - rewrite !zlen_app, !zlen_be_bytes. lia.
Qed.
Lemma kdf_sh_length S k : length (kdf (shared_bytes S) k) = k.
Proof. destruct (shared_bytes_ok S) as [H1 H2]. apply kdf_length; [exact H1|rewrite H2; reflexivity]. Qed.
Lemma kdf_sh_bytes S k : bytes (kdf (shared_bytes S) k).
Proof. destruct (shared_bytes_ok S) as [H1 H2]. apply kdf_bytes; [exact H1|rewrite H2; reflexivity]. Qed.
Lemma c2_length S m : length (c2_of S m) = length m.
Proof. unfold c2_of. rewrite xorl_length, kdf_sh_length. lia. Qed.
Lemma c2_bytes S m : bytes m -> bytes (c2_of S m).
Proof. intros H. apply xorl_bytes; [apply kdf_sh_bytes|exact H]. Qed.
Lemma c2_c2 S m : c2_of S (c2_of S m) = m.
Proof.
  unfold c2_of at 1. rewrite c2_length. unfold c2_of. rewrite xorl_comm, (xorl_comm _ m), xorl_involutive; [reflexivity|].
  rewrite kdf_sh_length. lia.
Qed.
(** one pass of doEncrypt *)
Lemma enc_pass_spec T (cv : curve T) pub P k msg : on_curve P -> base_ok cv k -> pre_ok cv pub P k -> bytes msg -> zlen msg < 2^57 ->
  enc_pass cv pub k msg =
    if usableb (smul k P) (length msg)
    then EDone (Ok (fst (aff (smul k pG)), snd (aff (smul k pG)), c2_of (smul k P) msg, c3_of (smul k P) msg))
    else EAgain.
Proof.
  intros HP HB HR Hm Hl. unfold enc_pass. unfold base_ok in HB. unfold pre_ok in HR. rewrite HB, HR.
  pose proof (on_small _ (on_smul k P HP)) as HS. remember (smul k P) as S eqn:ES. clear HB HR ES.
  destruct (aff (smul k pG)) as [x1 y1].
  rewrite (surjective_pairing (aff S)).
  rewrite (kdf_call S (length msg)) by (auto; unfold zlen; lia).
  unfold usableb. destruct (all_zero_exit _); [reflexivity|]. cbn [negb].
  rewrite (hash_call S msg HS Hm) by lia. reflexivity.
Qed.
(** the tail of the two decryption functions *)
Lemma dec_tail_spec T (cv : curve T) priv x1 y1 S c3 c2 L : cv_mult cv x1 y1 (Bytes (sD priv)) = aff S -> small S ->
  bytes c2 -> zlen c2 < 2^57 -> L = 8 * zlen c2 ->
  dec_tail cv priv x1 y1 c3 c2 L =
    if usableb S (length c2) && beqb (c3_of S (c2_of S c2)) c3 then Ok (c2_of S c2) else Err DecryptionErr.
Proof.
  intros HM HS Hb Hl ->. unfold dec_tail. rewrite HM, (surjective_pairing (aff S)).
  rewrite (kdf_call S (length c2)) by (auto; unfold zlen; lia). cbn [rbind].
  unfold usableb. destruct (all_zero_exit _); [reflexivity|]. cbn [negb andb]. fold (c2_of S c2).
  rewrite (hash_call S (c2_of S c2) HS) by (auto using c2_bytes; unfold zlen in *; rewrite c2_length; lia). reflexivity.
Qed.
Lemma dec_tail_ok_iff T (cv : curve T) priv x1 y1 S c3 c2 L m : cv_mult cv x1 y1 (Bytes (sD priv)) = aff S -> small S ->
  bytes c2 -> zlen c2 < 2^57 -> L = 8 * zlen c2 ->
  dec_tail cv priv x1 y1 c3 c2 L = Ok m <-> kdf_usable S (length c2) /\ c2 = c2_of S m /\ c3 = c3_of S m.
Proof.
  intros H1 H2 H3 H4 H5. rewrite (dec_tail_spec _ _ _ _ _ _ _ _ _ H1 H2 H3 H4 H5). rewrite <- usableb_spec.
  destruct (usableb S (length c2) && beqb (c3_of S (c2_of S c2)) c3) eqn:E.
  - apply andb_true_iff in E as [E1 E2]. apply beqb_eq in E2. split.
    + intros [= <-]. rewrite c2_c2. auto.
    + intros (_ & -> & ->). now rewrite c2_c2.
  - split; [discriminate|]. intros (Hu & -> & ->). rewrite Hu, c2_c2, beqb_refl in E. discriminate.
Qed.
Lemma dec_tail_err T (cv : curve T) priv x1 y1 S c3 c2 L : cv_mult cv x1 y1 (Bytes (sD priv)) = aff S -> small S ->
  bytes c2 -> zlen c2 < 2^57 -> L = 8 * zlen c2 ->
  (exists m, dec_tail cv priv x1 y1 c3 c2 L = Ok m) \/ dec_tail cv priv x1 y1 c3 c2 L = Err DecryptionErr.
Proof.
  intros H1 H2 H3 H4 H5. rewrite (dec_tail_spec _ _ _ _ _ _ _ _ _ H1 H2 H3 H4 H5). destruct (_ && _); eauto.
Qed.
(** the goto loop: either the first pass ends it or nothing does *)
Lemma enc_loop_again T (cv : curve T) pub k msg : enc_pass cv pub k msg = EAgain -> forall f, enc_loop cv f pub k msg = None.
Proof. intros E. induction f as [|f IH]; cbn [enc_loop]; [reflexivity|]. now rewrite E. Qed.
Lemma enc_loop_done T (cv : curve T) pub k msg r f : enc_pass cv pub k msg = EDone r -> enc_loop cv (S f) pub k msg = Some r.
Proof. intros E. cbn [enc_loop]. now rewrite E. Qed.
(** point encoding *)
Lemma pointToBytes_eq x y : 0 <= x < 2^256 -> 0 <= y < 2^256 -> pointToBytes x y = [4] ++ be_bytes 32 x ++ be_bytes 32 y.
Proof. intros Hx Hy. unfold pointToBytes. now rewrite !pad32_Bytes. Qed.
Lemma pointToBytes_length x y : 0 <= x < 2^256 -> 0 <= y < 2^256 -> length (pointToBytes x y) = 65%nat.
Proof. intros Hx Hy. rewrite pointToBytes_eq by auto. rewrite !app_length, !be_bytes_length. reflexivity. Qed.
Lemma pointFromTo x y : 0 <= x < 2^256 -> 0 <= y < 2^256 -> pointFromBytes (pointToBytes x y) = Some (x, y).
Proof.
  intros Hx Hy. unfold pointFromBytes. rewrite (pointToBytes_length x y Hx Hy), (pointToBytes_eq x y Hx Hy).
  change ([4] ++ be_bytes 32 x ++ be_bytes 32 y) with (4 :: (be_bytes 32 x ++ be_bytes 32 y)).
  change (skipn 33 (4 :: (be_bytes 32 x ++ be_bytes 32 y))) with (skipn 32 (be_bytes 32 x ++ be_bytes 32 y)).
  change (skipn 1 (4 :: (be_bytes 32 x ++ be_bytes 32 y))) with (be_bytes 32 x ++ be_bytes 32 y).
  rewrite firstn_app_l, skipn_app_l by apply be_bytes_length. rewrite !be_val_be_bytes_small by auto. reflexivity.
Qed.
Lemma pointFromBytes_some buf : length buf = 65%nat -> nth 0 buf 0 = 4 ->
  pointFromBytes buf = Some (be_val (firstn 32 (skipn 1 buf)), be_val (skipn 33 buf)).
Proof. intros H1 H2. unfold pointFromBytes. rewrite H1, H2. reflexivity. Qed.
Lemma pointFromBytes_none buf : length buf = 65%nat -> nth 0 buf 0 <> 4 -> pointFromBytes buf = None.
Proof. intros H1 H2. unfold pointFromBytes. rewrite H1. apply Z.eqb_neq in H2. rewrite H2. reflexivity. Qed.

(** Proofs about package sm4. *)
From Verif Require Import GoBase GoLemmas Words SM4_spec SM4_tables SM4_model.
Open Scope Z_scope.
Ltac Zify.zify_post_hook ::= Z.div_mod_to_equations.

(** ** Finite sweeps over bytes *)
Definition all_bytes : list Z := map Z.of_nat (seq 0 256).
Lemma byte_sweep (P : Z -> bool) : forallb P all_bytes = true -> forall x, is_byte x -> P x = true.
Proof.
  intros H x Hx. rewrite forallb_forall in H. apply H. unfold all_bytes. apply in_map_iff.
  exists (Z.to_nat x). red in Hx. split; [lia|]. apply in_seq. lia.
Qed.
Lemma S_byte x : is_byte x -> is_byte (S x).
Proof.
  intros Hx. assert (H : is_byteb (S x) = true) by (revert x Hx; apply (byte_sweep (fun x => is_byteb (S x))); vm_compute; reflexivity).
  revert H. generalize (S x). intros z H. unfold is_byteb, is_byte in *. lia.
Qed.
Lemma scSbox_S x : is_byte x -> scSbox x = S x.
Proof.
  intros Hx. apply Z.eqb_eq. revert x Hx. apply (byte_sweep (fun x => scSbox x =? S x)). vm_compute. reflexivity.
Qed.
Lemma tables_ok x : is_byte x ->
  nth (Z.to_nat x) sbox0 0 = L (S x) /\ nth (Z.to_nat x) sbox1 0 = L (S x * 2^8) /\
  nth (Z.to_nat x) sbox2 0 = L (S x * 2^16) /\ nth (Z.to_nat x) sbox3 0 = L (S x * 2^24).
Proof.
  intros Hx.
  assert (H : (nth (Z.to_nat x) sbox0 0 =? L (S x)) && (nth (Z.to_nat x) sbox1 0 =? L (S x * 2^8)) &&
              (nth (Z.to_nat x) sbox2 0 =? L (S x * 2^16)) && (nth (Z.to_nat x) sbox3 0 =? L (S x * 2^24)) = true)
    by (revert x Hx; apply (byte_sweep (fun x =>
              (nth (Z.to_nat x) sbox0 0 =? L (S x)) && (nth (Z.to_nat x) sbox1 0 =? L (S x * 2^8)) &&
              (nth (Z.to_nat x) sbox2 0 =? L (S x * 2^16)) && (nth (Z.to_nat x) sbox3 0 =? L (S x * 2^24)))); vm_compute; reflexivity).
  rewrite !andb_true_iff, !Z.eqb_eq in H. tauto.
Qed.
#[local] Opaque S.

(** ** Linear maps *)
Lemma rotl_lor x k : is_u32 x -> 0 <= k < 32 -> Z.lor (u32 (Z.shiftl x k)) (Z.shiftr x (32 - k)) = rotl x k.
Proof. apply rot_arith. Qed.
Lemma rotl_lxor x k : is_u32 x -> 0 <= k < 32 -> rotl x k = Z.lxor (u32 (Z.shiftl x k)) (Z.shiftr x (32 - k)).
Proof.
  intros Hx Hk. rewrite <- rotl_lor by auto. symmetry. apply Z.lxor_lor.
  unfold u32, is_u32 in *. rewrite Z.shiftl_mul_pow2, Z.shiftr_div_pow2 by lia.
  assert (E : 2^32 = 2^(32-k) * 2^k) by (rewrite <- Z.pow_add_r by lia; f_equal; lia).
  rewrite E. rewrite Zmult_mod_distr_r.
  apply land_hi_lo; [lia|]. split; [apply Z.div_pos; lia|].
  apply Z.div_lt_upper_bound; [lia|]. lia.
Qed.
Lemma u32_lxor a b : u32 (Z.lxor a b) = Z.lxor (u32 a) (u32 b).
Proof.
  unfold u32. rewrite <- !Z.land_ones by lia. apply Z.bits_inj'. intros i Hi.
  rewrite !Z.land_spec, !Z.lxor_spec, !Z.land_spec.
  destruct (Z.testbit a i), (Z.testbit b i), (Z.testbit (Z.ones 32) i); reflexivity.
Qed.
Lemma xor_swap a b c d : Z.lxor (Z.lxor a b) (Z.lxor c d) = Z.lxor (Z.lxor a c) (Z.lxor b d).
Proof. rewrite !Z.lxor_assoc. f_equal. rewrite <- !Z.lxor_assoc. f_equal. apply Z.lxor_comm. Qed.
Lemma rotl_xor a b k : is_u32 a -> is_u32 b -> 0 <= k < 32 -> rotl (Z.lxor a b) k = Z.lxor (rotl a k) (rotl b k).
Proof.
  intros Ha Hb Hk. rewrite !rotl_lxor by (auto using lxor_u32).
  rewrite Z.shiftl_lxor, Z.shiftr_lxor, u32_lxor. apply xor_swap.
Qed.
Lemma L_xor a b : is_u32 a -> is_u32 b -> L (Z.lxor a b) = Z.lxor (L a) (L b).
Proof.
  intros Ha Hb. unfold L. rewrite !rotl_xor by (auto; lia).
  rewrite (xor_swap a b (rotl a 2) (rotl b 2)), (xor_swap _ _ (rotl a 10) (rotl b 10)),
    (xor_swap _ _ (rotl a 18) (rotl b 18)), (xor_swap _ _ (rotl a 24) (rotl b 24)). reflexivity.
Qed.
Lemma rotl_u32 x k : is_u32 x -> 0 <= k < 32 -> is_u32 (rotl x k).
Proof. apply rot_range. Qed.
Lemma leftRotate_rotl x k : is_u32 x -> 0 <= k < 32 -> leftRotate x k = rotl x k.
Proof.
  intros Hx Hk. unfold leftRotate. rewrite rotl_lor by auto.
  change 0xffffffff with (Z.ones 32). rewrite Z.land_ones by lia.
  apply u32_small. now apply rotl_u32.
Qed.

(** ** tau *)
Lemma be_bytes4 x : be_bytes 4 x = [(x / 2^24) mod 256; (x / 2^16) mod 256; (x / 2^8) mod 256; x mod 256].
Proof. cbn [be_bytes app]. rewrite !Z.div_div by lia. reflexivity. Qed.
Lemma land_ff x : Z.land x 0xff = x mod 256.
Proof. change 0xff with (Z.ones 8). now rewrite Z.land_ones by lia. Qed.
Lemma mod_byte x : is_byte (x mod 256).
Proof. red. lia. Qed.
Lemma land_u8_ff x : Z.land (u8 x) 0xff = x mod 256.
Proof. rewrite land_ff. unfold u8. change (2^8) with 256. apply Z.mod_mod. lia. Qed.

Lemma tau_bytes x : tau x = be_val [S ((x / 2^24) mod 256); S ((x / 2^16) mod 256); S ((x / 2^8) mod 256); S (x mod 256)].
Proof. unfold tau. now rewrite be_bytes4. Qed.
Lemma tt_tau x : tt_ x = tau x.
Proof.
  unfold tt_. rewrite !land_u8_ff, !Z.shiftr_div_pow2 by lia. rewrite tau_bytes.
  rewrite !scSbox_S by apply mod_byte.
  apply load_be4; apply S_byte, mod_byte.
Qed.
Lemma tau_u32 x : is_u32 (tau x).
Proof.
  rewrite tau_bytes. apply be_val4_u32; [|reflexivity].
  repeat (apply bytes_cons; split; [apply S_byte, mod_byte|]). constructor.
Qed.

Lemma be_val4_xor a b c d : is_byte a -> is_byte b -> is_byte c -> is_byte d ->
  be_val [a;b;c;d] = Z.lxor (Z.lxor (Z.lxor d (c * 2^8)) (b * 2^16)) (a * 2^24).
Proof.
  unfold is_byte. intros. unfold be_val. cbn [fold_left].
  assert (D : forall hi lo k, 0 <= k -> 0 <= lo < 2^k -> Z.lxor lo (hi * 2^k) = hi * 2^k + lo).
  { intros hi lo k Hk Hlo. rewrite Z.lxor_comm. symmetry. apply Z.add_nocarry_lxor. now apply land_hi_lo. }
  rewrite (D c d 8), (D b _ 16), (D a _ 24) by lia. lia.
Qed.

Lemma tbl_T x : tbl x = T x.
Proof.
  unfold tbl, T. rewrite tau_bytes.
  rewrite !land_ff, !Z.shiftr_div_pow2 by lia.
  set (a := (x / 2^24) mod 256). set (b := (x / 2^16) mod 256). set (c := (x / 2^8) mod 256). set (d := x mod 256).
  assert (Ha : is_byte a) by apply mod_byte. assert (Hb : is_byte b) by apply mod_byte.
  assert (Hc : is_byte c) by apply mod_byte. assert (Hd : is_byte d) by apply mod_byte.
  rewrite be_val4_xor by (now apply S_byte).
  destruct (tables_ok a Ha) as (_ & _ & _ & ->). destruct (tables_ok b Hb) as (_ & _ & -> & _).
  destruct (tables_ok c Hc) as (_ & -> & _). destruct (tables_ok d Hd) as (-> & _).
  apply S_byte in Ha, Hb, Hc, Hd. unfold is_byte in *.
  rewrite !L_xor; try reflexivity; unfold is_u32; try lia;
  repeat (apply lxor_range; [lia| |]); lia.
Qed.

(** ** Rounds *)
Lemma xor4_perm a b c r : Z.lxor (Z.lxor (Z.lxor a b) c) r = Z.lxor (Z.lxor (Z.lxor b c) a) r.
Proof. f_equal. rewrite Z.lxor_assoc. apply Z.lxor_comm. Qed.

Lemma iter4_F r0 r1 r2 r3 b : iter4 r0 r1 r2 r3 b = fold_left F [r0; r1; r2; r3] b.
Proof.
  destruct b as [[[b0 b1] b2] b3]. unfold iter4. cbn [fold_left F]. rewrite !tbl_T.
  set (c0 := Z.lxor b0 (T (Z.lxor (Z.lxor (Z.lxor b1 b2) b3) r0))).
  rewrite (xor4_perm c0 b2 b3).
  set (c1 := Z.lxor b1 (T (Z.lxor (Z.lxor (Z.lxor b2 b3) c0) r1))).
  replace (Z.lxor (Z.lxor (Z.lxor c0 c1) b3) r2) with (Z.lxor (Z.lxor (Z.lxor b3 c0) c1) r2)
    by (now rewrite (xor4_perm b3 c0 c1)).
  set (c2 := Z.lxor b2 (T (Z.lxor (Z.lxor (Z.lxor b3 c0) c1) r2))).
  replace (Z.lxor (Z.lxor (Z.lxor c1 c2) c0) r3) with (Z.lxor (Z.lxor (Z.lxor c0 c1) c2) r3)
    by (now rewrite (xor4_perm c0 c1 c2)).
  reflexivity.
Qed.

Ltac destruct32 rk H :=
  do 32 (let x := fresh "r" in destruct rk as [|x rk]; [cbn in H; lia|]); destruct rk; [|cbn in H; lia].

Lemma enc_rounds_gen (G : list Z -> block4 -> block4) rk b :
  (forall a c x, G (a ++ c) x = G c (G a x)) -> length rk = 32%nat ->
  fold_left (fun b i => G [nth (4*i) rk 0; nth (4*i+1) rk 0; nth (4*i+2) rk 0; nth (4*i+3) rk 0] b) (seq 0 8) b
  = G rk b.
Proof.
  intros HG H. destruct32 rk H. cbn [seq fold_left Nat.mul Nat.add nth].
  rewrite <- !HG. reflexivity.
Qed.
Lemma dec_rounds_gen (G : list Z -> block4 -> block4) rk b :
  (forall a c x, G (a ++ c) x = G c (G a x)) -> length rk = 32%nat ->
  fold_left (fun b i => G [nth (31-4*i) rk 0; nth (31-4*i-1) rk 0; nth (31-4*i-2) rk 0; nth (31-4*i-3) rk 0] b) (seq 0 8) b
  = G (rev rk) b.
Proof.
  intros HG H. destruct32 rk H. cbn [seq fold_left Nat.mul Nat.add Nat.sub nth].
  rewrite <- !HG. reflexivity.
Qed.
Lemma enc_rounds rk b : length rk = 32%nat ->
  fold_left (fun b i => iter4 (nth (4*i) rk 0) (nth (4*i+1) rk 0) (nth (4*i+2) rk 0) (nth (4*i+3) rk 0) b) (seq 0 8) b
  = fold_left F rk b.
Proof.
  intros H. transitivity (fold_left (fun b i => (fun l x => fold_left F l x) [nth (4*i) rk 0; nth (4*i+1) rk 0; nth (4*i+2) rk 0; nth (4*i+3) rk 0] b) (seq 0 8) b).
  - generalize (seq 0 8). intros is. revert b. induction is as [|i is IH]; intros b; [reflexivity|].
    cbn [fold_left]. rewrite iter4_F. apply IH.
  - apply (enc_rounds_gen (fun l x => fold_left F l x)); auto. intros. apply fold_left_app.
Qed.
Lemma dec_rounds rk b : length rk = 32%nat ->
  fold_left (fun b i => iter4 (nth (31-4*i) rk 0) (nth (31-4*i-1) rk 0) (nth (31-4*i-2) rk 0) (nth (31-4*i-3) rk 0) b) (seq 0 8) b
  = fold_left F (rev rk) b.
Proof.
  intros H. transitivity (fold_left (fun b i => (fun l x => fold_left F l x) [nth (31-4*i) rk 0; nth (31-4*i-1) rk 0; nth (31-4*i-2) rk 0; nth (31-4*i-3) rk 0] b) (seq 0 8) b).
  - generalize (seq 0 8). intros is. revert b. induction is as [|i is IH]; intros b; [reflexivity|].
    cbn [fold_left]. rewrite iter4_F. apply IH.
  - apply (dec_rounds_gen (fun l x => fold_left F l x)); auto. intros. apply fold_left_app.
Qed.

(** ** Loading *)
Lemma load_spec src i : bytes src -> (4 * i + 4 <= length src)%nat -> load src i = be_val (firstn 4 (skipn (4*i) src)).
Proof.
  intros Hb Hl. unfold load.
  assert (N : forall j, nth (i*4+j) src 0 = nth j (skipn (4*i) src) 0).
  { intros j. rewrite (Nat.mul_comm i 4). clear. generalize (4*i)%nat. intros a. revert src.
    induction a as [|a IH]; intros src; [reflexivity|]. destruct src; [destruct j; reflexivity|]. cbn. apply IH. }
  replace (i*4)%nat with (i*4+0)%nat at 1 by lia. rewrite !N.
  assert (Hs : (4 <= length (skipn (4*i) src))%nat) by (rewrite skipn_length; lia).
  apply (bytes_skipn (4*i)) in Hb.
  destruct (skipn (4*i) src) as [|a [|b [|c [|d t]]]]; cbn [length] in Hs; try lia.
  cbn [nth firstn]. repeat (apply bytes_cons in Hb as [? Hb]). now apply load_be4'.
Qed.
Lemma load_words4 src : bytes src -> (16 <= length src)%nat ->
  (load src 0, load src 1, load src 2, load src 3) = words4 src.
Proof. intros Hb Hl. unfold words4. rewrite !load_spec by (auto; lia). reflexivity. Qed.

Lemma cryptBlock_spec rk dst src m : length rk = 32%nat -> bytes src -> (16 <= length src)%nat ->
  cryptBlock rk dst src m =
  Ok (firstn (length dst) (crypt (match m with ENC => rk | DEC => rev rk end) src) ++ skipn 16 dst).
Proof.
  intros Hrk Hb Hl. unfold cryptBlock. destruct (Nat.ltb_spec (length src) 16) as [H|_]; [lia|].
  rewrite load_words4 by auto. unfold crypt.
  assert (E : match m with
    | ENC => fold_left (fun b i => iter4 (nth (4*i) rk 0) (nth (4*i+1) rk 0) (nth (4*i+2) rk 0) (nth (4*i+3) rk 0) b) (seq 0 8) (words4 src)
    | DEC => fold_left (fun b i => iter4 (nth (31-4*i) rk 0) (nth (31-4*i-1) rk 0) (nth (31-4*i-2) rk 0) (nth (31-4*i-3) rk 0) b) (seq 0 8) (words4 src)
    end = fold_left F (match m with ENC => rk | DEC => rev rk end) (words4 src)).
  { destruct m; [now apply enc_rounds|now apply dec_rounds]. }
  rewrite E. clear E. generalize (fold_left F (match m with ENC => rk | DEC => rev rk end) (words4 src)).
  intros [[[x0 x1] x2] x3]. unfold R, unwords4.
  rewrite (map_ext _ (be_bytes 4)) by (intros; apply store_be4).
  cbn [map concat]. now rewrite app_nil_r.
Qed.

(** ** Key schedule *)
Lemma ck_CK i : (i < 32)%nat -> nth i ck 0 = CK (Z.of_nat i).
Proof.
  intros H. assert (G : forallb (fun i => nth i ck 0 =? CK (Z.of_nat i)) (seq 0 32) = true) by (vm_compute; reflexivity).
  rewrite forallb_forall in G. apply Z.eqb_eq, G, in_seq. lia.
Qed.
Lemma key_t_T' x : key_t x = T' x.
Proof. unfold key_t, T'. rewrite tt_tau. unfold key_l, L'. now rewrite !leftRotate_rotl by (try apply tau_u32; lia). Qed.

Lemma upd_app_zeros l n z : upd (length l) z (l ++ zeros (Datatypes.S n)) = (l ++ [z]) ++ zeros n.
Proof. unfold zeros. cbn [repeat]. induction l as [|a l IHl]; [reflexivity|]. cbn [length app upd]. now rewrite IHl. Qed.

Lemma nth_app_at {A} (a b : list A) j d : nth (length a + j) (a ++ b) d = nth j b d.
Proof. rewrite app_nth2 by lia. f_equal. lia. Qed.

Lemma keyExp_loop n : forall i pre K0 K1 K2 K3 rk,
  (i + n = 32)%nat -> length pre = i -> length rk = i ->
  snd (fold_left (keyExp_step) (seq i n) ((pre ++ [K0; K1; K2; K3]) ++ zeros n, rk ++ zeros n))
  = rk ++ key_rounds n (Z.of_nat i) (K0, K1, K2, K3).
Proof.
  induction n as [|n IH]; intros i pre K0 K1 K2 K3 rk Hi Hp Hr.
  - cbn. now rewrite app_nil_r.
  - cbn [seq fold_left keyExp_step].
    replace (nth i _ 0) with K0.
    2:{ rewrite <- app_assoc. rewrite <- (Nat.add_0_r i), <- Hp, nth_app_at. reflexivity. }
    replace (nth (i+1) _ 0) with K1 by (rewrite <- app_assoc, <- Hp, nth_app_at; reflexivity).
    replace (nth (i+2) _ 0) with K2 by (rewrite <- app_assoc, <- Hp, nth_app_at; reflexivity).
    replace (nth (i+3) _ 0) with K3 by (rewrite <- app_assoc, <- Hp, nth_app_at; reflexivity).
    rewrite ck_CK by lia. rewrite key_t_T'.
    set (v := Z.lxor K0 (T' (Z.lxor (Z.lxor (Z.lxor K1 K2) K3) (CK (Z.of_nat i))))).
    replace (i + 4)%nat with (length (pre ++ [K0; K1; K2; K3])) by (rewrite app_length; cbn [length]; lia).
    rewrite upd_app_zeros. replace (upd i v _) with ((rk ++ [v]) ++ zeros n) by (rewrite <- Hr, upd_app_zeros; reflexivity).
    replace ((pre ++ [K0; K1; K2; K3]) ++ [v]) with ((pre ++ [K0]) ++ [K1; K2; K3; v])
      by (rewrite <- !app_assoc; reflexivity).
    rewrite IH; [|lia|rewrite app_length; cbn; lia|rewrite app_length; cbn; lia].
    cbn [key_rounds]. rewrite <- app_assoc. cbn [app]. fold v.
    replace (Z.of_nat (Datatypes.S i)) with (Z.of_nat i + 1) by lia. reflexivity.
Qed.

Lemma keyExp_from n k0 K0 K1 K2 K3 : n = 32%nat -> k0 = [K0; K1; K2; K3] ++ zeros n ->
  snd (fold_left keyExp_step (seq 0 n) (k0, zeros n)) = key_rounds n 0 (K0, K1, K2, K3).
Proof.
  intros Hn ->. pose proof (keyExp_loop n 0 [] K0 K1 K2 K3 []) as H. cbn [app length] in H.
  exact (H Hn eq_refl eq_refl).
Qed.
Lemma keyExp_words m0 m1 m2 m3 : keyExp [m0; m1; m2; m3]
  = key_rounds 32 0 (Z.lxor m0 (nth 0 FK 0), Z.lxor m1 (nth 1 FK 0), Z.lxor m2 (nth 2 FK 0), Z.lxor m3 (nth 3 FK 0)).
Proof.
  unfold keyExp. apply keyExp_from; [reflexivity|]. reflexivity.
Qed.
Lemma keyExp_spec key : bytes key -> (16 <= length key)%nat ->
  keyExp (map (load key) (seq 0 4)) = round_keys key.
Proof.
  intros Hb Hl. unfold round_keys. rewrite <- load_words4 by auto. cbn [seq map]. apply keyExp_words.
Qed.
Lemma key_rounds_length n i K : length (key_rounds n i K) = n.
Proof. revert i K; induction n; intros i [[[a b] c] d]; cbn [key_rounds length]; auto. Qed.
Lemma round_keys_length key : length (round_keys key) = 32%nat.
Proof. unfold round_keys. destruct (words4 key) as [[[a b] c] d]. apply key_rounds_length. Qed.

Lemma NewCipher_ok key : bytes key -> length key = 16%nat -> NewCipher key = Ok (round_keys key).
Proof. intros Hb Hl. unfold NewCipher. rewrite Hl. cbn [Nat.eqb negb]. rewrite keyExp_spec by (auto; lia). reflexivity. Qed.
Lemma NewCipher_bad key : length key <> 16%nat -> NewCipher key = Err (zlen key).
Proof. intros H. unfold NewCipher. apply Nat.eqb_neq in H. now rewrite H. Qed.

(** ** The Feistel structure is an involution up to reversal of the round keys *)
Lemma F_R_F X rk : F (R (F X rk)) rk = R X.
Proof.
  destruct X as [[[x0 x1] x2] x3]. unfold R, F.
  rewrite (xor4_perm x3 x2 x1), (Z.lxor_comm x2 x1).
  replace (Z.lxor (Z.lxor x1 x2) x3) with (Z.lxor (Z.lxor x1 x2) x3) by reflexivity.
  set (t := T _). rewrite Z.lxor_assoc, Z.lxor_nilpotent, Z.lxor_0_r. reflexivity.
Qed.
Lemma feistel rks : forall X, fold_left F (rev rks) (R (fold_left F rks X)) = R X.
Proof.
  induction rks as [|rk rks IH]; intros X; [reflexivity|].
  cbn [rev fold_left]. rewrite fold_left_app, IH. cbn [fold_left]. apply F_R_F.
Qed.
Lemma R_R X : R (R X) = X.
Proof. destruct X as [[[x0 x1] x2] x3]. reflexivity. Qed.

Definition block_u32 (X : block4) : Prop :=
  let '(a, b, c, d) := X in is_u32 a /\ is_u32 b /\ is_u32 c /\ is_u32 d.
Lemma firstn_be4 a : firstn 4 (be_bytes 4 a) = be_bytes 4 a.
Proof. apply firstn_all2. rewrite be_bytes_length. lia. Qed.
Lemma words4_app a b c d : length a = 4%nat -> length b = 4%nat -> length c = 4%nat -> length d = 4%nat ->
  words4 (a ++ b ++ c ++ d) = (be_val a, be_val b, be_val c, be_val d).
Proof.
  intros Ha Hb Hc Hd.
  destruct a as [|a0 [|a1 [|a2 [|a3 [|? ?]]]]]; try discriminate Ha.
  destruct b as [|b0 [|b1 [|b2 [|b3 [|? ?]]]]]; try discriminate Hb.
  destruct c as [|c0 [|c1 [|c2 [|c3 [|? ?]]]]]; try discriminate Hc.
  destruct d as [|d0 [|d1 [|d2 [|d3 [|? ?]]]]]; try discriminate Hd.
  reflexivity.
Qed.
Lemma words4_unwords4 X : block_u32 X -> words4 (unwords4 X) = X.
Proof.
  destruct X as [[[a b] c] d]. intros (Ha & Hb & Hc & Hd). unfold unwords4.
  rewrite words4_app by apply be_bytes_length.
  rewrite !be_val_be_bytes_small by assumption. reflexivity.
Qed.
Lemma unwords4_words4 b : bytes b -> length b = 16%nat -> unwords4 (words4 b) = b.
Proof.
  intros Hb Hl. unfold words4, unwords4.
  assert (G : forall l, bytes l -> length l = 4%nat -> be_bytes 4 (be_val l) = l).
  { intros l H1 H2. rewrite <- H2 at 1. now apply be_bytes_be_val. }
  rewrite !G; bts; rewrite ?firstn_length, ?skipn_length; try lia.
  rewrite <- (firstn_skipn 4 b) at 5. f_equal.
  rewrite <- (firstn_skipn 4 (skipn 4 b)) at 2. f_equal. rewrite skipn_skipn. cbn [Nat.add].
  rewrite <- (firstn_skipn 4 (skipn 8 b)) at 2. f_equal. rewrite skipn_skipn. cbn [Nat.add].
  apply firstn_all2. rewrite skipn_length. lia.
Qed.
Lemma words4_u32 b : bytes b -> (16 <= length b)%nat -> block_u32 (words4 b).
Proof.
  intros Hb Hl. unfold words4, block_u32.
  repeat split; apply be_val4_u32; bts; rewrite ?firstn_length, ?skipn_length; lia.
Qed.
Lemma L_u32 x : is_u32 x -> is_u32 (L x).
Proof. intros. unfold L. repeat apply lxor_u32; auto; apply rotl_u32; auto; lia. Qed.
Lemma T_u32 x : is_u32 (T x).
Proof. apply L_u32, tau_u32. Qed.
Lemma F_u32 X rk : block_u32 X -> block_u32 (F X rk).
Proof. destruct X as [[[a b] c] d]. unfold block_u32, F. intros (?&?&?&?). repeat split; auto; try apply lxor_u32; auto; try apply T_u32; try (apply H0 || apply H1 || apply H2). Qed.
Lemma fold_F_u32 rks : forall X, block_u32 X -> block_u32 (fold_left F rks X).
Proof. induction rks as [|r rks IH]; intros X H; [exact H|]. cbn [fold_left]. apply IH. now apply F_u32. Qed.
Lemma R_u32 X : block_u32 X -> block_u32 (R X).
Proof. destruct X as [[[a b] c] d]. cbn. tauto. Qed.

Lemma crypt_length rks b : length (crypt rks b) = 16%nat.
Proof. unfold crypt. destruct (R _) as [[[x0 x1] x2] x3]. unfold unwords4. rewrite !app_length, !be_bytes_length. reflexivity. Qed.
Lemma crypt_bytes rks b : bytes (crypt rks b).
Proof. unfold crypt. destruct (R _) as [[[x0 x1] x2] x3]. unfold unwords4. bts. Qed.
Lemma crypt_inv rks b : bytes b -> length b = 16%nat -> crypt (rev rks) (crypt rks b) = b.
Proof.
  intros Hb Hl. unfold crypt at 1. unfold crypt.
  rewrite words4_unwords4 by (apply R_u32, fold_F_u32, words4_u32; auto; lia).
  rewrite feistel, R_R. now apply unwords4_words4.
Qed.

(** Proofs about the model of prf.go. *)
From Verif Require Import GoBase GoLemmas HMAC SM3_spec SM3_proofs TLS_record_model TLS_prf_model TLS_prf_spec.
From Verif Require SM3_model.
From Coq Require Import Arith.
Open Scope Z_scope.

(** A hash object implements the function H for messages below [bnd] bytes. *)
Record impl (I : hashI) (H : list Z -> list Z) (bnd : Z) (R : hs I -> list Z -> Prop) : Prop := mkImpl {
  i_new : exists s, h_new I = Ok s /\ R s [];
  i_bytes : forall s m, R s m -> bytes m;
  i_write : forall s m p, R s m -> bytes p -> R (h_write I s p) (m ++ p);
  i_sum : forall s m inp, R s m -> zlen m < bnd -> exists s', h_sum I s inp = Ok (inp ++ H m, s') /\ R s' m;
  i_reset : forall s m, R s m -> R (h_reset I s) [] }.
Definition implements (I : hashI) (H : list Z -> list Z) (bnd : Z) : Prop := exists R, impl I H bnd R.

Lemma sm3_implements : impl sm3I sm3 (2 ^ 61) holds.
Proof.
  constructor.
  - exists SM3_model.New. split; [reflexivity|apply holds_New].
  - intros s m (Hb & _). exact Hb.
  - intros s m p Hh Hp. cbn. apply Write_holds; assumption.
  - intros s m inp Hh Hl. exists s. split; [|exact Hh]. cbn. unfold SM3_model.Sum.
    rewrite (checkSum_sm3 _ _ Hh Hl). reflexivity.
  - intros s m Hh. apply holds_Reset. apply Hh.
Qed.

(** the messages hashed by HMAC stay below 2^61 when key and message are below 2^60 *)
Definition small (l : list Z) : Prop := bytes l /\ zlen l < 2 ^ 60.
Definition hmac_rel (I : hashI) (H : list Z -> list Z) (R : hs I -> list Z -> Prop) (key : list Z) (s : hs I * hs I * list Z * list Z) (m : list Z) : Prop :=
  let '(inner, outer, ipad, opad) := s in
  bytes m /\ ipad = map (Z.lxor 0x36) (hmac_key H (h_bs I) key) /\ opad = map (Z.lxor 0x5c) (hmac_key H (h_bs I) key) /\
  R inner (ipad ++ m) /\ exists mo, R outer mo.
Lemma hmac_key_ok H size B key : good_hash H size -> (size <= B)%nat -> bytes key ->
  bytes (hmac_key H B key) /\ length (hmac_key H B key) = B.
Proof.
  intros GH HB Hk. unfold hmac_key. destruct (GH key Hk) as [B1 L1].
  destruct (Nat.ltb_spec B (length key)).
  - split; [apply bytes_app; split; [exact B1|apply bytes_zeros]|]. rewrite app_length, zeros_length. lia.
  - split; [apply bytes_app; split; [exact Hk|apply bytes_zeros]|]. rewrite app_length, zeros_length. lia.
Qed.
Lemma hmac_good H size B key : good_hash H size -> (size <= B)%nat -> bytes key -> good_hash (hmac H B key) size.
Proof.
  intros GH HB Hk m Hm. destruct (hmac_key_ok H size B key GH HB Hk) as [Bk Lk]. unfold hmac.
  apply GH. apply bytes_app. split; [apply bytes_map_lxor; [unfold is_byte; lia|exact Bk]|].
  apply GH. apply bytes_app. split; [apply bytes_map_lxor; [unfold is_byte; lia|exact Bk]|exact Hm].
Qed.
Lemma hmac_implements I H R size key : impl I H (2 ^ 61) R -> good_hash H size -> (size <= h_bs I)%nat -> Z.of_nat (h_bs I) < 2 ^ 20 ->
  small key -> impl (hmacI I key) (hmac H (h_bs I) key) (2 ^ 60) (hmac_rel I H R key).
Proof.
  intros [Hn Hb Hw Hs Hr] GH HB HB2 [Bk Lk].
  destruct (hmac_key_ok H size (h_bs I) key GH HB Bk) as [BK LK].
  assert (BI : bytes (map (Z.lxor 0x36) (hmac_key H (h_bs I) key))) by (apply bytes_map_lxor; [unfold is_byte; lia|exact BK]).
  assert (BO : bytes (map (Z.lxor 0x5c) (hmac_key H (h_bs I) key))) by (apply bytes_map_lxor; [unfold is_byte; lia|exact BK]).
  constructor.
  - destruct Hn as (s0 & E0 & R0). cbn [hmacI h_new]. rewrite E0. cbn [rbind].
    destruct (Nat.ltb_spec (h_bs I) (length key)) as [Hlt|Hge].
    + destruct (Hs (h_write I s0 key) key []) as (s1 & E1 & R1); [apply (Hw s0 [] key R0 Bk)|unfold zlen in *; lia|].
      rewrite E1. cbn [rbind app].
      eexists. split; [reflexivity|]. cbn [hmac_rel].
      assert (EK : H key ++ zeros (h_bs I - length (H key)) = hmac_key H (h_bs I) key).
      { unfold hmac_key. destruct (Nat.ltb_spec (h_bs I) (length key)); [reflexivity|lia]. }
      rewrite EK. split; [constructor|]. split; [reflexivity|]. split; [reflexivity|]. split; [|eexists; exact R1].
      rewrite app_nil_r. exact (Hw s0 [] _ R0 BI).
    + cbn [rbind]. eexists. split; [reflexivity|]. cbn [hmac_rel].
      assert (EK : key ++ zeros (h_bs I - length key) = hmac_key H (h_bs I) key).
      { unfold hmac_key. destruct (Nat.ltb_spec (h_bs I) (length key)); [lia|reflexivity]. }
      rewrite EK. split; [constructor|]. split; [reflexivity|]. split; [reflexivity|]. split; [|eexists; exact R0].
      rewrite app_nil_r. exact (Hw s0 [] _ R0 BI).
  - intros [[[inner outer] ipad] opad] m HR. apply HR.
  - intros [[[inner outer] ipad] opad] m p (Bm & Ei & Eo & Ri & Ro) Hp. cbn [hmacI h_write hmac_rel].
    split; [apply bytes_app; split; assumption|]. split; [exact Ei|]. split; [exact Eo|]. split; [|exact Ro].
    rewrite app_assoc. apply Hw; assumption.
  - intros [[[inner outer] ipad] opad] m inp (Bm & Ei & Eo & Ri & (mo & Ro)) Hm.
    cbn [hmacI h_sum].
    destruct (Hs inner (ipad ++ m) inp Ri) as (s1 & E1 & R1).
    { rewrite zlen_app. subst ipad. unfold zlen in *. rewrite map_length, LK. lia. }
    rewrite E1. cbn [rbind]. rewrite skipn_app_l by reflexivity. rewrite firstn_app_l by reflexivity.
    assert (BH : bytes (H (ipad ++ m)) /\ length (H (ipad ++ m)) = size).
    { apply GH. apply bytes_app. split; [subst ipad; exact BI|exact Bm]. }
    assert (R2 : R (h_write I (h_write I (h_reset I outer) opad) (H (ipad ++ m))) (opad ++ H (ipad ++ m))).
    { apply Hw; [|apply BH]. apply (Hw _ [] opad); [eapply Hr; exact Ro|subst opad; exact BO]. }
    destruct (Hs _ _ inp R2) as (s2 & E2 & R3).
    { rewrite zlen_app. subst opad. unfold zlen. rewrite map_length, LK. destruct BH as [_ ->]. lia. }
    rewrite E2. cbn [rbind]. exists (s1, s2, ipad, opad). split; [unfold hmac; cbv zeta; rewrite <- Ei, <- Eo; reflexivity|].
    cbn [hmac_rel]. split; [exact Bm|]. split; [exact Ei|]. split; [exact Eo|]. split; [exact R1|]. eexists; exact R3.
  - intros [[[inner outer] ipad] opad] m (Bm & Ei & Eo & Ri & Ro). cbn [hmacI h_reset hmac_rel].
    split; [constructor|]. split; [exact Ei|]. split; [exact Eo|]. split; [|exact Ro].
    rewrite app_nil_r. apply (Hw _ [] ipad); [eapply Hr; exact Ri|subst ipad; exact BI].
Qed.

(** ** pHash *)
Lemma P_hash_snoc mac size seed k n b : (0 < size)%nat -> length (mac (A mac seed (k + 1) ++ seed)) = size ->
  b = mac (A mac seed (k + 1) ++ seed) -> (k * size < n)%nat ->
  P_hash mac size seed (k * size) ++ firstn (n - k * size) b = P_hash mac size seed (Nat.min n ((k + 1) * size)).
Proof.
  intros Hs Lb Eb Hn. unfold P_hash.
  replace (Nat.min n ((k + 1) * size)) with (k * size + Nat.min (n - k * size) size)%nat by lia.
  rewrite seq_app, map_app. f_equal. cbn [plus].
  apply nth_ext with (d := 0) (d' := 0).
  - rewrite firstn_length, map_length, seq_length, Eb, Lb. reflexivity.
  - intros j Hj. rewrite firstn_length, Eb, Lb in Hj.
    rewrite nth_indep with (d' := P_byte mac size seed 0) (l := map _ _) by (rewrite map_length, seq_length; lia).
    rewrite map_nth, seq_nth by lia. unfold P_byte.
    replace ((k * size + j) / size)%nat with k by (apply Nat.div_unique with (r := j); lia).
    replace ((k * size + j) mod size)%nat with j by (apply Nat.mod_unique with (q := k); lia).
    rewrite <- Eb. rewrite <- (firstn_skipn (n - k * size) b) at 2. rewrite app_nth1; [reflexivity|].
    rewrite firstn_length, Eb, Lb. lia.
Qed.
Lemma A_ok mac size seed i : good_hash mac size -> bytes seed -> bytes (A mac seed i) /\ (i <> 0%nat -> length (A mac seed i) = size).
Proof.
  intros GH Hs. induction i as [|i [IB IL]]; cbn [A]; [split; [exact Hs|congruence]|].
  destruct (GH _ IB) as [B1 L1]. auto.
Qed.
Lemma pHash_loop_ok I mac R size n seed : impl I mac (2 ^ 60) R -> good_hash mac size -> (0 < size)%nat -> Z.of_nat size < 2 ^ 20 ->
  bytes seed -> zlen seed < 2 ^ 59 ->
  forall fuel k h m, R h m -> (n <= k * size + fuel)%nat ->
  pHash_loop I fuel n h (A mac seed (k + 1)) seed (P_hash mac size seed (Nat.min n (k * size))) = Ok (P_hash mac size seed n).
Proof.
  intros [Hn Hb Hw Hs Hr] GH H0 H20 Bseed Lseed. induction fuel as [|fuel IH]; intros k h m HR Hf; cbn [pHash_loop].
  - assert (E : length (P_hash mac size seed (Nat.min n (k * size))) = Nat.min n (k * size)) by (unfold P_hash; rewrite map_length, seq_length; reflexivity).
    rewrite E. destruct (Nat.leb_spec n (Nat.min n (k * size))); [|lia]. do 2 f_equal. lia.
  - assert (E : length (P_hash mac size seed (Nat.min n (k * size))) = Nat.min n (k * size)) by (unfold P_hash; rewrite map_length, seq_length; reflexivity).
    rewrite E. destruct (Nat.leb_spec n (Nat.min n (k * size))); [do 2 f_equal; lia|].
    destruct (A_ok mac size seed (k + 1) GH Bseed) as [BA LA]. specialize (LA ltac:(lia)).
    assert (R1 : R (h_write I (h_write I (h_reset I h) (A mac seed (k + 1))) seed) (A mac seed (k + 1) ++ seed)).
    { apply Hw; [|exact Bseed]. apply (Hw _ [] _); [eapply Hr; exact HR|exact BA]. }
    destruct (Hs _ _ [] R1) as (h1 & E1 & R1'). { rewrite zlen_app. unfold zlen in *. lia. }
    rewrite E1. cbn [rbind app].
    assert (R2 : R (h_write I (h_reset I h1) (A mac seed (k + 1))) (A mac seed (k + 1))).
    { apply (Hw _ [] _); [eapply Hr; exact R1'|exact BA]. }
    destruct (Hs _ _ [] R2) as (h2 & E2 & R2'). { unfold zlen in *. lia. }
    rewrite E2. cbn [rbind app].
    replace (Nat.min n (k * size)) with (k * size)%nat by lia.
    rewrite (P_hash_snoc mac size seed k n); [|exact H0| |reflexivity|lia].
    2: { apply GH. apply bytes_app. split; assumption. }
    replace (mac (A mac seed (k + 1))) with (A mac seed ((k + 1) + 1)) by (rewrite (Nat.add_1_r (k + 1)); reflexivity).
    apply IH with (m := A mac seed (k + 1)); [exact R2'|lia].
Qed.
Lemma pHash_ok I H size n secret seed : implements I H (2 ^ 61) -> good_hash H size -> (0 < size <= h_bs I)%nat -> Z.of_nat (h_bs I) < 2 ^ 20 ->
  small secret -> bytes seed -> zlen seed < 2 ^ 59 ->
  pHash n secret seed I = Ok (P_hash (hmac H (h_bs I) secret) size seed n).
Proof.
  intros [R HI] GH Hsz HB Hsec Bseed Lseed.
  pose proof (hmac_implements I H R size secret HI GH ltac:(lia) HB Hsec) as HM.
  pose proof (hmac_good H size (h_bs I) secret GH ltac:(lia) (proj1 Hsec)) as GM.
  unfold pHash. pose proof HM as [Hn Hb Hw Hs Hr]. destruct Hn as (s0 & E0 & R0). rewrite E0. cbn [rbind].
  pose proof (Hw _ [] seed R0 Bseed) as R1.
  destruct (Hs _ _ [] R1) as (s1 & E1 & R1'). { cbn [app]. unfold zlen in *; lia. }
  rewrite E1. cbn [rbind app].
  assert (X : (n <= 0 * size + n)%nat) by lia.
  pose proof (pHash_loop_ok (hmacI I secret) (hmac H (h_bs I) secret) _ size n seed HM GM ltac:(lia) ltac:(lia) Bseed Lseed n 0 s1 _ R1' X) as Y.
  rewrite Nat.mul_0_l, Nat.min_0_r in Y. exact Y.
Qed.

(** ** The PRF of every version *)
Definition std_impl (L : stdlib) (Hs : hashes) : Prop :=
  implements (std_md5 L) (MD5 Hs) (2 ^ 61) /\ implements (std_sha1 L) (SHA1 Hs) (2 ^ 61) /\
  implements (std_sha256 L) (SHA256 Hs) (2 ^ 61) /\ implements (std_sha384 L) (SHA384 Hs) (2 ^ 61) /\
  h_bs (std_md5 L) = 64%nat /\ h_bs (std_sha1 L) = 64%nat /\ h_bs (std_sha256 L) = 64%nat /\ h_bs (std_sha384 L) = 128%nat.
Lemma sm3_good : good_hash sm3 32.
Proof. intros m Hm. destruct (sm3_length m Hm). auto. Qed.
Lemma small_firstn n l : small l -> small (firstn n l).
Proof. intros [B L]. split; [now apply bytes_firstn|]. unfold zlen in *. rewrite firstn_length. lia. Qed.
Lemma small_skipn n l : small l -> small (skipn n l).
Proof. intros [B L]. split; [now apply bytes_skipn|]. unfold zlen in *. rewrite skipn_length. lia. Qed.

Section PRF.
Context (L : stdlib) (Hs : hashes) (HL : std_impl L Hs) (HG : good_hashes Hs).

Lemma prf12_ok I H size n secret label seed : implements I H (2 ^ 61) -> good_hash H size -> (0 < size <= h_bs I)%nat -> Z.of_nat (h_bs I) < 2 ^ 20 ->
  small secret -> bytes label -> bytes seed -> zlen label + zlen seed < 2 ^ 59 ->
  prf12 I n secret label seed = Ok (P_hash (hmac H (h_bs I) secret) size (label ++ seed) n).
Proof.
  intros HI GH Hsz HB Hsec Bl Bs Hlen. unfold prf12. apply pHash_ok; auto.
  - apply bytes_app. auto.
  - rewrite zlen_app. exact Hlen.
Qed.
Lemma prf10_ok n secret label seed : small secret -> bytes label -> bytes seed -> zlen label + zlen seed < 2 ^ 59 ->
  prf10 (std_md5 L) (std_sha1 L) n secret label seed = Ok (PRF Hs TLS10 n secret label seed).
Proof.
  intros Hsec Bl Bs Hlen. destruct HL as (I1 & I2 & _ & _ & B1 & B2 & _). destruct HG as (G1 & G2 & _).
  assert (Bls : bytes (label ++ seed)) by (apply bytes_app; auto).
  assert (Lls : zlen (label ++ seed) < 2 ^ 59) by (rewrite zlen_app; exact Hlen).
  unfold prf10, splitPreMasterSecret.
  rewrite (pHash_ok (std_md5 L) (MD5 Hs) 16); [|auto|auto|rewrite B1; lia|rewrite B1; reflexivity|now apply small_firstn|auto|auto].
  cbn [rbind].
  rewrite (pHash_ok (std_sha1 L) (SHA1 Hs) 20); [|auto|auto|rewrite B2; lia|rewrite B2; reflexivity|now apply small_skipn|auto|auto].
  cbn [rbind PRF]. rewrite B1, B2. reflexivity.
Qed.

Lemma S3_snoc secret seed k n b : length b = 16%nat ->
  b = MD5 Hs (secret ++ SHA1 Hs (repeat (65 + Z.of_nat k) (k + 1) ++ secret ++ seed)) -> (k * 16 < n)%nat ->
  map (S3_byte Hs secret seed) (seq 0 (k * 16)) ++ firstn (n - k * 16) b = map (S3_byte Hs secret seed) (seq 0 (Nat.min n ((k + 1) * 16))).
Proof.
  intros Lb Eb Hn.
  replace (Nat.min n ((k + 1) * 16)) with (k * 16 + Nat.min (n - k * 16) 16)%nat by lia.
  rewrite seq_app, map_app. f_equal. cbn [plus].
  apply nth_ext with (d := 0) (d' := 0).
  - rewrite firstn_length, map_length, seq_length, Lb. reflexivity.
  - intros j Hj. rewrite firstn_length, Lb in Hj.
    rewrite nth_indep with (d' := S3_byte Hs secret seed 0) (l := map _ _) by (rewrite map_length, seq_length; lia).
    rewrite map_nth, seq_nth by lia. unfold S3_byte. cbv zeta.
    replace ((k * 16 + j) / 16)%nat with k by (apply Nat.div_unique with (r := j); lia).
    replace ((k * 16 + j) mod 16)%nat with j by (apply Nat.mod_unique with (q := k); lia).
    rewrite <- Eb. rewrite <- (firstn_skipn (n - k * 16) b) at 2. rewrite app_nth1; [reflexivity|].
    rewrite firstn_length, Lb. lia.
Qed.
Lemma prf30_loop_ok R1 R2 n secret seed : impl (std_md5 L) (MD5 Hs) (2 ^ 61) R1 -> impl (std_sha1 L) (SHA1 Hs) (2 ^ 61) R2 ->
  small secret -> bytes seed -> zlen seed < 2 ^ 59 ->
  forall fuel k h1 h2 m1 m2, R1 h2 m1 -> R2 h1 m2 -> (n <= k * 16 + fuel)%nat -> (k <= 11)%nat ->
  prf30_loop (std_md5 L) (std_sha1 L) fuel n k h1 h2 secret seed (map (S3_byte Hs secret seed) (seq 0 (Nat.min n (k * 16)))) =
  if (n <=? 176)%nat then Ok (map (S3_byte Hs secret seed) (seq 0 n)) else Panic.
Proof.
  intros [Hn1 Hb1 Hw1 Hs1 Hr1] [Hn2 Hb2 Hw2 Hs2 Hr2] [Bsec Lsec] Bseed Lseed. destruct HG as (G1 & G2 & _).
  induction fuel as [|fuel IH]; intros k h1 h2 m1 m2 HR1 HR2 Hf Hk; cbn [prf30_loop]; rewrite map_length, seq_length.
  - destruct (Nat.leb_spec n (Nat.min n (k * 16))); [|lia]. destruct (Nat.leb_spec n 176); [do 3 f_equal; lia|lia].
  - destruct (Nat.leb_spec n (Nat.min n (k * 16))). { destruct (Nat.leb_spec n 176); [do 3 f_equal; lia|lia]. }
    destruct (Nat.leb_spec 11 k). { destruct (Nat.leb_spec n 176); [lia|reflexivity]. }
    replace (u8 (65 + Z.of_nat k)) with (65 + Z.of_nat k) by (unfold u8; rewrite Z.mod_small; lia).
    assert (Brep : bytes (repeat (65 + Z.of_nat k) (k + 1))) by (apply bytes_repeat; unfold is_byte; lia).
    assert (RA : R2 (h_write (std_sha1 L) (h_write (std_sha1 L) (h_write (std_sha1 L) (h_reset (std_sha1 L) h1) (repeat (65 + Z.of_nat k) (k + 1))) secret) seed)
                    (([] ++ repeat (65 + Z.of_nat k) (k + 1)) ++ secret ++ seed)).
    { rewrite app_assoc. apply Hw2; [|exact Bseed]. apply Hw2; [|exact Bsec]. apply Hw2; [eapply Hr2; exact HR2|exact Brep]. }
    cbn [app] in RA.
    destruct (Hs2 _ _ [] RA) as (h1' & E1 & R1'). { rewrite !zlen_app. unfold zlen in *. rewrite repeat_length. lia. }
    rewrite E1. cbn [rbind app].
    set (dg := SHA1 Hs (repeat (65 + Z.of_nat k) (k + 1) ++ secret ++ seed)) in *.
    assert (Bdg : bytes dg /\ length dg = 20%nat). { apply G2. apply bytes_app. split; [exact Brep|apply bytes_app; auto]. }
    assert (RB : R1 (h_write (std_md5 L) (h_write (std_md5 L) (h_reset (std_md5 L) h2) secret) dg) (secret ++ dg)).
    { apply Hw1; [|apply Bdg]. apply (Hw1 _ [] _); [eapply Hr1; exact HR1|exact Bsec]. }
    destruct (Hs1 _ _ [] RB) as (h2' & E2 & R2'). { rewrite zlen_app. unfold zlen in *. destruct Bdg as [_ ->]. lia. }
    rewrite E2. cbn [rbind app].
    replace (Nat.min n (k * 16)) with (k * 16)%nat by lia.
    rewrite (S3_snoc secret seed k n); [|apply G1; apply bytes_app; split; [exact Bsec|apply Bdg]|reflexivity|lia].
    eapply IH; [exact R2'|exact R1'|lia|lia].
Qed.
Lemma prf30_ok n secret label seed : small secret -> bytes seed -> zlen seed < 2 ^ 59 ->
  prf30 (std_md5 L) (std_sha1 L) n secret label seed = if (n <=? 176)%nat then Ok (PRF Hs SSL30 n secret label seed) else Panic.
Proof.
  intros Hsec Bs Ls. destruct HL as ([R1 I1] & [R2 I2] & _). unfold prf30.
  destruct (i_new _ _ _ _ I2) as (s2 & E2 & RR2). destruct (i_new _ _ _ _ I1) as (s1 & E1 & RR1).
  rewrite E2, E1. cbn [rbind PRF].
  assert (X : (n <= 0 * 16 + n)%nat) by lia.
  pose proof (prf30_loop_ok R1 R2 n secret seed I1 I2 Hsec Bs Ls n 0 s2 s1 [] [] RR1 RR2 X ltac:(lia)) as Y.
  rewrite Nat.mul_0_l, Nat.min_0_r in Y. exact Y.
Qed.

(** version numbers on the wire *)
Definition vers_of (v : version) : Z := match v with SSL30 => 0x0300 | TLS10 => 0x0301 | TLS11 => 0x0302 | TLS12 _ => 0x0303 | GMSSL => 0x0101 end.
Definition sha384_of (v : version) (flag : bool) : bool := match v with TLS12 b => b | _ => flag end.
Lemma prfForVersion_ok v flag n secret label seed : small secret -> bytes label -> bytes seed -> zlen label + zlen seed < 2 ^ 59 ->
  (v = SSL30 -> (n <= 176)%nat) ->
  (do prf <- prfForVersion L (vers_of v) (sha384_of v flag); prf n secret label seed) = Ok (PRF Hs v n secret label seed).
Proof.
  intros Hsec Bl Bs Hlen H30. pose proof HL as (I1 & I2 & I3 & I4 & B1 & B2 & B3 & B4). pose proof HG as (G1 & G2 & G3 & G4).
  assert (Lseed : zlen seed < 2 ^ 59) by (unfold zlen in *; lia).
  destruct v as [| | |[|]|]; cbn [vers_of sha384_of]; unfold prfForVersion, prfAndHashForVersion;
    cbn [Z.eqb Pos.eqb orb VersionSSL30 VersionTLS10 VersionTLS11 VersionTLS12 VersionGMSSL rbind fst].
  - rewrite prf30_ok by assumption. specialize (H30 eq_refl). destruct (Nat.leb_spec n 176); [reflexivity|lia].
  - apply prf10_ok; assumption.
  - rewrite prf10_ok by assumption. reflexivity.
  - rewrite (prf12_ok _ (SHA384 Hs) 48) by (try assumption; rewrite B4; (lia || reflexivity)). cbn [PRF]. rewrite B4. reflexivity.
  - rewrite (prf12_ok _ (SHA256 Hs) 32) by (try assumption; rewrite B3; (lia || reflexivity)). cbn [PRF]. rewrite B3. reflexivity.
  - rewrite (prf12_ok _ sm3 32); try assumption; [reflexivity|eexists; apply sm3_implements|apply sm3_good|cbn; lia|reflexivity].
Qed.
Lemma PRF_length v n secret label seed : length (PRF Hs v n secret label seed) = n.
Proof.
  assert (X : forall mac size s, length (P_hash mac size s n) = n) by (intros; unfold P_hash; now rewrite map_length, seq_length).
  destruct v as [| | |[|]|]; cbn [PRF]; rewrite ?xorl_length, ?X, ?map_length, ?seq_length; lia.
Qed.
End PRF.

(** ** Finished values *)
Definition o_rel (o : hobj) (H : list Z -> list Z) (m : list Z) : Prop := exists R, impl (o_I o) H (2 ^ 61) R /\ R (o_s o) m.
Lemma o_new_rel I H : implements I H (2 ^ 61) -> exists o, o_new I = Ok o /\ o_rel o H [].
Proof. intros [R HI]. destruct (i_new _ _ _ _ HI) as (s & E & Rs). unfold o_new. rewrite E. cbn [rbind]. eexists. split; [reflexivity|]. exists R. auto. Qed.
Lemma o_write_rel o H m p : o_rel o H m -> bytes p -> o_rel (o_write o p) H (m ++ p).
Proof. intros (R & HI & HR) Hp. exists R. split; [exact HI|]. apply (i_write _ _ _ _ HI _ _ _ HR Hp). Qed.
Lemma o_reset_rel o H m : o_rel o H m -> o_rel (o_reset o) H [].
Proof. intros (R & HI & HR). exists R. split; [exact HI|]. apply (i_reset _ _ _ _ HI _ _ HR). Qed.
Lemma o_sum_rel o H m inp : o_rel o H m -> zlen m < 2 ^ 61 -> exists o', o_sum o inp = Ok (inp ++ H m, o') /\ o_rel o' H m.
Proof.
  intros (R & HI & HR) Hl. destruct (i_sum _ _ _ _ HI _ _ inp HR Hl) as (s' & E & R'). unfold o_sum. rewrite E. cbn [rbind fst snd].
  eexists. split; [reflexivity|]. exists R. auto.
Qed.
Lemma o_rel_bytes o H m : o_rel o H m -> bytes m.
Proof. intros (R & HI & HR). exact (i_bytes _ _ _ _ HI _ _ HR). Qed.

Definition main_hash (Hs : hashes) (v : version) : list Z -> list Z :=
  match v with GMSSL => sm3 | TLS12 false => SHA256 Hs | TLS12 true => SHA384 Hs | _ => SHA1 Hs end.
Definition uses_md5 (v : version) : bool := match v with SSL30 | TLS10 | TLS11 => true | _ => false end.
(** the version's Finished value needs one object only *)
Definition side_ok (Hs : hashes) (v : version) (o : hobj) (md : option hobj) (spent : bool) (t : list Z) : Prop :=
  (exists m, o_rel o (main_hash Hs v) m /\ (spent = false -> m = t)) /\
  match v with
  | TLS12 _ => True
  | GMSSL => exists x, md = Some x
  | _ => exists x m, md = Some x /\ o_rel x (MD5 Hs) m /\ (spent = false -> m = t)
  end.
Definition buffer_kept (v : version) : bool := match v with SSL30 | TLS12 _ | GMSSL => true | _ => false end.
Definition prf_ok (Hs : hashes) (v : version) (prf : prfT) : Prop :=
  forall n secret label seed, small secret -> bytes label -> bytes seed -> zlen label + zlen seed < 2 ^ 59 -> v <> SSL30 ->
  prf n secret label seed = Ok (PRF Hs v n secret label seed).
Record fh_ok (Hs : hashes) (v : version) (t : list Z) (disc sc ss : bool) (h : finishedHash) : Prop := mkFhOk {
  fo_vers : fh_version h = vers_of v;
  fo_buf : fh_buffer h = if disc then None else if buffer_kept v then Some t else None;
  fo_prf : prf_ok Hs v (fh_prf h);
  fo_bytes : bytes t;
  fo_c : side_ok Hs v (fh_client h) (fh_clientMD5 h) sc t;
  fo_s : side_ok Hs v (fh_server h) (fh_serverMD5 h) ss t }.

Section FH.
Context (L : stdlib) (Hs : hashes) (HL : std_impl L Hs) (HG : good_hashes Hs).
Lemma main_good v : exists size, good_hash (main_hash Hs v) size /\ (size <= 48)%nat.
Proof. destruct HG as (G1 & G2 & G3 & G4). destruct v as [| | |[|]|]; cbn; eexists; (split; [eassumption || apply sm3_good|lia]). Qed.
Lemma prf_ok_version v flag prf : prfForVersion L (vers_of v) (sha384_of v flag) = Ok prf -> prf_ok Hs v prf.
Proof.
  intros E n secret label seed Hsec Bl Bs Hlen Hv.
  pose proof (prfForVersion_ok L Hs HL HG v flag n secret label seed Hsec Bl Bs Hlen) as X. rewrite E in X. cbn [rbind] in X. apply X. congruence.
Qed.
Lemma newFinishedHash_ok v flag : v <> GMSSL -> exists h, newFinishedHash L (vers_of v) (sha384_of v flag) = Ok h /\ fh_ok Hs v [] false false false h.
Proof.
  intros Hv. pose proof HL as (I1 & I2 & I3 & I4 & B1 & B2 & B3 & B4).
  destruct (o_new_rel _ _ I1) as (m & Em & Rm). destruct (o_new_rel _ _ I2) as (s & Es & Rs).
  destruct (o_new_rel _ _ I3) as (x & Ex & Rx). destruct (o_new_rel _ _ I4) as (y & Ey & Ry).
  pose proof (prf_ok_version v flag) as HP. unfold prfForVersion in HP.
  unfold newFinishedHash.
  destruct v as [| | |[|]|]; try congruence; cbn [vers_of sha384_of] in *; unfold prfAndHashForVersion in *;
    cbn [Z.eqb Pos.eqb orb VersionSSL30 VersionTLS10 VersionTLS11 VersionTLS12 VersionGMSSL rbind fst Z.leb Z.compare Pos.compare Pos.compare_cont] in *;
    rewrite ?Es, ?Em, ?Ex, ?Ey; cbn [rbind]; eexists; (split; [reflexivity|]);
    (constructor; cbn [fh_version fh_buffer fh_prf fh_client fh_server fh_clientMD5 fh_serverMD5 buffer_kept];
     [reflexivity|reflexivity|apply HP; reflexivity|constructor| |]);
    (split; [eexists; split; [eassumption|reflexivity]|]); try exact I; do 2 eexists; (split; [reflexivity|]); (split; [eassumption|reflexivity]).
Qed.
Lemma newFinishedHashGM_ok : exists h, newFinishedHashGM = Ok h /\ fh_ok Hs GMSSL [] false false false h.
Proof.
  destruct (o_new_rel sm3I sm3 (ex_intro _ _ sm3_implements)) as (s & Es & Rs).
  unfold newFinishedHashGM. rewrite Es. cbn [rbind]. unfold o_new at 1 2. cbn [nilMD5I h_new rbind].
  eexists. split; [reflexivity|].
  constructor; cbn [fh_version fh_buffer fh_prf fh_client fh_server fh_clientMD5 fh_serverMD5 buffer_kept]; [reflexivity|reflexivity| |constructor| |].
  - apply (prf_ok_version GMSSL false). reflexivity.
  - split; [exists []; split; [exact Rs|reflexivity]|eexists; reflexivity].
  - split; [exists []; split; [exact Rs|reflexivity]|eexists; reflexivity].
Qed.

Lemma side_write v o md sp t p : side_ok Hs v o md sp t -> bytes p ->
  side_ok Hs v (o_write o p) (if vers_of v <? VersionTLS12 then option_map (fun x => o_write x p) md else md) sp (t ++ p).
Proof.
  intros [(m & Hm & Em) HM] Hp. split.
  - exists (m ++ p). split; [now apply o_write_rel|]. intros E. now rewrite (Em E).
  - destruct v as [| | |[|]|]; cbn [vers_of Z.ltb Z.compare Pos.compare Pos.compare_cont VersionTLS12]; try exact I.
    4: { destruct HM as (x & ->). eexists. reflexivity. }
    all: destruct HM as (x & m' & -> & Hx & Ex); exists (o_write x p), (m' ++ p); (split; [reflexivity|]); (split; [now apply o_write_rel|]); intros E; now rewrite (Ex E).
Qed.
Lemma fh_Write_ok v t d sc ss h p : fh_ok Hs v t d sc ss h -> bytes p -> exists h', fh_Write h p = Ok h' /\ fh_ok Hs v (t ++ p) d sc ss h'.
Proof.
  intros [Ev Eb Ep Bt Hc Hsv] Hp. unfold fh_Write. rewrite Ev.
  pose proof (side_write _ _ _ _ _ _ Hc Hp) as Wc. pose proof (side_write _ _ _ _ _ _ Hsv Hp) as Ws.
  assert (Buf : (match fh_buffer h with Some b => Some (b ++ p) | None => None end) = if d then None else if buffer_kept v then Some (t ++ p) else None).
  { rewrite Eb. destruct d, (buffer_kept v); reflexivity. }
  rewrite Buf.
  assert (Bt' : bytes (t ++ p)) by (apply bytes_app; auto).
  destruct (vers_of v <? VersionTLS12) eqn:E.
  - assert (X : exists a b, fh_clientMD5 h = Some a /\ fh_serverMD5 h = Some b).
    { destruct Hc as [_ Hc]. destruct Hsv as [_ Hsv]. destruct v as [| | |b|]; try (cbn in E; discriminate).
      4: { destruct Hc as (x & Ex). destruct Hsv as (y & Ey). eauto. }
      all: destruct Hc as (x & ? & Ex & _); destruct Hsv as (y & ? & Ey & _); eauto. }
    destruct X as (a & b & E1 & E2). rewrite E1, E2 in *. cbn [rbind fst snd option_map] in *.
    eexists. split; [reflexivity|]. constructor; cbn; auto.
  - cbn [rbind fst snd]. eexists. split; [reflexivity|]. constructor; cbn; auto.
Qed.

Lemma fh_Sum_ok v t d sc ss h : fh_ok Hs v t d sc ss h -> sc = false -> zlen t < 2 ^ 61 ->
  exists h', fh_Sum h = Ok (transcript_hash Hs v t, h') /\ fh_ok Hs v t d sc ss h'.
Proof.
  intros [Ev Eb Ep Bt Hc Hsv] -> Hl. unfold fh_Sum. rewrite Ev.
  destruct Hc as [(m & Hm & Em) HM]. specialize (Em eq_refl). subst m.
  destruct v as [| | |b|]; cbn [vers_of Z.leb Z.eqb Pos.eqb Z.compare Pos.compare Pos.compare_cont VersionTLS12 VersionGMSSL orb].
  4: { destruct (o_sum_rel _ _ _ [] Hm Hl) as (o' & E' & R'). rewrite E'. cbn [rbind fst snd].
       eexists. split; [destruct b; reflexivity|]. constructor; cbn; auto. split; [exists t; split; [exact R'|reflexivity]|exact I]. }
  4: { destruct (o_sum_rel _ _ _ [] Hm Hl) as (o' & E' & R'). rewrite E'. cbn [rbind fst snd].
       eexists. split; [reflexivity|]. constructor; cbn; auto. split; [exists t; split; [exact R'|reflexivity]|exact HM]. }
  all: destruct HM as (x & m' & -> & Hx & Ex); specialize (Ex eq_refl); subst m';
    destruct (o_sum_rel _ _ _ [] Hx Hl) as (x' & E1 & R1); rewrite E1; cbn [rbind];
    destruct (o_sum_rel _ _ _ ([] ++ MD5 Hs t) Hm Hl) as (o' & E2 & R2); rewrite E2; cbn [rbind];
    (eexists; split; [reflexivity|]; constructor; cbn; auto;
      split; [exists t; split; [exact R2|reflexivity]|exists x', t; split; [reflexivity|split; [exact R1|reflexivity]]]).
Qed.

Lemma finishedSum30_ok md o t secret magic : o_rel md (MD5 Hs) t -> o_rel o (SHA1 Hs) t -> zlen t < 2 ^ 59 -> small secret -> bytes magic -> zlen magic < 2 ^ 58 ->
  exists md' o' m1 m2, finishedSum30 md o secret magic = Ok (ssl3_verify Hs t magic secret, md', o') /\ o_rel md' (MD5 Hs) m1 /\ o_rel o' (SHA1 Hs) m2.
Proof.
  intros Rm Ro Lt [Bs Ls] Bmg Lmg. destruct HG as (G1 & G2 & _).
  assert (Bt : bytes t) by (eapply o_rel_bytes; exact Rm).
  assert (B36 : forall n, bytes (repeat 0x36 n)) by (intros; apply bytes_repeat; unfold is_byte; lia).
  assert (B5c : forall n, bytes (repeat 0x5c n)) by (intros; apply bytes_repeat; unfold is_byte; lia).
  unfold finishedSum30.
  assert (P40a : firstn 40 ssl30Pad1 = repeat 0x36 40) by reflexivity.
  assert (P40b : firstn 40 ssl30Pad2 = repeat 0x5c 40) by reflexivity.
  rewrite P40a, P40b. unfold ssl30Pad1, ssl30Pad2.
  assert (W1 : o_rel (o_write (o_write (o_write md magic) secret) (repeat 0x36 48)) (MD5 Hs) (t ++ magic ++ secret ++ repeat 0x36 48)).
  { rewrite !app_assoc. repeat (apply o_write_rel; auto). }
  destruct (o_sum_rel _ _ _ [] W1) as (x1 & E1 & R1). { rewrite !zlen_app. unfold zlen in *. rewrite repeat_length. lia. }
  rewrite E1. cbn [rbind app].
  set (d1 := MD5 Hs (t ++ magic ++ secret ++ repeat 0x36 48)) in *.
  assert (D1 : bytes d1 /\ length d1 = 16%nat). { apply G1. repeat (apply bytes_app; split; auto). }
  assert (W2 : o_rel (o_write (o_write (o_write (o_reset x1) secret) (repeat 0x5c 48)) d1) (MD5 Hs) (secret ++ repeat 0x5c 48 ++ d1)).
  { rewrite !app_assoc. apply o_write_rel; [|apply D1]. apply o_write_rel; auto. apply (o_write_rel _ _ []); auto. eapply o_reset_rel; exact R1. }
  destruct (o_sum_rel _ _ _ [] W2) as (x2 & E2 & R2). { rewrite !zlen_app. unfold zlen in *. rewrite repeat_length. destruct D1 as [_ ->]. lia. }
  rewrite E2. cbn [rbind app].
  assert (W3 : o_rel (o_write (o_write (o_write o magic) secret) (repeat 0x36 40)) (SHA1 Hs) (t ++ magic ++ secret ++ repeat 0x36 40)).
  { rewrite !app_assoc. repeat (apply o_write_rel; auto). }
  destruct (o_sum_rel _ _ _ [] W3) as (x3 & E3 & R3). { rewrite !zlen_app. unfold zlen in *. rewrite repeat_length. lia. }
  rewrite E3. cbn [rbind app].
  set (d3 := SHA1 Hs (t ++ magic ++ secret ++ repeat 0x36 40)) in *.
  assert (D3 : bytes d3 /\ length d3 = 20%nat). { apply G2. repeat (apply bytes_app; split; auto). }
  assert (W4 : o_rel (o_write (o_write (o_write (o_reset x3) secret) (repeat 0x5c 40)) d3) (SHA1 Hs) (secret ++ repeat 0x5c 40 ++ d3)).
  { rewrite !app_assoc. apply o_write_rel; [|apply D3]. apply o_write_rel; auto. apply (o_write_rel _ _ []); auto. eapply o_reset_rel; exact R3. }
  destruct (o_sum_rel _ _ _ [] W4) as (x4 & E4 & R4). { rewrite !zlen_app. unfold zlen in *. rewrite repeat_length. destruct D3 as [_ ->]. lia. }
  rewrite E4. cbn [rbind app].
  do 4 eexists. split; [reflexivity|]. split; [exact R2|exact R4].
Qed.

Lemma transcript_hash_ok v t : bytes t -> bytes (transcript_hash Hs v t) /\ (length (transcript_hash Hs v t) <= 48)%nat.
Proof.
  intros Bt. destruct HG as (G1 & G2 & G3 & G4). destruct (G1 t Bt) as [? ?], (G2 t Bt) as [? ?], (G3 t Bt) as [? ?], (G4 t Bt) as [? ?], (sm3_good t Bt) as [? ?].
  destruct v as [| | |[|]|]; cbn [transcript_hash]; rewrite ?app_length; (split; [try apply bytes_app; auto|lia]).
Qed.
Definition spend (v : version) (b : bool) : bool := match v with SSL30 => true | _ => b end.
Lemma clientSum_ok v t d sc ss h secret : fh_ok Hs v t d sc ss h -> sc = false -> zlen t < 2 ^ 59 -> small secret ->
  exists h', clientSum h secret = Ok (client_finished Hs v secret t, h') /\ fh_ok Hs v t d (spend v sc) ss h'.
Proof.
  intros HF -> Hl Hsec. unfold clientSum. pose proof HF as [Ev Eb Ep Bt Hc Hsv]. rewrite Ev.
  assert (D : v = SSL30 \/ v <> SSL30) by (destruct v; try (left; reflexivity); right; congruence).
  destruct D as [->|Hv].
  - cbn [vers_of Z.eqb Pos.eqb VersionSSL30]. destruct Hc as [(m & Hm & Em) (x & m' & E1 & Hx & Ex)].
    specialize (Em eq_refl). specialize (Ex eq_refl). subst m m'. rewrite E1.
    destruct (finishedSum30_ok x (fh_client h) t secret ssl3ClientFinishedMagic Hx Hm Hl Hsec) as (md' & o' & m1 & m2 & E2 & R1 & R2);
      [apply bytesb_spec; reflexivity|reflexivity|].
    rewrite E2. cbn [rbind]. eexists. split; [reflexivity|]. constructor; cbn; auto.
    split; [exists m2; split; [exact R2|discriminate]|exists md', m1; split; [reflexivity|split; [exact R1|discriminate]]].
  - replace (vers_of v =? VersionSSL30) with false by (destruct v; try congruence; reflexivity).
    destruct (fh_Sum_ok v t d false ss h HF eq_refl ltac:(lia)) as (h' & E' & HF'). rewrite E'. cbn [rbind].
    destruct (transcript_hash_ok v t Bt) as [B1 L1].
    rewrite (fo_prf _ _ _ _ _ _ _ HF' 12%nat secret clientFinishedLabel (transcript_hash Hs v t) Hsec); [|apply bytesb_spec; reflexivity|exact B1| |exact Hv].
    2: { unfold zlen. cbn [length clientFinishedLabel]. lia. }
    cbn [rbind]. eexists. split; [destruct v; try congruence; reflexivity|]. destruct v; try congruence; exact HF'.
Qed.
Lemma serverSum_ok v t d sc ss h secret : fh_ok Hs v t d sc ss h -> ss = false -> (v <> SSL30 -> sc = false) -> zlen t < 2 ^ 59 -> small secret ->
  exists h', serverSum h secret = Ok (server_finished Hs v secret t, h') /\ fh_ok Hs v t d sc (spend v ss) h'.
Proof.
  intros HF -> Hsc Hl Hsec. unfold serverSum. pose proof HF as [Ev Eb Ep Bt Hc Hsv]. rewrite Ev.
  assert (D : v = SSL30 \/ v <> SSL30) by (destruct v; try (left; reflexivity); right; congruence).
  destruct D as [->|Hv].
  - cbn [vers_of Z.eqb Pos.eqb VersionSSL30]. destruct Hsv as [(m & Hm & Em) (x & m' & E1 & Hx & Ex)].
    specialize (Em eq_refl). specialize (Ex eq_refl). subst m m'. rewrite E1.
    destruct (finishedSum30_ok x (fh_server h) t secret ssl3ServerFinishedMagic Hx Hm Hl Hsec) as (md' & o' & m1 & m2 & E2 & R1 & R2);
      [apply bytesb_spec; reflexivity|reflexivity|].
    rewrite E2. cbn [rbind]. eexists. split; [reflexivity|]. constructor; cbn; auto.
    split; [exists m2; split; [exact R2|discriminate]|exists md', m1; split; [reflexivity|split; [exact R1|discriminate]]].
  - replace (vers_of v =? VersionSSL30) with false by (destruct v; try congruence; reflexivity).
    destruct (fh_Sum_ok v t d sc false h HF (Hsc Hv) ltac:(lia)) as (h' & E' & HF'). rewrite E'. cbn [rbind].
    destruct (transcript_hash_ok v t Bt) as [B1 L1].
    rewrite (fo_prf _ _ _ _ _ _ _ HF' 12%nat secret serverFinishedLabel (transcript_hash Hs v t) Hsec); [|apply bytesb_spec; reflexivity|exact B1| |exact Hv].
    2: { unfold zlen. cbn [length serverFinishedLabel]. lia. }
    cbn [rbind]. eexists. split; [destruct v; try congruence; reflexivity|]. destruct v; try congruence; exact HF'.
Qed.

(** ** The digest signed by a client certificate *)
Lemma hashForClientCertificate_ok v t sc ss h sigType I Hc secret : fh_ok Hs v t false sc ss h -> sc = false -> ss = false ->
  implements I Hc (2 ^ 61) -> zlen t < 2 ^ 59 -> small secret ->
  match v with
  | SSL30 => if sigType =? signaturePKCS1v15 then exists h', hashForClientCertificate L h sigType I secret = Ok (ssl3_verify Hs t [] secret, h') /\ fh_ok Hs v t false sc ss h'
             else hashForClientCertificate L h sigType I secret = Err 1
  | TLS12 _ => exists h', hashForClientCertificate L h sigType I secret = Ok (Hc t, h') /\ fh_ok Hs v t false sc ss h'
  | GMSSL => exists h', hashForClientCertificate L h sigType I secret = Ok (sm3 t, h') /\ fh_ok Hs v t false sc ss h'
  | _ => exists h', hashForClientCertificate L h sigType I secret = Ok (if sigType =? signatureECDSA then SHA1 Hs t else MD5 Hs t ++ SHA1 Hs t, h') /\ fh_ok Hs v t false sc ss h'
  end.
Proof.
  intros HF -> -> HI Hl Hsec. pose proof HF as [Ev Eb Ep Bt HC HS]. unfold hashForClientCertificate. rewrite Ev, Eb.
  assert (SS : exists h', (do r <- o_sum (fh_server h) []; Ok (fst r, mkFH (fh_client h) (snd r) (fh_clientMD5 h) (fh_serverMD5 h) (fh_buffer h) (fh_version h) (fh_prf h)))
                = Ok (main_hash Hs v t, h') /\ fh_ok Hs v t false false false h').
  { destruct HS as [(m & Hm & Em) HM]. specialize (Em eq_refl). subst m.
    destruct (o_sum_rel _ _ _ [] Hm) as (o' & E' & R'); [lia|]. rewrite E'. cbn [rbind fst snd]. eexists. split; [reflexivity|].
    constructor; cbn; auto. split; [exists t; auto|exact HM]. }
  rewrite Ev, Eb in SS. pose proof (fh_Sum_ok v t false false false h HF eq_refl ltac:(lia)) as FS.
  pose proof HL as (I1 & I2 & _).
  destruct (o_new_rel _ _ I1) as (mo & Em & Rm). destruct (o_new_rel _ _ I2) as (so & Es & Rs).
  pose proof (o_write_rel _ _ [] t Rm Bt) as Wm. pose proof (o_write_rel _ _ [] t Rs Bt) as Ws. cbn [app] in *.
  destruct v as [| | |b|]; cbn [vers_of buffer_kept Z.leb Z.eqb Pos.eqb Z.compare Pos.compare Pos.compare_cont VersionSSL30 VersionTLS12 VersionGMSSL orb andb].
  - destruct (sigType =? signaturePKCS1v15); cbn [negb]; [|reflexivity].
    rewrite Em, Es. cbn [rbind].
    destruct (finishedSum30_ok _ _ t secret [] Wm Ws Hl Hsec) as (md' & o' & m1 & m2 & E2 & R1 & R2); [constructor|reflexivity|].
    rewrite E2. cbn [rbind]. eexists. split; [reflexivity|exact HF].
  - destruct (sigType =? signatureECDSA).
    + exact SS.
    + exact FS.
  - destruct (sigType =? signatureECDSA).
    + exact SS.
    + exact FS.
  - destruct (o_new_rel _ _ HI) as (ho & Eh & Rh). rewrite Eh. cbn [rbind].
    destruct (o_sum_rel _ _ _ [] (o_write_rel _ _ [] t Rh Bt)) as (o' & E' & R'); [cbn [app]; lia|]. rewrite E'. cbn [rbind fst app].
    eexists. split; [reflexivity|exact HF].
  - destruct (sigType =? signatureECDSA).
    + exact SS.
    + exact FS.
Qed.
Lemma discard_ok v t d sc ss h : fh_ok Hs v t d sc ss h -> fh_ok Hs v t true sc ss (discardHandshakeBuffer h).
Proof. intros [Ev Eb Ep Bt Hc Hsv]. constructor; cbn; auto. Qed.
End FH.

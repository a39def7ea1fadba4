(** Proofs about the record protection part of TLS_record_model.v. *)
From Verif Require Import GoBase GoLemmas CBC TLS_record_model.
Open Scope Z_scope.
Ltac Zify.zify_post_hook ::= Z.div_mod_to_equations.

(** ** Sequence numbers *)
Lemma upd_app {A} (a : list A) x y b : upd (length a) y (a ++ x :: b) = a ++ y :: b.
Proof. induction a as [|h t IH]; cbn [length upd app]; [reflexivity|]. now rewrite IH. Qed.
Lemma nth_mid {A} (a : list A) x b d : nth (length a) (a ++ x :: b) d = x.
Proof. induction a; cbn [length nth app]; auto. Qed.
Lemma inc_from_spec a : forall b, bytes a ->
  inc_from (length a) (a ++ b) = if be_val a + 1 <? 256 ^ zlen a then Some (be_bytes (length a) (be_val a + 1) ++ b) else None.
Proof.
  induction a as [|x a' IH] using rev_ind; intros b Hb; [reflexivity|].
  apply bytes_app in Hb as [Ha Hx]. apply bytes_cons in Hx as [Hx _].
  rewrite app_length, Nat.add_comm. cbn [length Nat.add inc_from]. rewrite <- app_assoc. cbn [app].
  rewrite nth_mid, upd_app. pose proof (be_val_bound a' Ha) as Hv.
  assert (EV : be_val (a' ++ [x]) = be_val a' * 256 + x) by (unfold be_val; rewrite fold_left_app; reflexivity).
  assert (EL : zlen (a' ++ [x]) = zlen a' + 1) by (unfold zlen; rewrite app_length; cbn [length]; lia).
  assert (EP : 256 ^ (zlen a' + 1) = 256 ^ zlen a' * 256) by (rewrite Z.pow_add_r by (unfold zlen; lia); reflexivity).
  rewrite EV, EL, EP. cbn [be_bytes]. unfold u8, is_byte in *.
  destruct (Z.eqb_spec ((x + 1) mod 2 ^ 8) 0) as [E0|E0]; cbn [negb].
  - assert (x = 255) as -> by (change (2 ^ 8) with 256 in E0; lia). change ((255 + 1) mod 2 ^ 8) with 0. rewrite (IH (0 :: b) Ha).
    replace (be_val a' * 256 + 255 + 1) with ((be_val a' + 1) * 256) by lia.
    rewrite Z.div_mul, Z.mod_mul by lia. rewrite <- app_assoc. cbn [app].
    destruct (Z.ltb_spec (be_val a' + 1) (256 ^ zlen a')), (Z.ltb_spec ((be_val a' + 1) * 256) (256 ^ zlen a' * 256)); auto; exfalso; lia.
  - change (2 ^ 8) with 256 in *. assert (Hx2 : x + 1 < 256) by lia.
    replace (be_val a' * 256 + x + 1) with (be_val a' * 256 + (x + 1)) by lia.
    rewrite Z.div_add_l by lia. rewrite (Z.div_small (x + 1)) by lia. rewrite Z.add_0_r.
    rewrite (Z.add_comm (be_val a' * 256)), Z_mod_plus_full. rewrite <- app_assoc. cbn [app].
    rewrite be_bytes_be_val by exact Ha. replace (x + 1 + be_val a' * 256 <? 256 ^ zlen a' * 256) with true; [reflexivity|]. symmetry. apply Z.ltb_lt. lia.
Qed.
Lemma incSeq_spec h k : h_seq h = be_bytes 8 k -> 0 <= k < 2 ^ 64 ->
  incSeq h = if k <? 2 ^ 64 - 1 then Ok (set_seq h (be_bytes 8 (k + 1))) else Panic.
Proof.
  intros E Hk. unfold incSeq. rewrite E. pose proof (inc_from_spec (be_bytes 8 k) [] (be_bytes_bytes 8 k)) as I.
  rewrite app_nil_r, be_bytes_length in I. rewrite I. unfold zlen. rewrite be_bytes_length. rewrite be_val_be_bytes_small by (change (256 ^ Z.of_nat 8) with (2 ^ 64); lia).
  change (256 ^ Z.of_nat 8) with (2 ^ 64). rewrite app_nil_r. destruct (Z.ltb_spec (k + 1) (2 ^ 64)), (Z.ltb_spec k (2 ^ 64 - 1)); auto; exfalso; lia.
Qed.

(** ** Padding *)
Lemma msb_mask_val z : - 2 ^ 31 <= z < 2 ^ 31 -> msb_mask (u64 z) = if 0 <=? z then 255 else 0.
Proof.
  intros H. unfold msb_mask, not64, u64.
  assert (E : s32 (2 ^ 64 - 1 - z mod 2 ^ 64) = - 1 - z).
  { unfold s32. assert (E : (2 ^ 64 - 1 - z mod 2 ^ 64) mod 2 ^ 32 = (- 1 - z) mod 2 ^ 32).
    { replace (2 ^ 64 - 1 - z mod 2 ^ 64) with (- 1 - z + (1 + z / 2 ^ 64) * 2 ^ 32 * 2 ^ 32) by (rewrite (Z.mod_eq z (2 ^ 64)) by lia; lia). apply Z_mod_plus_full. }
    rewrite E. clear E. destruct (Z.leb_spec 0 z).
    - replace ((-1 - z) mod 2 ^ 32) with (2 ^ 32 - 1 - z) by (apply (Z.mod_unique _ _ (-1)); lia).
      destruct (Z.ltb_spec (2 ^ 32 - 1 - z) (2 ^ 31)); lia.
    - rewrite Z.mod_small by lia. destruct (Z.ltb_spec (-1 - z) (2 ^ 31)); lia. }
  rewrite E, Z.shiftr_div_pow2 by lia. destruct (Z.leb_spec 0 z).
  - replace ((-1 - z) / 2 ^ 31) with (-1) by (apply Z.div_unique with (2 ^ 31 - 1 - z); lia). reflexivity.
  - rewrite Z.div_small by lia. reflexivity.
Qed.
Lemma ldiff_255 x : 0 <= x < 256 -> Z.ldiff 255 x = 255 -> x = 0.
Proof.
  intros Hx E. assert (F : forall n, 0 <= n < 256 -> Z.ldiff 255 n = 255 - n).
  { intros n Hn. assert (A : forallb (fun i => Z.ldiff 255 (Z.of_nat i) =? 255 - Z.of_nat i) (List.seq 0 256) = true) by (vm_compute; reflexivity).
    rewrite forallb_forall in A. specialize (A (Z.to_nat n)). rewrite Z2Nat.id in A by lia. apply Z.eqb_eq, A. apply in_seq. lia. }
  rewrite F in E by exact Hx. lia.
Qed.
Lemma land_range a b : 0 <= a < 256 -> 0 <= b < 256 -> 0 <= Z.land a b < 256.
Proof.
  intros Ha Hb. split; [apply Z.land_nonneg; lia|]. change 256 with (2 ^ 8). apply Z.log2_lt_cancel. 
  destruct (Z.eq_dec (Z.land a b) 0) as [->|N]; [reflexivity|]. pose proof (Z.log2_land a b ltac:(lia) ltac:(lia)).
  assert (Z.log2 a < 8) by (destruct (Z.eq_dec a 0) as [->|]; [reflexivity|apply Z.log2_lt_pow2; lia]). change (Z.log2 (2 ^ 8)) with 8. lia.
Qed.
Lemma lxor_range a b : 0 <= a < 256 -> 0 <= b < 256 -> 0 <= Z.lxor a b < 256.
Proof.
  intros Ha Hb. split; [apply Z.lxor_nonneg; lia|]. change 256 with (2 ^ 8). apply Z.log2_lt_cancel.
  destruct (Z.eq_dec (Z.lxor a b) 0) as [->|N]; [reflexivity|]. pose proof (Z.log2_lxor a b ltac:(lia) ltac:(lia)).
  assert (Z.log2 a < 8) by (destruct (Z.eq_dec a 0) as [->|]; [reflexivity|apply Z.log2_lt_pow2; lia]).
  assert (Z.log2 b < 8) by (destruct (Z.eq_dec b 0) as [->|]; [reflexivity|apply Z.log2_lt_pow2; lia]). change (Z.log2 (2 ^ 8)) with 8. lia.
Qed.
Lemma ldiff_le g x : 0 <= g < 256 -> 0 <= Z.ldiff g x < 256.
Proof.
  intros Hg. split; [apply Z.ldiff_nonneg; lia|]. assert (Z.ldiff g x <= g); [|lia]. apply Z.ldiff_le; [lia|].
  rewrite Z.ldiff_ldiff_l. apply Z.bits_inj_0. intros n. rewrite Z.ldiff_spec, Z.lor_spec. destruct (Z.testbit g n), (Z.testbit x n); reflexivity.
Qed.
Lemma ldiff_eq255 g x : 0 <= g < 256 -> 0 <= x < 256 -> (Z.ldiff g x = 255 <-> g = 255 /\ x = 0).
Proof.
  intros Hg Hx. split.
  - intros E. assert (Z.ldiff g x <= g). { apply Z.ldiff_le; [lia|]. rewrite Z.ldiff_ldiff_l. apply Z.bits_inj_0. intros n. rewrite Z.ldiff_spec, Z.lor_spec. destruct (Z.testbit g n), (Z.testbit x n); reflexivity. }
    assert (g = 255) as -> by lia. split; [reflexivity|]. now apply ldiff_255.
  - intros [-> ->]. reflexivity.
Qed.
Lemma pad_final_spec g : 0 <= g < 256 -> pad_final g = if g =? 255 then 255 else 0.
Proof.
  intros Hg. assert (A : forallb (fun i => pad_final (Z.of_nat i) =? if Z.of_nat i =? 255 then 255 else 0) (List.seq 0 256) = true) by (vm_compute; reflexivity).
  rewrite forallb_forall in A. specialize (A (Z.to_nat g)). rewrite Z2Nat.id in A by lia. apply Z.eqb_eq, A. apply in_seq. lia.
Qed.
(** the padding specification: the last byte is p, there are at least p+1 bytes, and the last p+1 bytes are all p *)
Definition valid_padding (payload : list Z) (p : Z) : Prop :=
  p = last payload 0 /\ p < zlen payload /\ forall i, Z.of_nat i <= p -> nth (length payload - 1 - i) payload 0 = p.
Lemma nth_byte l i : bytes l -> 0 <= nth i l 0 < 256.
Proof.
  intros H. destruct (Nat.lt_ge_cases i (length l)) as [Hi|Hi]; [|rewrite nth_overflow by lia; lia].
  unfold bytes in H. rewrite Forall_forall in H. apply (H (nth i l 0)). now apply nth_In.
Qed.
Lemma last_byte l : bytes l -> 0 <= last l 0 < 256.
Proof.
  intros H. destruct l as [|x l'] using rev_ind; [cbn; lia|]. rewrite last_last. apply bytes_app in H as [_ H]. apply bytes_cons in H as [H _]. exact H.
Qed.
Lemma extractPadding_spec payload : bytes payload -> payload <> [] -> zlen payload <= 2 ^ 31 ->
  fst (extractPadding payload) = last payload 0 + 1 /\
  (snd (extractPadding payload) = 255 \/ snd (extractPadding payload) = 0) /\
  (snd (extractPadding payload) = 255 <-> valid_padding payload (last payload 0)).
Proof.
  intros Hb Hne Hl. pose proof (last_byte payload Hb) as Hp. unfold extractPadding. destruct payload as [|b0 pl] eqn:EP; [congruence|]. rewrite <- EP in *. clear EP b0 pl.
  set (p := last payload 0) in *. set (n := length payload) in *.
  assert (Hn : 1 <= zlen payload) by (unfold zlen; destruct payload; [congruence|cbn [length]; lia]).
  rewrite msb_mask_val by lia. set (toCheck := if 256 >? zlen payload then n else 256%nat).
  assert (Hstep : forall is g, (forall i, In i is -> (i < 256)%nat) -> 0 <= g < 256 ->
     0 <= fold_left (pad_step payload p) is g < 256 /\
     (fold_left (pad_step payload p) is g = 255 <-> g = 255 /\ forall i, In i is -> Z.of_nat i <= p -> nth (n - 1 - i) payload 0 = p)).
  { induction is as [|i is IH]; intros g Hi Hg; cbn [fold_left]; [split; [exact Hg|]; split; [intros ->; split; [reflexivity|intros ? []]|tauto]|].
    set (x := Z.lxor (Z.land (msb_mask (u64 (p - Z.of_nat i))) p) (Z.land (msb_mask (u64 (p - Z.of_nat i))) (nth (n - 1 - i) payload 0))).
    assert (Hi0 : (i < 256)%nat) by (apply Hi; now left).
    assert (Eg : pad_step payload p g i = Z.ldiff g x) by reflexivity. rewrite Eg.
    pose proof (nth_byte payload (n - 1 - i) Hb) as Hbn.
    assert (Hx : 0 <= x < 256 /\ (x = 0 <-> (Z.of_nat i <= p -> nth (n - 1 - i) payload 0 = p))).
    { unfold x. rewrite msb_mask_val by lia. destruct (Z.leb_spec 0 (p - Z.of_nat i)) as [Hle|Hgt].
      - assert (L : forall v, 0 <= v < 256 -> Z.land 255 v = v).
        { intros v Hv. rewrite Z.land_comm. change 255 with (Z.ones 8). rewrite Z.land_ones by lia. apply Z.mod_small. exact Hv. }
        rewrite !L by assumption. split; [now apply lxor_range|]. rewrite Z.lxor_eq_0_iff. split; [intros; congruence|intros H; symmetry; apply H; lia].
      - rewrite !Z.land_0_l. cbn. split; [lia|]. split; [intros _ ?; lia|reflexivity]. }
    destruct Hx as [Hx Hx0]. destruct (IH (Z.ldiff g x) (fun j Hj => Hi j (or_intror Hj)) (ldiff_le g x Hg)) as [I1 I2]. split; [exact I1|].
    rewrite I2, (ldiff_eq255 g x Hg Hx), Hx0. split.
    - intros [[-> H1] H2]. split; [reflexivity|]. intros j [<-|Hj]; [exact H1|now apply H2].
    - intros [-> H]. split; [split; [reflexivity|apply H; now left]|]. intros j Hj. apply H. now right. }
  assert (HtC : forall i, In i (List.seq 0 toCheck) -> (i < 256)%nat).
  { intros i Hi. apply in_seq in Hi. unfold toCheck, n, zlen in *. destruct (256 >? Z.of_nat (length payload)) eqn:E; lia. }
  assert (Hg0 : 0 <= (if 0 <=? zlen payload - 1 - p then 255 else 0) < 256) by (destruct (0 <=? _); lia).
  destruct (Hstep (List.seq 0 toCheck) _ HtC Hg0) as [R1 R2]. cbn [fst snd]. split; [reflexivity|].
  rewrite pad_final_spec by exact R1. set (G := fold_left _ _ _) in *. clearbody G. split; [destruct (G =? 255); auto|].
  transitivity (G = 255); [destruct (Z.eqb_spec G 255); split; intros; congruence || lia|]. rewrite R2. unfold valid_padding. fold n. split.
  - intros [Ha Hb2]. destruct (Z.leb_spec 0 (zlen payload - 1 - p)); [|discriminate]. split; [reflexivity|]. split; [lia|].
    intros i Hi. apply Hb2; [|exact Hi]. apply in_seq. unfold toCheck, n, zlen in *. destruct (256 >? Z.of_nat (length payload)) eqn:E; lia.
  - intros (_ & Hlt & Hall). split; [destruct (Z.leb_spec 0 (zlen payload - 1 - p)); [reflexivity|lia]|]. intros i _ Hi. now apply Hall.
Qed.
Lemma nth_skipn {A} (l : list A) n i d : nth i (skipn n l) d = nth (n + i) l d.
Proof. revert n. induction l as [|x l IH]; intros [|n]; cbn [skipn Nat.add nth]; try reflexivity; [now destruct i|apply IH]. Qed.
(** [valid_padding] in terms of concatenation *)
Lemma valid_padding_app payload : bytes payload -> payload <> [] ->
  (valid_padding payload (last payload 0) <-> exists c p, 0 <= p < 256 /\ payload = c ++ repeat p (Z.to_nat (p + 1))).
Proof.
  intros Hb Hne. split.
  - intros (_ & Hlt & Hall). set (p := last payload 0) in *. pose proof (last_byte payload Hb) as Hp. fold p in Hp.
    exists (firstn (length payload - Z.to_nat (p + 1)) payload), p. split; [exact Hp|].
    rewrite <- (firstn_skipn (length payload - Z.to_nat (p + 1)) payload) at 1. f_equal.
    apply nth_ext with (d := 0) (d' := 0).
    + rewrite skipn_length, repeat_length. unfold zlen in Hlt. lia.
    + intros j Hj. rewrite skipn_length in Hj. unfold zlen in Hlt.
      assert (Hj2 : (j < Z.to_nat (p + 1))%nat) by lia. rewrite nth_skipn.
      replace (nth j (repeat p (Z.to_nat (p + 1))) 0) with p.
      2:{ symmetry. clear - Hj2. revert j Hj2. induction (Z.to_nat (p + 1)) as [|m IH]; intros j Hj; [lia|]. destruct j; cbn [repeat nth]; [reflexivity|apply IH; lia]. }
      specialize (Hall (Z.to_nat p - j)%nat). replace (length payload - 1 - (Z.to_nat p - j))%nat with (length payload - Z.to_nat (p + 1) + j)%nat in Hall by lia.
      apply Hall. lia.
  - intros (c & p & Hp & E). assert (EL : last payload 0 = p).
    { rewrite E. replace (Z.to_nat (p + 1)) with (S (Z.to_nat p)) by lia. cbn [repeat]. rewrite repeat_cons, app_assoc. apply last_last. }
    rewrite EL. split; [now symmetry|]. assert (Hlen : length payload = (length c + Z.to_nat (p + 1))%nat) by (rewrite E, app_length, repeat_length; reflexivity).
    split; [unfold zlen; lia|]. intros i Hi. rewrite E at 2. rewrite app_nth2 by lia.
    assert (Hr : forall m j, (j < m)%nat -> nth j (repeat p m) 0 = p). { induction m as [|m IH]; intros j Hj; [lia|]. destruct j; cbn [repeat nth]; [reflexivity|apply IH; lia]. }
    apply Hr. lia.
Qed.

(** ** CBC in pieces *)
Lemma chunks_split bs (a b : list Z) : (0 < bs)%nat -> (length a mod bs = 0)%nat -> chunks bs (a ++ b) = chunks bs a ++ chunks bs b.
Proof.
  intros Hp Hm. pose proof (mod0_decomp bs (length a) Hp Hm) as E. remember (length a / bs)%nat as k eqn:Ek. clear Ek. revert a Hm E. induction k as [|k IH]; intros a Hm E.
  - destruct a; [|cbn in E; lia]. now rewrite chunks_nil.
  - assert (Hne : a <> []) by (intros ->; cbn in E; destruct bs; lia).
    assert (Hne2 : a ++ b <> []) by (destruct a; [congruence|discriminate]).
    rewrite (chunks_step bs (a ++ b) Hp Hne2), (chunks_step bs a Hp Hne). cbn [app].
    rewrite firstn_app, skipn_app. replace (bs - length a)%nat with 0%nat by lia. cbn [firstn skipn]. rewrite app_nil_r. f_equal. apply IH.
    + rewrite skipn_length. replace (length a - bs)%nat with (bs * k)%nat by lia. rewrite Nat.mul_comm. apply Nat.mod_mul. lia.
    + rewrite skipn_length. lia.
Qed.
Lemma cbc_e_app F ps qs : forall iv, cbc_e F iv (ps ++ qs) = cbc_e F iv ps ++ cbc_e F (fold_left (fun v p => F (xorl p v)) ps iv) qs.
Proof. induction ps as [|p ps IH]; intros iv; cbn [cbc_e app fold_left]; [reflexivity|]. now rewrite IH, app_assoc. Qed.
Lemma last_block_app bs iv a b : length b = bs -> (0 < bs)%nat -> last_block bs iv (a ++ b) = b.
Proof.
  intros Hb Hp. unfold last_block. destruct (a ++ b) as [|x l] eqn:E; [apply (f_equal (@length Z)) in E; rewrite app_length in E; cbn in E; lia|].
  rewrite <- E. rewrite app_length, Hb. replace (length a + bs - bs)%nat with (length a) by lia. now apply skipn_app_l.
Qed.
Lemma cbc_last bs F : (0 < bs)%nat -> (forall x, length x = bs -> bytes x -> length (F x) = bs /\ bytes (F x)) ->
  forall k iv data, length iv = bs -> bytes iv -> bytes data -> length data = (bs * k)%nat ->
    fold_left (fun v p => F (xorl p v)) (chunks bs data) iv = last_block bs iv (cbc_e F iv (chunks bs data)) /\
    length (cbc_e F iv (chunks bs data)) = (bs * k)%nat /\ bytes (cbc_e F iv (chunks bs data)) /\
    length (fold_left (fun v p => F (xorl p v)) (chunks bs data) iv) = bs /\ bytes (fold_left (fun v p => F (xorl p v)) (chunks bs data) iv).
Proof.
  intros Hp HF. induction k as [|k IH]; intros iv data Hiv Bi Bd Hl.
  - rewrite Nat.mul_0_r in *. destruct data; [|discriminate]. rewrite chunks_nil. cbn [fold_left cbc_e last_block length]. repeat split; auto; constructor.
  - assert (Hne : data <> []) by (intros ->; cbn in Hl; destruct bs; lia). rewrite (chunks_step bs data Hp Hne). cbn [fold_left cbc_e].
    set (b := firstn bs data). assert (Lb : length b = bs) by (unfold b; rewrite firstn_length; lia). assert (Bb : bytes b) by now apply bytes_firstn.
    destruct (HF (xorl b iv)) as [Lc Bc]; [rewrite xorl_length; lia|now apply xorl_bytes|]. set (c := F (xorl b iv)) in *.
    destruct (IH c (skipn bs data) Lc Bc (bytes_skipn _ _ Bd)) as (I1 & I2 & I3 & I4 & I5); [rewrite skipn_length; lia|].
    split.
    + rewrite I1. unfold last_block at 2. destruct (c ++ cbc_e F c (chunks bs (skipn bs data))) as [|x l] eqn:E.
      { apply (f_equal (@length Z)) in E. rewrite app_length in E. cbn in E. lia. }
      rewrite <- E. clear E x l. unfold last_block. destruct (cbc_e F c (chunks bs (skipn bs data))) as [|y l] eqn:E2.
      * rewrite app_nil_r, Lc, Nat.sub_diag. reflexivity.
      * rewrite <- E2 in *. assert (k <> 0)%nat by (intros ->; rewrite E2 in I2; cbn in I2; lia). assert (bs <= bs * k)%nat by nia. rewrite app_length, skipn_app, I2, Lc. rewrite (skipn_all2 c) by lia. cbn [app]. f_equal. lia.
    + split; [rewrite app_length; lia|]. split; [now apply bytes_app|]. auto.
Qed.
(** two CryptBlocks calls are one *)
Lemma CryptBlocks_app bs F iv a b : (0 < bs)%nat -> (forall x, length x = bs -> bytes x -> length (F x) = bs /\ bytes (F x)) ->
  length iv = bs -> bytes iv -> bytes a -> bytes b -> (length a mod bs = 0)%nat -> length b = bs ->
  exists o1 iv1 o2 iv2, CryptBlocks true bs F iv a = Ok (o1, iv1) /\ CryptBlocks true bs F iv1 b = Ok (o2, iv2) /\
    o1 ++ o2 = cbc_e F iv (chunks bs (a ++ b)) /\ iv2 = last_block bs iv (o1 ++ o2) /\ length (o1 ++ o2) = length (a ++ b) /\ bytes (o1 ++ o2) /\ length iv2 = bs /\ bytes iv2.
Proof.
  intros Hp HF Hiv Bi Ba Bb Hm Hb. pose proof (mod0_decomp bs (length a) Hp Hm) as E.
  destruct (cbc_last bs F Hp HF _ iv a Hiv Bi Ba E) as (A1 & A2 & A3 & A4 & A5).
  rewrite A1 in A4, A5. destruct (cbc_last bs F Hp HF 1 _ b A4 A5 Bb) as (B1 & B2 & B3 & B4 & B5); [lia|].
  set (o1 := cbc_e F iv (chunks bs a)) in *. set (iv1 := last_block bs iv o1) in *. set (o2 := cbc_e F iv1 (chunks bs b)) in *.
  exists o1, iv1, o2, (last_block bs iv1 o2). unfold CryptBlocks. rewrite Hm, Hb, Nat.mod_same by lia. cbn [Nat.eqb negb].
  split; [reflexivity|]. split; [reflexivity|]. split; [rewrite chunks_split by assumption; rewrite cbc_e_app, A1; reflexivity|].
  assert (L2 : length o2 = bs) by lia. assert (E2 : last_block bs iv1 o2 = o2). { change o2 with ([] ++ o2) at 1. now apply last_block_app. }
  rewrite E2. split; [symmetry; now apply last_block_app|]. split; [rewrite !app_length; lia|]. split; [now apply bytes_app|]. split; [exact L2|exact B3].
Qed.

(** ** Record round trip *)
Lemma roundUp_le a b x : (0 < b)%nat -> (a <= x)%nat -> (x mod b = 0)%nat -> (roundUp a b <= x)%nat.
Proof.
  intros Hb Ha Hx. unfold roundUp. pose proof (Nat.div_mod a b ltac:(lia)) as Ea. pose proof (Nat.mod_upper_bound a b ltac:(lia)) as Hm.
  pose proof (mod0_decomp b x Hb Hx) as Ex. set (q := (a / b)%nat) in *. set (r := (a mod b)%nat) in *. set (k := (x / b)%nat) in *. clearbody q r k.
  destruct (Nat.eq_dec r 0) as [->|Hr].
  - rewrite Nat.sub_0_r, Nat.mod_same by lia. lia.
  - rewrite (Nat.mod_small (b - r)) by lia. assert (q < k)%nat by nia. nia.
Qed.
(** the padded payload *)
Lemma pad_shape payload bs : (0 < bs)%nat ->
  fst (padToBlockSize payload bs) ++ snd (padToBlockSize payload bs) = payload ++ repeat (u8 (Z.of_nat (bs - length payload mod bs) - 1)) (bs - length payload mod bs) /\
  (length (fst (padToBlockSize payload bs)) mod bs = 0)%nat /\ length (snd (padToBlockSize payload bs)) = bs.
Proof.
  intros Hb. unfold padToBlockSize. cbn [fst snd]. pose proof (Nat.mod_upper_bound (length payload) bs ltac:(lia)) as Hm.
  pose proof (Nat.div_mod (length payload) bs ltac:(lia)) as Ed. set (q := (length payload / bs)%nat) in *. set (o := (length payload mod bs)%nat) in *.
  split; [rewrite app_assoc, firstn_skipn; reflexivity|]. split.
  - rewrite firstn_length, Nat.min_l by lia. replace (length payload - o)%nat with (q * bs)%nat by lia. apply Nat.mod_mul. lia.
  - rewrite app_length, skipn_length, repeat_length. lia.
Qed.
Lemma repeat_app_last (p : Z) n : last (repeat p (S n)) 0 = p.
Proof. cbn [repeat]. rewrite repeat_cons. apply last_last. Qed.
Lemma bytes_repeat v n : is_byte v -> bytes (repeat v n).
Proof. intros H. unfold bytes. apply Forall_forall. intros x Hx. apply repeat_spec in Hx. now subst. Qed.
Lemma last_app_ne {A} (a b : list A) d : b <> [] -> last (a ++ b) d = last b d.
Proof. intros H. destruct b as [|x b'] using rev_ind; [congruence|]. rewrite app_assoc, !last_last. reflexivity. Qed.

Definition cipher_sync (cs cr : option cph) : Prop :=
  match cs, cr with
  | None, None => True
  | Some (Stream ks p), Some (Stream ks' p') => ks' = ks /\ p' = p /\ forall i, is_byte (ks i)
  | Some (Aead a), Some (Aead a') =>
      a' = a /\ forall nonce p ad, bytes p -> length (a_seal a nonce p ad) = (length p + a_over a)%nat /\ bytes (a_seal a nonce p ad) /\ a_open a nonce (a_seal a nonce p ad) ad = Some p
  | Some (Cbc true bs E iv), Some (Cbc false bs' D iv') => bs' = bs /\ iv' = iv /\ length iv = bs /\ bytes iv /\ (bs <= 256)%nat /\ block_ok bs E D
  | _, _ => False
  end.
Definition mac_ok (m : option macT) : Prop :=
  match m with Some m => forall s hd d, length (m_fun m s hd d) = m_size m /\ bytes (m_fun m s hd d) | None => True end.
Definition is_cbc (c : option cph) : Prop := match c with Some (Cbc _ _ _ _) => True | _ => False end.
(** sender and receiver agree, and have processed k records *)
Definition in_sync (k : Z) (s r : half) : Prop :=
  h_version s = h_version r /\ h_seq s = be_bytes 8 k /\ h_seq r = be_bytes 8 k /\ 0 <= k < 2 ^ 64 /\ h_mac s = h_mac r /\
  mac_ok (h_mac s) /\ cipher_sync (h_cipher s) (h_cipher r) /\ (is_cbc (h_cipher s) -> h_mac s <> None).
Definition len16 (n : nat) : list Z := [u8 (Z.shiftr (Z.of_nat n) 8); u8 (Z.of_nat n)].
Lemma len16_length n : length (len16 n) = 2%nat. Proof. reflexivity. Qed.
Definition mac_size (h : half) : nat := match h_mac h with Some m => m_size m | None => 0%nat end.
(** an upper bound on how much longer than its payload a record body is *)
Definition overhead (h : half) : nat :=
  (fst (explicit_iv_len h) + mac_size h + match h_cipher h with Some (Aead a) => a_over a | Some (Cbc _ bs _ _) => bs | _ => 0 end)%nat.

Lemma keystream_length ks p n : length (keystream ks p n) = n.
Proof. unfold keystream. now rewrite map_length, seq_length. Qed.
Lemma keystream_bytes ks p n : (forall i, is_byte (ks i)) -> bytes (keystream ks p n).
Proof. intros H. unfold keystream, bytes. apply Forall_forall. intros x Hx. apply in_map_iff in Hx as (i & <- & _). apply H. Qed.

(** what [decipher] recovers from what [encipher] produced *)
Lemma decipher_encipher s r k hd iv m : in_sync k s r -> length hd = 5%nat -> length iv = fst (explicit_iv_len s) -> bytes m -> bytes iv ->
  (mac_size s <= length m)%nat -> zlen m < 2 ^ 30 ->
  exists body cs' cr' out pl,
    encipher s (hd ++ iv ++ m) (length iv) = Ok (hd ++ body, cs') /\ bytes body /\
    (length body <= length iv + length m + match h_cipher s with Some (Aead a) => a_over a | Some (Cbc _ bs _ _) => bs | _ => 0 end)%nat /\
    cipher_sync cs' cr' /\ (is_cbc cs' -> is_cbc (h_cipher s)) /\
    fst (explicit_iv_len (set_cipher s cs')) = fst (explicit_iv_len s) /\
    (forall hd', length hd' = 5%nat -> firstn 3 hd' = firstn 3 hd -> decipher r hd' body (mac_size s) = Ok (Some (iv, out, pl, 255, cr'))) /\
    firstn (length m) out = m /\ zlen out = zlen m + pl /\ 0 <= pl /\ (~ is_cbc (h_cipher s) -> out = m).
Proof.
  intros (HV & Hs & Hr & Hk & HM & HMok & HC & Hcbc) Hh Hiv Bm Bi HmS Hml.
  unfold encipher, explicit_iv_len, decipher, cipher_sync in *.
  assert (F5 : firstn 5 (hd ++ iv ++ m) = hd) by (rewrite <- Hh; apply firstn_app_l; reflexivity).
  assert (S5 : skipn 5 (hd ++ iv ++ m) = iv ++ m) by (rewrite <- Hh; apply skipn_app_l; reflexivity).
  assert (FI : firstn (length iv) (iv ++ m) = iv) by (apply firstn_app_l; reflexivity).
  assert (SI : skipn (length iv) (iv ++ m) = m) by (apply skipn_app_l; reflexivity).
  destruct (h_cipher s) as [[ks p|a|[|] bs E iv0]|] eqn:Es; destruct (h_cipher r) as [[ks' p'|a'|[|] bs' D iv0']|] eqn:Er; try contradiction.
  - (* stream *) destruct HC as (-> & -> & Hks). cbn [fst] in *. destruct iv; [|discriminate]. cbn [app length] in *. rewrite S5, F5.
    exists (xorl m (keystream ks p (length m))), (Some (Stream ks (p + length m))), (Some (Stream ks (p + length m))), m, 0.
    split; [reflexivity|]. split; [apply xorl_bytes; [exact Bm|now apply keystream_bytes]|]. split; [rewrite xorl_length, keystream_length; lia|].
    split; [auto|]. split; [auto|]. split; [reflexivity|]. split; [intros hd' _ _; rewrite xorl_length, keystream_length, Nat.min_id, xorl_involutive by (rewrite keystream_length; lia); reflexivity|].
    split; [apply firstn_all|]. split; [lia|]. split; [lia|auto].
  - (* aead *) destruct HC as (-> & HA). cbn [fst] in *. rewrite F5, S5, FI, SI.
    set (nonce := match iv with [] => h_seq s | _ => iv end).
    set (n := zlen (hd ++ iv ++ m) - 5 - Z.of_nat (length iv)).
    assert (En : n = zlen m) by (unfold n, zlen; rewrite !app_length, Hh; lia).
    destruct (HA nonce m (additional (h_seq s) hd n) Bm) as (A1 & A2 & A3).
    exists (iv ++ a_seal a nonce m (additional (h_seq s) hd n)), (Some (Aead a)), (Some (Aead a)), m, 0.
    split; [reflexivity|]. split; [now apply bytes_app|]. split; [rewrite app_length, A1; lia|].
    split; [auto|]. split; [auto|]. split; [reflexivity|]. split.
    { intros hd' Hh' Hhd. rewrite <- Hiv. replace (length (iv ++ _) <? length iv)%nat with false by (symmetry; apply Nat.ltb_ge; rewrite app_length; lia).
      rewrite firstn_app_l, skipn_app_l by reflexivity. unfold zlen at 1. rewrite A1. replace (Z.of_nat (length m + a_over a) - Z.of_nat (a_over a)) with n by (rewrite En; unfold zlen; lia).
      rewrite Hr, <- Hs. fold nonce. unfold additional in *. rewrite Hhd, A3. reflexivity. }
    split; [apply firstn_all|]. split; [lia|]. split; [lia|auto].
  - (* cbc *) destruct HC as (-> & -> & Li0 & Bi0 & Hbs & OK). cbn [fst] in *. rewrite F5, S5, FI, SI. pose proof (bo_pos bs E D OK) as Hp.
    set (iv1 := if (0 <? length iv)%nat then iv else iv0).
    assert (Liv : length iv1 = bs /\ bytes iv1).
    { unfold iv1. rewrite Hiv. destruct (explicit_version (h_version s)); [|split; [exact Li0|exact Bi0]].
      replace (0 <? bs)%nat with true by (symmetry; apply Nat.ltb_lt; exact Hp). auto. }
    destruct Liv as [Liv Biv]. destruct (pad_shape m bs Hp) as (P1 & P2 & P3).
    set (np := (bs - length m mod bs)%nat) in *. set (pv := u8 (Z.of_nat np - 1)) in *.
    pose proof (Nat.mod_upper_bound (length m) bs ltac:(lia)) as Hmb.
    assert (Hnp : (1 <= np <= bs)%nat) by (unfold np; lia). assert (Epv : pv = Z.of_nat np - 1) by (unfold pv, u8; apply Z.mod_small; lia).
    destruct (padToBlockSize m bs) as [prefix final] eqn:EP. cbn [fst snd] in *.
    assert (Bpf : bytes (prefix ++ final)) by (rewrite P1; apply bytes_app; split; [exact Bm|apply bytes_repeat; unfold is_byte; lia]).
    apply bytes_app in Bpf as [Bpr Bfi].
    destruct (CryptBlocks_app bs E iv1 prefix final Hp) as (o1 & ivA & o2 & ivB & C1 & C2 & C3 & C4 & C5 & C6 & C7 & C8); auto.
    { intros x Hx Bx. apply (bo_len bs E D OK); assumption. }
    rewrite C1. cbn [rbind]. rewrite C2. cbn [rbind].
    set (padded := prefix ++ final) in *. set (body := o1 ++ o2) in *.
    assert (Lpad : length padded = (length m + np)%nat) by (rewrite P1, app_length, repeat_length; reflexivity).
    assert (Mpad : (length padded mod bs = 0)%nat).
    { unfold padded. rewrite app_length, P3. pose proof (mod0_decomp bs (length prefix) Hp P2) as Eq. rewrite Eq.
      replace (bs * (length prefix / bs) + bs)%nat with ((length prefix / bs + 1) * bs)%nat by lia. apply Nat.mod_mul. lia. }
    assert (Bpd : bytes padded) by (now apply bytes_app).
    destruct (cbc_round bs E D (length padded / bs) OK iv1 padded Biv Liv Bpd (mod0_decomp bs _ Hp Mpad)) as (_ & _ & RT). rewrite <- C3 in RT.
    exists (iv ++ body), (Some (Cbc true bs E ivB)), (Some (Cbc false bs D ivB)), padded, (Z.of_nat np).
    split; [reflexivity|]. split; [now apply bytes_app|]. split; [rewrite app_length, C5, Lpad; lia|].
    split; [split; [reflexivity|]; split; [reflexivity|]; split; [exact C7|]; split; [exact C8|]; split; [exact Hbs|exact OK]|].
    split; [auto|]. split; [reflexivity|]. split.
    { intros hd' Hh' Hhd. rewrite <- HV.
      assert (Mb : (length body mod bs = 0)%nat) by (rewrite C5; exact Mpad).
      replace (negb (length (iv ++ body) mod bs =? 0)%nat) with false.
      2:{ symmetry. apply Bool.negb_false_iff, Nat.eqb_eq. rewrite app_length, Hiv. destruct (explicit_version (h_version s)); [|exact Mb].
          rewrite <- Nat.add_mod_idemp_l, Nat.mod_same by lia. exact Mb. }
      rewrite <- Hiv. replace (length (iv ++ body) <? _)%nat with false.
      2:{ symmetry. apply Nat.ltb_ge. apply roundUp_le; [exact Hp|rewrite app_length, C5, Lpad; lia|].
          rewrite app_length, Hiv. destruct (explicit_version (h_version s)); [|exact Mb].
          rewrite <- Nat.add_mod_idemp_l, Nat.mod_same by lia. exact Mb. }
      cbn [orb]. rewrite firstn_app_l, skipn_app_l by reflexivity. fold iv1. unfold CryptBlocks. rewrite Mb. cbn [Nat.eqb negb rbind].
      rewrite RT, <- C4.
      assert (Hlast : last padded 0 = pv).
      { rewrite P1, last_app_ne by (destruct np; [lia|discriminate]). replace np with (S (np - 1)) by lia. apply repeat_app_last. }
      assert (Hne : padded <> []) by (intros E0; rewrite E0 in Lpad; cbn in Lpad; lia).
      destruct (Z.eqb_spec (h_version s) VersionSSL30).
      - unfold extractPaddingSSL30. destruct padded as [|x pd] eqn:Epd; [congruence|]. rewrite <- Epd in *. rewrite Hlast, Epv.
        replace (zlen padded <? Z.of_nat np - 1 + 1) with false by (symmetry; apply Z.ltb_ge; unfold zlen; rewrite Lpad; lia).
        replace (Z.of_nat np - 1 + 1) with (Z.of_nat np) by lia. reflexivity.
      - assert (Hz : zlen padded <= 2 ^ 31) by (unfold zlen in *; rewrite Lpad; lia).
        destruct (extractPadding_spec padded Bpd Hne Hz) as (X1 & _ & X3).
        destruct (extractPadding padded) as [pl g] eqn:EX. cbn [fst snd] in *. rewrite X1, Hlast, Epv.
        replace g with 255; [replace (Z.of_nat np - 1 + 1) with (Z.of_nat np) by lia; reflexivity|].
        symmetry. apply X3. apply (valid_padding_app padded Bpd Hne). exists m, pv. split; [rewrite Epv; lia|]. rewrite P1. do 2 f_equal. lia. }
    split; [rewrite P1; apply firstn_app_l; reflexivity|]. split; [unfold zlen; lia|]. split; [lia|]. cbn. tauto.
  - (* none *) cbn [fst] in *. destruct iv; [|discriminate]. cbn [app length] in *.
    exists m, None, None, m, 0. split; [reflexivity|]. split; [exact Bm|]. split; [lia|]. split; [exact I|]. split; [auto|]. split; [reflexivity|].
    split; [reflexivity|]. split; [apply firstn_all|]. split; [lia|]. split; [lia|auto].
Qed.

Lemma shiftr31_small n : 0 <= n < 2 ^ 31 -> Z.shiftr (u32 n) 31 = 0.
Proof. intros H. unfold u32. rewrite Z.mod_small by lia. rewrite Z.shiftr_div_pow2 by lia. apply Z.div_small. lia. Qed.
Lemma shiftr31_neg n : - 2 ^ 31 <= n < 0 -> Z.shiftr (u32 n) 31 = 1.
Proof.
  intros H. unfold u32. replace (n mod 2 ^ 32) with (n + 2 ^ 32) by (apply (Z.mod_unique _ _ (-1)); lia).
  rewrite Z.shiftr_div_pow2 by lia. symmetry. apply Z.div_unique with (n + 2 ^ 31); lia.
Qed.
Lemma set_cipher_mac h c : h_mac (set_cipher h c) = h_mac h. Proof. reflexivity. Qed.

Lemma record_round_trip k s r hd3 iv m : in_sync k s r -> k < 2 ^ 64 - 1 -> length hd3 = 3%nat -> length iv = fst (explicit_iv_len s) ->
  bytes iv -> bytes m -> zlen m + Z.of_nat (mac_size s) < 2 ^ 30 ->
  exists body s' r', encrypt s (hd3 ++ len16 (length m) ++ iv ++ m) (length iv) = Ok (hd3 ++ len16 (length body) ++ body, s') /\ bytes body /\
    (length body <= length m + overhead s)%nat /\
    decrypt r (hd3 ++ len16 (length body) ++ body) = Ok (DecOk (5 + length iv) (hd3 ++ len16 (match h_mac s with Some _ => length m | None => length body end) ++ iv ++ m) r') /\
    in_sync (k + 1) s' r' /\ h_version s' = h_version s /\ h_version r' = h_version r /\ h_mac s' = h_mac s /\ overhead s' = overhead s /\
    fst (explicit_iv_len s') = fst (explicit_iv_len s) /\ (is_cbc (h_cipher s') -> is_cbc (h_cipher s)).
Proof.
  intros HS Hk Hh Hiv Biv Bm Hl. pose proof HS as (HV & Hs & Hr & Hkr & HM & HMok & HC & Hcbc).
  set (hd := hd3 ++ len16 (length m)). assert (Lhd : length hd = 5%nat) by (unfold hd; rewrite app_length, Hh; reflexivity).
  assert (Ehd : hd3 ++ len16 (length m) ++ iv ++ m = hd ++ iv ++ m) by (unfold hd; rewrite <- app_assoc; reflexivity). rewrite Ehd.
  set (mac := match h_mac s with Some mm => m_fun mm (h_seq s) hd m | None => [] end).
  assert (Lmac : length mac = mac_size s /\ bytes mac).
  { unfold mac, mac_size. unfold mac_ok in HMok. destruct (h_mac s) as [mm|]; [apply HMok|]. split; [reflexivity|constructor]. }
  destruct Lmac as [Lmac Bmac].
  assert (F5 : forall X, firstn 5 (hd ++ X) = hd) by (intros X; rewrite <- Lhd; apply firstn_app_l; reflexivity).
  assert (S5 : forall X, skipn 5 (hd ++ X) = X) by (intros X; rewrite <- Lhd; apply skipn_app_l; reflexivity).
  assert (F3 : forall X, firstn 3 (hd3 ++ X) = hd3) by (intros X; rewrite <- Hh; apply firstn_app_l; reflexivity).
  unfold encrypt. replace (length (hd ++ iv ++ m) <? 5 + length iv)%nat with false by (symmetry; apply Nat.ltb_ge; rewrite !app_length; lia).
  assert (ED : match h_mac s with Some mm => (hd ++ iv ++ m) ++ m_fun mm (h_seq s) (firstn 5 (hd ++ iv ++ m)) (skipn (5 + length iv) (hd ++ iv ++ m)) | None => hd ++ iv ++ m end = hd ++ iv ++ (m ++ mac)).
  { unfold mac. destruct (h_mac s) as [mm|]; [|now rewrite app_nil_r].
    rewrite F5. rewrite app_assoc. replace (skipn (5 + length iv) ((hd ++ iv) ++ m)) with m; [now rewrite <- !app_assoc|].
    symmetry. replace (5 + length iv)%nat with (length (hd ++ iv)) by (rewrite app_length; lia). apply skipn_app_l; reflexivity. }
  rewrite ED. clear ED.
  destruct (decipher_encipher s r k hd iv (m ++ mac) HS Lhd Hiv) as (body & cs' & cr' & out & pl & D1 & D2 & D3 & D4 & D5 & D6 & D7 & D8 & D9 & D10 & D11).
  { now apply bytes_app. } { exact Biv. } { rewrite app_length; lia. } { unfold zlen in *. rewrite app_length. lia. }
  rewrite D1. cbn [rbind].
  assert (EN : zlen (hd ++ body) - 5 = Z.of_nat (length body)) by (unfold zlen; rewrite app_length, Lhd; lia). rewrite EN.
  assert (ER : firstn 3 (hd ++ body) ++ [u8 (Z.shiftr (Z.of_nat (length body)) 8); u8 (Z.of_nat (length body))] ++ skipn 5 (hd ++ body) = hd3 ++ len16 (length body) ++ body).
  { rewrite S5. unfold hd. rewrite <- app_assoc, F3. reflexivity. }
  rewrite ER. rewrite (incSeq_spec (set_cipher s cs') k) by (cbn; assumption || lia). replace (k <? 2 ^ 64 - 1) with true by (symmetry; apply Z.ltb_lt; lia).
  cbn [rbind].
  set (s' := set_seq (set_cipher s cs') (be_bytes 8 (k + 1))). set (r' := set_seq (set_cipher r cr') (be_bytes 8 (k + 1))).
  assert (HS' : in_sync (k + 1) s' r').
  { unfold in_sync. cbn. split; [exact HV|]. split; [reflexivity|]. split; [reflexivity|]. split; [lia|]. split; [exact HM|]. split; [exact HMok|]. split; [exact D4|]. intros X. apply Hcbc. apply D5. exact X. }
  assert (HD : decrypt r (hd3 ++ len16 (length body) ++ body) = Ok (DecOk (5 + length iv) (hd3 ++ len16 (match h_mac s with Some _ => length m | None => length body end) ++ iv ++ m) r')).
  { set (hd' := hd3 ++ len16 (length body)). assert (Lhd' : length hd' = 5%nat) by (unfold hd'; rewrite app_length, Hh; reflexivity).
    assert (E' : hd3 ++ len16 (length body) ++ body = hd' ++ body) by (unfold hd'; rewrite <- app_assoc; reflexivity). rewrite E'.
    unfold decrypt. replace (length (hd' ++ body) <? 5)%nat with false by (symmetry; apply Nat.ltb_ge; rewrite app_length; lia).
    rewrite <- Lhd', firstn_app_l, skipn_app_l by reflexivity. rewrite Lhd'.
    change (match h_mac r with Some m0 => m_size m0 | None => 0%nat end) with (mac_size r).
    assert (EMS : mac_size r = mac_size s) by (unfold mac_size; now rewrite HM). rewrite EMS.
    rewrite (D7 hd' Lhd') by (unfold hd', hd; rewrite !F3; reflexivity). cbn [rbind]. rewrite set_cipher_mac, <- HM.
    rewrite (incSeq_spec (set_cipher r cr') k) by (cbn; assumption || lia). replace (k <? 2 ^ 64 - 1) with true by (symmetry; apply Z.ltb_lt; lia). fold r'. cbn [rbind].
    unfold mac, mac_size in *. destruct (h_mac s) as [mm|] eqn:EM.
    - assert (Lm : zlen out = zlen m + Z.of_nat (m_size mm) + pl) by (rewrite D9; unfold zlen; rewrite app_length, Lmac; lia).
      replace (length out <? m_size mm)%nat with false by (symmetry; apply Nat.ltb_ge; unfold zlen in *; lia).
      replace (zlen out - Z.of_nat (m_size mm) - pl) with (zlen m) by lia.
      rewrite shiftr31_small by (unfold zlen in *; lia). cbn [Z.eqb].
      replace ((zlen m <? 0) || (zlen out <? zlen m + Z.of_nat (m_size mm))) with false.
      2:{ symmetry. apply Bool.orb_false_iff. split; apply Z.ltb_ge; unfold zlen in *; lia. }
      replace (Z.to_nat (zlen m)) with (length m) by (unfold zlen; lia). cbn [h_seq set_cipher]. rewrite Hr, <- Hs.
      assert (EF : firstn (length m) out = m).
      { apply (f_equal (firstn (length m))) in D8. rewrite firstn_firstn in D8. rewrite app_length in D8. rewrite Nat.min_l in D8 by lia. rewrite D8. apply firstn_app_l. reflexivity. }
      assert (EH : firstn 3 hd' ++ [u8 (Z.shiftr (zlen m) 8); u8 (zlen m)] = hd) by (unfold hd', hd; rewrite F3; reflexivity).
      rewrite EF, EH.
      assert (EMac : firstn (m_size mm) (skipn (length m) out) = m_fun mm (h_seq s) hd m).
      { rewrite <- (firstn_skipn (length (m ++ m_fun mm (h_seq s) hd m)) out). rewrite D8, <- app_assoc. rewrite skipn_app_l by reflexivity.
        rewrite <- Lmac. apply firstn_app_l. reflexivity. }
      rewrite EMac, beqb_refl. cbn [negb orb Z.eqb Pos.eqb]. unfold hd. rewrite <- !app_assoc. reflexivity.
    - rewrite app_nil_r in *. assert (out = m) as ->.
      { apply D11. intros X. apply (Hcbc X). reflexivity. }
      rewrite (app_assoc hd3). fold hd'. reflexivity. }
  exists body, s', r'. split; [reflexivity|]. split; [exact D2|]. split.
  { unfold overhead. rewrite app_length in D3. rewrite Lmac in D3. rewrite Hiv in D3. lia. }
  split; [exact HD|]. split; [exact HS'|]. split; [reflexivity|]. split; [reflexivity|]. split; [reflexivity|]. split; [|split; [exact D6|exact D5]].
  unfold overhead. change (mac_size s') with (mac_size s). change (explicit_iv_len s') with (explicit_iv_len (set_cipher s cs')). rewrite D6. f_equal.
  cbn [s' set_seq set_cipher h_cipher].
  clear - D1. unfold encipher in D1. destruct (h_cipher s) as [[|a|e bs F iv0]|].
  - apply (f_equal (fun r => match r with Ok (_, c) => c | _ => None end)) in D1. now subst cs'.
  - apply (f_equal (fun r => match r with Ok (_, c) => c | _ => None end)) in D1. now subst cs'.
  - destruct (padToBlockSize _ _) as [p f]. destruct (CryptBlocks e bs F _ p) as [[o1 i1]| |]; cbn [rbind] in D1; try discriminate.
    destruct (CryptBlocks e bs F i1 f) as [[o2 i2]| |]; cbn [rbind] in D1; try discriminate.
    apply (f_equal (fun r => match r with Ok (_, c) => c | _ => None end)) in D1. now subst cs'.
  - apply (f_equal (fun r => match r with Ok (_, c) => c | _ => None end)) in D1. now subst cs'.
Qed.

(** ** Exactly which records are accepted *)
(** [plain] ends with legal padding, before which [content] stands: a byte [pad] preceded by [pad] filler bytes, all equal to [pad]
    except in SSL 3.0 *)
Definition padded_as (ssl3 : bool) (plain content : list Z) : Prop :=
  exists pad filler, plain = content ++ filler ++ [pad] /\ Z.of_nat (length filler) = pad /\ ((ssl3 : bool) = false -> filler = repeat pad (length filler)).
Lemma padded_length ssl3 plain content : padded_as ssl3 plain content -> zlen plain = zlen content + last plain 0 + 1.
Proof.
  intros (pad & filler & -> & Hl & _). rewrite app_assoc, last_last. unfold zlen. rewrite !app_length. cbn [length]. lia.
Qed.
Lemma extract_spec (ssl3 : bool) plain : bytes plain -> plain <> [] -> zlen plain <= 2 ^ 31 ->
  let r := if ssl3 then extractPaddingSSL30 plain else extractPadding plain in
  (snd r = 255 /\ fst r = last plain 0 + 1 /\ fst r <= zlen plain /\ padded_as ssl3 plain (firstn (Z.to_nat (zlen plain - fst r)) plain)) \/
  (snd r = 0 /\ 0 <= fst r <= 256 /\ forall content, ~ padded_as ssl3 plain content).
Proof.
  intros Hb Hne Hl. cbv zeta. pose proof (last_byte plain Hb) as Hp.
  assert (Hn : 1 <= zlen plain) by (unfold zlen; destruct plain; [congruence|cbn [length]; lia]).
  assert (Hsplit : forall n, (n < length plain)%nat -> plain = firstn (length plain - 1 - n) plain ++ firstn n (skipn (length plain - 1 - n) plain) ++ [last plain 0]).
  { intros n Hlt. rewrite <- (firstn_skipn (length plain - 1 - n) plain) at 1. f_equal.
    rewrite <- (firstn_skipn n (skipn (length plain - 1 - n) plain)) at 1. f_equal. rewrite skipn_skipn.
    replace (length plain - 1 - n + n)%nat with (length plain - 1)%nat by lia.
    clear - Hne. destruct plain as [|x l] using rev_ind; [congruence|]. rewrite last_last, app_length. cbn [length].
    replace (length l + 1 - 1)%nat with (length l) by lia. now apply skipn_app_l. }
  destruct ssl3.
  - unfold extractPaddingSSL30. destruct plain as [|x0 l0] eqn:E; [congruence|]. rewrite <- E in *. clear E x0 l0.
    destruct (Z.ltb_spec (zlen plain) (last plain 0 + 1)) as [Hlt|Hge]; cbn [fst snd].
    + right. split; [reflexivity|]. split; [lia|]. intros content HP. apply padded_length in HP. unfold zlen in *. lia.
    + left. split; [reflexivity|]. split; [reflexivity|]. split; [lia|]. set (p := Z.to_nat (last plain 0)).
      exists (last plain 0), (firstn p (skipn (length plain - 1 - p) plain)). split; [|split; [|discriminate]].
      * replace (Z.to_nat (zlen plain - (last plain 0 + 1))) with (length plain - 1 - p)%nat by (unfold p, zlen in *; lia). apply Hsplit. unfold p, zlen in *. lia.
      * rewrite firstn_length, skipn_length. unfold p, zlen in *. lia.
  - destruct (extractPadding_spec plain Hb Hne Hl) as (X1 & X2 & X3). destruct X2 as [X2|X2].
    + left. split; [exact X2|]. split; [exact X1|]. rewrite X1. apply X3 in X2. pose proof X2 as (_ & Hlt & _). split; [lia|].
      apply (valid_padding_app plain Hb Hne) in X2 as (c & p & Hpp & E).
      assert (Elast : last plain 0 = p). { rewrite E. rewrite last_app_ne by (replace (Z.to_nat (p + 1)) with (S (Z.to_nat p)) by lia; discriminate). replace (Z.to_nat (p + 1)) with (S (Z.to_nat p)) by lia. apply repeat_app_last. }
      rewrite Elast in *. exists p, (repeat p (Z.to_nat p)). split; [|split; [rewrite repeat_length; lia|intros _; now rewrite repeat_length]].
      replace (repeat p (Z.to_nat p) ++ [p]) with (repeat p (Z.to_nat (p + 1))) by (replace (Z.to_nat (p + 1)) with (S (Z.to_nat p)) by lia; cbn [repeat]; apply repeat_cons).
      assert (EL : zlen plain = zlen c + (p + 1)) by (rewrite E at 1; unfold zlen; rewrite app_length, repeat_length; lia).
      rewrite E at 1. f_equal. rewrite EL. replace (zlen c + (p + 1) - (p + 1)) with (zlen c) by lia. unfold zlen. rewrite Nat2Z.id, E. symmetry. apply firstn_app_l. reflexivity.
    + right. split; [exact X2|]. split; [lia|]. intros content (pad & filler & E & Hf & Hrep).
      assert (V : valid_padding plain (last plain 0)).
      { apply (valid_padding_app plain Hb Hne). assert (Epad : last plain 0 = pad) by (rewrite E, app_assoc; apply last_last).
        exists content, pad. split; [lia|]. rewrite E. f_equal. rewrite (Hrep eq_refl). replace (Z.to_nat (pad + 1)) with (S (length filler)) by lia. cbn [repeat]. symmetry. apply repeat_cons. }
      apply X3 in V. congruence.
Qed.
(** the deciphered body carries payload [p]: legal padding, and before it the payload and its MAC.  (When what precedes the padding
    is shorter than a MAC the code checks the first bytes against the MAC of the empty payload.) *)
Definition carries (ssl3 : bool) (ms : nat) (mac : list Z -> list Z) (plain p : list Z) : Prop :=
  exists content, padded_as ssl3 plain content /\
    (content = p ++ mac p \/ (length content < ms)%nat /\ p = [] /\ (ms <= length plain)%nat /\ firstn ms plain = mac []).
(** the deciphered body of a CBC record, and its explicit IV *)
Definition cbc_eiv (h : half) (bs : nat) : nat := if explicit_version (h_version h) then bs else 0%nat.
Definition cbc_plain (h : half) (bs : nat) (D : list Z -> list Z) (iv body : list Z) : list Z :=
  let e := cbc_eiv h bs in cbc_d D (if (0 <? e)%nat then firstn e body else iv) (chunks bs (skipn e body)).
Definition legal_cbc_length (h : half) (bs : nat) (body : list Z) : Prop :=
  (length body mod bs = 0)%nat /\ (cbc_eiv h bs + mac_size h + 1 <= length body)%nat.

Lemma roundUp_ge a b : (0 < b)%nat -> (a <= roundUp a b)%nat.
Proof. unfold roundUp. lia. Qed.
Lemma cbc_d_bytes bs D : (0 < bs)%nat -> (forall x, length x = bs -> bytes x -> length (D x) = bs /\ bytes (D x)) ->
  forall n iv data, bytes iv -> bytes data -> length iv = bs -> length data = (bs * n)%nat ->
  bytes (cbc_d D iv (chunks bs data)) /\ length (cbc_d D iv (chunks bs data)) = (bs * n)%nat.
Proof.
  intros Hp HD. induction n as [|n IH]; intros iv data Bi Bd Li Hl.
  - rewrite Nat.mul_0_r in *. destruct data; [|discriminate]. rewrite chunks_nil. split; [constructor|reflexivity].
  - assert (Hne : data <> []) by (intros ->; cbn in Hl; destruct bs; lia). rewrite (chunks_step bs data Hp Hne). cbn [cbc_d].
    assert (Lp : length (firstn bs data) = bs) by (rewrite firstn_length; lia). assert (Bp : bytes (firstn bs data)) by now apply bytes_firstn.
    destruct (HD _ Lp Bp) as [LD BD]. destruct (IH (firstn bs data) (skipn bs data) Bp (bytes_skipn _ _ Bd) Lp) as [I1 I2]; [rewrite skipn_length; lia|].
    split; [apply bytes_app; split; [now apply xorl_bytes|exact I1]|]. rewrite app_length, xorl_length. lia.
Qed.
Lemma carries_unique ssl3 ms mac plain p q : (forall d, length (mac d) = ms) -> carries ssl3 ms mac plain p -> carries ssl3 ms mac plain q -> p = q.
Proof.
  intros Hm (c1 & P1 & K1) (c2 & P2 & K2).
  assert (E : c1 = c2).
  { pose proof (padded_length _ _ _ P1) as L1. pose proof (padded_length _ _ _ P2) as L2. assert (EL : length c1 = length c2) by (unfold zlen in *; lia).
    destruct P1 as (? & f1 & E1 & _), P2 as (? & f2 & E2 & _). rewrite E1 in E2. apply (f_equal (firstn (length c1))) in E2.
    rewrite firstn_app_l in E2 by reflexivity. rewrite EL, firstn_app_l in E2 by reflexivity. exact E2. }
  subst c2. destruct K1 as [->|(Hlt & -> & _)], K2 as [E|(Hlt2 & -> & _)].
  - assert (EL : length p = length q) by (apply (f_equal (@length Z)) in E; rewrite !app_length, !Hm in E; lia).
    apply (f_equal (firstn (length p))) in E. rewrite firstn_app_l in E by reflexivity. rewrite EL, firstn_app_l in E by reflexivity. exact E.
  - rewrite app_length, Hm in Hlt2. lia.
  - subst c1. rewrite app_length, Hm in Hlt. lia.
  - reflexivity.
Qed.
Definition mac_header (hd : list Z) (p : list Z) : list Z := firstn 3 hd ++ len16 (length p).

Lemma decrypt_cbc h hd body k bs D iv m : length hd = 5%nat -> bytes body -> zlen body < 2 ^ 30 ->
  h_cipher h = Some (Cbc false bs D iv) -> h_mac h = Some m -> (0 < bs)%nat -> (forall x, length x = bs -> bytes x -> length (D x) = bs /\ bytes (D x)) ->
  length iv = bs -> bytes iv -> (forall s hd d, length (m_fun m s hd d) = m_size m) -> h_seq h = be_bytes 8 k -> 0 <= k < 2 ^ 64 - 1 ->
  let good p := legal_cbc_length h bs body /\ carries (h_version h =? VersionSSL30) (m_size m) (fun d => m_fun m (h_seq h) (mac_header hd d) d) (cbc_plain h bs D iv body) p in
  (exists p iv', good p /\ decrypt h (hd ++ body) = Ok (DecOk (5 + cbc_eiv h bs) (mac_header hd p ++ firstn (cbc_eiv h bs) body ++ p) (set_seq (set_cipher h (Some (Cbc false bs D iv'))) (be_bytes 8 (k + 1))))) \/
  ((forall p, ~ good p) /\ exists c, decrypt h (hd ++ body) = Ok (DecBad (set_cipher h c))).
Proof.
  intros Lh Bb Hlb HC HM Hp HD Li Bi Hmac Hs Hk good.
  unfold decrypt. replace (length (hd ++ body) <? 5)%nat with false by (symmetry; apply Nat.ltb_ge; rewrite app_length; lia).
  rewrite <- Lh, firstn_app_l, skipn_app_l by reflexivity. rewrite Lh.
  unfold decipher. rewrite HC. fold (cbc_eiv h bs). set (e := cbc_eiv h bs) in *. rewrite HM.
  assert (He : e = 0%nat \/ e = bs) by (unfold e, cbc_eiv; destruct (explicit_version _); auto).
  destruct (Nat.eqb_spec (length body mod bs) 0) as [Hmod|Hmod]; cbn [negb orb].
  2:{ cbn [rbind]. right. split; [intros p [[Hl _] _]; contradiction|]. exists (h_cipher h). destruct h; reflexivity. }
  destruct (Nat.ltb_spec (length body) (roundUp (e + m_size m + 1) bs)) as [Hlt|Hge].
  { cbn [rbind]. right. split; [|exists (h_cipher h); destruct h; reflexivity]. intros p [[_ Hl] _]. unfold mac_size in Hl. rewrite HM in Hl. fold e in Hl.
    pose proof (roundUp_le (e + m_size m + 1) bs (length body) Hp Hl Hmod). lia. }
  assert (Hlegal : legal_cbc_length h bs body).
  { split; [exact Hmod|]. fold e. unfold mac_size. rewrite HM. pose proof (roundUp_ge (e + m_size m + 1) bs Hp). lia. }
  set (iv1 := if (0 <? e)%nat then firstn e body else iv). set (rest := skipn e body).
  assert (Hrest : (length rest mod bs = 0)%nat).
  { unfold rest. rewrite skipn_length. destruct He as [->| ->]; [now rewrite Nat.sub_0_r|]. pose proof (mod0_decomp bs _ Hp Hmod) as Eq.
    replace (length body - bs)%nat with ((length body / bs - 1) * bs)%nat by nia. apply Nat.mod_mul. lia. }
  pose proof Hlegal as [_ Hlen]. fold e in Hlen. unfold mac_size in Hlen. rewrite HM in Hlen.
  assert (Hiv1 : length iv1 = bs /\ bytes iv1).
  { unfold iv1. destruct He as [->| ->]; [cbn [Nat.ltb Nat.leb]; auto|]. replace (0 <? bs)%nat with true by (symmetry; apply Nat.ltb_lt; exact Hp).
    split; [rewrite firstn_length; lia|now apply bytes_firstn]. }
  destruct Hiv1 as [Li1 Bi1].
  destruct (cbc_d_bytes bs D Hp HD _ iv1 rest Bi1 (bytes_skipn _ _ Bb) Li1 (mod0_decomp bs _ Hp Hrest)) as [BP LP]. rewrite <- (mod0_decomp bs _ Hp Hrest) in LP.
  unfold CryptBlocks. rewrite Hrest. cbn [Nat.eqb negb rbind].
  change (cbc_d D iv1 (chunks bs rest)) with (cbc_plain h bs D iv body) in *. set (plain := cbc_plain h bs D iv body) in *.
  assert (LR : length rest = (length body - e)%nat) by (unfold rest; apply skipn_length).
  assert (Hne : plain <> []) by (intros E0; rewrite E0 in LP; cbn in LP; lia).
  assert (Hz : zlen plain <= 2 ^ 31) by (unfold zlen in *; lia).
  set (ssl3 := h_version h =? VersionSSL30) in *.
  pose proof (extract_spec ssl3 plain BP Hne Hz) as EX. cbv zeta in EX.
  set (xp := if ssl3 then extractPaddingSSL30 plain else extractPadding plain) in *. destruct xp as [pl g]. cbn [fst snd] in EX.
  cbn [rbind]. rewrite set_cipher_mac, HM. set (h1 := set_cipher h (Some (Cbc false bs D (last_block bs iv1 rest)))).
  replace (length plain <? m_size m)%nat with false by (symmetry; apply Nat.ltb_ge; lia).
  set (n0 := zlen plain - Z.of_nat (m_size m) - pl).
  assert (Hpl : 0 <= pl <= 256). { pose proof (last_byte plain BP). destruct EX as [(_ & -> & _)|(_ & H0 & _)]; lia. }
  set (n := if Z.shiftr (u32 n0) 31 =? 1 then 0 else n0).
  assert (En : n = if n0 <? 0 then 0 else n0).
  { unfold n. destruct (Z.ltb_spec n0 0) as [Hn0|Hn0].
    - rewrite shiftr31_neg by (unfold n0, zlen in *; lia). reflexivity.
    - rewrite shiftr31_small by (unfold n0, zlen in *; lia). reflexivity. }
  assert (Hn : 0 <= n /\ n + Z.of_nat (m_size m) <= zlen plain). { rewrite En. destruct (Z.ltb_spec n0 0); unfold n0, zlen in *; lia. }
  replace ((n <? 0) || (zlen plain <? n + Z.of_nat (m_size m))) with false by (symmetry; apply Bool.orb_false_iff; split; apply Z.ltb_ge; lia).
  set (p := firstn (Z.to_nat n) plain). assert (Lp : length p = Z.to_nat n) by (unfold p; rewrite firstn_length; unfold zlen in *; lia).
  assert (EH : firstn 3 hd ++ [u8 (Z.shiftr n 8); u8 n] = mac_header hd p) by (unfold mac_header, len16; rewrite Lp, Z2Nat.id by lia; reflexivity). rewrite EH.
  set (remote := firstn (m_size m) (skipn (Z.to_nat n) plain)). change (h_seq h1) with (h_seq h).
  set (mac := fun d => m_fun m (h_seq h) (mac_header hd d) d). change (m_fun m (h_seq h) (mac_header hd p) p) with (mac p).
  destruct EX as [(-> & Epl & Hple & Hpad)|(-> & _ & Hno)].
  2:{ replace (negb (beqb (mac p) remote) || negb (0 =? 255)) with true by (now rewrite Bool.orb_true_r). right. split; [|eexists; reflexivity].
      intros q [_ (content & HP & _)]. exact (Hno content HP). }
  set (content := firstn (Z.to_nat (zlen plain - pl)) plain) in *.
  assert (Lc : zlen content = zlen plain - pl) by (unfold content, zlen in *; rewrite firstn_length; lia).
  replace (negb (255 =? 255)) with false by reflexivity. rewrite Bool.orb_false_r.
  assert (Hiff : mac p = remote <-> carries ssl3 (m_size m) mac plain p).
  { split.
    - intros Em. exists content. split; [exact Hpad|]. destruct (Z.ltb_spec n0 0) as [Hn0|Hn0].
      + right. assert (Ep : p = []) by (unfold p; rewrite En; reflexivity). split; [unfold n0, zlen in *; lia|]. split; [exact Ep|]. split; [unfold zlen in *; lia|].
        unfold remote in Em. rewrite En in Em. cbn [Z.to_nat skipn] in Em. now rewrite Ep in Em.
      + left. rewrite Em. unfold content, p, remote. replace (Z.to_nat (zlen plain - pl)) with (Z.to_nat n + m_size m)%nat by (rewrite En; unfold n0 in *; lia).
        rewrite <- (firstn_skipn (Z.to_nat n) plain) at 1. rewrite firstn_app. rewrite firstn_length, Nat.min_l by (unfold zlen in *; lia).
        rewrite firstn_all2 by (rewrite firstn_length; lia). f_equal. f_equal. lia.
    - intros (c2 & HP2 & K). assert (E2 : c2 = content).
      { pose proof (padded_length _ _ _ HP2) as L2. assert (EL : length c2 = Z.to_nat (zlen plain - pl)) by (unfold zlen in *; lia).
        unfold content. rewrite <- EL. destruct HP2 as (? & f2 & E2 & _). rewrite E2. symmetry. apply firstn_app_l. reflexivity. }
      subst c2. unfold remote. destruct K as [E|(Hlt & Ep & _ & E)].
      + assert (EL : Z.of_nat (length content) = Z.of_nat (length p) + Z.of_nat (m_size m)) by (rewrite E, app_length; unfold mac; rewrite Hmac; lia).
        destruct Hpad as (pv & filler & Epl2 & _ & _). rewrite Epl2, E. rewrite <- Lp, <- app_assoc, skipn_app_l by reflexivity.
        replace (m_size m) with (length (mac p)) by (unfold mac; apply Hmac). symmetry. apply firstn_app_l. reflexivity.
      + rewrite En. destruct (Z.ltb_spec n0 0) as [_|Hn0]; [|exfalso; unfold n0, zlen in *; lia]. cbn [Z.to_nat skipn]. rewrite E, Ep. reflexivity. }
  destruct (beqb (mac p) remote) eqn:EB; cbn [negb].
  - apply beqb_eq in EB. left. exists p, (last_block bs iv1 rest). split; [split; [exact Hlegal|]; apply Hiff; exact EB|].
    rewrite (incSeq_spec h1 k) by (cbn; assumption || lia). replace (k <? 2 ^ 64 - 1) with true by (symmetry; apply Z.ltb_lt; lia). cbn [rbind].
    replace (length (firstn e body)) with e by (rewrite firstn_length; lia). reflexivity.
  - right. split; [|eexists; reflexivity]. intros q [_ Hq].
    assert (Hqp : q = p).
    { pose proof Hq as (c2 & HP2 & K). assert (EL : zlen c2 = zlen plain - pl) by (pose proof (padded_length _ _ _ HP2); lia).
      destruct K as [E|(Hlt & -> & _ & _)].
      - assert (Lq : zlen c2 = zlen q + Z.of_nat (m_size m)) by (rewrite E; unfold zlen, mac; rewrite app_length, Hmac; lia).
        assert (Nn : n = zlen q) by (rewrite En; destruct (Z.ltb_spec n0 0); unfold n0, zlen in *; lia).
        unfold p. rewrite Nn. unfold zlen. rewrite Nat2Z.id. destruct HP2 as (? & f2 & E2 & _). rewrite E2, E, <- app_assoc. symmetry. apply firstn_app_l. reflexivity.
      - unfold p. rewrite En. destruct (Z.ltb_spec n0 0) as [_|Hn0]; [reflexivity|exfalso; unfold n0, zlen in *; lia]. }
    subst q. apply Hiff in Hq. apply (proj2 (beqb_eq _ _)) in Hq. congruence.
Qed.

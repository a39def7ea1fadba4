(** Lemmas about the handshake codecs of TLS_msg_model. *)
From Verif Require Import GoBase GoLemmas TLS_msg_model.
Open Scope Z_scope.
Ltac Zify.zify_post_hook ::= Z.div_mod_to_equations.

(** ** Outcomes: no panic, and [Q] holds of the value when there is one *)
Definition post {A} (r : res A) (Q : A -> Prop) : Prop := match r with Ok a => Q a | Err _ => True | Panic => False end.
Lemma post_bind {A B} (r : res A) (f : A -> res B) (Q : A -> Prop) (R : B -> Prop) :
  post r Q -> (forall a, Q a -> post (f a) R) -> post (rbind r f) R.
Proof. destruct r; cbn; auto. Qed.
Lemma post_weaken {A} (r : res A) (Q R : A -> Prop) : post r Q -> (forall a, Q a -> R a) -> post r R.
Proof. destruct r; cbn; auto. Qed.
Lemma post_no_panic {A} (r : res A) Q : post r Q -> r <> Panic. Proof. destruct r; cbn; [discriminate|discriminate|tauto]. Qed.
Lemma post_fails {A} (c : bool) (k : res A) Q : (c = false -> post k Q) -> post (fails c k) Q.
Proof. intros H. unfold fails. destruct c; [exact I|auto]. Qed.
Lemma zlen_skipn {A} n (d : list A) : 0 <= n <= zlen d -> zlen (skipn (Z.to_nat n) d) = zlen d - n.
Proof. unfold zlen. rewrite skipn_length. lia. Qed.
Lemma zlen_firstn {A} n (d : list A) : 0 <= n <= zlen d -> zlen (firstn (Z.to_nat n) d) = n.
Proof. unfold zlen. rewrite firstn_length. lia. Qed.
Lemma post_idx d i : bytes d -> 0 <= i < zlen d -> post (idx d i) is_byte.
Proof.
  intros Hb Hi. unfold idx. replace ((0 <=? i) && (i <? zlen d)) with true by lia. cbn. apply Forall_nth; [exact Hb|unfold zlen in Hi; lia].
Qed.
Definition slice_of (n : Z) (d : list Z) : Prop := zlen d = n /\ bytes d.
Lemma post_from d n : bytes d -> 0 <= n <= zlen d -> post (sl_from d n) (slice_of (zlen d - n)).
Proof. intros Hb Hi. unfold sl_from. replace ((0 <=? n) && (n <=? zlen d)) with true by lia. cbn. split; [now apply zlen_skipn|now apply bytes_skipn]. Qed.
Lemma post_to d n : bytes d -> 0 <= n <= zlen d -> post (sl_to d n) (slice_of n).
Proof. intros Hb Hi. unfold sl_to. replace ((0 <=? n) && (n <=? zlen d)) with true by lia. cbn. split; [now apply zlen_firstn|now apply bytes_firstn]. Qed.
Lemma post_sl d a b : bytes d -> 0 <= a <= b -> b <= zlen d -> post (sl d a b) (slice_of (b - a)).
Proof.
  intros Hb Ha Hi. unfold sl. eapply post_bind; [apply post_to; [exact Hb|lia]|]. intros t [L B].
  eapply post_weaken; [apply post_from; [exact B|lia]|]. intros u [L2 B2]. split; [lia|exact B2].
Qed.
Lemma lor_shift a b k : 0 <= k -> 0 <= b < 2 ^ k -> Z.lor (Z.shiftl a k) b = a * 2 ^ k + b.
Proof.
  intros Hk Hb. rewrite Z.shiftl_mul_pow2 by lia. symmetry. rewrite Z.add_nocarry_lxor.
  - apply Z.bits_inj'. intros i Hi. rewrite Z.lxor_spec, Z.lor_spec.
    destruct (Z.lt_ge_cases i k).
    + rewrite Z.mul_pow2_bits_low by lia. now rewrite xorb_false_l.
    + replace (Z.testbit b i) with false; [now rewrite xorb_false_r, orb_false_r|].
      symmetry. destruct (Z.eq_dec b 0) as [->|]; [apply Z.bits_0|]. apply Z.bits_above_log2; [lia|].
      assert (Z.log2 b < k) by (apply Z.log2_lt_pow2; lia). lia.
  - apply Z.bits_inj'. intros i Hi. rewrite Z.land_spec, Z.bits_0.
    destruct (Z.lt_ge_cases i k).
    + now rewrite Z.mul_pow2_bits_low by lia.
    + replace (Z.testbit b i) with false; [now rewrite andb_false_r|].
      symmetry. destruct (Z.eq_dec b 0) as [->|]; [apply Z.bits_0|]. apply Z.bits_above_log2; [lia|].
      assert (Z.log2 b < k) by (apply Z.log2_lt_pow2; lia). lia.
Qed.
Lemma lor16 a b : is_byte a -> is_byte b -> Z.lor (Z.shiftl a 8) b = a * 256 + b.
Proof. unfold is_byte. intros Ha Hb. rewrite lor_shift by lia. reflexivity. Qed.
Lemma lor24 a b c : is_byte a -> is_byte b -> is_byte c -> Z.lor (Z.lor (Z.shiftl a 16) (Z.shiftl b 8)) c = a * 65536 + b * 256 + c.
Proof.
  unfold is_byte. intros Ha Hb Hc. rewrite (lor_shift a (Z.shiftl b 8)) by (rewrite ?Z.shiftl_mul_pow2; lia).
  replace (a * 2 ^ 16 + Z.shiftl b 8) with (Z.shiftl (a * 2 ^ 8 + b) 8) by (rewrite !Z.shiftl_mul_pow2 by lia; lia).
  rewrite lor_shift by lia. lia.
Qed.
Lemma post_be16 d i : bytes d -> 0 <= i -> i + 2 <= zlen d -> post (be16 d i) (fun v => 0 <= v < 65536).
Proof.
  intros Hb Hi Hl. unfold be16. eapply post_bind; [apply post_idx; [exact Hb|lia]|]. intros a Ha.
  eapply post_bind; [apply post_idx; [exact Hb|lia]|]. intros b Hb'. unfold post. rewrite lor16 by assumption. unfold is_byte in *. lia.
Qed.
Lemma post_be24 d i : bytes d -> 0 <= i -> i + 3 <= zlen d -> post (be24 d i) (fun v => 0 <= v < 16777216).
Proof.
  intros Hb Hi Hl. unfold be24. eapply post_bind; [apply post_idx; [exact Hb|lia]|]. intros a Ha.
  eapply post_bind; [apply post_idx; [exact Hb|lia]|]. intros b Hb'.
  eapply post_bind; [apply post_idx; [exact Hb|lia]|]. intros c Hc. unfold post. rewrite lor24 by assumption. unfold is_byte in *. lia.
Qed.
Lemma post_u16s n : forall d, bytes d -> 2 * Z.of_nat n <= zlen d -> post (rd_u16s n d) (fun _ => True).
Proof.
  induction n as [|n IH]; intros d Hb Hl; cbn [rd_u16s]; [exact I|].
  eapply post_bind; [apply post_be16; [exact Hb|lia|lia]|]. intros v _.
  eapply post_bind; [apply post_from; [exact Hb|lia]|]. intros d' [L B].
  eapply post_bind; [apply IH; [exact B|lia]|]. intros r _. exact I.
Qed.
(** loops: every turn consumes input and does not panic *)
Definition turn {A} (d : list Z) (r : A * list Z) : Prop := zlen (snd r) < zlen d /\ bytes (snd r).
Lemma post_wloop {A} (body : A -> list Z -> res (A * list Z)) :
  (forall a d, bytes d -> 0 < zlen d -> post (body a d) (turn d)) ->
  forall fuel a d, bytes d -> zlen d <= Z.of_nat fuel -> post (wloop body fuel a d) (fun _ => True).
Proof.
  intros HB. induction fuel as [|fuel IH]; intros a d Hb Hl; destruct d as [|x d]; try exact I.
  - unfold zlen in Hl. cbn [length] in Hl. lia.
  - cbn [wloop]. eapply post_bind; [apply HB; [exact Hb|unfold zlen; cbn [length]; lia]|]. intros r [L B]. apply IH; [exact B|lia].
Qed.
Lemma post_wrun {A} (body : A -> list Z -> res (A * list Z)) a d :
  (forall a d, bytes d -> 0 < zlen d -> post (body a d) (turn d)) -> bytes d -> post (wrun body a d) (fun _ => True).
Proof. intros HB Hb. unfold wrun. apply (post_wloop body HB); [exact Hb|unfold zlen; lia]. Qed.

(** one step of a no-panic proof *)
Ltac pstep :=
  match goal with
  | |- post (fails _ _) _ => apply post_fails; intros
  | |- post (rbind (idx _ _) _) _ => eapply post_bind; [apply post_idx; [assumption|lia]|unfold is_byte; intros ? ?]
  | |- post (rbind (be16 _ _) _) _ => eapply post_bind; [apply post_be16; [assumption|lia|lia]|cbv beta; intros ? ?]
  | |- post (rbind (be24 _ _) _) _ => eapply post_bind; [apply post_be24; [assumption|lia|lia]|cbv beta; intros ? ?]
  | |- post (rbind (sl_from _ _) _) _ => eapply post_bind; [apply post_from; [assumption|lia]|intros ? [? ?]]
  | |- post (rbind (sl_to _ _) _) _ => eapply post_bind; [apply post_to; [assumption|lia]|intros ? [? ?]]
  | |- post (rbind (sl _ _ _) _) _ => eapply post_bind; [apply post_sl; [assumption|lia|lia]|intros ? [? ?]]
  | |- post (rbind (rd_u16s _ _) _) _ => eapply post_bind; [apply post_u16s; [assumption|lia]|intros ? _]
  | |- post (sl_from _ _) _ => eapply post_weaken; [apply post_from; [assumption|lia]|intros ? [? ?]; exact I]
  | |- post (Ok _) (turn _) => split; cbn [snd]; [lia|assumption]
  | |- post (Ok _) (fun _ => True) => exact I
  | |- post (if ?c then _ else _) _ => destruct c eqn:?
  end.
Lemma np_alpn_body a d : bytes d -> 0 < zlen d -> post (alpn_body a d) (turn d).
Proof. intros Hb Hl. unfold alpn_body. repeat pstep. Qed.
Lemma np_sct_body a d : bytes d -> 0 < zlen d -> post (sct_body a d) (turn d).
Proof. intros Hb Hl. unfold sct_body. repeat pstep. Qed.
Lemma np_ca_body a d : bytes d -> 0 < zlen d -> post (ca_body a d) (turn d).
Proof. intros Hb Hl. unfold ca_body. repeat pstep. Qed.
Lemma np_sni_body a d : bytes d -> 0 < zlen d -> post (sni_body a d) (turn d).
Proof. intros Hb Hl. unfold sni_body. repeat pstep. split; cbn [snd]; [unfold zlen at 1; cbn [length]; lia|constructor]. Qed.
Lemma np_ch_ext m e l d : bytes d -> 0 <= l <= zlen d -> post (ch_ext m e l d) (fun _ => True).
Proof.
  intros Hb Hl. unfold ch_ext.
  repeat match goal with |- post (if ?c then _ else _) _ => destruct c eqn:? end; repeat pstep.
  - apply post_wrun; [exact np_sni_body|assumption].
  - eapply post_bind; [apply post_wrun; [exact np_alpn_body|assumption]|]. intros ? _. exact I.
Qed.
Lemma np_sh_ext m e l d : bytes d -> 0 <= l <= zlen d -> post (sh_ext m e l d) (fun _ => True).
Proof.
  intros Hb Hl. unfold sh_ext.
  repeat match goal with |- post (if ?c then _ else _) _ => destruct c eqn:? end; repeat pstep.
  - eapply post_bind; [apply post_wrun; [exact np_alpn_body|assumption]|]. intros ? _. exact I.
  - eapply post_bind; [apply post_wrun; [exact np_sct_body|assumption]|]. intros ? _. exact I.
Qed.
Lemma np_ext_body {M} (sw : M -> Z -> Z -> list Z -> res M) :
  (forall m e l d, bytes d -> 0 <= l <= zlen d -> post (sw m e l d) (fun _ => True)) ->
  forall a d, bytes d -> 0 < zlen d -> post (ext_body sw a d) (turn d).
Proof.
  intros HS a d Hb Hl. unfold ext_body. repeat pstep.
  eapply post_bind; [apply HS; [assumption|lia]|]. intros ? _. repeat pstep.
Qed.
Lemma u32_le z : 0 <= z -> 0 <= u32 z <= z.
Proof. intros H. unfold u32. split; [apply Z.mod_pos_bound; lia|apply Z.mod_le; lia]. Qed.
Lemma u32_small z : 0 <= z < 2 ^ 32 -> u32 z = z. Proof. intros H. unfold u32. now apply Z.mod_small. Qed.
Lemma u32_sub a b : u32 (u32 a - b) = u32 (a - b). Proof. unfold u32. apply Zminus_mod_idemp_l. Qed.
#[local] Opaque u32.
Lemma np_count fuel : forall c n d, bytes d -> c = u32 (zlen d) -> zlen d <= Z.of_nat fuel ->
  post (count_certs fuel c n d) (fun k => (n <= k)%nat /\ post (take_certs (k - n) d) (fun _ => True)).
Proof.
  induction fuel as [|fuel IH]; intros c n d Hb Ec Hl; cbn [count_certs]; destruct (Z.ltb_spec 0 c);
    try (cbn [post]; rewrite Nat.sub_diag; cbn [take_certs post]; auto).
  - pose proof (u32_le (zlen d) (zlen_nonneg d)). lia.
  - pose proof (u32_le (zlen d) (zlen_nonneg d)) as U. apply post_fails. intros H4.
    assert (HX : forall k, (forall cl, 0 <= cl < 16777216 -> be24 d 0 = Ok cl -> post (k cl) (fun k => (n <= k)%nat /\ post (take_certs (k - n) d) (fun _ => True))) ->
      post (rbind (be24 d 0) k) (fun k => (n <= k)%nat /\ post (take_certs (k - n) d) (fun _ => True))).
    { intros k HK. pose proof (post_be24 d 0 Hb ltac:(lia) ltac:(lia)) as P. destruct (be24 d 0) as [v| |]; cbn [rbind post] in *; auto. }
    apply HX. clear HX. intros cl Hcl E24. apply post_fails. intros Hle. rewrite (u32_small (3 + cl)) in Hle |- * by lia.
    unfold sl_from at 1. replace ((0 <=? 3 + cl) && (3 + cl <=? zlen d)) with true by lia. cbn [rbind].
    assert (Bd : bytes (skipn (Z.to_nat (3 + cl)) d)) by now apply bytes_skipn.
    assert (Ld : zlen (skipn (Z.to_nat (3 + cl)) d) = zlen d - (3 + cl)) by (apply zlen_skipn; lia).
    eapply post_weaken; [apply IH; [exact Bd| |lia]|].
    + rewrite Ld, Ec, u32_sub. reflexivity.
    + intros k [Hk HT]. split; [lia|]. replace (k - n)%nat with (Datatypes.S (k - (n + 1)))%nat by lia. cbn [take_certs].
      rewrite E24. cbn [rbind]. rewrite (u32_small (3 + cl)) by lia. pstep.
      unfold sl_from. replace ((0 <=? 3 + cl) && (3 + cl <=? zlen d)) with true by lia. cbn [rbind].
      eapply post_bind; [exact HT|]. intros ? _. exact I.
Qed.

(** ** Reading back what was written *)
Lemma b2_be x : b2 x = be_bytes 2 x.
Proof. unfold b2, u8. cbn [be_bytes app]. rewrite Z.shiftr_div_pow2 by lia. reflexivity. Qed.
Lemma b3_be x : b3 x = be_bytes 3 x.
Proof. unfold b3, u8. cbn [be_bytes app]. rewrite !Z.shiftr_div_pow2 by lia. change (2 ^ 8) with 256. rewrite !Z.div_div by lia. reflexivity. Qed.
Lemma zlen_b2 x : zlen (b2 x) = 2. Proof. reflexivity. Qed.
Lemma zlen_b3 x : zlen (b3 x) = 3. Proof. reflexivity. Qed.
Lemma zlen_cons {A} (x : A) l : zlen (x :: l) = 1 + zlen l. Proof. unfold zlen. cbn [length]. lia. Qed.
Lemma zlen_nil {A} : zlen (@nil A) = 0. Proof. reflexivity. Qed.
Lemma zlen_zeros n : zlen (zeros n) = Z.of_nat n. Proof. unfold zlen. now rewrite zeros_length. Qed.
Lemma idx_at d p x r i : d = p ++ x :: r -> zlen p = i -> idx d i = Ok x.
Proof.
  intros -> <-. unfold idx. rewrite zlen_app, zlen_cons. pose proof (zlen_nonneg p). pose proof (zlen_nonneg r).
  replace ((0 <=? zlen p) && (zlen p <? zlen p + (1 + zlen r))) with true by lia. unfold zlen. rewrite Nat2Z.id, app_nth2, Nat.sub_diag by lia. reflexivity.
Qed.
Lemma u8_byte x : is_byte (u8 x). Proof. unfold u8, is_byte. apply Z.mod_pos_bound. lia. Qed.
Lemma u8_small x : 0 <= x < 256 -> u8 x = x. Proof. intros H. unfold u8. now apply Z.mod_small. Qed.
Lemma be16_at d p x r i : d = p ++ b2 x ++ r -> zlen p = i -> 0 <= x < 65536 -> be16 d i = Ok x.
Proof.
  intros E L Hx. unfold be16. unfold b2 in E. cbn [app] in E. rewrite (idx_at d p _ _ i E L). cbn [rbind].
  rewrite (idx_at d (p ++ [u8 (Z.shiftr x 8)]) (u8 x) r (i + 1)); [cbn [rbind]|rewrite E, <- app_assoc; reflexivity|rewrite zlen_app, L; reflexivity].
  rewrite lor16 by apply u8_byte. unfold u8. rewrite Z.shiftr_div_pow2 by lia. apply (f_equal Ok). lia.
Qed.
Lemma be24_at d p x r i : d = p ++ b3 x ++ r -> zlen p = i -> 0 <= x < 16777216 -> be24 d i = Ok x.
Proof.
  intros E L Hx. unfold be24. unfold b3 in E. cbn [app] in E. rewrite (idx_at d p _ _ i E L). cbn [rbind].
  rewrite (idx_at d (p ++ [u8 (Z.shiftr x 16)]) (u8 (Z.shiftr x 8)) (u8 x :: r) (i + 1)); [cbn [rbind]|rewrite E, <- app_assoc; reflexivity|rewrite zlen_app, L; reflexivity].
  rewrite (idx_at d (p ++ [u8 (Z.shiftr x 16); u8 (Z.shiftr x 8)]) (u8 x) r (i + 2)); [cbn [rbind]|rewrite E, <- app_assoc; reflexivity|rewrite zlen_app, L; reflexivity].
  rewrite lor24 by apply u8_byte. unfold u8. rewrite !Z.shiftr_div_pow2 by lia. apply (f_equal Ok). lia.
Qed.
Lemma sl_from_at d p r n : d = p ++ r -> zlen p = n -> sl_from d n = Ok r.
Proof.
  intros -> <-. unfold sl_from. rewrite zlen_app. pose proof (zlen_nonneg p). pose proof (zlen_nonneg r).
  replace ((0 <=? zlen p) && (zlen p <=? zlen p + zlen r)) with true by lia. rewrite skipn_app_l; [reflexivity|unfold zlen; lia].
Qed.
Lemma sl_to_at d p r n : d = p ++ r -> zlen p = n -> sl_to d n = Ok p.
Proof.
  intros -> <-. unfold sl_to. rewrite zlen_app. pose proof (zlen_nonneg p). pose proof (zlen_nonneg r).
  replace ((0 <=? zlen p) && (zlen p <=? zlen p + zlen r)) with true by lia. rewrite firstn_app_l; [reflexivity|unfold zlen; lia].
Qed.
Lemma sl_at d p q r a b : d = p ++ q ++ r -> zlen p = a -> b = a + zlen q -> sl d a b = Ok q.
Proof.
  intros -> <- ->. unfold sl. rewrite (sl_to_at _ (p ++ q) r); [|now rewrite app_assoc|now rewrite zlen_app]. cbn [rbind].
  now apply sl_from_at with (p := p).
Qed.
Lemma be16_hd x r : 0 <= x < 65536 -> be16 (b2 x ++ r) 0 = Ok x.
Proof. now apply (be16_at _ [] x r 0). Qed.
Lemma idx_hd x r : idx (x :: r) 0 = Ok x. Proof. now apply (idx_at _ [] x r 0). Qed.
Lemma tl_hd x r : sl_from (x :: r) 1 = Ok r. Proof. now apply (sl_from_at _ [x] r 1). Qed.
Lemma fill_exact size p : zlen p = size -> fill size p = Ok p.
Proof. intros <-. unfold fill. rewrite Z.leb_refl, Z.sub_diag. cbn [Z.to_nat zeros repeat]. now rewrite app_nil_r. Qed.
Lemma fails_false {A} (c : bool) (k : res A) : c = false -> fails c k = k. Proof. now intros ->. Qed.
Definition u16s (l : list Z) : Prop := Forall (fun x => 0 <= x < 65536) l.
Lemma rd_u16s_at l : u16s l -> forall r, rd_u16s (length l) (concat (map b2 l) ++ r) = Ok l.
Proof.
  induction 1 as [|x l Hx _ IH]; intros r; [reflexivity|]. cbn [length map concat rd_u16s]. rewrite <- app_assoc.
  rewrite be16_hd by exact Hx. cbn [rbind].
  rewrite (sl_from_at _ (b2 x) (concat (map b2 l) ++ r) 2 eq_refl eq_refl). cbn [rbind]. rewrite IH. reflexivity.
Qed.
Lemma zlen_u16s l : zlen (concat (map b2 l)) = 2 * zlen l.
Proof. induction l as [|x l IH]; [reflexivity|]. cbn [map concat]. rewrite zlen_app, zlen_cons, IH, zlen_b2. lia. Qed.

Definition runs {A} (body : A -> list Z -> res (A * list Z)) (a : A) (d : list Z) (r : A) : Prop :=
  exists f, (f <= length d)%nat /\ wloop body f a d = Ok r.
Lemma wloop_mono {A} (body : A -> list Z -> res (A * list Z)) f : forall f' a d r, (f <= f')%nat -> wloop body f a d = Ok r -> wloop body f' a d = Ok r.
Proof.
  induction f as [|f IH]; intros f' a d r Hf E; destruct d as [|x d]; try (destruct f'; exact E); cbn [wloop] in E; [discriminate|].
  destruct f' as [|f']; [lia|]. cbn [wloop]. destruct (body a (x :: d)) as [[a' d']|e|]; cbn [rbind] in *; try discriminate.
  apply (IH f'); [lia|exact E].
Qed.
Lemma runs_wrun {A} (body : A -> list Z -> res (A * list Z)) a d r : runs body a d r -> wrun body a d = Ok r.
Proof. intros (f & Hf & E). unfold wrun. now apply (wloop_mono body f). Qed.
Lemma runs_nil {A} (body : A -> list Z -> res (A * list Z)) a : runs body a [] a. Proof. exists 0%nat. auto. Qed.
Lemma runs_step {A} (body : A -> list Z -> res (A * list Z)) a d a' d' r :
  d <> [] -> body a d = Ok (a', d') -> (length d' < length d)%nat -> runs body a' d' r -> runs body a d r.
Proof.
  intros Hd E Hl (f & Hf & E'). exists (Datatypes.S f). split; [lia|]. destruct d as [|x d]; [easy|]. cbn [wloop]. rewrite E. exact E'.
Qed.
Lemma runs_piece {A} (body : A -> list Z -> res (A * list Z)) a e rest a' r :
  e <> [] -> body a (e ++ rest) = Ok (a', rest) -> runs body a' rest r -> runs body a (e ++ rest) r.
Proof.
  intros He E H. apply (runs_step body a _ a' rest); [destruct e; easy|exact E| |exact H].
  rewrite app_length. destruct e; [easy|]. cbn [length]. lia.
Qed.
Lemma runs_opt {A} (body : A -> list Z -> res (A * list Z)) (c : bool) a e rest a' r :
  e <> [] -> (c = true -> body a (e ++ rest) = Ok (a', rest)) -> (c = false -> a = a') -> runs body a' rest r ->
  runs body a ((if c then e else []) ++ rest) r.
Proof. intros He H1 H2 H. destruct c; [now apply runs_piece with (a' := a'); auto|]. now rewrite (H2 eq_refl). Qed.
Lemma runs_list {X} (body : list X -> list Z -> res (list X * list Z)) (enc : X -> list Z) (P : X -> Prop) :
  (forall x, P x -> enc x <> [] /\ forall acc rest, body acc (enc x ++ rest) = Ok (acc ++ [x], rest)) ->
  forall xs, Forall P xs -> forall acc, runs body acc (concat (map enc xs)) (acc ++ xs).
Proof.
  intros HB. induction 1 as [|x xs Hx _ IH]; intros acc; cbn [map concat]; [rewrite app_nil_r; apply runs_nil|].
  destruct (HB x Hx) as [Hne HE]. apply (runs_piece body acc _ _ (acc ++ [x])); [exact Hne|apply HE|].
  replace (acc ++ x :: xs) with ((acc ++ [x]) ++ xs) by (rewrite <- app_assoc; reflexivity). apply IH.
Qed.

(** the three list loops *)
Definition short_name (s : list Z) : Prop := bytes s /\ 1 <= zlen s <= 255.
Lemma alpn_item s : short_name s -> (u8 (zlen s) :: s) <> [] /\ forall acc rest, alpn_body acc ((u8 (zlen s) :: s) ++ rest) = Ok (acc ++ [s], rest).
Proof.
  intros [Hb Hl]. split; [discriminate|]. intros acc rest. unfold alpn_body. rewrite u8_small by lia. cbn [app].
  rewrite idx_hd. cbn [rbind].
  rewrite tl_hd. cbn [rbind].
  pose proof (zlen_nonneg rest). rewrite fails_false by (rewrite zlen_app; lia).
  rewrite (sl_to_at _ s rest (zlen s) eq_refl eq_refl). cbn [rbind]. rewrite (sl_from_at _ s rest (zlen s) eq_refl eq_refl). reflexivity.
Qed.
Definition sct_ok (s : list Z) : Prop := bytes s /\ 1 <= zlen s < 65536.
Lemma sct_item s : sct_ok s -> (b2 (zlen s) ++ s) <> [] /\ forall acc rest, sct_body acc ((b2 (zlen s) ++ s) ++ rest) = Ok (acc ++ [s], rest).
Proof.
  intros [Hb Hl]. split; [discriminate|]. intros acc rest. unfold sct_body. rewrite <- app_assoc.
  pose proof (zlen_nonneg rest). rewrite fails_false by (rewrite !zlen_app, zlen_b2; lia).
  rewrite be16_hd by lia. cbn [rbind].
  rewrite (sl_from_at _ (b2 (zlen s)) (s ++ rest) 2 eq_refl eq_refl). cbn [rbind].
  rewrite fails_false by (rewrite zlen_app; lia).
  rewrite (sl_to_at _ s rest (zlen s) eq_refl eq_refl). cbn [rbind]. rewrite (sl_from_at _ s rest (zlen s) eq_refl eq_refl). reflexivity.
Qed.
Definition ca_ok (s : list Z) : Prop := bytes s /\ zlen s < 65536.
Lemma ca_item s : ca_ok s -> (b2 (zlen s) ++ s) <> [] /\ forall acc rest, ca_body acc ((b2 (zlen s) ++ s) ++ rest) = Ok (acc ++ [s], rest).
Proof.
  intros [Hb Hl]. split; [discriminate|]. intros acc rest. unfold ca_body. rewrite <- app_assoc.
  pose proof (zlen_nonneg rest). pose proof (zlen_nonneg s). rewrite fails_false by (rewrite !zlen_app, zlen_b2; lia).
  rewrite be16_hd by lia. cbn [rbind].
  rewrite (sl_from_at _ (b2 (zlen s)) (s ++ rest) 2 eq_refl eq_refl). cbn [rbind].
  rewrite fails_false by (rewrite zlen_app; lia).
  rewrite (sl_to_at _ s rest (zlen s) eq_refl eq_refl). cbn [rbind]. rewrite (sl_from_at _ s rest (zlen s) eq_refl eq_refl). reflexivity.
Qed.
Lemma sum_len_acc ls : forall a, fold_left (fun a (l : list Z) => a + zlen l) ls a = a + sum_len ls.
Proof. unfold sum_len. induction ls as [|l ls IH]; intros a; cbn [fold_left]; [lia|]. rewrite IH, (IH (0 + zlen l)). lia. Qed.
Lemma sum_len_cons l ls : sum_len (l :: ls) = zlen l + sum_len ls.
Proof. unfold sum_len at 1. cbn [fold_left]. rewrite sum_len_acc. lia. Qed.
Lemma sum_len_nonneg ls : 0 <= sum_len ls.
Proof. induction ls as [|l ls IH]; [cbn; lia|]. rewrite sum_len_cons. pose proof (zlen_nonneg l). lia. Qed.
Lemma zlen_alpn ls : zlen (alpn_strings ls) = zlen ls + sum_len ls.
Proof.
  unfold alpn_strings. induction ls as [|l ls IH]; [reflexivity|]. cbn [map concat]. rewrite zlen_app, !zlen_cons, sum_len_cons, IH. lia.
Qed.
Lemma fold_shift {X} (f : X -> Z) ls : forall a, fold_left (fun a s => a + f s) ls a = a + fold_left (fun a s => a + f s) ls 0.
Proof. induction ls as [|l ls IH]; intros a; cbn [fold_left]; [lia|]. rewrite IH, (IH (0 + f l)). lia. Qed.
Lemma zlen_cas ls : zlen (concat (map (fun c => b2 (zlen c) ++ c) ls)) = cas_len ls.
Proof.
  unfold cas_len. induction ls as [|l ls IH]; [reflexivity|]. cbn [map concat fold_left]. rewrite !zlen_app, IH, (fold_shift _ ls (0 + _)), zlen_b2. lia.
Qed.
Lemma zlen_scts ls : zlen (concat (map (fun c => b2 (zlen c) ++ c) ls)) = fold_left (fun a s => a + (zlen s + 2)) ls 0.
Proof.
  induction ls as [|l ls IH]; [reflexivity|]. cbn [map concat fold_left]. rewrite !zlen_app, IH, (fold_shift _ ls (0 + _)), zlen_b2. lia.
Qed.

(** one extension *)
Lemma ext_item {M} (sw : M -> Z -> Z -> list Z -> res M) a id body rest a' : 0 <= id < 65536 -> zlen body < 65536 ->
  sw a id (zlen body) (body ++ rest) = Ok a' ->
  ext_body sw a ((b2 id ++ b2 (zlen body) ++ body) ++ rest) = Ok (a', rest).
Proof.
  intros Hi Hl E. unfold ext_body. rewrite <- !app_assoc. pose proof (zlen_nonneg body). pose proof (zlen_nonneg rest).
  rewrite fails_false by (rewrite !zlen_app, !zlen_b2; lia).
  rewrite be16_hd by exact Hi. cbn [rbind].
  rewrite (be16_at _ (b2 id) (zlen body) (body ++ rest) 2 eq_refl eq_refl) by lia. cbn [rbind].
  rewrite (sl_from_at _ (b2 id ++ b2 (zlen body)) (body ++ rest) 4) by (rewrite <- ?app_assoc; reflexivity). cbn [rbind].
  rewrite fails_false by (rewrite zlen_app; lia). rewrite E. cbn [rbind]. rewrite (sl_from_at _ body rest _ eq_refl eq_refl). reflexivity.
Qed.
Lemma b2_small x : 0 <= x < 256 -> b2 x = [0; u8 x].
Proof. intros H. unfold b2. rewrite Z.shiftr_div_pow2 by lia. rewrite Z.div_small by lia. reflexivity. Qed.

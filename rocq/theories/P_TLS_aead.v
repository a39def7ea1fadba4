(** C142: AEAD records (AES-GCM and ChaCha20-Poly1305 suites). *)
From Verif Require Import GoBase GoLemmas BigBytes CBC TLS_record_model TLS_rec_proofs P_TLS_record TLS_aead_model.
Open Scope Z_scope.
#[local] Opaque be_bytes.
(** ** Specification.  RFC 5288: nonce = fixed part, explicit part (the sequence number, sent in the record);
    RFC 7905: nonce = fixed part xor the sequence number on 12 octets, nothing sent;
    RFC 5246, 6.2.3.3: additional data = sequence number, type, version, length of the plaintext *)
Definition nonce_5288 (fixed : list Z) (k : Z) : list Z := fixed ++ be_bytes 8 k.
Definition nonce_7905 (fixed : list Z) (k : Z) : list Z := xorl fixed (be_bytes 12 k).
Definition ad_5246 (k : Z) (h3 : list Z) (n : nat) : list Z := be_bytes 8 k ++ h3 ++ len16 n.
Lemma Ok_inj {A} (x y : A) : Ok x = Ok y -> x = y. Proof. congruence. Qed.
Section C142.
Variable over : nat.
Variable seal : list Z -> list Z -> list Z -> list Z.
Variable open : list Z -> list Z -> list Z -> option (list Z).
Notation gcm := (gcm over seal open).
Notation chacha := (chacha over seal open).
Definition ct_5288 fixed k h3 p := seal (nonce_5288 fixed k) p (ad_5246 k h3 (length p)).
Definition ct_7905 fixed k h3 p := seal (nonce_7905 fixed k) p (ad_5246 k h3 (length p)).
Definition record_5288 (fixed : list Z) (h3 : list Z) (k : Z) (p : list Z) : list Z :=
  let body := be_bytes 8 k ++ ct_5288 fixed k h3 p in h3 ++ len16 (length body) ++ body.
Definition record_7905 (fixed : list Z) (h3 : list Z) (k : Z) (p : list Z) : list Z :=
  let body := ct_7905 fixed k h3 p in h3 ++ len16 (length body) ++ body.
(** *** The objects: every call is answered as if the object had no state *)
Definition spec_answer (nonce_of : list Z -> list Z) (c : call) : answer :=
  match c with CSeal n p ad => ASeal (seal (nonce_of n) p ad) | COpen n x ad => AOpen (open (nonce_of n) x ad) end.
Definition nonce8 (c : call) : Prop := match c with CSeal n _ _ => length n = 8%nat | COpen n _ _ => length n = 8%nat end.
Lemma copy_4 st n : length st = 12%nat -> length n = 8%nat -> copy_at 4 st n = firstn 4 st ++ n.
Proof.
  intros Ls Ln. unfold copy_at. rewrite Ls, Ln. cbn [Nat.min Nat.sub]. change (4 + 8)%nat with 12%nat. rewrite (firstn_all2 n) by lia. rewrite (skipn_all2 st) by lia. now rewrite app_nil_r.
Qed.
Lemma new_nonce_12 f : length f = 12%nat -> new_nonce f = f.
Proof.
  intros L. unfold new_nonce, copy_at. rewrite L. change (length (zeros 12)) with 12%nat. change (Nat.min (12 - 0) 12) with 12%nat. change (skipn (0 + 12) (zeros 12)) with (@nil Z). change (firstn 0 (zeros 12)) with (@nil Z).
  rewrite app_nil_r, app_nil_l. apply firstn_all2. lia.
Qed.
Lemma new_nonce_4 f : length f = 4%nat -> firstn 4 (new_nonce f) = f /\ length (new_nonce f) = 12%nat.
Proof.
  intros L. unfold new_nonce, copy_at. rewrite L. change (length (zeros 12)) with 12%nat. change (Nat.min (12 - 0) 4) with 4%nat. change (skipn (0 + 4) (zeros 12)) with (zeros 8). change (firstn 0 (zeros 12)) with (@nil Z). rewrite app_nil_l, (firstn_all2 f) by lia.
  split; [apply firstn_app_l; exact L|]. rewrite app_length, L. reflexivity.
Qed.
Theorem C142_fixed_object : forall fixed cs, length fixed = 4%nat -> Forall nonce8 cs ->
  run (fixed_call seal open) (new_nonce fixed) cs = Ok (map (spec_answer (fun n => fixed ++ n)) cs).
Proof.
  intros fixed cs Lf H. destruct (new_nonce_4 fixed Lf) as [E L]. generalize dependent (new_nonce fixed). induction H as [|c cs Hc _ IH]; intros st E L; [reflexivity|].
  assert (X : forall n, length n = 8%nat -> firstn 4 (copy_at 4 st n) = fixed /\ length (copy_at 4 st n) = 12%nat /\ copy_at 4 st n = fixed ++ n).
  { intros n Hn. rewrite copy_4, E by assumption. split; [apply firstn_app_l; exact Lf|]. rewrite app_length, Lf, Hn. auto. }
  destruct c as [n p ad|n p ad]; cbn [nonce8] in Hc; destruct (X n Hc) as (X1 & X2 & X3); cbn [run fixed_call rbind fst snd map spec_answer]; rewrite (IH _ X1 X2); cbn [rbind]; rewrite X3; reflexivity.
Qed.
Lemma xor_in_spec n : forall i mask, (4 + i + length n <= length mask)%nat -> xor_in i mask n = Ok (xorl mask (zeros (4 + i) ++ n ++ zeros (length mask - (4 + i) - length n))).
Proof.
  induction n as [|b n IH]; intros i mask H.
  - cbn [xor_in app length] in *. rewrite <- xorl_zeros_r at 1. unfold zeros. rewrite <- repeat_app. do 3 f_equal. lia.
  - cbn [xor_in length] in *. replace (4 + i <? length mask)%nat with true by (symmetry; apply Nat.ltb_lt; lia). rewrite IH by (rewrite upd_length; lia). f_equal. rewrite upd_length.
    assert (SP : exists a x c, mask = a ++ x :: c /\ length a = (4 + i)%nat).
    { exists (firstn (4 + i) mask), (nth (4 + i) mask 0), (skipn (S (4 + i)) mask). split; [|rewrite firstn_length; lia]. rewrite <- (firstn_skipn (4 + i) mask) at 1. f_equal. clear - H. revert H. generalize (4 + i)%nat as m. intros m H.
      assert (m < length mask)%nat by lia. clear H. revert m H0. induction mask as [|y mask IHm]; intros [|m] H; cbn [length] in *; try lia; [reflexivity|]. cbn [skipn nth]. apply IHm. lia. }
    destruct SP as (a & x & c & -> & La). rewrite <- La. rewrite upd_app. rewrite app_nth2, Nat.sub_diag by lia. cbn [nth]. rewrite app_length in *. cbn [length] in *.
    replace (4 + S i)%nat with (length a + 1)%nat by lia. replace (length a + S (length c) - (length a + 1) - length n)%nat with (length c - length n)%nat by lia.
    replace (length a + S (length c) - length a - S (length n))%nat with (length c - length n)%nat by lia. unfold zeros. rewrite repeat_app. cbn [repeat].
    assert (XA : forall u v u' v', length u = length u' -> xorl (u ++ v) (u' ++ v') = xorl u u' ++ xorl v v').
    { clear. induction u as [|? u IHu]; intros v [|? u'] v' L; try discriminate; [reflexivity|]. cbn [app xorl]. f_equal. apply IHu. now injection L. }
    rewrite <- app_assoc. rewrite !XA by (now rewrite repeat_length). f_equal. cbn [app xorl]. now rewrite Z.lxor_0_r.
Qed.
Theorem C142_xor_object : forall fixed cs, length fixed = 12%nat -> Forall nonce8 cs ->
  run (xor_call seal open) (new_nonce fixed) cs = Ok (map (spec_answer (fun n => xorl fixed (zeros 4 ++ n))) cs).
Proof.
  intros fixed cs Lf H. rewrite new_nonce_12 by exact Lf. induction H as [|c cs Hc _ IH]; [reflexivity|].
  assert (X : forall n, length n = 8%nat -> xor_in 0 fixed n = Ok (xorl fixed (zeros 4 ++ n)) /\ xor_in 0 (xorl fixed (zeros 4 ++ n)) n = Ok fixed).
  { intros n Hn. assert (Lz : length (zeros 4 ++ n) = 12%nat) by (rewrite app_length, Hn; reflexivity).
    rewrite !xor_in_spec; rewrite ?xorl_length, ?Lz, ?Lf, ?Hn; try (cbn; lia). change (4 + 0)%nat with 4%nat. change (Nat.min 12 12 - 4 - 8)%nat with 0%nat. change (12 - 4 - 8)%nat with 0%nat. cbn [zeros repeat]. rewrite app_nil_r.
    split; [reflexivity|]. f_equal. apply xorl_involutive. cbn [app length]. lia. }
  destruct c as [n p ad|n p ad]; cbn [nonce8] in Hc; destruct (X n Hc) as (X1 & X2); cbn [run xor_call map spec_answer]; rewrite X1; cbn [rbind]; rewrite X2; cbn [rbind fst snd]; rewrite IH; reflexivity.
Qed.
(** *** What is written *)
Fixpoint records (f : Z -> list Z -> list Z) (k : Z) (parts : list (list Z)) : list (list Z) := match parts with [] => [] | p :: r => f k p :: records f (k + 1) r end.
(** type and version octets *)
Definition head3 (w : wconn) (typ : Z) : list Z := let v := if w_vers w =? 0 then 769 else w_vers w in [u8 typ; u8 (Z.shiftr v 8); u8 v].
Lemma header_split w typ m : 0 <= m -> record_header w typ m = head3 w typ ++ len16 (Z.to_nat m).
Proof. intros H. unfold record_header, head3, len16. rewrite Z2Nat.id by exact H. reflexivity. Qed.
Lemma write_one_aead a n w typ data rnd w' m k : h_cipher (w_out w) = Some (Aead a) -> h_mac (w_out w) = None -> h_seq (w_out w) = be_bytes 8 k -> 0 <= k < 2 ^ 64 ->
  a_nonce a = n -> (n = 8%nat \/ n = 0%nat) -> write_one w typ data rnd = Ok (w', m) ->
  let p := firstn m data in let body := firstn n (be_bytes 8 k) ++ a_seal a (be_bytes 8 k) p (ad_5246 k (head3 w typ) (length p)) in
  w_log w' = w_log w ++ [head3 w typ ++ len16 (length body) ++ body] /\ k < 2 ^ 64 - 1 /\ (m <= length data)%nat /\
  h_cipher (w_out w') = Some (Aead a) /\ h_mac (w_out w') = None /\ h_seq (w_out w') = be_bytes 8 (k + 1) /\ w_vers w' = w_vers w.
Proof.
  intros HC HM HS Hk Hn Hc. unfold write_one, explicit_iv_len. rewrite HC, Hn. destruct (maxPayloadSizeForWrite w typ n) as [mp pk].
  set (mz := if mp <? zlen data then mp else zlen data). assert (Hmz : mz <= zlen data) by (unfold mz; destruct (Z.ltb_spec mp (zlen data)); lia). destruct (Z.ltb_spec mz 0) as [|Hm]; [discriminate|].
  set (p := firstn (Z.to_nat mz) data). assert (Lp : length p = Z.to_nat mz) by (unfold p; rewrite firstn_length; unfold zlen in Hmz; lia).
  assert (IV : (if (0 <? n)%nat then (if (0 <? n)%nat then Some (fit n (h_seq (w_out w))) else rnd) else Some []) = Some (firstn n (be_bytes 8 k))).
  { rewrite HS. pose proof (be_bytes_length 8 k) as L8. destruct Hc as [-> | ->]; [|reflexivity]. cbn [Nat.ltb Nat.leb]. unfold fit. rewrite L8. cbn [Nat.sub zeros repeat]. now rewrite app_nil_r. }
  rewrite IV. set (e := firstn n (be_bytes 8 k)). assert (Le : length e = n) by (unfold e; rewrite firstn_length, be_bytes_length; lia).
  rewrite header_split by exact Hm. rewrite <- Lp. set (h3 := head3 w typ). assert (L3 : length h3 = 3%nat) by reflexivity.
  assert (L5 : length (h3 ++ len16 (length p)) = 5%nat) by reflexivity.
  unfold encrypt. rewrite HM. replace (length ((h3 ++ len16 (length p)) ++ e ++ p) <? 5 + n)%nat with false by (symmetry; apply Nat.ltb_ge; rewrite app_length, L5, app_length, Le; lia).
  assert (F5 : forall x, firstn 5 ((h3 ++ len16 (length p)) ++ x) = h3 ++ len16 (length p)) by (intros x; apply firstn_app_l; exact L5).
  assert (S5 : forall x, skipn 5 ((h3 ++ len16 (length p)) ++ x) = x) by (intros x; apply skipn_app_l; exact L5).
  assert (Fn : firstn n (e ++ p) = e) by (apply firstn_app_l; exact Le). assert (Sn : skipn n (e ++ p) = p) by (apply skipn_app_l; exact Le).
  assert (F3 : forall x, firstn 3 (h3 ++ x) = h3) by (intros x; apply firstn_app_l; exact L3).
  unfold encipher. rewrite HC, F5, S5, Fn, Sn.
  assert (NN : match e with [] => h_seq (w_out w) | _ => e end = be_bytes 8 k).
  { unfold e. destruct Hc as [-> | ->]; [|cbn [firstn]; exact HS]. rewrite firstn_all2 by (rewrite be_bytes_length; lia). pose proof (be_bytes_length 8 k) as L8. destruct (be_bytes 8 k) eqn:EB; [discriminate|reflexivity]. }
  rewrite NN. cbn [rbind].
  assert (AD : additional (h_seq (w_out w)) (h3 ++ len16 (length p)) (zlen ((h3 ++ len16 (length p)) ++ e ++ p) - 5 - Z.of_nat n) = ad_5246 k h3 (length p)).
  { assert (V : zlen ((h3 ++ len16 (length p)) ++ e ++ p) - 5 - Z.of_nat n = Z.of_nat (length p)) by (unfold zlen; rewrite app_length, L5, app_length; lia).
    rewrite V. unfold additional, ad_5246. rewrite HS, F3. reflexivity. }
  rewrite AD. set (body := e ++ a_seal a (be_bytes 8 k) p (ad_5246 k h3 (length p))).
  rewrite (incSeq_spec (set_cipher (w_out w) (Some (Aead a))) k HS Hk). destruct (Z.ltb_spec k (2 ^ 64 - 1)) as [Hk2|]; [|discriminate]. cbn [rbind].
  set (b1 := (h3 ++ len16 (length p)) ++ body).
  set (rec := firstn 3 b1 ++ [u8 (Z.shiftr (zlen b1 - 5) 8); u8 (zlen b1 - 5)] ++ skipn 5 b1).
  assert (ER : rec = h3 ++ len16 (length body) ++ body).
  { unfold rec, b1. rewrite S5. assert (V : zlen ((h3 ++ len16 (length p)) ++ body) - 5 = Z.of_nat (length body)) by (unfold zlen; rewrite app_length, L5; lia). rewrite V, <- app_assoc, F3. reflexivity. }
  intros H. apply Ok_inj in H. pose proof (f_equal fst H) as H1. pose proof (f_equal snd H) as H2. cbn [fst snd] in H1, H2. clear H. subst m w'. cbn [w_log w_out w_vers].
  assert (FP : firstn (length p) data = p) by (rewrite Lp; reflexivity). assert (LP : (length p <= length data)%nat) by (rewrite Lp; unfold zlen in Hmz; lia). clearbody p. cbv zeta. rewrite ER, FP.
  split; [reflexivity|]. split; [exact Hk2|]. split; [exact LP|]. repeat split. exact HM.
Qed.
Lemma write_loop_aead a n (Hn : a_nonce a = n) (Hc : n = 8%nat \/ n = 0%nat) : forall fuel w typ data rnds c w' m k, h_cipher (w_out w) = Some (Aead a) -> h_mac (w_out w) = None -> h_seq (w_out w) = be_bytes 8 k -> 0 <= k < 2 ^ 64 ->
  write_loop fuel w typ data rnds c = Ok (w', m) ->
  exists parts, concat parts = data /\ m = c + zlen data /\ k + zlen parts < 2 ^ 64 /\ h_seq (w_out w') = be_bytes 8 (k + zlen parts) /\
    w_log w' = w_log w ++ records (fun k p => let body := firstn n (be_bytes 8 k) ++ a_seal a (be_bytes 8 k) p (ad_5246 k (head3 w typ) (length p)) in head3 w typ ++ len16 (length body) ++ body) k parts.
Proof.
  induction fuel as [|fuel IH]; intros w typ data rnds c w' m k HC HM HS Hk; destruct data as [|d0 dt]; cbn [write_loop]; try discriminate.
  1,2: intros H; apply Ok_inj in H; injection H as <- <-; exists []; change (zlen (@nil Z)) with 0; change (zlen (@nil (list Z))) with 0; rewrite !Z.add_0_r, app_nil_r; repeat split; try assumption; lia.
  set (data := d0 :: dt). destruct (write_one w typ data (rnds 0%nat)) as [[w1 m1]| |] eqn:E; cbn [rbind]; try discriminate. intros H.
  apply (write_one_aead a n _ _ _ _ _ _ k) in E; try assumption. destruct E as (E1 & E2 & E3 & E4 & E5 & E6 & E7).
  apply (IH _ _ _ _ _ _ _ (k + 1)) in H; try assumption; [|lia]. destruct H as (parts & P1 & P2 & P3 & P4 & P5). exists (firstn m1 data :: parts).
  replace (zlen (firstn m1 data :: parts)) with (1 + zlen parts) by (unfold zlen; cbn [length]; lia). assert (0 <= zlen parts) by (unfold zlen; lia). split; [cbn [concat]; rewrite P1; apply firstn_skipn|]. split; [rewrite P2; unfold zlen; rewrite skipn_length; lia|]. split; [lia|]. split; [rewrite P4; f_equal; lia|].
  rewrite P5, E1, <- app_assoc. cbn [records app]. assert (H3 : head3 w1 typ = head3 w typ) by (unfold head3; now rewrite E7). rewrite H3. reflexivity.
Qed.
(** AES-GCM suites: the data, cut into parts, each in the record of RFC 5288 with the next sequence number *)
Theorem C142_written_5288 : forall fixed w typ data rnds w' m k, length fixed = 4%nat -> h_cipher (w_out w) = Some (Aead (gcm fixed)) -> h_mac (w_out w) = None -> h_seq (w_out w) = be_bytes 8 k -> 0 <= k < 2 ^ 64 ->
  writeRecordLocked w typ data rnds = Ok (w', m) ->
  exists parts, concat parts = data /\ m = zlen data /\ k + zlen parts < 2 ^ 64 /\ h_seq (w_out w') = be_bytes 8 (k + zlen parts) /\ w_log w' = w_log w ++ records (record_5288 fixed (head3 w typ)) k parts.
Proof.
  intros fixed w typ data rnds w' m k Lf HC HM HS Hk H. apply (write_loop_aead (gcm fixed) 8 eq_refl (or_introl eq_refl) _ _ _ _ _ _ _ _ k) in H; try assumption. destruct H as (parts & P1 & P2 & P3 & P4 & P5). exists parts.
  split; [exact P1|]. split; [exact P2|]. split; [exact P3|]. split; [exact P4|]. rewrite P5. f_equal. destruct (new_nonce_4 fixed Lf) as [NF _]. clear - NF. revert k. induction parts as [|p parts IH]; intros k; [reflexivity|]. cbn [records]. rewrite IH. f_equal.
  unfold record_5288, ct_5288, nonce_5288. cbn [a_seal gcm]. unfold TLS_aead_model.gcm. cbn [a_seal]. rewrite NF, (firstn_all2 (be_bytes 8 k)) by (rewrite be_bytes_length; lia). reflexivity.
Qed.
Lemma pad12 k : 0 <= k < 2 ^ 64 -> zeros 4 ++ be_bytes 8 k = be_bytes 12 k.
Proof. intros H. symmetry. apply (be_bytes_pad 8 12); [lia|exact H]. Qed.
(** ChaCha20-Poly1305 suites: the same with the records of RFC 7905 *)
Theorem C142_written_7905 : forall fixed w typ data rnds w' m k, length fixed = 12%nat -> h_cipher (w_out w) = Some (Aead (chacha fixed)) -> h_mac (w_out w) = None -> h_seq (w_out w) = be_bytes 8 k -> 0 <= k < 2 ^ 64 ->
  writeRecordLocked w typ data rnds = Ok (w', m) ->
  exists parts, concat parts = data /\ m = zlen data /\ k + zlen parts < 2 ^ 64 /\ h_seq (w_out w') = be_bytes 8 (k + zlen parts) /\ w_log w' = w_log w ++ records (record_7905 fixed (head3 w typ)) k parts.
Proof.
  intros fixed w typ data rnds w' m k Lf HC HM HS Hk H. apply (write_loop_aead (chacha fixed) 0 eq_refl (or_intror eq_refl) _ _ _ _ _ _ _ _ k) in H; try assumption. destruct H as (parts & P1 & P2 & P3 & P4 & P5). exists parts.
  split; [exact P1|]. split; [exact P2|]. split; [exact P3|]. split; [exact P4|]. rewrite P5. f_equal. assert (NF := new_nonce_12 fixed Lf). assert (Hk0 : 0 <= k) by lia. clear - NF P3 Hk0. revert k P3 Hk0. induction parts as [|p parts IH]; intros k P3 Hk0; [reflexivity|].
  assert (zlen (p :: parts) = 1 + zlen parts) by (unfold zlen; cbn [length]; lia). assert (0 <= zlen parts) by (unfold zlen; lia). cbn [records]. rewrite IH by lia. f_equal.
  unfold record_7905, ct_7905, nonce_7905. unfold TLS_aead_model.chacha. cbn [a_seal firstn app]. rewrite NF, <- pad12 by lia. reflexivity.
Qed.
(** *** No two records use the same nonce *)
Lemma be_inj n i j : 0 <= i < 256 ^ Z.of_nat n -> 0 <= j < 256 ^ Z.of_nat n -> be_bytes n i = be_bytes n j -> i = j.
Proof. intros Hi Hj E. rewrite <- (be_val_be_bytes_small n i Hi), <- (be_val_be_bytes_small n j Hj). now rewrite E. Qed.
Theorem C142_nonces_distinct : forall fixed i j, 0 <= i < 2 ^ 64 -> 0 <= j < 2 ^ 64 -> i <> j ->
  nonce_5288 fixed i <> nonce_5288 fixed j /\ (length fixed = 12%nat -> nonce_7905 fixed i <> nonce_7905 fixed j).
Proof.
  intros fixed i j Hi Hj NE. split.
  - intros E. unfold nonce_5288 in E. apply app_inv_head in E. apply NE. exact (be_inj 8 i j Hi Hj E).
  - intros Lf E. unfold nonce_7905 in E. apply NE. assert (2 ^ 64 <= 256 ^ Z.of_nat 12) by (vm_compute; discriminate). apply (be_inj 12); [lia|lia|]. rewrite (xorl_comm fixed), (xorl_comm fixed (be_bytes 12 j)) in E.
    rewrite <- (xorl_involutive (be_bytes 12 i) fixed), <- (xorl_involutive (be_bytes 12 j) fixed) by (rewrite be_bytes_length; lia). now rewrite E.
Qed.
(** *** What is read: exactly the records the AEAD opens under the nonce and additional data of the expected sequence number *)
Definition short_refused : Prop := forall n c ad, (length c < over)%nat -> open n c ad = None.
Lemma decrypt_aead a h hd body k : length hd = 5%nat -> h_cipher h = Some (Aead a) -> h_mac h = None -> h_seq h = be_bytes 8 k -> 0 <= k < 2 ^ 64 - 1 ->
  (forall n c ad, (length c < a_over a)%nat -> a_open a n c ad = None) ->
  let e := firstn (a_nonce a) body in let c := skipn (a_nonce a) body in
  decrypt h (hd ++ body) = match (if (length body <? a_nonce a)%nat then None else a_open a (match e with [] => be_bytes 8 k | _ => e end) c (ad_5246 k (firstn 3 hd) (length c - a_over a))) with
    | None => Ok (DecBad h) | Some p => Ok (DecOk (5 + length e) (hd ++ e ++ p) (set_seq h (be_bytes 8 (k + 1)))) end.
Proof.
  intros Lh HC HM HS Hk SR e c. unfold decrypt. replace (length (hd ++ body) <? 5)%nat with false by (symmetry; apply Nat.ltb_ge; rewrite app_length; lia).
  rewrite firstn_app_l, skipn_app_l by exact Lh. rewrite HM. unfold decipher. rewrite HC. destruct (length body <? a_nonce a)%nat; [reflexivity|]. cbv zeta. fold e c. rewrite HS. change (skipn (a_nonce a) body) with c.
  set (nn := match e with [] => be_bytes 8 k | _ => e end).
  assert (OP : a_open a nn c (additional (be_bytes 8 k) hd (zlen c - Z.of_nat (a_over a))) = a_open a nn c (ad_5246 k (firstn 3 hd) (length c - a_over a))).
  { destruct (Nat.lt_ge_cases (length c) (a_over a)) as [L|L]; [rewrite !SR by exact L; reflexivity|]. f_equal. unfold additional, ad_5246, len16. rewrite Nat2Z.inj_sub by exact L. reflexivity. }
  rewrite OP. clear OP. destruct (a_open a nn c (ad_5246 k (firstn 3 hd) (length c - a_over a))) as [p|]; [|reflexivity]. cbn [rbind]. rewrite set_cipher_mac, HM.
  rewrite (incSeq_spec (set_cipher h (Some (Aead a))) k HS) by lia. replace (k <? 2 ^ 64 - 1) with true by (symmetry; apply Z.ltb_lt; lia). cbn [rbind]. do 2 f_equal. rewrite <- HC. now destruct h.
Qed.
Theorem C142_read_5288 : forall fixed h hd body k, short_refused -> length fixed = 4%nat -> length hd = 5%nat -> h_cipher h = Some (Aead (gcm fixed)) -> h_mac h = None -> h_seq h = be_bytes 8 k -> 0 <= k < 2 ^ 64 - 1 ->
  (exists e c p, body = e ++ c /\ length e = 8%nat /\ open (fixed ++ e) c (ad_5246 k (firstn 3 hd) (length c - over)) = Some p /\ decrypt h (hd ++ body) = Ok (DecOk 13 (hd ++ e ++ p) (set_seq h (be_bytes 8 (k + 1))))) \/
  ((forall e c, body = e ++ c -> length e = 8%nat -> open (fixed ++ e) c (ad_5246 k (firstn 3 hd) (length c - over)) = None) /\ decrypt h (hd ++ body) = Ok (DecBad h)).
Proof.
  intros fixed h hd body k SR Lf Lh HC HM HS Hk. rewrite (decrypt_aead (gcm fixed) h hd body k Lh HC HM HS Hk) by (intros n c ad L; cbn [a_open TLS_aead_model.gcm a_over] in *; now apply SR). cbn [TLS_aead_model.gcm a_nonce a_over a_open].
  destruct (new_nonce_4 fixed Lf) as [NF _]. rewrite NF. destruct (Nat.ltb_spec (length body) 8) as [L|L].
  - right. split; [|reflexivity]. intros e c -> Le. rewrite app_length in L. lia.
  - set (e := firstn 8 body). set (c := skipn 8 body). assert (EB : body = e ++ c) by (symmetry; apply firstn_skipn). assert (Le : length e = 8%nat) by (unfold e; rewrite firstn_length; lia).
    replace (match e with [] => be_bytes 8 k | _ => e end) with e by (destruct e; [discriminate|reflexivity]). rewrite Le. change (5 + 8)%nat with 13%nat.
    destruct (open (fixed ++ e) c (ad_5246 k (firstn 3 hd) (length c - over))) as [p|] eqn:EO.
    + left. exists e, c, p. repeat split; auto.
    + right. split; [|reflexivity]. intros e' c' E2 Le'. assert (e' = e) by (unfold e; rewrite E2; symmetry; apply firstn_app_l; exact Le'). assert (c' = c) by (unfold c; rewrite E2; symmetry; apply skipn_app_l; exact Le'). subst e' c'. exact EO.
Qed.
Theorem C142_read_7905 : forall fixed h hd body k, short_refused -> length fixed = 12%nat -> length hd = 5%nat -> h_cipher h = Some (Aead (chacha fixed)) -> h_mac h = None -> h_seq h = be_bytes 8 k -> 0 <= k < 2 ^ 64 - 1 ->
  decrypt h (hd ++ body) = match open (nonce_7905 fixed k) body (ad_5246 k (firstn 3 hd) (length body - over)) with
    | Some p => Ok (DecOk 5 (hd ++ p) (set_seq h (be_bytes 8 (k + 1)))) | None => Ok (DecBad h) end.
Proof.
  intros fixed h hd body k SR Lf Lh HC HM HS Hk. rewrite (decrypt_aead (chacha fixed) h hd body k Lh HC HM HS Hk) by (intros n c ad L; cbn [a_open TLS_aead_model.chacha a_over] in *; now apply SR). cbn [TLS_aead_model.chacha a_nonce a_over a_open firstn skipn app length Nat.ltb Nat.leb Nat.add].
  rewrite new_nonce_12 by exact Lf. unfold nonce_7905. rewrite <- pad12 by lia. reflexivity.
Qed.
(** *** A record written is read back as the part it carries *)
Theorem C142_round_trip : forall fixed h h3 k p, short_refused -> length h3 = 3%nat -> h_mac h = None -> h_seq h = be_bytes 8 k -> 0 <= k < 2 ^ 64 - 1 ->
  (forall n q ad, length (seal n q ad) = (length q + over)%nat /\ open n (seal n q ad) ad = Some q) ->
  (length fixed = 4%nat -> h_cipher h = Some (Aead (gcm fixed)) -> exists d, decrypt h (record_5288 fixed h3 k p) = Ok (DecOk 13 d (set_seq h (be_bytes 8 (k + 1)))) /\ skipn 13 d = p) /\
  (length fixed = 12%nat -> h_cipher h = Some (Aead (chacha fixed)) -> exists d, decrypt h (record_7905 fixed h3 k p) = Ok (DecOk 5 d (set_seq h (be_bytes 8 (k + 1)))) /\ skipn 5 d = p).
Proof.
  intros fixed h h3 k p SR L3 HM HS Hk OK.
  assert (F3 : forall x, firstn 3 (h3 ++ x) = h3) by (intros x; apply firstn_app_l; exact L3).
  assert (L5 : forall n, length (h3 ++ len16 n) = 5%nat) by (intros n; rewrite app_length, L3; reflexivity). split; intros Lf HC.
  - unfold record_5288. cbv zeta. set (ct := ct_5288 fixed k h3 p). rewrite app_assoc. set (hd := h3 ++ len16 _).
    assert (EO : open (fixed ++ be_bytes 8 k) ct (ad_5246 k (firstn 3 hd) (length ct - over)) = Some p).
    { unfold hd. rewrite F3. unfold ct, ct_5288 at 2. rewrite (proj1 (OK _ _ _)). replace (length p + over - over)%nat with (length p) by lia. apply OK. }
    destruct (C142_read_5288 fixed h hd (be_bytes 8 k ++ ct) k SR Lf (L5 _) HC HM HS Hk) as [(e & c & q & E1 & E2 & E3 & E4)|[E _]].
    + assert (e = be_bytes 8 k) by (apply (f_equal (firstn 8)) in E1; rewrite !firstn_app_l in E1; [now symmetry|exact E2|apply be_bytes_length]). subst e. apply app_inv_head in E1. subst c. assert (q = p) by congruence. subst q.
      eexists. split; [exact E4|]. rewrite app_assoc. apply skipn_app_l. rewrite app_length, E2. unfold hd. now rewrite L5.
    + rewrite (E _ _ eq_refl (be_bytes_length 8 k)) in EO. discriminate.
  - unfold record_7905. cbv zeta. set (ct := ct_7905 fixed k h3 p). rewrite app_assoc. set (hd := h3 ++ len16 _).
    rewrite (C142_read_7905 fixed h hd ct k SR Lf (L5 _) HC HM HS Hk). unfold hd. rewrite F3. fold hd.
    replace (open (nonce_7905 fixed k) ct (ad_5246 k h3 (length ct - over))) with (Some p).
    + eexists. split; [reflexivity|]. apply skipn_app_l. apply L5.
    + unfold ct, ct_7905 at 2. rewrite (proj1 (OK _ _ _)). replace (length p + over - over)%nat with (length p) by lia. symmetry. apply OK.
Qed.
End C142.
(** Parameters that meet the hypotheses (a one-octet tag), and records written, read back, and refused after a change of one octet or out of order. *)
Definition ex_tag (n p ad : list Z) : Z := fold_left Z.add (n ++ p ++ ad) (zlen p) mod 256.
Definition ex_seal (n p ad : list Z) : list Z := p ++ [ex_tag n p ad].
Definition ex_open (n c ad : list Z) : option (list Z) := match c with [] => None | _ => if last c 0 =? ex_tag n (removelast c) ad then Some (removelast c) else None end.
Transparent be_bytes.
Definition ex_half (a : aeadT) (k : Z) : half := mkHalf 771 (Some (Aead a)) None (be_bytes 8 k) None None.
Definition ex_aead (a : aeadT) : bool :=
  match writeRecordLocked (mkW 771 (ex_half a 258) false 0 0 []) 23 (repeat 7 (Z.to_nat 16385)) (fun _ => None) with
  | Ok (w', m) =>
      (m =? 16385) && match w_log w' with
      | [r1; r2] =>
          match decrypt (ex_half a 258) r1, decrypt (ex_half a 259) r2, decrypt (ex_half a 258) r2, decrypt (ex_half a 259) (upd (5 + a_nonce a) 0 r2) with
          | Ok (DecOk o1 d1 _), Ok (DecOk o2 d2 _), Ok (DecBad _), Ok (DecBad _) => beqb (skipn o1 d1 ++ skipn o2 d2) (repeat 7 (Z.to_nat 16385)) && (length r2 =? 7 + a_nonce a)%nat
          | _, _, _, _ => false end
      | _ => false end
  | _ => false end.
Theorem C142_hyps : short_refused 1 ex_open /\ (forall n q ad, length (ex_seal n q ad) = (length q + 1)%nat /\ ex_open n (ex_seal n q ad) ad = Some q) /\
  ex_aead (gcm 1 ex_seal ex_open [1; 2; 3; 4]) = true /\ ex_aead (chacha 1 ex_seal ex_open [1; 2; 3; 4; 5; 6; 7; 8; 9; 10; 11; 12]) = true.
Proof.
  split; [intros n [|x c] ad H; [reflexivity|cbn [length] in H; lia]|]. split.
  - intros n q ad. unfold ex_seal. split; [now rewrite app_length|]. unfold ex_open. rewrite last_last, removelast_last, Z.eqb_refl. now destruct q.
  - split; vm_compute; reflexivity.
Qed.

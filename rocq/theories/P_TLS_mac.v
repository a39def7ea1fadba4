(** C143: record MACs. *)
From Verif Require Import GoBase GoLemmas HMAC SM3_spec SM3_proofs TLS_record_model TLS_prf_model TLS_prf_spec TLS_prf_proofs P_TLS_record TLS_mac_model.
From Verif Require SM3_model.
Open Scope Z_scope.
(** ** Specification: the MAC of RFC 5246, 6.2.3.1 (HMAC over sequence number, header, data) and that of SSL 3.0 (RFC 6101, 5.2.3.1) *)
Definition mac_5246 (H : list Z -> list Z) (B : nat) (key : list Z) (c : mcall) : list Z := hmac H B key (k_seq c ++ k_hdr c ++ k_data c).
Definition mac_6101 (H : list Z -> list Z) (n : nat) (key : list Z) (c : mcall) : list Z :=
  H (key ++ repeat 92 n ++ H (key ++ repeat 54 n ++ k_seq c ++ [nth 0 (k_hdr c) 0] ++ [nth 3 (k_hdr c) 0; nth 4 (k_hdr c) 0] ++ k_data c)).
(** legal calls: octets, of a total length below 2^59 *)
Definition ok_call (c : mcall) : Prop := bytes (k_seq c) /\ bytes (k_hdr c) /\ bytes (k_data c) /\ zlen (k_seq c) + zlen (k_hdr c) + zlen (k_data c) < 2 ^ 59 /\ (forall e, k_extra c = Some e -> bytes e).
Lemma tls10_call I H bnd R s m c : impl I H bnd R -> 2 ^ 59 <= bnd -> R s m -> ok_call c -> exists s' m', tls10MAC I s c = Ok (H (k_seq c ++ k_hdr c ++ k_data c), s') /\ R s' m'.
Proof.
  intros IM LB HR (B1 & B2 & B3 & BL & B4). destruct IM as [Hn Hb Hw Hs Hr]. unfold tls10MAC. pose proof (Hw _ _ _ (Hw _ _ _ (Hw _ _ _ (Hr _ _ HR) B1) B2) B3) as R3. cbn [app] in R3.
  destruct (Hs _ _ (firstn 0 (k_buf c)) R3) as (s1 & E1 & R1); [rewrite !zlen_app; lia|]. rewrite E1. cbn [rbind fst snd firstn app]. rewrite <- app_assoc in *.
  destruct (k_extra c) as [e|] eqn:EE; [|exists s1; eauto]. eexists _, _. split; [reflexivity|]. apply Hw; [exact R1|now apply B4].
Qed.
Lemma tls10_calls I H bnd R cs : impl I H bnd R -> 2 ^ 59 <= bnd -> Forall ok_call cs -> forall s m, R s m -> calls (tls10MAC I) s cs = Ok (map (fun c => H (k_seq c ++ k_hdr c ++ k_data c)) cs).
Proof.
  intros IM LB HF. induction HF as [|c cs Hc _ IH]; intros s m HR; [reflexivity|]. destruct (tls10_call I H bnd R s m c IM LB HR Hc) as (s' & m' & E & HR'). cbn [calls map]. rewrite E. cbn [rbind fst snd]. rewrite (IH _ _ HR'). reflexivity.
Qed.
Lemma hmac_calls I H R size key cs : impl I H (2 ^ 61) R -> good_hash H size -> (size <= h_bs I)%nat -> Z.of_nat (h_bs I) < 2 ^ 20 -> small key -> Forall ok_call cs ->
  (do h <- h_new (hmacI I key); calls (tls10MAC (hmacI I key)) h cs) = Ok (map (mac_5246 H (h_bs I) key) cs).
Proof.
  intros IM GH HB HB2 Hk HF. pose proof (hmac_implements I H R size key IM GH HB HB2 Hk) as IM2. destruct (i_new _ _ _ _ IM2) as (s & E & HR). rewrite E. cbn [rbind].
  apply (tls10_calls _ _ _ _ cs IM2) with (m := []); [vm_compute; discriminate|exact HF|exact HR].
Qed.
(** The GM suites: every MAC of every history of calls on one object is the HMAC-SM3 of sequence number, header and data, whatever was computed before and whatever the buffer and the extra data *)
Theorem C143_sm3 : forall key cs, small key -> Forall ok_call cs -> macSM3 key cs = Ok (map (mac_5246 sm3 64 key) cs).
Proof.
  intros key cs Hk HF. unfold macSM3. apply (hmac_calls (cth sm3I sm3_ctsum) sm3 holds 32 key cs); try assumption; try (cbn; lia).
  - destruct sm3_implements as [Hn Hb Hw Hs Hr]. constructor; assumption.
  - exact sm3_good.
Qed.
(** so the object is the stateless MAC of the record layer (C47, C48) *)
Lemma map_u8_id l : bytes l -> map u8 l = l.
Proof. intros H. unfold bytes in H. induction H as [|x l Hx _ IH]; [reflexivity|]. cbn [map]. rewrite IH. f_equal. unfold u8. apply Z.mod_small. exact Hx. Qed.
Theorem C143_record_mac : forall key cs, small key -> Forall ok_call cs -> macSM3 key cs = Ok (map (fun c => m_fun (gm_mac key) (k_seq c) (k_hdr c) (k_data c)) cs).
Proof.
  intros key cs Hk HF. rewrite C143_sm3 by assumption. f_equal. apply map_ext_in. intros c Hc. rewrite Forall_forall in HF. destruct (HF c Hc) as (B1 & B2 & B3 & _). unfold mac_5246, gm_mac. cbn [m_fun].
  rewrite map_u8_id; [reflexivity|]. apply bytes_app. split; [exact B1|]. apply bytes_app. now split.
Qed.
(** SHA-256 and, after SSL 3.0, SHA-1 suites, for hash objects that implement the hash function *)
Theorem C143_sha256 : forall I H R key cs, impl I H (2 ^ 61) R -> good_hash H 32 -> h_bs I = 64%nat -> small key -> Forall ok_call cs -> macSHA256 I key cs = Ok (map (mac_5246 H 64 key) cs).
Proof. intros I H R key cs IM GH HB Hk HF. unfold macSHA256. rewrite <- HB. apply (hmac_calls I H R 32); try assumption; rewrite HB; [lia|reflexivity]. Qed.
Theorem C143_sha1 : forall I ctsum H R version key cs, impl (cth I ctsum) H (2 ^ 61) R -> good_hash H 20 -> h_bs I = 64%nat -> small key -> Forall ok_call cs -> version <> 768 ->
  macSHA1 I ctsum version key cs = Ok (map (mac_5246 H 64 key) cs).
Proof.
  intros I ctsum H R version key cs IM GH HB Hk HF HV. unfold macSHA1. unfold VersionSSL30. change 0x300 with 768. destruct (Z.eqb_spec version 768) as [|_]; [contradiction|].
  pose proof (hmac_calls (cth I ctsum) H R 20 key cs IM GH) as X. cbn [cth h_bs] in X. rewrite HB in X. apply X; try assumption; [lia|reflexivity].
Qed.
(** SSL 3.0 *)
Theorem C143_ssl30 : forall I ctsum H R key cs, impl I H (2 ^ 61) R -> good_hash H 20 -> small key -> Forall ok_call cs -> Forall (fun c => length (k_hdr c) = 5%nat) cs ->
  macSHA1 I ctsum 768 key cs = Ok (map (mac_6101 H 40 key) cs).
Proof.
  intros I ctsum H R key cs IM GH [Bk Lk] HF HL. unfold macSHA1. change (768 =? VersionSSL30) with true. cbv iota. destruct (i_new _ _ _ _ IM) as (s & E & HR). rewrite E. cbn [rbind]. destruct IM as [Hn Hb Hw Hs Hr].
  clear E. assert (BP : forall n v, is_byte v -> bytes (repeat v n)) by (intros n v Hv; unfold bytes; apply Forall_forall; intros x Hx; apply repeat_spec in Hx; now subst).
  revert s HR. generalize (@nil Z). induction HF as [|c cs Hc HF IH]; intros m s HR; [reflexivity|]. apply Forall_cons_iff in HL as [L5 HL]. destruct Hc as (B1 & B2 & B3 & BL & _).
  destruct (k_hdr c) as [|t0 [|v1 [|v2 [|l1 [|l2 [|? ?]]]]]] eqn:EH; cbn [length] in L5; try lia. apply bytes_cons in B2 as [Bt B2]. apply bytes_cons in B2 as [_ B2]. apply bytes_cons in B2 as [_ B2].
  cbn [calls map]. unfold ssl30MAC at 1. rewrite EH. cbn [length Nat.ltb Nat.leb firstn skipn Nat.eqb]. change (firstn 40 (repeat 54 48)) with (repeat 54 40). change (firstn 40 (repeat 92 48)) with (repeat 92 40).
  assert (B5 : bytes [t0]) by (apply bytes_cons; split; [exact Bt|constructor]). assert (B54 : bytes (repeat 54 40)) by (apply BP; unfold is_byte; lia). assert (B92 : bytes (repeat 92 40)) by (apply BP; unfold is_byte; lia).
  assert (R1 := Hw _ _ _ (Hw _ _ _ (Hw _ _ _ (Hw _ _ _ (Hw _ _ _ (Hw _ _ _ (Hr _ _ HR) Bk) B54) B1) B5) B2) B3).
  match goal with |- context [h_sum I ?x []] => destruct (Hs x _ [] R1) as (s1 & E1 & R2) end; [rewrite !zlen_app; unfold zlen in *; rewrite repeat_length; cbn [length] in *; lia|]. rewrite E1. cbn [rbind fst snd app].
  set (d1 := H _) in *. assert (Gd : bytes d1 /\ length d1 = 20%nat) by (apply GH; apply (Hb _ _ R1)).
  assert (R3 := Hw _ _ _ (Hw _ _ _ (Hw _ _ _ (Hr _ _ R2) Bk) B92) (proj1 Gd)).
  match goal with |- context [h_sum I ?x []] => destruct (Hs x _ [] R3) as (s2 & E2 & R4) end; [rewrite !zlen_app; unfold zlen in *; rewrite repeat_length, (proj2 Gd); cbn [length] in *; lia|]. rewrite E2. cbn [rbind fst snd app].
  rewrite (IH HL _ _ R4). cbn [rbind]. f_equal. f_equal. unfold mac_6101. rewrite EH. cbn [nth]. unfold d1. rewrite <- !app_assoc. reflexivity.
Qed.
(** Hash objects that meet the hypotheses (a toy hash of the right size; SM3 itself), and MACs computed: the second call is not disturbed by the first, nor by the extra data. *)
Definition toyH (m : list Z) : list Z := zeros 19 ++ [fold_left Z.add m (zlen m) mod 256].
Definition toyI : hashI := mkHashI (list Z) (Ok []) (fun s p => s ++ p) (fun s b => Ok (b ++ toyH s, s)) (fun _ => []) 64.
Definition ex_c1 : mcall := mkCall [9; 9] (zeros 8) [23; 3; 0; 0; 2] [5; 6] (Some [1; 2; 3]).
Definition ex_c2 : mcall := mkCall [] [0; 0; 0; 0; 0; 0; 0; 1] [23; 3; 0; 0; 0] [] None.
Ltac oct := unfold bytes; repeat (apply Forall_cons; [unfold is_byte; lia|]); apply Forall_nil.
Theorem C143_hyps : impl toyI toyH (2 ^ 61) (fun s m => s = m /\ bytes m) /\ good_hash toyH 20 /\ impl sm3I sm3 (2 ^ 61) holds /\ Forall ok_call [ex_c1; ex_c2] /\ small [1; 2; 3] /\
  macSHA1 toyI (fun s b => Ok (b ++ toyH s, s)) 768 [1; 2; 3] [ex_c1; ex_c2] = Ok (map (mac_6101 toyH 40 [1; 2; 3]) [ex_c1; ex_c2]) /\
  mac_6101 toyH 40 [1; 2; 3] ex_c1 <> mac_6101 toyH 40 [1; 2; 3] ex_c2.
Proof.
  assert (BT : forall m, bytes (toyH m) /\ length (toyH m) = 20%nat).
  { intros m. unfold toyH. split; [|now rewrite app_length]. apply bytes_app. split; [apply bytes_zeros|]. apply bytes_cons. split; [unfold is_byte; apply Z.mod_pos_bound; reflexivity|constructor]. }
  split; [|split; [intros m _; apply BT|split; [exact sm3_implements|]]].
  - constructor.
    + exists []. repeat split. constructor.
    + intros s m [_ H]. exact H.
    + intros s m p [-> H] Hp. cbn. split; [reflexivity|]. apply bytes_app. now split.
    + intros s m inp [-> H] _. exists m. repeat split. exact H.
    + intros s m _. repeat split. constructor.
  - split; [|split; [|split; [vm_compute; reflexivity|vm_compute; discriminate]]].
    + assert (O1 : ok_call ex_c1) by (unfold ok_call, ex_c1; cbn [k_seq k_hdr k_data k_extra zeros repeat]; split; [oct|split; [oct|split; [oct|split; [reflexivity|intros e He; injection He as <-; oct]]]]).
      assert (O2 : ok_call ex_c2) by (unfold ok_call, ex_c2; cbn [k_seq k_hdr k_data k_extra]; split; [oct|split; [oct|split; [oct|split; [reflexivity|discriminate]]]]).
      apply Forall_cons; [exact O1|apply Forall_cons; [exact O2|apply Forall_nil]].
    + split; [oct|reflexivity].
Qed.

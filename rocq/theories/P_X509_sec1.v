(** C141: EC private keys in SEC 1 form. *)
From Verif Require Import GoBase GoLemmas BigBytes Asn1_model Asn1_go Asn1_local NT Prime_cert SM2_curve_spec SM2_group SM2_jac SM2_order SM2_spec SM2_model SM2_proofs Keys_model Keys_proofs P_Keys X509C_model X509C_ext_proofs X509_sec1_model.
Open Scope Z_scope.
#[local] Opaque sm2_n sm2_p smul pG be_bytes nbytes.
(** ** Specification: ECPrivateKey of RFC 5915, section 3, with an uncompressed public key (SEC 1, 2.3.3);
    [n]: octets of the order, [l]: octets of a field element *)
Definition rfc5915_key (n l : nat) (oid : list Z) (d x y : Z) : list Z :=
  der_seq [der_int 1; der_octets (be_bytes n d); der_tlv 160 (der_tlv 6 oid); der_tlv 161 (der_tlv 3 (0 :: [4] ++ be_bytes l x ++ be_bytes l y))].
(** the named curves and their object identifiers (DER contents): 1.2.156.10197.1.301, 1.3.132.0.33, 1.2.840.10045.3.1.7, 1.3.132.0.34, 1.3.132.0.35 *)
Inductive named : ncurve -> list Z -> Prop :=
| N_sm2 : named SM2C [42;129;28;207;85;1;130;45] | N_224 : named (NIST 0) [43;129;4;0;33] | N_256 : named (NIST 1) [42;134;72;206;61;3;1;7]
| N_384 : named (NIST 2) [43;129;4;0;34] | N_521 : named (NIST 3) [43;129;4;0;35].
Section C141.
Context {T : Type} (cv : curve T) (nist_order : nat -> Z) (nist_base : nat -> list Z -> Z * Z) (nist_len : nat -> nat).
Notation marshal := (MarshalECPrivateKey nist_order nist_len).
Notation parse := (ParseECPrivateKey T cv nist_order nist_base).
Notation olen := (order_len nist_order).
Notation flen := (field_len nist_len).
(** the sizes of real curves *)
Definition sizes_ok : Prop := forall i, zlen (be_bytes (olen (NIST i)) 0) < 2 ^ 20 /\ Z.of_nat (nist_len i) < 2 ^ 20.
Lemma named_iff c oid : named c oid <-> oidFromNamedCurve c = Some oid.
Proof.
  split; [intros []; reflexivity|]. destruct c as [|[|[|[|[|i]]]]]; cbn; intros [= <-]; constructor.
Qed.
Lemma named_back c oid : named c oid -> namedCurveFromOID oid = Some c /\ p_oid_content oid = Ok oid /\ zlen oid <= 8 /\ lowtag 6.
Proof. intros []; repeat split; discriminate. Qed.
Lemma pad_key n d : 0 <= d < 256 ^ Z.of_nat n -> (n <? length (Bytes (Z.abs d)))%nat = false /\ zeros (n - length (Bytes (Z.abs d))) ++ Bytes (Z.abs d) = be_bytes n d.
Proof.
  intros H. rewrite Z.abs_eq by lia. assert (L : (nbytes d <= n)%nat) by (apply nbytes_le; rewrite Z.abs_eq; lia). rewrite Bytes_length. split; [apply Nat.ltb_ge; exact L|].
  unfold Bytes. rewrite Z.abs_eq by lia. symmetry. apply be_bytes_pad; [exact L|]. pose proof (nbytes_bound d) as B. rewrite Z.abs_eq in B; lia.
Qed.
Lemma fill_ok n v : 0 <= v < 256 ^ Z.of_nat n -> FillBytes n v = Ok (be_bytes n v).
Proof. intros H. unfold FillBytes. rewrite Z.abs_eq by lia. destruct (Z.leb_spec (256 ^ Z.of_nat n) v); [lia|reflexivity]. Qed.
Lemma order_fits c d : 0 <= d < order nist_order c -> 0 <= d < 256 ^ Z.of_nat (olen c).
Proof. intros H. unfold order_len. pose proof (nbytes_bound (order nist_order c)). lia. Qed.
(** What is written: the structure of RFC 5915. *)
Theorem C141_written : forall c oid d x y, named c oid -> 0 <= d < order nist_order c -> 0 <= x < 256 ^ Z.of_nat (flen c) -> 0 <= y < 256 ^ Z.of_nat (flen c) ->
  marshal (SK_ec c d x y) = Ok (rfc5915_key (olen c) (flen c) oid d x y).
Proof.
  intros c oid d x y HN Hd Hx Hy. unfold MarshalECPrivateKey. apply named_iff in HN. rewrite HN. destruct (pad_key (olen c) d (order_fits c d Hd)) as [E1 E2]. rewrite E1, E2.
  unfold ecMarshal. rewrite !fill_ok by assumption. reflexivity.
Qed.
Lemma flen_small c : sizes_ok -> Z.of_nat (flen c) < 2 ^ 20.
Proof. intros S. destruct c as [|i]; [reflexivity|apply S]. Qed.
Lemma olen_small c : sizes_ok -> Z.of_nat (olen c) < 2 ^ 20.
Proof. intros S. destruct c as [|i]; [rewrite (proj2 (proj2 (sm2_n_range nist_order))); reflexivity|]. destruct (S i) as [H _]. unfold zlen in H. rewrite be_bytes_length in H. exact H. Qed.
Lemma unm_key n l oid d x y c : Z.of_nat n < 2 ^ 20 -> Z.of_nat l < 2 ^ 20 -> named c oid ->
  unm_sec1 (rfc5915_key n l oid d x y) = Ok (mkEC 1 (be_bytes n d) oid ([4] ++ be_bytes l x ++ be_bytes l y)).
Proof.
  intros Hn Hl HN. destruct (named_back c oid HN) as (_ & PO & LO & _). set (pub := [4] ++ be_bytes l x ++ be_bytes l y).
  assert (LP : zlen (0 :: pub) <= 2 ^ 22) by (unfold pub, zlen; cbn [app length]; rewrite app_length, !be_bytes_length; change (2 ^ 22) with 4194304; change (2 ^ 20) with 1048576 in *; lia).
  assert (LK : zlen (be_bytes n d) < 2 ^ 20) by (unfold zlen; rewrite be_bytes_length; exact Hn).
  pose proof (zlen_nonneg oid) as PO2. pose proof (zlen_nonneg (0 :: pub)) as PP2.
  change (2 ^ 22) with 4194304 in LP. change (2 ^ 20) with 1048576 in LK.
  assert (L31 : 2 ^ 31 = 2147483648) by reflexivity.
  pose proof (der_tlv_length 6 oid ltac:(lia)) as L1. pose proof (der_tlv_length 160 (der_tlv 6 oid) ltac:(lia)) as L2.
  pose proof (der_tlv_length 3 (0 :: pub) ltac:(lia)) as L3. pose proof (der_tlv_length 161 (der_tlv 3 (0 :: pub)) ltac:(lia)) as L4. pose proof (der_tlv_length 4 (be_bytes n d) ltac:(lia)) as L5.
  assert (L6 : zlen (der_int 1) = 3) by reflexivity.
  unfold unm_sec1, rfc5915_key, der_seq. fold pub. cbn [concat]. rewrite app_nil_r. unfold der_octets.
  set (ct := der_int 1 ++ der_tlv 4 (be_bytes n d) ++ der_tlv 160 (der_tlv 6 oid) ++ der_tlv 161 (der_tlv 3 (0 :: pub))).
  assert (LC : zlen ct < 2 ^ 31) by (unfold ct; rewrite !zlen_app; lia). rewrite <- (app_nil_r (der_tlv 48 ct)).
  rewrite (req_tlv 48 p_ec ct (mkEC 1 (be_bytes n d) oid pub) []); [reflexivity|discriminate|exact LC|].
  unfold p_ec, ct. unfold der_int. rewrite (req_tlv 2 p_int64 (int_content 1) 1); [|discriminate|reflexivity|reflexivity]. cbn [rbind snd fst].
  rewrite (req_tlv 4 p_id (be_bytes n d) (be_bytes n d)); [|discriminate|unfold Asn1_go.small; lia|reflexivity]. cbn [rbind snd fst].
  change 160 with (160 + 0). rewrite (explicit_tlv 0 6 p_oid_content oid oid); [|lia|discriminate|unfold Asn1_go.small; lia|exact PO]. cbn [rbind snd fst].
  rewrite <- (app_nil_r (der_tlv 161 _)). change 161 with (160 + 1). rewrite (explicit_tlv 1 3 p_bits (0 :: pub) (0, pub)); [|lia|discriminate|unfold Asn1_go.small; lia|apply p_bits_0]. reflexivity.
Qed.
(** Reading back: the same curve, scalar and point, for every key whose point is d times the base point. *)
Theorem C141_round_trip : sizes_ok -> forall c oid d x y, named c oid -> 0 <= d < order nist_order c -> 0 <= x < 256 ^ Z.of_nat (flen c) -> 0 <= y < 256 ^ Z.of_nat (flen c) ->
  (x, y) = baseMult T cv nist_base c (be_bytes (olen c) d) ->
  exists der, marshal (SK_ec c d x y) = Ok der /\ parse der = Ok (KEC c d x y).
Proof.
  intros SZ c oid d x y HN Hd Hx Hy HB. eexists. split; [apply C141_written; eassumption|]. unfold ParseECPrivateKey.
  pose proof (unm_key (olen c) (flen c) oid d x y c (olen_small c SZ) (flen_small c SZ) HN) as HU.
  apply C46_parse_ec_private_key.
  - intros e He. rewrite HU in He. injection He as <-. apply be_bytes_bytes.
  - eexists. split; [exact HU|]. split; [reflexivity|]. split; [cbn [e_oid]; apply (named_back c oid HN)|]. cbn [e_priv]. rewrite be_val_be_bytes_small by now apply order_fits. repeat split; try lia. exact HB.
Qed.
(** An SM2 key: every d in [0, n) with its public point d * G. *)
Theorem C141_sm2_keys : good_curve cv -> sizes_ok -> forall d, 0 <= d < sm2_n -> let Q := smul d pG in
  exists der, marshal (SK_ec SM2C d (fst (aff Q)) (snd (aff Q))) = Ok der /\ parse der = Ok (KEC SM2C d (fst (aff Q)) (snd (aff Q))).
Proof.
  intros GC SZ d Hd Q. assert (OQ : on_curve Q) by (apply on_smul; exact G_on). destruct (aff_range Q OQ) as [Rx Ry].
  apply (C141_round_trip SZ SM2C _ d _ _ N_sm2); [exact Hd|exact Rx|exact Ry|]. cbn [baseMult].
  rewrite (gc_base cv GC) by apply be_bytes_bytes. rewrite be_val_be_bytes_small by (apply (order_fits SM2C); exact Hd). fold Q. now destruct (aff Q).
Qed.
(** The public key in the structure is not used, nor is anything that follows the structure: the key returned depends on version, octets and curve only, and its point is computed. *)
Theorem C141_trailing_data : forall der junk k, parse der = Ok k -> parse (der ++ junk) = Ok k.
Proof.
  intros der junk k. unfold ParseECPrivateKey, parseECPrivateKey, unm_sec1. destruct (req 48 p_ec der) as [[e r]| |] eqn:E; cbn [rbind fst]; try discriminate.
  destruct (loc_req 48 p_ec _ _ _ E) as (p & -> & HP). rewrite <- app_assoc, HP. cbn [rbind fst]. auto.
Qed.
Theorem C141_recomputed : sizes_ok -> forall c oid d x y x' y', named c oid -> 0 <= d < order nist_order c ->
  (x, y) = baseMult T cv nist_base c (be_bytes (olen c) d) ->
  parse (rfc5915_key (olen c) (flen c) oid d x' y') = Ok (KEC c d x y).
Proof.
  intros SZ c oid d x y x' y' HN Hd HB. pose proof (unm_key (olen c) (flen c) oid d x' y' c (olen_small c SZ) (flen_small c SZ) HN) as HU. unfold ParseECPrivateKey. apply C46_parse_ec_private_key.
  - intros e He. rewrite HU in He. injection He as <-. apply be_bytes_bytes.
  - eexists. split; [exact HU|]. split; [reflexivity|]. split; [cbn [e_oid]; apply (named_back c oid HN)|]. cbn [e_priv]. rewrite be_val_be_bytes_small by now apply order_fits. repeat split; try lia. exact HB.
Qed.
(** What is accepted, for structures with any version, any scalar octets (padded with zeros, or shortened), curve present or not, public key present or not: exactly those with version 1, a named curve and a scalar below its order. *)
Definition sec1_any (v : Z) (k : list Z) (oid pub : option (list Z)) : list Z :=
  der_seq ([der_int v; der_octets k] ++ (match oid with Some o => [der_tlv 160 (der_tlv 6 o)] | None => [] end) ++ (match pub with Some p => [der_tlv 161 (der_tlv 3 (0 :: p))] | None => [] end)).
Lemma named_from c oid : named c oid <-> namedCurveFromOID oid = Some c.
Proof.
  split; [intros []; reflexivity|]. unfold namedCurveFromOID.
  destruct (beqb oid oidNamedCurveSm2) eqn:E1; [apply beqb_eq in E1 as ->; intros [= <-]; constructor|].
  destruct (beqb oid oidNamedCurveP224) eqn:E2; [apply beqb_eq in E2 as ->; intros [= <-]; constructor|].
  destruct (beqb oid oidNamedCurveP256) eqn:E3; [apply beqb_eq in E3 as ->; intros [= <-]; constructor|].
  destruct (beqb oid oidNamedCurveP384) eqn:E4; [apply beqb_eq in E4 as ->; intros [= <-]; constructor|].
  destruct (beqb oid oidNamedCurveP521) eqn:E5; [apply beqb_eq in E5 as ->; intros [= <-]; constructor|discriminate].
Qed.
Lemma unm_any v k oid pub : 0 <= v < 2 ^ 63 -> zlen k < 2 ^ 20 -> (forall o, oid = Some o -> p_oid_content o = Ok o /\ zlen o < 2 ^ 20) -> (forall p, pub = Some p -> zlen p < 2 ^ 20) ->
  unm_sec1 (sec1_any v k oid pub) = Ok (mkEC v k (match oid with Some o => o | None => [] end) (match pub with Some p => p | None => [] end)).
Proof.
  intros Hv Hk Ho Hp. change (2 ^ 20) with 1048576 in *. assert (L31 : 2 ^ 31 = 2147483648) by reflexivity.
  pose proof (int_content_length v ltac:(split; [lia|apply Z.lt_trans with (2 ^ 63); [lia|reflexivity]])) as LV. pose proof (zlen_nonneg k) as LK.
  pose proof (der_tlv_length 2 (int_content v) ltac:(lia)) as L1. pose proof (der_tlv_length 4 k ltac:(lia)) as L2.
  set (pb := match pub with Some p => [der_tlv 161 (der_tlv 3 (0 :: p))] | None => [] end).
  assert (LP : zlen (concat pb) < 2 ^ 22).
  { unfold pb. change (2 ^ 22) with 4194304. destruct pub as [p|]; [|reflexivity]. specialize (Hp p eq_refl). cbn [concat]. rewrite app_nil_r. pose proof (zlen_nonneg p). pose proof (zlen_cons 0 p).
    pose proof (der_tlv_length 3 (0 :: p) ltac:(lia)). pose proof (der_tlv_length 161 (der_tlv 3 (0 :: p)) ltac:(lia)). lia. }
  change (2 ^ 22) with 4194304 in LP.
  set (ob := match oid with Some o => [der_tlv 160 (der_tlv 6 o)] | None => [] end).
  assert (LO : zlen (concat ob) < 4194304).
  { unfold ob. destruct oid as [o|]; [|reflexivity]. destruct (Ho o eq_refl) as [_ L]. cbn [concat]. rewrite app_nil_r. pose proof (zlen_nonneg o).
    pose proof (der_tlv_length 6 o ltac:(lia)). pose proof (der_tlv_length 160 (der_tlv 6 o) ltac:(lia)). lia. }
  unfold unm_sec1, sec1_any, der_seq. fold ob pb. rewrite !concat_app. cbn [concat]. rewrite app_nil_r, <- app_assoc. unfold der_octets, der_int.
  set (ct := der_tlv 2 (int_content v) ++ der_tlv 4 k ++ concat ob ++ concat pb).
  assert (LC : zlen ct < 2 ^ 31) by (unfold ct; rewrite !zlen_app; lia). rewrite <- (app_nil_r (der_tlv 48 ct)).
  erewrite (req_tlv 48 p_ec ct _ []); [reflexivity|discriminate|exact LC|].
  unfold p_ec, ct. rewrite (req_tlv 2 p_int64 (int_content v) v); [|discriminate|unfold Asn1_go.small; lia|apply p_int64_content; lia]. cbn [rbind snd fst].
  rewrite (req_tlv 4 p_id k k); [|discriminate|unfold Asn1_go.small; lia|reflexivity]. cbn [rbind snd fst].
  assert (HP : explicit 1 3 p_bits (concat pb) = Ok (match pub with Some p => Some (0, p) | None => None end, [])).
  { unfold pb. destruct pub as [p|]; [|reflexivity]. specialize (Hp p eq_refl). cbn [concat]. pose proof (zlen_cons 0 p). pose proof (zlen_nonneg p). pose proof (der_tlv_length 3 (0 :: p) ltac:(lia)). change 161 with (160 + 1).
    apply explicit_tlv; [lia|discriminate|unfold Asn1_go.small; lia|apply p_bits_0]. }
  assert (HO : explicit 0 6 p_oid_content (concat ob ++ concat pb) = Ok (oid, concat pb)).
  { unfold ob. destruct oid as [o|].
    - destruct (Ho o eq_refl) as [PO L]. cbn [concat]. rewrite app_nil_r. pose proof (zlen_nonneg o). pose proof (der_tlv_length 6 o ltac:(lia)). change 160 with (160 + 0).
      apply explicit_tlv; [lia|discriminate|unfold Asn1_go.small; lia|exact PO].
    - cbn [concat app]. unfold pb. destruct pub as [p|]; [|reflexivity]. specialize (Hp p eq_refl). cbn [concat]. pose proof (zlen_cons 0 p). pose proof (zlen_nonneg p). pose proof (der_tlv_length 3 (0 :: p) ltac:(lia)).
      apply explicit_skip; [discriminate|unfold Asn1_go.small; lia| |reflexivity]. unfold der_tlv at 1. discriminate. }
  rewrite HO. cbn [rbind snd fst]. rewrite HP. cbn [rbind snd fst]. destruct oid, pub; reflexivity.
Qed.
Theorem C141_accepts : forall v k oid pub c d x y, 0 <= v < 2 ^ 63 -> bytes k -> zlen k < 2 ^ 20 ->
  (forall o, oid = Some o -> p_oid_content o = Ok o /\ zlen o < 2 ^ 20) -> (forall p, pub = Some p -> zlen p < 2 ^ 20) ->
  (parse (sec1_any v k oid pub) = Ok (KEC c d x y) <->
   v = 1 /\ (exists o, oid = Some o /\ named c o) /\ d = be_val k /\ d < order nist_order c /\ (x, y) = baseMult T cv nist_base c (be_bytes (olen c) d)).
Proof.
  intros v k oid pub c d x y Hv Hk Lk Ho Hp. pose proof (unm_any v k oid pub Hv Lk Ho Hp) as HU. unfold ParseECPrivateKey. rewrite C46_parse_ec_private_key; [|intros e He; rewrite HU in He; injection He as <-; exact Hk].
  rewrite HU. pose proof (be_val_bound k Hk). split.
  - intros (e & E & V & N & D & R & B). injection E as <-. cbn [e_version e_oid e_priv] in *. split; [exact V|]. split; [|split; [exact D|split; [apply R|exact B]]].
    destruct oid as [o|]; [|discriminate N]. exists o. split; [reflexivity|now apply named_from].
  - intros (V & (o & O & N) & D & R & B). eexists. split; [reflexivity|]. cbn [e_version e_oid e_priv]. rewrite O. apply named_from in N. repeat split; try assumption. lia.
Qed.
(** Other values and other curves are refused. *)
Theorem C141_refuses : marshal SK_other = Err 1 /\ forall c d x y, (forall oid, ~ named c oid) -> marshal (SK_ec c d x y) = Err 1.
Proof. split; [reflexivity|]. intros c d x y H. unfold MarshalECPrivateKey. destruct (oidFromNamedCurve c) as [oid|] eqn:E; [|reflexivity]. apply named_iff in E. destruct (H oid E). Qed.
(** But a scalar that does not fit the order's octets crashes MarshalECPrivateKey, whatever the point. *)
Theorem C141_panics_refuted : forall c oid d x y, named c oid -> 256 ^ Z.of_nat (olen c) <= d -> marshal (SK_ec c d x y) = Panic.
Proof.
  intros c oid d x y HN Hd. unfold MarshalECPrivateKey. apply named_iff in HN. rewrite HN. assert (0 <= 256 ^ Z.of_nat (olen c)) by (apply Z.pow_nonneg; lia). rewrite Z.abs_eq, Bytes_length by lia.
  replace (olen c <? nbytes d)%nat with true; [reflexivity|]. symmetry. apply Nat.ltb_lt. destruct (Nat.lt_ge_cases (olen c) (nbytes d)) as [L|L]; [exact L|]. exfalso.
  pose proof (nbytes_bound d) as B. rewrite Z.abs_eq in B by lia. assert (256 ^ Z.of_nat (nbytes d) <= 256 ^ Z.of_nat (olen c)) by (apply Z.pow_le_mono_r; lia). lia.
Qed.
(** No octet string crashes the parser. *)
Lemma loc_suffix {A} (p : list Z -> res (A * list Z)) b v r : loc p -> bytes b -> p b = Ok (v, r) -> bytes r.
Proof. intros L Hb H. destruct (L _ _ _ H) as (q & -> & _). apply bytes_app in Hb. apply Hb. Qed.
Lemma req_id_bytes t b v r : bytes b -> req t p_id b = Ok (v, r) -> bytes v.
Proof.
  intros Hb H. unfold req in H. apply bind_ok in H as ([h b1] & H1 & H). cbn [fst snd] in H. destruct (tag_is h t); [|discriminate]. apply bind_ok in H as ([c b2] & H2 & H). apply bind_ok in H as (w & H3 & H).
  cbn [fst snd] in *. apply Ok_inj in H. injection H as <- <-. unfold p_id in H3. apply Ok_inj in H3. subst w. pose proof (loc_suffix _ _ _ _ loc_parse_hdr Hb H1) as B1.
  unfold take in H2. destruct (_ <? _); [discriminate|]. apply Ok_inj in H2. injection H2 as <- <-. now apply bytes_firstn.
Qed.
Lemma unm_sec1_bytes der e : bytes der -> unm_sec1 der = Ok e -> bytes (e_priv e).
Proof.
  intros Hb H. unfold unm_sec1 in H. apply bind_ok in H as ([e' r] & H & X). cbn [fst] in X. apply Ok_inj in X. subst e'.
  unfold req in H. apply bind_ok in H as ([h b1] & H1 & H). cbn [fst snd] in H. destruct (tag_is h 48); [|discriminate]. apply bind_ok in H as ([c b2] & H2 & H). apply bind_ok in H as (w & H3 & H).
  cbn [fst snd] in *. apply Ok_inj in H. injection H as -> ->. pose proof (loc_suffix _ _ _ _ loc_parse_hdr Hb H1) as B1.
  assert (Bc : bytes c) by (unfold take in H2; destruct (_ <? _); [discriminate|]; apply Ok_inj in H2; injection H2 as <- _; now apply bytes_firstn).
  unfold p_ec in H3. apply bind_ok in H3 as ([v c1] & V & H3). apply bind_ok in H3 as ([k c2] & K & H3). apply bind_ok in H3 as ([o c3] & _ & H3). apply bind_ok in H3 as ([p c4] & _ & H3).
  cbn [fst snd] in *. apply Ok_inj in H3. subst e. cbn [e_priv]. eapply req_id_bytes; [|exact K]. eapply loc_suffix; [apply loc_req|exact Bc|exact V].
Qed.
Theorem C141_never_panics : forall der, bytes der -> parse der <> Panic.
Proof.
  intros der Hb. apply C46_no_panic; [|intros e He; eapply unm_sec1_bytes; eauto].
  unfold unm_sec1. apply np_bind; [|discriminate]. apply np_req. intros c. unfold p_ec.
  apply np_bind; [apply np_req; exact np_int64|intros ? _]. apply np_bind; [apply np_req; exact np_id|intros ? _]. apply np_bind; [apply np_explicit; exact np_oid|intros ? _].
  apply np_bind; [apply np_explicit; exact np_bits|intros ? _]. discriminate.
Qed.
End C141.
(** Parameters that meet the hypotheses, and one key written and read: d = 5 on a curve whose base multiplication gives (6, 7). *)
Transparent be_bytes nbytes.
Definition ex_sec1 : bool :=
  match MarshalECPrivateKey (fun _ => 2 ^ 256 - 189) (fun _ => 32%nat) (SK_ec (NIST 1) 5 6 7) with
  | Ok der => match ParseECPrivateKey unit cv_std (fun _ => 2 ^ 256 - 189) (fun _ _ => (6, 7)) (der ++ [1; 2]) with Ok (KEC (NIST 1) 5 6 7) => (zlen der =? 121) | _ => false end
  | _ => false end.
Theorem C141_hyps : sizes_ok (fun _ => 2 ^ 256 - 189) (fun _ => 32%nat) /\ good_curve cv_std /\ 0 <= 5 < sm2_n /\ ex_sec1 = true.
Proof.
  split; [intros i; split; vm_compute; reflexivity|]. split; [exact cv_std_good|]. split; [|vm_compute; reflexivity]. Transparent sm2_n. split; [discriminate|vm_compute; reflexivity].
Qed.

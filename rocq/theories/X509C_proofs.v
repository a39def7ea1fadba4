(** Round trip of whole certificates: what CreateCertificate (x509.go:1863) writes is what ParseCertificate (x509.go:1456) reads. *)
From Verif Require Import GoBase GoLemmas BigBytes Asn1_model Asn1_go NT Prime_cert SM2_curve_spec SM2_group SM2_jac SM2_order SM2_spec SM2_model SM2_proofs Keys_model Keys_proofs X509C_model X509C_ext_proofs X509C_spec.
Open Scope Z_scope.
Notation small := Asn1_go.small.

Lemma known_none o : ~ In o known_ids -> forall k, In k known_ids -> beqb o k = false.
Proof. intros H k Hk. apply beqb_neq. intros ->. exact (H Hk). Qed.

Section Handle.
Variables (nm : Type) (dec_name : list Z -> res nm).
Notation handle_ext := (handle_ext nm dec_name).
Notation handle_exts := (handle_exts nm dec_name).
Ltac hx := unfold X509C_model.handle_ext; cbn [ex_id ex_val ex_crit];
  repeat match goal with |- context [beqb ?a ?b] => let r := eval vm_compute in (beqb a b) in change (beqb a b) with r; cbv iota end.

Lemma handle_ku s c ku : handle_ext s (mkExt oidExtensionKeyUsage c (ku_value ku)) = Ok (set_ku s (ku mod 512), false).
Proof. hx. destruct (ku_roundtrip ku) as (v & -> & <-). exact eq_refl. Qed.
Lemma handle_bc s c ca mpl : - 2 ^ 63 <= mpl < 2 ^ 63 ->
  handle_ext s (mkExt oidExtensionBasicConstraints c (bc_value ca mpl)) = Ok (set_bc s ca mpl, false).
Proof. intros H. hx. rewrite bc_roundtrip by exact H. exact eq_refl. Qed.
Lemma handle_san s c d e i : Forall ip_len i -> small (marshalSANs d e i) ->
  handle_ext s (mkExt oidExtensionSubjectAltName c (marshalSANs d e i)) =
  Ok (set_san s (d, e, map ip_bytes i), (length d =? 0)%nat && (length e =? 0)%nat && (length i =? 0)%nat).
Proof. intros H HS. hx. rewrite san_roundtrip by assumption. cbn [rbind fst snd]. rewrite map_length. exact eq_refl. Qed.
Lemma handle_nc s c perm excl v : nc_value perm excl = Ok v -> small v -> Forall (fun n => n <> []) perm -> Forall (fun n => n <> []) excl ->
  handle_ext s (mkExt oidExtensionNameConstraints c v) = Ok (set_nc s perm excl c, false).
Proof.
  intros HV HS Hp He. hx. rewrite (nc_roundtrip _ _ _ HV HS). cbn [rbind fst snd]. rewrite !getDNSNames_all by assumption. exact eq_refl.
Qed.
Lemma handle_crldp s c l : small (crldp_value l) ->
  handle_ext s (mkExt oidExtensionCRLDistributionPoints c (crldp_value l)) = Ok (add_crldp s l, false).
Proof. intros HS. hx. destruct (crldp_roundtrip nm dec_name l HS) as [-> H]. cbn [rbind]. rewrite H. exact eq_refl. Qed.
Lemma handle_aki s c k : small (der_tlv 48 (der_tlv 128 k)) ->
  handle_ext s (mkExt oidExtensionAuthorityKeyId c (der_tlv 48 (der_tlv 128 k))) = Ok (set_aki s k, false).
Proof. intros HS. hx. rewrite aki_roundtrip by exact HS. exact eq_refl. Qed.
Lemma handle_eku s c l oids u : eku_oids l = Ok oids -> Forall (fun o => oid_ok o = true /\ extKeyUsageFromOID o = None) u ->
  small (der_tlv 48 (concat (map (der_tlv 6) (oids ++ u)))) ->
  handle_ext s (mkExt oidExtensionExtendedKeyUsage c (der_tlv 48 (concat (map (der_tlv 6) (oids ++ u))))) = Ok (add_eku s l u, false).
Proof.
  intros HE HU HS. hx.
  assert (HU1 : Forall (fun o => extKeyUsageFromOID o = None) u) by (revert HU; apply Forall_impl; tauto).
  assert (HU2 : Forall (fun o => oid_ok o = true) u) by (revert HU; apply Forall_impl; tauto).
  destruct (eku_split _ _ _ HE HU1) as (H1 & H2 & H3). rewrite oids_roundtrip; [|apply Forall_app; now split|exact HS].
  cbn [rbind]. rewrite H1, H2. exact eq_refl.
Qed.
Lemma handle_ski s c k : small (der_tlv 4 k) -> handle_ext s (mkExt oidExtensionSubjectKeyId c (der_tlv 4 k)) = Ok (set_ski s k, false).
Proof. intros HS. hx. rewrite ski_roundtrip by exact HS. exact eq_refl. Qed.
Lemma handle_pol s c l : Forall (fun o => oid_ok o = true) l -> small (der_tlv 48 (concat (map (fun p => der_tlv 48 (der_tlv 6 p)) l))) ->
  handle_ext s (mkExt oidExtensionCertificatePolicies c (der_tlv 48 (concat (map (fun p => der_tlv 48 (der_tlv 6 p)) l)))) = Ok (set_pol s l, false).
Proof. intros HO HS. hx. rewrite pol_roundtrip by assumption. exact eq_refl. Qed.
Lemma handle_aia s c o i : small (aia_value o i) ->
  handle_ext s (mkExt oidExtensionAuthorityInfoAccess c (aia_value o i)) = Ok (add_aia s o i, false).
Proof. intros HS. hx. destruct (aia_roundtrip o i HS) as (l & -> & H1 & H2). cbn [rbind]. rewrite H1, H2. exact eq_refl. Qed.
Lemma handle_unknown s e : ~ In (ex_id e) known_ids -> handle_ext s e = Ok (s, true).
Proof.
  intros H. pose proof (known_none _ H) as K. unfold X509C_model.handle_ext. cbv zeta.
  rewrite !K by (unfold known_ids; cbn [In]; tauto). exact eq_refl.
Qed.
Lemma handle_exts_app l1 : forall l2 s, handle_exts s (l1 ++ l2) = do s' <- handle_exts s l1; handle_exts s' l2.
Proof.
  induction l1 as [|e l1 IH]; intros l2 s; [exact eq_refl|]. cbn [app X509C_model.handle_exts]. destruct (handle_ext s e) as [r| |]; cbn [rbind]; auto.
Qed.
Definition crit_ids (l : list ext) : list (list Z) := map ex_id (filter ex_crit l).
Definition app_unh s l := let 'mkX y b c m z d e i p q k r a u w t o f g n := s in mkX y b c m z d e i p q k r a u w t o f g (n ++ l).
Lemma app_unh_nil s : app_unh s [] = s. Proof. destruct s. cbn. now rewrite app_nil_r. Qed.
Lemma handle_extra l : Forall (fun e => ~ In (ex_id e) known_ids) l -> forall s, handle_exts s l = Ok (app_unh s (crit_ids l)).
Proof.
  induction 1 as [|e l He Hl IH]; intros s; [cbn [X509C_model.handle_exts]; unfold crit_ids; cbn [filter map]; now rewrite app_unh_nil|].
  cbn [X509C_model.handle_exts]. rewrite handle_unknown by exact He. cbn [rbind fst snd]. rewrite andb_true_r, IH. f_equal.
  unfold crit_ids. cbn [filter]. destruct (ex_crit e); [|exact eq_refl]. destruct s. cbn [map add_unh app_unh]. now rewrite <- app_assoc.
Qed.
(** at most one extension, handled *)
Lemma handle_opt b e s s' : (b = true -> handle_ext s e = Ok (s', false)) -> handle_exts s (optl b e) = Ok (if b then s' else s).
Proof.
  destruct b; intros H; [|exact eq_refl]. cbn [optl X509C_model.handle_exts]. rewrite (H eq_refl). cbn [rbind fst snd]. now rewrite andb_false_r.
Qed.
End Handle.

Section Build.
Variables (nm tm : Type) (dec_name : list Z -> res nm).
Notation handle_exts := (handle_exts nm dec_name).
Lemma absent_extra (extra : list ext) oid : Forall (fun e => oid_ok (ex_id e) = true /\ ~ In (ex_id e) known_ids) extra -> In oid known_ids -> negb (oidInExtensions oid extra) = true.
Proof.
  intros H Hk. apply negb_true_iff. unfold oidInExtensions. apply not_true_iff_false. rewrite existsb_exists. intros (e & He & Hb).
  rewrite Forall_forall in H. destruct (H e He) as [_ N]. apply beqb_eq in Hb. apply N. now rewrite Hb.
Qed.
Lemma ifsame {A} (b : bool) (a : A) : (if b then a else a) = a. Proof. now destruct b. Qed.
(** every extension value of a list is small *)
Definition vals_small (l : list ext) : Prop := Forall (fun e => small (ex_val e)) l.
Lemma vals_optl b e : vals_small (optl b e) -> b = true -> small (ex_val e).
Proof. intros H ->. now inversion H. Qed.
Lemma build_exts (t : xcert nm tm) aki exts : exs_ok (c_x t) (c_extra t) -> buildExtensions nm tm t aki = Ok exts -> vals_small exts ->
  handle_exts x0 exts = Ok (written (c_x t) aki (c_extra t)) /\ Forall (fun e => oid_ok (ex_id e) = true) exts.
Proof.
  intros [Hmpl Hip [Hp He] Hueku Hpol Hextra] HB HV. unfold buildExtensions in HB. set (x := c_x t) in *. set (extra := c_extra t) in *. clearbody x extra. cbv zeta in HB.
  rewrite !absent_extra in HB by (exact Hextra || (cbn; tauto)). rewrite !andb_true_r in HB.
  apply bind_ok in HB as (e2 & He2 & HB). apply bind_ok in HB as (e9 & He9 & HB). apply Ok_inj in HB. subst exts.
  assert (HX : Forall (fun e => ~ In (ex_id e) known_ids) extra) by (revert Hextra; apply Forall_impl; tauto).
  assert (HXo : Forall (fun e => oid_ok (ex_id e) = true) extra) by (revert Hextra; apply Forall_impl; tauto).
  unfold vals_small in HV. repeat rewrite Forall_app in HV. destruct HV as (V1 & V2 & V3 & V4 & V5 & V6 & V7 & V8 & V9 & V10 & V11).
  pose proof (vals_optl _ _ V4) as S4. pose proof (vals_optl _ _ V5) as S5. pose proof (vals_optl _ _ V6) as S6. pose proof (vals_optl _ _ V7) as S7.
  pose proof (vals_optl _ _ V8) as S8. pose proof (vals_optl _ _ V10) as S10. cbn [ex_val] in *.
  assert (H2 : forall s, handle_exts s e2 = Ok (if nonempty (x_eku x) || nonempty (x_ueku x) then add_eku s (x_eku x) (x_ueku x) else s)
               /\ Forall (fun e => oid_ok (ex_id e) = true) e2).
  { intros s. destruct (nonempty (x_eku x) || nonempty (x_ueku x)).
    - apply bind_ok in He2 as (oids & Ho & He2). apply Ok_inj in He2. subst e2. inversion V2 as [|? ? Hs _]; subst. cbn [ex_val] in Hs.
      cbn [X509C_model.handle_exts]. rewrite (handle_eku nm dec_name s false _ _ _ Ho Hueku Hs). cbn [rbind fst snd andb]. split; [exact eq_refl|repeat constructor].
    - apply Ok_inj in He2. subst e2. split; [exact eq_refl|constructor]. }
  assert (H9 : forall s, handle_exts s e9 = Ok (if nonempty (x_perm x) || nonempty (x_excl x) then set_nc s (x_perm x) (x_excl x) (x_permcrit x) else s)
               /\ Forall (fun e => oid_ok (ex_id e) = true) e9).
  { intros s. destruct (nonempty (x_perm x) || nonempty (x_excl x)).
    - apply bind_ok in He9 as (v & Hv & He9). apply Ok_inj in He9. subst e9. inversion V9 as [|? ? Hs _]; subst. cbn [ex_val] in Hs.
      cbn [X509C_model.handle_exts]. rewrite (handle_nc nm dec_name s (x_permcrit x) _ _ _ Hv Hs Hp He). cbn [rbind fst snd]. rewrite andb_false_r.
      split; [exact eq_refl|repeat constructor].
    - apply Ok_inj in He9. subst e9. split; [exact eq_refl|constructor]. }
  split.
  2:{ repeat rewrite Forall_app. destruct (H2 x0) as [_ K2]. destruct (H9 x0) as [_ K9].
      repeat split; try assumption; match goal with |- Forall _ (optl ?b _) => destruct b; repeat constructor end. }
  fold oidExtensionKeyUsage in *. destruct x as [ku bcv isca mpl mplz dns email ip perm excl permcrit crldp aki' eku ueku ski pol ocsp iss unh].
  unfold written, path_len. cbn [x_ku x_bcv x_isca x_mpl x_mplz x_dns x_email x_ip x_perm x_excl x_permcrit x_crldp x_aki x_eku x_ueku x_ski x_pol x_ocsp x_iss x_unh] in *.
  set (pl := if (mpl =? 0) && negb mplz then -1 else mpl) in *.
  assert (Hpl : - 2 ^ 63 <= pl < 2 ^ 63) by (unfold pl; destruct (_ && _); lia). clearbody pl.
  rewrite handle_exts_app, (handle_opt _ _ _ _ _ (set_ku x0 (ku mod 512))) by (intros _; apply handle_ku). cbn [rbind].
  replace (if negb (ku =? 0) then set_ku x0 (ku mod 512) else x0) with (set_ku x0 (ku mod 512))
    by (destruct (Z.eqb_spec ku 0) as [-> | _]; exact eq_refl).
  clear V1. generalize (ku mod 512). clear ku. intros ku. cbn [set_ku x0].
  rewrite handle_exts_app, (proj1 (H2 _)). cbn [rbind].
  replace (if nonempty eku || nonempty ueku then add_eku (mkX ku false false 0 false [] [] [] [] [] false [] [] [] [] [] [] [] [] []) eku ueku
           else mkX ku false false 0 false [] [] [] [] [] false [] [] [] [] [] [] [] [] [])
    with (mkX ku false false 0 false [] [] [] [] [] false [] [] eku ueku [] [] [] [] []) by (destruct eku, ueku; exact eq_refl).
  rewrite handle_exts_app. erewrite handle_opt by (intros _; apply handle_bc; exact Hpl).
  cbn [rbind set_bc]. match goal with |- context [if bcv then ?a else ?b] =>
    replace (if bcv then a else b) with (mkX ku bcv (bcv && isca) (if bcv then pl else 0) (bcv && (pl =? 0)) [] [] [] [] [] false [] [] eku ueku [] [] [] [] [])
      by (destruct bcv; exact eq_refl) end.
  generalize (bcv && isca) (if bcv then pl else 0) (bcv && (pl =? 0)). intros isca' mpl' mplz'.
  rewrite handle_exts_app. erewrite handle_opt by (intros Hb; apply handle_ski, S4, Hb).
  cbn [rbind set_ski]. match goal with |- context [if nonempty ski then ?a else ?b] => replace (if nonempty ski then a else b) with a by (destruct ski; exact eq_refl) end.
  rewrite handle_exts_app. erewrite handle_opt by (intros Hb; apply handle_aki, S5, Hb).
  cbn [rbind set_aki]. match goal with |- context [if nonempty aki then ?a else ?b] => replace (if nonempty aki then a else b) with a by (destruct aki; exact eq_refl) end.
  rewrite handle_exts_app. erewrite handle_opt by (intros Hb; apply handle_aia, S6, Hb).
  cbn [rbind add_aia app]. match goal with |- context [if nonempty ocsp || nonempty iss then ?a else ?b] =>
    replace (if nonempty ocsp || nonempty iss then a else b) with a by (destruct ocsp, iss; exact eq_refl) end.
  rewrite handle_exts_app.
  match goal with |- context [handle_exts ?s (optl (nonempty dns || _ || _) _)] => rewrite (handle_opt _ _ _ _ s (set_san s (dns, email, map ip_bytes ip))) end.
  2:{ intros Hb. rewrite (handle_san nm dec_name _ false _ _ _ Hip (S7 Hb)). do 2 f_equal. destruct dns, email, ip; cbn in Hb |- *; congruence. }
  cbn [rbind set_san]. match goal with |- context [if nonempty dns || nonempty email || nonempty ip then ?a else ?b] =>
    replace (if nonempty dns || nonempty email || nonempty ip then a else b) with a by (destruct dns, email, ip; exact eq_refl) end.
  rewrite handle_exts_app. erewrite handle_opt by (intros Hb; apply handle_pol; [exact Hpol|apply S8, Hb]).
  cbn [rbind set_pol]. match goal with |- context [if nonempty pol then ?a else ?b] => replace (if nonempty pol then a else b) with a by (destruct pol; exact eq_refl) end.
  rewrite handle_exts_app, (proj1 (H9 _)). cbn [rbind set_nc].
  match goal with |- context [if nonempty perm || nonempty excl then ?a else ?b] =>
    replace (if nonempty perm || nonempty excl then a else b)
       with (mkX ku bcv isca' mpl' mplz' dns email (map ip_bytes ip) perm excl ((nonempty perm || nonempty excl) && permcrit) [] aki eku ueku ski pol ocsp iss [])
       by (destruct perm, excl; exact eq_refl) end.
  rewrite handle_exts_app. erewrite handle_opt by (intros Hb; apply handle_crldp, S10, Hb).
  cbn [rbind add_crldp app]. match goal with |- context [if nonempty crldp then ?a else ?b] => replace (if nonempty crldp then a else b) with a by (destruct crldp; exact eq_refl) end.
  rewrite handle_extra by exact HX. exact eq_refl.
Qed.
Lemma build_ids (t : xcert nm tm) aki exts : buildExtensions nm tm t aki = Ok exts ->
  exists built, exts = built ++ c_extra t /\ Forall (fun e => In (ex_id e) known_ids) built.
Proof.
  intros HB. unfold buildExtensions in HB. cbv zeta in HB. apply bind_ok in HB as (e2 & He2 & HB). apply bind_ok in HB as (e9 & He9 & HB). apply Ok_inj in HB. subst exts.
  match goal with |- context [?a1 ++ e2 ++ ?a3 ++ ?a4 ++ ?a5 ++ ?a6 ++ ?a7 ++ ?a8 ++ e9 ++ ?a10 ++ c_extra t] => exists (a1 ++ e2 ++ a3 ++ a4 ++ a5 ++ a6 ++ a7 ++ a8 ++ e9 ++ a10) end.
  split; [now rewrite <- !app_assoc|]. repeat rewrite Forall_app.
  assert (H2 : Forall (fun e => In (ex_id e) known_ids) e2).
  { match type of He2 with (if ?b then _ else _) = _ => destruct b end; [apply bind_ok in He2 as (o & _ & He2)|]; apply Ok_inj in He2; subst e2; repeat constructor; unfold known_ids; cbn [In ex_id]; tauto. }
  assert (H9 : Forall (fun e => In (ex_id e) known_ids) e9).
  { match type of He9 with (if ?b then _ else _) = _ => destruct b end; [apply bind_ok in He9 as (o & _ & He9)|]; apply Ok_inj in He9; subst e9; repeat constructor; unfold known_ids; cbn [In ex_id]; tauto. }
  repeat split; try assumption; match goal with |- Forall _ (optl ?b _) => destruct b; repeat constructor; unfold known_ids; cbn [In ex_id]; tauto end.
Qed.
Lemma known_oid_ok o : In o known_ids -> oid_ok o = true.
Proof. unfold known_ids. cbn [In]. intros H. repeat (destruct H as [<- | H]; [exact eq_refl|]). destruct H. Qed.
End Build.

(** ** The DER of a certificate *)
#[local] Opaque der_tlv.
Lemma der_bool_tlv : der_bool = der_tlv 1 [255]. Proof. with_strategy transparent [der_tlv] reflexivity. Qed.
Lemma null_tlv : NullBytes = der_tlv 5 []. Proof. with_strategy transparent [der_tlv] reflexivity. Qed.
Lemma p_ext_der e : oid_ok (ex_id e) = true -> small (der_ext e) -> forall rest, req 48 p_ext_content (der_ext e ++ rest) = Ok (e, rest).
Proof.
  intros HO HS rest. unfold der_ext in *. apply small_tlv in HS. apply req_tlv; [lt|exact HS|]. pose proof (small_app_l _ _ HS) as H1.
  apply small_app_r in HS. pose proof (small_app_r _ _ HS) as H2. unfold p_ext_content. rewrite p_oid_req by assumption. cbn [rbind fst snd].
  rewrite <- (app_nil_r (der_tlv 4 (ex_val e))). destruct e as [id crit v]. cbn [ex_id ex_crit ex_val] in *. apply small_tlv in H2. destruct crit.
  - rewrite der_bool_tlv, (opt_tlv 1 p_bool [255] true) by (lt || (unfold small; cbn; lia) || exact eq_refl). cbn [rbind fst snd].
    rewrite (req_tlv 4 p_id v v) by (lt || exact H2 || exact eq_refl). exact eq_refl.
  - cbn [app]. rewrite opt_skip by (lt || exact H2 || exact eq_refl). cbn [rbind fst snd].
    rewrite (req_tlv 4 p_id v v) by (lt || exact H2 || exact eq_refl). exact eq_refl.
Qed.
Lemma der_ext_nil e : der_ext e <> []. Proof. unfold der_ext. apply tlv_not_nil. Qed.
Lemma p_exts_der l : Forall (fun e => oid_ok (ex_id e) = true) l -> small (concat (map der_ext l)) -> p_exts (concat (map der_ext l)) = Ok l.
Proof.
  intros HO HS. apply seq_of_map. intros e rest He. split; [|apply der_ext_nil]. apply p_ext_der; [|exact (concat_small _ _ _ HS He)].
  rewrite Forall_forall in HO. auto.
Qed.
Lemma exts_vals_small l : small (concat (map der_ext l)) -> vals_small l.
Proof.
  intros H. apply Forall_forall. intros e He. pose proof (concat_small _ _ _ H He) as HS. unfold der_ext in HS.
  exact (small_tlv _ _ (small_app_r _ _ (small_app_r _ _ (small_tlv _ _ HS)))).
Qed.
Lemma req_alg oid p rest : oid_ok oid = true -> params1 p -> small (der_algid (oid, p)) -> req 48 p_alg (der_algid (oid, p) ++ rest) = Ok ((oid, p), rest).
Proof. intros HO HP HS. unfold der_algid in *. cbn [fst snd] in *. apply small_tlv in HS. apply req_tlv; [lt|exact HS|]. now apply p_alg_der. Qed.
Lemma req_bits b rest : small (der_bits b) -> req 3 p_bits (der_bits b ++ rest) = Ok ((0, b), rest).
Proof. intros HS. unfold der_bits in *. apply req_tlv; [lt|exact (small_tlv _ _ HS)|apply p_bits_0]. Qed.
Lemma p_spki_der k oid p rest : oid_ok oid = true -> params1 p -> small (der_spki (k, (oid, p))) ->
  p_spki (der_spki (k, (oid, p)) ++ rest) = Ok (mkSpki (der_spki (k, (oid, p))) (oid, p) (0, k), rest).
Proof.
  intros HO HP HS. unfold p_spki.
  rewrite (with_full_tlv _ (der_spki (k, (oid, p))) ((oid, p), (0, k)) rest); [exact eq_refl|]. unfold der_spki in *. cbn [fst snd] in *. apply small_tlv in HS. apply req_tlv; [lt|exact HS|].
  unfold p_spki_content. rewrite req_alg by (assumption || exact (small_app_l _ _ HS)). cbn [rbind fst snd].
  rewrite <- (app_nil_r (der_bits k)). rewrite req_bits by exact (small_app_r _ _ HS). exact eq_refl.
Qed.
Lemma req_int z rest : small (der_int z) -> req 2 int_value (der_int z ++ rest) = Ok (z, rest).
Proof. intros HS. unfold der_int in *. apply req_tlv; [lt|exact (small_tlv _ _ HS)|apply int_value_content]. Qed.
Section Tbs.
Variables (tm : Type) (enc_time : tm -> res (bool * list Z)) (dec_time : bool -> list Z -> res tm).
Lemma p_time_der t d t' rest : der_time tm enc_time t = Ok d -> time_ok enc_time dec_time t t' -> small d -> p_time tm dec_time (d ++ rest) = Ok (t', rest).
Proof.
  intros HD (g & c & Hg & Hc) HS. unfold der_time in HD. rewrite Hg in HD. cbn [rbind fst snd] in HD. apply Ok_inj in HD. subst d. unfold p_time.
  destruct g.
  - destruct (tlv_cons 24 c rest) as (b & E). rewrite E, <- E. apply req_tlv; [lt|exact (small_tlv _ _ HS)|exact Hc].
  - destruct (tlv_cons 23 c rest) as (b & E). rewrite E, <- E. apply req_tlv; [lt|exact (small_tlv _ _ HS)|exact Hc].
Qed.
Lemma p_validity_der t1 d1 t1' t2 d2 t2' : der_time tm enc_time t1 = Ok d1 -> time_ok enc_time dec_time t1 t1' ->
  der_time tm enc_time t2 = Ok d2 -> time_ok enc_time dec_time t2 t2' -> small (d1 ++ d2) -> p_validity tm dec_time (d1 ++ d2) = Ok (t1', t2').
Proof.
  intros H1 K1 H2 K2 HS. unfold p_validity, p_two. rewrite (p_time_der _ _ _ _ H1 K1) by exact (small_app_l _ _ HS). cbn [rbind fst snd].
  rewrite <- (app_nil_r d2). rewrite (p_time_der _ _ _ _ H2 K2) by exact (small_app_r _ _ HS). exact eq_refl.
Qed.
Lemma p_tbs_der serial oid p ic t1 d1 t1' t2 d2 t2' sc k koid kp exts :
  oid_ok oid = true -> params1 p -> oid_ok koid = true -> params1 kp ->
  der_time tm enc_time t1 = Ok d1 -> time_ok enc_time dec_time t1 t1' -> der_time tm enc_time t2 = Ok d2 -> time_ok enc_time dec_time t2 t2' ->
  Forall (fun e => oid_ok (ex_id e) = true) exts ->
  forall m rest, m = marshal_tbs serial (oid, p) (der_tlv 48 ic) d1 d2 (der_tlv 48 sc) (der_spki (k, (koid, kp))) exts -> small m ->
  with_full (req 48 (p_tbs_content tm dec_time)) (m ++ rest) =
    Ok (mkTbs 2 serial (oid, p) (der_tlv 48 ic) t1' t2' (der_tlv 48 sc) (mkSpki (der_spki (k, (koid, kp))) (koid, kp) (0, k)) exts, m, rest)
  /\ vals_small exts.
Proof.
  intros HO HP HKO HKP H1 K1 H2 K2 HE m rest Em HS.
  assert (HX : vals_small exts).
  { apply exts_vals_small. rewrite Em in HS. unfold marshal_tbs, der_exts in HS. apply small_tlv in HS.
    do 7 apply small_app_r in HS. now do 2 apply small_tlv in HS. }
  split; [|exact HX].
  apply with_full_tlv. rewrite Em in HS |- *. unfold marshal_tbs, der_exts in *. apply small_tlv in HS. apply req_tlv; [lt|exact HS|].
  pose proof (small_app_l _ _ HS) as S1. apply small_app_r in HS. pose proof (small_app_l _ _ HS) as S2. apply small_app_r in HS.
  pose proof (small_app_l _ _ HS) as S3. apply small_app_r in HS. pose proof (small_app_l _ _ HS) as S4. apply small_app_r in HS.
  pose proof (small_app_l _ _ HS) as S5. apply small_app_r in HS. pose proof (small_app_l _ _ HS) as S6. apply small_app_r in HS.
  pose proof (small_app_l _ _ HS) as S7. apply small_app_r in HS. apply small_tlv in S1, HS, S4, S5, S6.
  unfold p_tbs_content. unfold der_int at 1. rewrite (explicit_tlv 0 2 p_int64 _ 2) by (lia || lt || exact S1 || (apply p_int64_content; lia)). cbn [rbind fst snd].
  rewrite req_int by exact S2. cbn [rbind fst snd]. rewrite req_alg by assumption. cbn [rbind fst snd].
  rewrite any_tlv by (lt || exact S4). cbn [rbind fst snd r_full].
  rewrite (req_tlv 48 _ _ (t1', t2')) by (lt || exact S5 || (eapply p_validity_der; eassumption)). cbn [rbind fst snd].
  rewrite any_tlv by (lt || exact S6). cbn [rbind fst snd r_full]. rewrite p_spki_der by assumption. cbn [rbind fst snd].
  pose proof (small_tlv _ _ HS) as HSx.
  rewrite <- (app_nil_r (der_tlv 163 _)). rewrite opt_skip by (lt || exact HS || exact eq_refl). cbn [rbind fst snd].
  rewrite opt_skip by (lt || exact HS || exact eq_refl). cbn [rbind fst snd].
  change 163 with (160 + 3). rewrite (explicit_tlv 3 48 p_exts _ exts) by (lia || lt || exact HS || (apply p_exts_der; assumption)). exact eq_refl.
Qed.
Lemma p_certificate_der m t oid p sig :
  (forall rest, with_full (req 48 (p_tbs_content tm dec_time)) (m ++ rest) = Ok (t, m, rest)) ->
  oid_ok oid = true -> params1 p -> small (der_signed m (oid, p) sig) ->
  whole (p_certificate tm dec_time) (der_signed m (oid, p) sig) = Ok (mkCertificate (der_signed m (oid, p) sig) t m (oid, p) (0, sig)).
Proof.
  intros HT HO HP HS. apply whole_ok. unfold p_certificate.
  rewrite (with_full_tlv _ (der_signed m (oid, p) sig) (t, m, (oid, p), (0, sig)) []); [exact eq_refl|].
  unfold der_signed in *. apply small_tlv in HS. apply req_tlv; [lt|exact HS|]. apply small_app_r in HS. unfold p_certificate_content.
  rewrite HT. cbn [rbind fst snd]. rewrite req_alg by (assumption || exact (small_app_l _ _ HS)). cbn [rbind fst snd].
  rewrite <- (app_nil_r (der_bits sig)). rewrite req_bits by exact (small_app_r _ _ HS). exact eq_refl.
Qed.
End Tbs.

(** ** Algorithms and keys *)
Lemma find_details requested d : find (fun d : Z * list Z * Z * Z => fst (fst (fst d)) =? requested) signatureAlgorithmDetails = Some d ->
  In d signatureAlgorithmDetails /\ fst (fst (fst d)) = requested.
Proof. intros H. apply find_some in H as [H1 H2]. apply Z.eqb_eq in H2. now split. Qed.
Lemma pss_params1 h : params1 (rsaPSSParameters h).
Proof. right. unfold rsaPSSParameters. cbv zeta. do 2 eexists. split; [exact eq_refl|lt]. Qed.
Lemma signing_params k requested h oid p : signingParamsForPublicKey k requested = Ok (h, (oid, p)) ->
  oid_ok oid = true /\ params1 p /\ getSignatureAlgorithmFromAI (oid, p) = signature_algorithm k requested.
Proof.
  unfold signingParamsForPublicKey. intros H. apply bind_ok in H as ([[pt hf] [o1 p1]] & H1 & H).
  assert (HP1 : params1 p1 /\ (if pt =? RSA then True else p1 = []) /\ (pt = SM2 \/ pt = RSA \/ pt = ECDSA)).
  { destruct k as [[|i]| [|i] | | | |]; try discriminate H1.
    - injection H1 as <- <- <- <-. split; [now left|split; [exact eq_refl|now left]].
    - destruct (i <=? 1)%nat; [|destruct (i =? 2)%nat; [|destruct (i =? 3)%nat; [|discriminate]]]; injection H1 as <- <- <- <-; (split; [now left|split; [exact eq_refl|auto]]).
    - injection H1 as <- <- <- <-. split; [right; rewrite null_tlv; do 2 eexists; split; [exact eq_refl|lt]|split; [exact I|auto]]. }
  destruct HP1 as (HP1 & HP2 & HP3). destruct (Z.eqb_spec requested 0) as [->|Hr].
  - apply Ok_inj in H. injection H as <- <- <-. unfold signature_algorithm. change (0 =? 0) with true. cbv iota.
    destruct k as [[|i]| [|i] | | | |]; try discriminate H1.
    + injection H1 as <- <- <- <-. split; [exact eq_refl|split; [exact HP1|exact eq_refl]].
    + destruct i as [|[|[|[|i]]]]; cbn [Nat.leb Nat.eqb] in H1; try discriminate H1; injection H1 as <- <- <- <-; (split; [exact eq_refl|split; [exact HP1|exact eq_refl]]).
    + injection H1 as <- <- <- <-. split; [exact eq_refl|split; [exact HP1|exact eq_refl]].
  - destruct (find _ signatureAlgorithmDetails) as [[[[a o2] pk] h2]|] eqn:E; [|discriminate]. apply find_details in E as [Hin Ha]. cbn [fst] in Ha.
    destruct (Z.eqb_spec pk pt) as [->|]; [cbn [negb] in H|discriminate]. destruct (h2 =? 0) eqn:Eh; [discriminate|]. apply Ok_inj in H. injection H as <- <- <-.
    unfold signature_algorithm. replace (requested =? 0) with false by lia.
    assert (HPP : params1 (if isRSAPSS requested then rsaPSSParameters h2 else p1)) by (destruct (isRSAPSS requested); [apply pss_params1|exact HP1]).
    split; [|split; [exact HPP|]]; clear HPP.
    + clear -Hin. cbn [signatureAlgorithmDetails In] in Hin. repeat (destruct Hin as [E | Hin]; [injection E as <- <- <- <-; exact eq_refl|]). destruct Hin.
    + clear -Hin Ha HP2. cbn [signatureAlgorithmDetails In] in Hin.
      repeat (destruct Hin as [E | Hin]; [injection E as <- <- <- <-; subst requested;
        first [ vm_compute; exact eq_refl | (cbn in HP2; subst p1; vm_compute; exact eq_refl) ]|]). destruct Hin.
Qed.
Lemma bytes_app_inv a b : bytes (a ++ b) -> bytes a /\ bytes b. Proof. unfold bytes. rewrite Forall_app. tauto. Qed.
Lemma bytes_tlv t c : bytes (der_tlv t c) -> bytes c.
Proof. with_strategy transparent [der_tlv] unfold der_tlv. intros H. apply Forall_inv_tail in H. now apply bytes_app_inv in H. Qed.
Lemma ell_roundtrip x y : on_curve (Pt x y) -> ellUnmarshal (ellMarshal x y) = Some (x, y).
Proof.
  intros (Hx & Hy & He). assert (Hp : sm2_p < 2 ^ 256) by reflexivity. assert (Hx2 : 0 <= x < 2 ^ 256) by lia. assert (Hy2 : 0 <= y < 2 ^ 256) by lia.
  unfold ellMarshal. rewrite (pad32_Bytes x Hx2), (pad32_Bytes y Hy2).
  pose proof (be_bytes_length 32 x) as Lx. pose proof (be_bytes_length 32 y) as Ly.
  assert (Vx : be_val (be_bytes 32 x) = x) by (apply be_val_be_bytes_small; replace (256 ^ Z.of_nat 32) with (2 ^ 256) by reflexivity; exact Hx2).
  assert (Vy : be_val (be_bytes 32 y) = y) by (apply be_val_be_bytes_small; replace (256 ^ Z.of_nat 32) with (2 ^ 256) by reflexivity; exact Hy2).
  set (pub := [4] ++ be_bytes 32 x ++ be_bytes 32 y). assert (Lp : length pub = 65%nat) by (unfold pub; rewrite !app_length, Lx, Ly; reflexivity).
  unfold ellUnmarshal. rewrite Lp. change (65 =? 65)%nat with true. change (nth 0 pub 0) with 4. change (4 =? 4) with true. cbn [negb].
  change (skipn 1 pub) with (be_bytes 32 x ++ be_bytes 32 y). change (skipn 33 pub) with (skipn 32 (be_bytes 32 x ++ be_bytes 32 y)).
  rewrite firstn_app_l, skipn_app_l by (symmetry; assumption). cbv zeta. rewrite Vx, Vy.
  replace (sm2_p <=? x) with false by lia. replace (sm2_p <=? y) with false by lia. cbn [orb]. unfold on_curve_b. rewrite He, Z.eqb_refl. reflexivity.
Qed.
Section KeyRT.
Variables (nist_unm : nat -> list Z -> option (Z * Z)) (nist_mar : nat -> Z -> Z -> list Z).
Lemma oid_tlv_beq a b : beqb (der_tlv 6 a) (der_tlv 6 b) = true -> small a -> small b -> a = b.
Proof.
  intros H Ha Hb. apply beqb_eq in H. pose proof (parse_hdr_tlv 6 a [] ltac:(lt) Ha) as E1. pose proof (parse_hdr_tlv 6 b [] ltac:(lt) Hb) as E2.
  rewrite H in E1. rewrite E1 in E2. apply Ok_inj in E2. rewrite !app_nil_r in E2. now inversion E2.
Qed.
Lemma key_roundtrip pub k oid p raw : marshalPublicKey nist_mar pub = Ok (k, (oid, p)) -> pub_ok nist_unm nist_mar pub -> bytes k -> small k ->
  oid_ok oid = true /\ params1 p /\ keyAlgorithm (oid, p) = key_algorithm pub /\
  parsePublicKey nist_unm (keyAlgorithm (oid, p)) (mkSpki raw (oid, p) (0, k)) = Ok pub.
Proof.
  intros HM HP HB HS. destruct pub as [[|i] x y|[|i] x y|n e| | |]; cbn [pub_ok] in HP; try contradiction.
  - cbn [marshalPublicKey oidFromNamedCurve ec_marshal] in HM. apply Ok_inj in HM. injection HM as <- <- <-.
    split; [exact eq_refl|]. split; [right; do 2 eexists; split; [exact eq_refl|lt]|]. split; [vm_compute; exact eq_refl|].
    replace (keyAlgorithm (oidPublicKeyECDSA, der_tlv 6 oidNamedCurveSm2)) with SM2 by (vm_compute; exact eq_refl).
    unfold parsePublicKey. cbn [k_bits k_alg snd]. rewrite RightAlign_0 by exact HB. change (SM2 =? SM2) with true. cbv iota. unfold parse_ec.
    rewrite (whole_tlv 6 p_oid_content _ oidNamedCurveSm2) by (lt || (unfold small; cbn; lia) || exact eq_refl). cbn [rbind].
    replace (namedCurveFromOID oidNamedCurveSm2) with (Some SM2C) by (vm_compute; exact eq_refl). cbn [ec_unmarshal]. rewrite (ell_roundtrip _ _ HP). exact eq_refl.
  - cbn [marshalPublicKey] in HM. destruct (oidFromNamedCurve (NIST i)) as [o|] eqn:Eo; [|discriminate]. cbn [ec_marshal] in HM. apply Ok_inj in HM. injection HM as <- <- <-.
    assert (HO : oid_ok o = true /\ small o /\ namedCurveFromOID o = Some (NIST i) /\ keyAlgorithm (oidPublicKeyECDSA, der_tlv 6 o) = ECDSA).
    { destruct i as [|[|[|[|i]]]]; cbn [oidFromNamedCurve] in Eo; try discriminate; injection Eo as <-; (split; [exact eq_refl|split; [unfold small; cbn; lia|split; vm_compute; exact eq_refl]]). }
    destruct HO as (HO1 & HO2 & HO3 & HO4). rewrite HO4. split; [exact eq_refl|]. split; [right; do 2 eexists; split; [exact eq_refl|lt]|]. split; [exact eq_refl|].
    unfold parsePublicKey. cbn [k_bits k_alg snd]. rewrite RightAlign_0 by exact HB. change (ECDSA =? SM2) with false. change (ECDSA =? RSA) with false.
    change (ECDSA =? DSA) with false. change (ECDSA =? ECDSA) with true. cbv iota. unfold parse_ec.
    rewrite (whole_tlv 6 p_oid_content _ o) by (lt || exact HO2 || (unfold p_oid_content; rewrite HO1; exact eq_refl)). cbn [rbind]. rewrite HO3. cbn [ec_unmarshal]. rewrite HP. exact eq_refl.
  - cbn [marshalPublicKey] in HM. apply Ok_inj in HM. injection HM as <- <- <-. split; [exact eq_refl|].
    split; [right; rewrite null_tlv; do 2 eexists; split; [exact eq_refl|lt]|]. split; [vm_compute; exact eq_refl|].
    replace (keyAlgorithm (oidPublicKeyRSA, NullBytes)) with RSA by (vm_compute; exact eq_refl).
    unfold parsePublicKey. cbn [k_bits k_alg snd]. rewrite RightAlign_0 by exact HB. change (RSA =? SM2) with false. change (RSA =? RSA) with true. cbv iota.
    rewrite beqb_refl. cbn [negb]. apply small_tlv in HS.
    rewrite (whole_tlv 48 _ _ (n, e)).
    + cbn [rbind fst snd]. replace ((n <=? 0) || (e <=? 0)) with false by lia. exact eq_refl.
    + lt.
    + exact HS.
    + unfold p_two. rewrite req_int by exact (small_app_l _ _ HS). cbn [rbind fst snd]. rewrite <- (app_nil_r (der_int e)). unfold der_int.
      rewrite (req_tlv 2 p_int64 _ e); [exact eq_refl|lt|exact (small_tlv _ _ (small_app_r _ _ HS))|]. apply p_int64_content. lia.
Qed.
End KeyRT.

(** ** CreateCertificate, then ParseCertificate *)
Section Whole.
Variables (nm tm : Type) (enc_name : nm -> res (list Z)) (dec_name : list Z -> res nm) (enc_time : tm -> res (bool * list Z)) (dec_time : bool -> list Z -> res tm).
Variables (hashf : Z -> list Z -> list Z) (nist_unm : nat -> list Z -> option (Z * Z)) (nist_mar : nat -> Z -> Z -> list Z).
Notation CreateCertificate := (CreateCertificate nm tm enc_name enc_time hashf nist_mar).
Notation ParseCertificate := (ParseCertificate nm tm dec_name dec_time nist_unm).
Lemma create_parse (t parent : xcert nm tm) pub key der ib iname sb sname nb na : CreateCertificate t parent pub key = Ok der -> bytes der -> small der ->
  exs_ok (c_x t) (c_extra t) -> pub_ok nist_unm nist_mar pub -> name_ok enc_name dec_name parent ib iname -> name_ok enc_name dec_name t sb sname ->
  time_ok enc_time dec_time (c_nb t) nb -> time_ok enc_time dec_time (c_na t) na ->
  exists m spki exts sp sig, signingParamsForPublicKey (sg_pub key) (c_sigAlg t) = Ok sp /\
    sign_with hashf key (is_sm2 (sg_pub key)) (fst sp) (isRSAPSS (c_sigAlg t)) m = Ok sig /\ bytes m /\ small m /\ bytes sig /\ small sig /\
    ParseCertificate der = Ok (mkC der m spki sb ib sig (signature_algorithm (sg_pub key) (c_sigAlg t)) (key_algorithm pub) pub 3 (c_serial t) iname sname nb na exts []
                                (written (c_x t) (authority_key_id t parent sb ib) (c_extra t))) /\
    MarshalPKIXPublicKeyX nist_mar pub = Ok spki /\ (exists built, exts = built ++ c_extra t /\ Forall (fun e => In (ex_id e) known_ids) built) /\
    (forall p, getSignatureAlgorithmFromAI (snd sp) = p -> p = signature_algorithm (sg_pub key) (c_sigAlg t)).
Proof.
  intros HC HB HS HX HP (ic & Eib & HI & Hin) (sc & Esb & HSb & Hsn) Hnb Hna. unfold X509C_model.CreateCertificate in HC.
  destruct (c_serial t) as [serial|] eqn:Eser; [|discriminate]. apply bind_ok in HC as ([h [oid p]] & Hsp & HC). apply bind_ok in HC as ([k [koid kp]] & Hpk & HC).
  rewrite HI in HC. cbn [rbind] in HC. rewrite HSb in HC. cbn [rbind] in HC. cbv zeta in HC.
  replace (if negb (beqb ib sb) && nonempty (x_ski (c_x parent)) then x_ski (c_x parent) else x_aki (c_x t)) with (authority_key_id t parent sb ib) in HC.
  2:{ unfold authority_key_id. destruct (list_eq_dec Z.eq_dec ib sb) as [->|Hne]; [rewrite beqb_refl; exact eq_refl|].
      apply beqb_neq in Hne. rewrite Hne. destruct (x_ski (c_x parent)); exact eq_refl. }
  apply bind_ok in HC as (exts & Hex & HC). apply bind_ok in HC as (d1 & Hd1 & HC). apply bind_ok in HC as (d2 & Hd2 & HC).
  cbn [fst snd] in HC. set (m := marshal_tbs _ _ _ _ _ _ _ _) in HC. apply bind_ok in HC as (sig & Hsig & HC). apply Ok_inj in HC. subst der.
  destruct (signing_params _ _ _ _ _ Hsp) as (HO & HPr & Hga).
  pose proof HB as HB'. unfold der_signed in HB'. apply bytes_tlv, bytes_app_inv in HB' as [HBm HB']. apply bytes_app_inv in HB' as [_ HBs].
  unfold der_bits in HBs. apply bytes_tlv in HBs. apply Forall_inv_tail in HBs.
  pose proof HS as HS'. unfold der_signed in HS'. apply small_tlv in HS'. pose proof (small_app_l _ _ HS') as HSm. apply small_app_r, small_app_r in HS'.
  unfold der_bits in HS'. apply small_tlv, small_cons in HS'.
  assert (Hk : bytes k /\ small k).
  { split.
    - pose proof HBm as H. unfold m, marshal_tbs in H. apply bytes_tlv in H. do 6 apply bytes_app_inv, proj2 in H. apply bytes_app_inv, proj1 in H. unfold der_spki in H. apply bytes_tlv in H. apply bytes_app_inv, proj2 in H.
      cbn [fst] in H. unfold der_bits in H. apply bytes_tlv in H. now apply Forall_inv_tail in H.
    - pose proof HSm as H. unfold m, marshal_tbs in H. apply small_tlv in H. do 6 apply small_app_r in H. apply small_app_l in H. unfold der_spki in H. apply small_tlv, small_app_r in H.
      cbn [fst] in H. unfold der_bits in H. now apply small_tlv, small_cons in H. }
  destruct Hk as [HBk HSk].
  destruct (key_roundtrip _ _ _ _ _ _ (der_spki (k, (koid, kp))) Hpk HP HBk HSk) as (HKO & HKP & HKA & HKR).
  assert (HE : Forall (fun e => oid_ok (ex_id e) = true) exts /\ (vals_small exts -> handle_exts nm dec_name x0 exts = Ok (written (c_x t) (authority_key_id t parent sb ib) (c_extra t)))
               /\ exists built, exts = built ++ c_extra t /\ Forall (fun e => In (ex_id e) known_ids) built).
  { destruct (build_ids nm tm _ _ _ Hex) as (built & Ebu & Hbu). split; [|split].
    - rewrite Ebu. apply Forall_app. split; [revert Hbu; apply Forall_impl; intros a; apply known_oid_ok|].
      pose proof (ok_extra _ _ HX) as H. revert H. apply Forall_impl. tauto.
    - intros HV. exact (proj1 (build_exts nm tm dec_name t _ exts HX Hex HV)).
    - exists built. now split. }
  destruct HE as (HE1 & HE2 & HE3).
  subst ib sb.
  exists m, (der_spki (k, (koid, kp))), exts, (h, (oid, p)), sig. cbn [fst snd].
  split; [exact Hsp|]. split; [exact Hsig|]. split; [exact HBm|]. split; [exact HSm|]. split; [exact HBs|]. split; [exact HS'|].
  split; [|split; [unfold MarshalPKIXPublicKeyX; rewrite Hpk; exact eq_refl|split; [exact HE3|intros q <-; exact Hga]]].
  assert (HT : forall rest, with_full (req 48 (p_tbs_content tm dec_time)) (m ++ rest) =
    Ok (mkTbs 2 serial (oid, p) (der_tlv 48 ic) nb na (der_tlv 48 sc) (mkSpki (der_spki (k, (koid, kp))) (koid, kp) (0, k)) exts, m, rest) /\ vals_small exts).
  { intros rest. exact (p_tbs_der tm enc_time dec_time serial oid p ic _ d1 nb _ d2 na sc k koid kp exts HO HPr HKO HKP Hd1 Hnb Hd2 Hna HE1 m rest eq_refl HSm). }
  unfold X509C_model.ParseCertificate. rewrite (p_certificate_der tm dec_time m _ oid p sig (fun r => proj1 (HT r)) HO HPr HS). cbn [rbind].
  unfold parseCertificate. cbn [i_tbs b_spki k_alg b_subject b_issuer b_exts i_raw i_rawTBS k_raw i_sig b_alg b_version b_serial b_nb b_na].
  rewrite HKR. cbn [rbind]. assert (HSsc : small sc /\ small ic).
  { pose proof HSm as H. unfold m, marshal_tbs in H. apply small_tlv in H. do 3 apply small_app_r in H. split.
    - do 2 apply small_app_r in H. apply small_app_l in H. now apply small_tlv in H.
    - apply small_app_l in H. now apply small_tlv in H. }
  rewrite (whole_tlv 48 dec_name sc sname) by (lt || tauto). cbn [rbind]. rewrite (whole_tlv 48 dec_name ic iname) by (lt || tauto). cbn [rbind].
  rewrite (HE2 (proj2 (HT []))). cbn [rbind]. rewrite RightAlign_0 by exact HBs. rewrite Hga, HKA. exact eq_refl.
Qed.
End Whole.

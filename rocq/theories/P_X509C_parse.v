(** Properties of parsing and checking certificates (x509/x509.go), for every input. *)
From Verif Require Import GoBase GoLemmas BigBytes Asn1_model Asn1_go Asn1_local SM3_model SM2_curve_spec SM2_spec SM2_model SM2_proofs Keys_model Keys_proofs X509C_model X509C_ext_proofs X509C_spec X509C_proofs.
Open Scope Z_scope.
#[local] Opaque der_tlv Verify SumSM3.
Notation small := Asn1_go.small (only parsing).

Section P.
Variables (nm tm : Type) (dec_name : list Z -> res nm) (dec_time : bool -> list Z -> res tm).
Variables (hashf : Z -> list Z -> list Z) (rsa_verify : bool -> Z -> Z -> Z -> list Z -> list Z -> bool) (dsa_verify : Z -> Z -> Z -> Z -> list Z -> Z -> Z -> bool)
  (ecdsa_verify : ncurve -> Z -> Z -> list Z -> Z -> Z -> bool) (nist_unm : nat -> list Z -> option (Z * Z))
  (T : Type) (cv : curve T) (sm2_verify_nist : nat -> Z -> Z -> list Z -> Z -> Z -> res bool).
Notation ParseCertificate := (ParseCertificate nm tm dec_name dec_time nist_unm).
Notation ParseCertificates := (ParseCertificates nm tm dec_name dec_time nist_unm).
Notation ParseCertificateRequest := (ParseCertificateRequest nm dec_name nist_unm).
Notation ParseDERCRL := (ParseDERCRL nm tm dec_name dec_time).
Notation CheckSignatureFrom := (CheckSignatureFrom nm tm hashf rsa_verify dsa_verify ecdsa_verify T cv sm2_verify_nist).
Notation checkSignature := (checkSignature hashf rsa_verify dsa_verify ecdsa_verify T cv sm2_verify_nist).

(** ** C101: what the signature covers *)
(** the certificate without the fields the signature cannot cover: Raw and Signature *)
Definition signed_part (c : xcert nm tm) : xcert nm tm :=
  mkC [] (c_rawTBS c) (c_rawSPKI c) (c_rawSubject c) (c_rawIssuer c) [] (c_sigAlg c) (c_pubAlg c) (c_pub c) (c_version c) (c_serial c) (c_issuer c) (c_subject c)
    (c_nb c) (c_na c) (c_exts c) (c_extra c) (c_x c).
Lemma p_certificate_inv b i r : p_certificate tm dec_time b = Ok (i, r) ->
  (forall r', req 48 (p_tbs_content tm dec_time) (i_rawTBS i ++ r') = Ok (i_tbs i, r')) /\ b = i_raw i ++ r.
Proof.
  unfold p_certificate. intros H. apply bind_ok in H as ([[[[[t rt] a] s] full] r2] & H1 & H). cbn [fst snd] in H. apply Ok_inj in H. injection H as <- <-. cbn [i_rawTBS i_tbs i_raw].
  destruct (with_full_inv _ _ _ _ _ (loc_req 48 _) H1) as [Eb K]. split; [|exact Eb]. specialize (K []). unfold req in K.
  apply bind_ok in K as (h & _ & K). destruct (tag_is _ _); [|discriminate]. apply bind_ok in K as (c & _ & K). apply bind_ok in K as (v & K & E).
  apply Ok_inj in E. injection E as -> _. unfold p_certificate_content in K. apply bind_ok in K as ([[t' rt'] r3] & K1 & K). apply bind_ok in K as (a' & _ & K).
  apply bind_ok in K as (s' & _ & K). apply Ok_inj in K. injection K as -> -> _ _. destruct (with_full_inv _ _ _ _ _ (loc_req 48 _) K1) as [_ K2]. exact K2.
Qed.
Theorem C101_signed_bytes_determine_fields : forall d1 d2 c1 c2,
  ParseCertificate d1 = Ok c1 -> ParseCertificate d2 = Ok c2 -> c_rawTBS c1 = c_rawTBS c2 -> signed_part c1 = signed_part c2.
Proof.
  intros d1 d2 c1 c2 H1 H2 E. unfold X509C_model.ParseCertificate in *. apply bind_ok in H1 as (i1 & W1 & H1). apply bind_ok in H2 as (i2 & W2 & H2).
  unfold whole in W1, W2. apply bind_ok in W1 as ([j1 r1] & P1 & W1). apply bind_ok in W2 as ([j2 r2] & P2 & W2). cbn [fst snd] in *.
  destruct r1; [|discriminate]. destruct r2; [|discriminate]. apply Ok_inj in W1, W2. subst j1 j2.
  apply p_certificate_inv in P1 as [P1 _]. apply p_certificate_inv in P2 as [P2 _].
  unfold parseCertificate in H1, H2. apply bind_ok in H1 as (pub1 & A1 & H1). apply bind_ok in H2 as (pub2 & A2 & H2).
  apply bind_ok in H1 as (s1 & B1 & H1). apply bind_ok in H2 as (s2 & B2 & H2). apply bind_ok in H1 as (u1 & C1 & H1). apply bind_ok in H2 as (u2 & C2 & H2).
  apply bind_ok in H1 as (x1 & D1 & H1). apply bind_ok in H2 as (x2 & D2 & H2). apply Ok_inj in H1, H2. subst c1 c2.
  cbn [c_rawTBS] in E. specialize (P1 []). specialize (P2 []). rewrite E in P1. rewrite P1 in P2. apply Ok_inj in P2. apply (f_equal fst) in P2. cbn [fst] in P2.
  rewrite <- P2 in *. unfold signed_part. cbn [c_rawTBS c_rawSPKI c_rawSubject c_rawIssuer c_sigAlg c_pubAlg c_pub c_version c_serial c_issuer c_subject c_nb c_na c_exts c_extra c_x].
  rewrite E. congruence.
Qed.
(** The outer AlgorithmIdentifier is neither used nor compared with the signed one: replacing it by any other well-formed
    one gives a certificate that parses to the same fields and signature. *)
Theorem C101_outer_algorithm_ignored_refuted : forall m oid p oid' p' sig c,
  oid_ok oid = true -> params1 p -> oid_ok oid' = true -> params1 p' ->
  small (der_signed m (oid, p) sig) -> small (der_signed m (oid', p') sig) ->
  ParseCertificate (der_signed m (oid, p) sig) = Ok c -> c_rawTBS c = m ->
  exists c', ParseCertificate (der_signed m (oid', p') sig) = Ok c' /\ signed_part c' = signed_part c /\ c_sig c' = c_sig c.
Proof.
  intros m oid p oid' p' sig c HO HP HO' HP' HS HS' H Em. unfold X509C_model.ParseCertificate in *. apply bind_ok in H as (i & W & H).
  pose proof W as W0. unfold whole in W. apply bind_ok in W as ([j r] & PC & W). cbn [fst snd] in W. destruct r; [|discriminate]. apply Ok_inj in W. subst j.
  apply p_certificate_inv in PC as [Kt _].
  assert (Ei : i_rawTBS i = m).
  { unfold parseCertificate in H. apply bind_ok in H as (x1 & _ & H). apply bind_ok in H as (x2 & _ & H). apply bind_ok in H as (x3 & _ & H). apply bind_ok in H as (x4 & _ & H).
    apply Ok_inj in H. subst c. exact Em. }
  rewrite Ei in Kt.
  assert (HT : forall rest, with_full (req 48 (p_tbs_content tm dec_time)) (m ++ rest) = Ok (i_tbs i, m, rest)) by (intros rest; apply with_full_tlv, Kt).
  rewrite (p_certificate_der tm dec_time m (i_tbs i) oid p sig HT HO HP HS) in W0. apply Ok_inj in W0.
  rewrite (p_certificate_der tm dec_time m (i_tbs i) oid' p' sig HT HO' HP' HS'). cbn [rbind]. rewrite <- W0 in H. clear W0.
  unfold parseCertificate in *. cbn [i_tbs i_raw i_rawTBS i_sig] in *. apply bind_ok in H as (x1 & -> & H). apply bind_ok in H as (x2 & -> & H). apply bind_ok in H as (x3 & -> & H).
  apply bind_ok in H as (x4 & -> & H). apply Ok_inj in H. subst c. cbn [rbind]. eexists. split; [exact eq_refl|]. split; exact eq_refl.
Qed.

(** ** C102: critical extensions *)
Lemma unh_handled s e s' b : handle_ext nm dec_name s e = Ok (s', b) -> x_unh s' = x_unh s /\ (~ In (ex_id e) known_ids -> b = true) /\
  (b = true -> ~ In (ex_id e) known_ids \/ ex_id e = oidExtensionSubjectAltName).
Proof.
  intros H. destruct (in_dec (list_eq_dec Z.eq_dec) (ex_id e) known_ids) as [Hk|Hk].
  2:{ rewrite handle_unknown in H by exact Hk. apply Ok_inj in H. injection H as <- <-. split; [exact eq_refl|split; [intros _; exact eq_refl|intros _; now left]]. }
  split; [|split; [intros N; contradiction|]].
  - unfold handle_ext in H. cbv zeta in H.
    repeat match type of H with (if ?b then _ else _) = _ => destruct b end;
      repeat (apply bind_ok in H as (? & _ & H)); apply Ok_inj in H; injection H as <- _; destruct s; try exact eq_refl.
    match goal with |- context [set_san _ ?v] => destruct v as [[? ?] ?] end. exact eq_refl.
  - intros ->. right. unfold handle_ext in H. cbv zeta in H.
    destruct (beqb (ex_id e) oidExtensionKeyUsage) eqn:E1; [apply bind_ok in H as (? & _ & H); discriminate|].
    destruct (beqb (ex_id e) oidExtensionBasicConstraints) eqn:E2; [apply bind_ok in H as (? & _ & H); discriminate|].
    destruct (beqb (ex_id e) oidExtensionSubjectAltName) eqn:E3; [now apply beqb_eq|exfalso].
    destruct (beqb (ex_id e) oidExtensionNameConstraints) eqn:E4; [repeat (apply bind_ok in H as (? & _ & H)); discriminate|].
    destruct (beqb (ex_id e) oidExtensionCRLDistributionPoints) eqn:E5; [repeat (apply bind_ok in H as (? & _ & H)); discriminate|].
    destruct (beqb (ex_id e) oidExtensionAuthorityKeyId) eqn:E6; [repeat (apply bind_ok in H as (? & _ & H)); discriminate|].
    destruct (beqb (ex_id e) oidExtensionExtendedKeyUsage) eqn:E7; [repeat (apply bind_ok in H as (? & _ & H)); discriminate|].
    destruct (beqb (ex_id e) oidExtensionSubjectKeyId) eqn:E8; [repeat (apply bind_ok in H as (? & _ & H)); discriminate|].
    destruct (beqb (ex_id e) oidExtensionCertificatePolicies) eqn:E9; [repeat (apply bind_ok in H as (? & _ & H)); discriminate|].
    destruct (beqb (ex_id e) oidExtensionAuthorityInfoAccess) eqn:E10; [repeat (apply bind_ok in H as (? & _ & H)); discriminate|].
    apply beqb_neq in E1, E2, E3, E4, E5, E6, E7, E8, E9, E10. unfold known_ids in Hk. cbn [In] in Hk.
    destruct Hk as [K|[K|[K|[K|[K|[K|[K|[K|[K|[K|[]]]]]]]]]]]; symmetry in K;
      first [exact (E1 K)|exact (E2 K)|exact (E3 K)|exact (E4 K)|exact (E5 K)|exact (E6 K)|exact (E7 K)|exact (E8 K)|exact (E9 K)|exact (E10 K)].
Qed.
Lemma unh_all l : forall s s', handle_exts nm dec_name s l = Ok s' ->
  (forall o, In o (x_unh s) -> In o (x_unh s')) /\
  (forall e, In e l -> ex_crit e = true -> ~ In (ex_id e) known_ids -> In (ex_id e) (x_unh s')) /\
  (forall o, In o (x_unh s') -> In o (x_unh s) \/ exists e, In e l /\ ex_id e = o /\ ex_crit e = true /\ (~ In o known_ids \/ o = oidExtensionSubjectAltName)).
Proof.
  induction l as [|e l IH]; intros s s' H; cbn [handle_exts] in H; [apply Ok_inj in H; subst s'; split; [tauto|split; [intros e []|tauto]]|].
  apply bind_ok in H as ([s1 b] & H1 & H). cbn [fst snd] in H. destruct (unh_handled _ _ _ _ H1) as (U1 & U2 & U3).
  destruct (IH _ _ H) as (I1 & I2 & I3). set (s2 := if ex_crit e && b then add_unh s1 (ex_id e) else s1) in *.
  assert (E2 : x_unh s2 = x_unh s ++ (if ex_crit e && b then [ex_id e] else [])).
  { unfold s2. rewrite <- U1. destruct (ex_crit e && b); destruct s1; cbn; [exact eq_refl|now rewrite app_nil_r]. }
  split; [|split].
  - intros o Ho. apply I1. rewrite E2. apply in_or_app. now left.
  - intros e' [<- | He] Hc Hk; [|now apply I2]. apply I1. rewrite E2, Hc, (U2 Hk). apply in_or_app. right. now left.
  - intros o Ho. destruct (I3 o Ho) as [K|(e' & K1 & K2)]; [|right; exists e'; split; [now right|exact K2]].
    rewrite E2 in K. apply in_app_or in K as [K|K]; [now left|]. right. exists e. destruct (ex_crit e) eqn:Ec; [|destruct K]. destruct b; [|destruct K].
    destruct K as [<- |[]]. split; [now left|]. split; [exact eq_refl|]. split; [exact eq_refl|]. exact (U3 eq_refl).
Qed.
Lemma parse_fields der c : ParseCertificate der = Ok c -> handle_exts nm dec_name x0 (c_exts c) = Ok (c_x c).
Proof.
  intros H. unfold X509C_model.ParseCertificate in H. apply bind_ok in H as (i & _ & H). unfold parseCertificate in H. apply bind_ok in H as (x1 & _ & H). apply bind_ok in H as (x2 & _ & H).
  apply bind_ok in H as (x3 & _ & H). apply bind_ok in H as (x4 & H4 & H). apply Ok_inj in H. subst c. exact H4.
Qed.
(** every critical extension the package does not interpret is reported in UnhandledCriticalExtensions, and only those (and
    critical subject alternative names of no understood kind) are *)
Theorem C102_unknown_critical_reported : forall der c, ParseCertificate der = Ok c ->
  (forall e, In e (c_exts c) -> ex_crit e = true -> ~ In (ex_id e) known_ids -> In (ex_id e) (x_unh (c_x c))) /\
  (forall o, In o (x_unh (c_x c)) -> exists e, In e (c_exts c) /\ ex_id e = o /\ ex_crit e = true /\ (~ In o known_ids \/ o = [85;29;17])).
Proof.
  intros der c H. apply parse_fields in H. destruct (unh_all _ _ _ H) as (_ & H2 & H3). split; [exact H2|].
  intros o Ho. destruct (H3 o Ho) as [[]|K]. exact K.
Qed.
(** a certificate with a critical name-constraints extension that carries a subtree which is not a non-empty DNS name is refused *)
Theorem C102_critical_name_constraints : forall der c e, ParseCertificate der = Ok c -> In e (c_exts c) -> ex_id e = [85;29;30] -> ex_crit e = true ->
  exists perm excl, whole (req 48 p_nc) (ex_val e) = Ok (perm, excl) /\ Forall (fun n => n <> []) perm /\ Forall (fun n => n <> []) excl.
Proof.
  intros der c e H He Hid Hc. apply parse_fields in H. apply in_split in He as (l1 & l2 & E). rewrite E, handle_exts_app in H. apply bind_ok in H as (s & _ & H).
  cbn [handle_exts] in H. apply bind_ok in H as (r & H & _). unfold handle_ext in H. rewrite Hid, Hc in H. cbv zeta in H.
  repeat match type of H with (if beqb ?a ?b then _ else _) = _ => let v := eval vm_compute in (beqb a b) in change (beqb a b) with v in H; cbv iota in H end.
  apply bind_ok in H as ([perm excl] & Hw & H). cbn [fst snd] in H. apply bind_ok in H as (p & Hp & H). apply bind_ok in H as (q & Hq & _).
  exists perm, excl. split; [exact Hw|].
  assert (G : forall l v, getDNSNames l true = Ok v -> Forall (fun n => n <> []) l).
  { clear. intros l v H. unfold getDNSNames in H. cbn [andb] in H. destruct (existsb _ l) eqn:E; [discriminate|]. apply Forall_forall. intros n Hn ->.
    rewrite <- not_true_iff_false in E. apply E. apply existsb_exists. exists []. now split. }
  split; [exact (G _ _ Hp)|exact (G _ _ Hq)].
Qed.

(** ** C104: who may sign *)
Theorem C104_only_certificate_signers : forall c parent, CheckSignatureFrom c parent = Ok tt ->
  ((x_bcv (c_x parent) = true /\ x_isca (c_x parent) = true \/ x_bcv (c_x parent) = false /\ c_version parent <> 3) \/ c_rawSPKI c = entrustBrokenSPKI) /\
  (x_ku (c_x parent) = 0 \/ Z.testbit (x_ku (c_x parent)) 5 = true) /\ c_pubAlg parent <> 0 /\
  checkSignature (c_sigAlg c) (c_rawTBS c) (c_sig c) (c_pub parent) = Ok tt.
Proof.
  intros c parent H. unfold X509C_model.CheckSignatureFrom in H. cbv zeta in H.
  destruct ((((c_version parent =? 3) && negb (x_bcv (c_x parent))) || (x_bcv (c_x parent) && negb (x_isca (c_x parent)))) && negb (beqb (c_rawSPKI c) entrustBrokenSPKI)) eqn:E1; [discriminate|].
  destruct (negb (x_ku (c_x parent) =? 0) && (Z.land (x_ku (c_x parent)) KeyUsageCertSign =? 0)) eqn:E2; [discriminate|].
  destruct (Z.eqb_spec (c_pubAlg parent) UnknownPublicKeyAlgorithm) as [E3|E3]; [discriminate|]. split; [|split; [|split; [exact E3|exact H]]].
  - destruct (beqb (c_rawSPKI c) entrustBrokenSPKI) eqn:E; [right; now apply beqb_eq|left]. cbn [negb] in E1. rewrite andb_true_r in E1.
    apply orb_false_elim in E1 as [F1 F2]. destruct (x_bcv (c_x parent)).
    + left. split; [exact eq_refl|]. now destruct (x_isca (c_x parent)).
    + right. split; [exact eq_refl|]. cbn [negb] in F1. rewrite andb_true_r in F1. lia.
  - destruct (Z.eqb_spec (x_ku (c_x parent)) 0) as [E|_]; [now left|right]. cbn [negb andb] in E2. unfold KeyUsageCertSign in E2.
    destruct (Z.testbit (x_ku (c_x parent)) 5) eqn:Et; [exact eq_refl|]. exfalso. assert (E : Z.land (x_ku (c_x parent)) 32 = 0).
    { apply Z.bits_inj'. intros i Hi. rewrite Z.land_spec, Z.bits_0. change 32 with (2 ^ 5). rewrite Z.pow2_bits_eqb by lia.
      destruct (Z.eqb_spec 5 i) as [<- | _]; [now rewrite Et|apply andb_false_r]. }
    rewrite E in E2. discriminate.
Qed.

(** ** C103: the signature algorithm and the key *)
(** With an SM2 key the algorithm the certificate names is not looked at, beyond being one this package can hash for: a
    certificate that declares, say, SHA256WithRSA is accepted when its signature is an SM2 one. *)
Theorem C103_algorithm_not_bound_to_key_refuted : forall a1 a2 x y m sig, In a1 [4;5;6;8;10;11;12;13;14;15;17;18] -> In a2 [4;5;6;8;10;11;12;13;14;15;17;18] ->
  checkSignature a1 m sig (XSM2 SM2C x y) = checkSignature a2 m sig (XSM2 SM2C x y).
Proof.
  assert (K : forall a x y m sig, In a [4;5;6;8;10;11;12;13;14;15;17;18] -> checkSignature a m sig (XSM2 SM2C x y) =
    (do rs <- sig_ints sig; do v <- Verify cv (mkPub x y None) m (fst rs) (snd rs); ok_if v)).
  { intros a x y m sig H. cbn [In] in H. repeat (destruct H as [<- | H]; [exact eq_refl|]). destruct H. }
  intros. now rewrite !K.
Qed.

(** ** C109: no input makes the parsers panic *)
Lemma take_split n b c r : take n b = Ok (c, r) -> b = c ++ r.
Proof. unfold take. destruct (_ <? _); [discriminate|]. intros H. apply Ok_inj in H. injection H as <- <-. now rewrite firstn_skipn. Qed.
Section NoPanic.
#[local] Opaque parse_hdr take req opt explicit any with_full whole seq_of p_alg p_oid_content p_bits p_id p_int64 int_value p_bool.
Hypothesis Hname : npp dec_name.
Hypothesis Htime : forall g, npp (dec_time g).
Ltac npx := repeat first
  [ match goal with |- np (match ?x with _ => _ end) => destruct x end
  | match goal with |- np (Ok _) => apply np_ok end | match goal with |- np (Err _) => apply np_err end
  | match goal with |- np (rbind _ _) => apply np_bind; [|intros ? ?] end | apply np_alg | apply np_oid | apply np_bits | apply np_id | apply np_int64 | apply np_int | apply np_bool | apply np_any
  | apply Hname | apply Htime | (apply np_req; intros ?) | (apply np_opt; intros ?) | (apply np_explicit; intros ?) | (apply np_seq_of; intros ?) | (apply np_with_full; intros ?) | (apply np_whole; intros ?) ].
Lemma np_spki : npp p_spki. Proof. intros b. unfold p_spki. npx. unfold p_spki_content. npx. Qed.
#[local] Opaque p_spki.
Lemma np_time : npp (p_time tm dec_time). Proof. intros b. unfold p_time. npx. Qed.
#[local] Opaque p_time.
Lemma np_ext : npp p_ext_content. Proof. intros b. unfold p_ext_content. npx. Qed.
#[local] Opaque p_ext_content.
Lemma np_exts : npp p_exts. Proof. intros b. unfold p_exts. npx. apply np_ext. Qed.
#[local] Opaque p_exts.
Lemma np_two {A B} (p : list Z -> res (A * list Z)) (q : list Z -> res (B * list Z)) : npp p -> npp q -> npp (p_two p q).
Proof. intros Hp Hq b. unfold p_two. apply np_bind; [apply Hp|intros ? _]. apply np_bind; [apply Hq|intros ? _]. npx. Qed.
#[local] Opaque p_two.
Lemma np_tbs : npp (p_tbs_content tm dec_time).
Proof. intros b. unfold p_tbs_content. npx; try apply np_spki; try apply np_exts. apply np_two; apply np_time. Qed.
#[local] Opaque p_tbs_content.
Lemma np_certificate : npp (p_certificate tm dec_time).
Proof. intros b. unfold p_certificate. npx. unfold p_certificate_content. npx. apply np_tbs. Qed.
#[local] Opaque p_certificate.
Lemma np_parsePublicKey algo k : np (parsePublicKey nist_unm algo k).
Proof. unfold parsePublicKey, parse_ec. cbv zeta. npx; apply np_two; npx; intros ?; npx. Qed.
#[local] Opaque parsePublicKey.
Lemma np_san : npp parseSANExtension.
Proof.
  intros b. unfold parseSANExtension. npx.
  assert (G : forall f l s, np (san_loop f s l)); [|apply G]. induction f as [|f IH]; intros l s; cbn [san_loop]; destruct l; npx; [|apply IH]. unfold add_san. npx.
Qed.
#[local] Opaque parseSANExtension.
Lemma np_crldp : forall l, np (crldp_names l). Proof. induction l as [|x l IH]; cbn [crldp_names]; [npx|]. destruct x; [exact IH|]. npx. exact IH. Qed.
#[local] Opaque crldp_names.
Lemma np_opt_raw t : npp (opt_raw t). Proof. intros b. unfold opt_raw. destruct b; [npx|]. apply np_bind; [apply np_parse_hdr|intros ? _]. destruct (_ && _); [|npx]. apply np_bind; [apply np_take|intros ? _; npx]. Qed.
#[local] Opaque opt_raw.
Lemma np_handle s e : np (handle_ext nm dec_name s e).
Proof.
  unfold handle_ext. cbv zeta. npx; try apply np_san; try apply np_crldp; unfold p_basic, p_nc, p_subtree, p_dp, p_dpname, p_aki, p_policy, p_aia, getDNSNames, p_ia5; npx; try apply np_opt_raw.
  all: unfold p_subtree, p_dpname; npx; try apply np_opt_raw; unfold p_ia5; npx.
Qed.
#[local] Opaque handle_ext.
Lemma np_handles l : forall s, np (handle_exts nm dec_name s l).
Proof. induction l as [|e l IH]; intros s; cbn [handle_exts]; [npx|]. apply np_bind; [apply np_handle|intros ? _; apply IH]. Qed.
#[local] Opaque handle_exts.
Lemma np_parseCertificate i : np (parseCertificate nm tm dec_name nist_unm i).
Proof. unfold parseCertificate. cbv zeta. apply np_bind; [apply np_parsePublicKey|intros ? _]. npx. apply np_handles. Qed.
#[local] Opaque parseCertificate.
Theorem C109_parsers_never_panic : forall der, ParseCertificate der <> Panic /\ ParseCertificates der <> Panic /\ ParseDERCRL der <> Panic /\ ParseCertificateRequest der <> Panic /\ ParsePKIXPublicKeyX nist_unm der <> Panic.
Proof.
  intros der. split; [|split; [|split; [|split]]].
  - apply np_bind; [apply np_whole, np_certificate|intros ? _; apply np_parseCertificate].
  - apply np_bind; [apply np_seq_of, np_certificate|intros l _]. induction l as [|i l IH]; cbn [parse_all]; [npx|]. apply np_bind; [apply np_parseCertificate|intros ? _]. npx. exact IH.
  - unfold X509C_model.ParseDERCRL. apply np_whole, np_req. intros c. unfold p_crl_content. npx. unfold p_tbslist. npx; try apply np_time; try apply np_exts.
    + unfold opt_time. npx.
    + unfold p_revoked. npx; first [apply np_time|apply np_exts].
  - unfold X509C_model.ParseCertificateRequest. apply np_bind.
    + npx. unfold p_csr_content. npx. unfold p_tbscsr. npx. apply np_spki.
    + intros [[[[[[[v subj] k] attrs] rawTBS] alg] sigbits] rw] _. cbv zeta. apply np_bind; [apply np_parsePublicKey|intros pub _]. npx.
      * induction attrs as [|e l IH]; cbn [parseCSRExtensions]; [npx|].
        assert (G : np (whole (req 48 p_attr) (r_full e))) by (npx; unfold p_attr; apply np_two; intros ?; npx).
        destruct (whole (req 48 p_attr) (r_full e)) as [[id [|w ws]]| |]; try exact IH. destruct (beqb id oidExtensionRequest); [|exact IH]. npx; [apply np_exts|exact IH].
      * match goal with H : parseCSRExtensions _ = _ |- _ => clear H end. match goal with |- np (csr_sans ?s ?l) => generalize s as s0; induction l as [|e l IH]; intros s0; cbn [csr_sans]; [npx|] end.
        destruct (beqb _ _); [|apply IH]. apply np_bind; [apply np_san|intros ? _; apply IH].
  - unfold ParsePKIXPublicKeyX. apply np_bind; [apply np_whole, np_spki|intros ? _]. cbv zeta. destruct (_ =? _); [npx|apply np_parsePublicKey].
Qed.
End NoPanic.
(** checking signatures between parsed certificates never panics either *)
Lemma verify_np x y m r s : bytes m -> Verify cv (mkPub x y None) m r s <> Panic.
Proof.
  intros Hb. with_strategy transparent [Verify] unfold Verify. destruct (_ || _); [discriminate|]. destruct (_ || _); [discriminate|].
  destruct (hash_msg_total T (mkPub x y None) m Hb) as (e & -> & _). cbn [rbind]. discriminate.
Qed.
Lemma parsed_sm2_curve der c k x y : ParseCertificate der = Ok c -> c_pub c = XSM2 k x y -> k = SM2C.
Proof.
  intros H E. unfold X509C_model.ParseCertificate in H. apply bind_ok in H as (i & _ & H). unfold parseCertificate in H. cbv zeta in H. apply bind_ok in H as (pub & HP & H). apply bind_ok in H as (x2 & _ & H).
  apply bind_ok in H as (x3 & _ & H). apply bind_ok in H as (x4 & _ & H). apply Ok_inj in H. subst c. cbn [c_pub] in E. subst pub. clear -HP.
  destruct (b_spki (i_tbs i)) as [raw [oid params] bits]. cbn [k_alg] in HP. unfold keyAlgorithm in HP. cbn [fst snd] in HP.
  destruct ((getPublicKeyAlgorithmFromOID oid =? ECDSA) && beqb params (der_tlv 6 oidNamedCurveSm2)) eqn:E0; with_strategy transparent [parsePublicKey] unfold parsePublicKey in HP; cbn [k_bits k_alg snd] in HP.
  - apply andb_prop in E0 as [_ E0]. apply beqb_eq in E0. subst params. change (SM2 =? SM2) with true in HP. cbv iota in HP. unfold parse_ec in HP. apply bind_ok in HP as ([c xy] & HP & E). apply Ok_inj in E. cbn [fst] in E. injection E as -> _ _.
    rewrite (whole_tlv 6 p_oid_content _ oidNamedCurveSm2) in HP by (lt || (unfold Asn1_go.small; cbn; lia) || exact eq_refl). cbn [rbind] in HP.
    replace (namedCurveFromOID oidNamedCurveSm2) with (Some SM2C) in HP by (vm_compute; exact eq_refl). destruct (ec_unmarshal nist_unm SM2C _); [|discriminate]. now inversion HP.
  - assert (Hne : getPublicKeyAlgorithmFromOID oid =? SM2 = false).
    { unfold getPublicKeyAlgorithmFromOID. destruct (beqb oid oidPublicKeyRSA); [exact eq_refl|]. destruct (beqb oid oidPublicKeyDSA); [exact eq_refl|]. destruct (beqb oid oidPublicKeyECDSA); exact eq_refl. }
    rewrite Hne in HP.
    destruct (_ =? RSA). { destruct (negb _); [discriminate|]. apply bind_ok in HP as (p & _ & HP). destruct (_ || _); discriminate. }
    destruct (_ =? DSA). { apply bind_ok in HP as (p & _ & HP). apply bind_ok in HP as (q & _ & HP). destruct (_ || _); discriminate. }
    destruct (_ =? ECDSA); [|discriminate]. apply bind_ok in HP as (p & _ & HP). discriminate.
Qed.
Theorem C109_check_never_panics : forall d1 d2 c parent, bytes d1 -> ParseCertificate d1 = Ok c -> ParseCertificate d2 = Ok parent -> CheckSignatureFrom c parent <> Panic.
Proof.
  intros d1 d2 c parent Hb H1 H2.
  assert (Hm : bytes (c_rawTBS c)).
  { unfold X509C_model.ParseCertificate in H1. apply bind_ok in H1 as (i & W & H). unfold whole in W. apply bind_ok in W as ([j r] & PC & W). cbn [fst snd] in W. destruct r; [|discriminate]. apply Ok_inj in W. subst j.
    assert (Ei : c_rawTBS c = i_rawTBS i).
    { unfold parseCertificate in H. apply bind_ok in H as (x1 & _ & H). apply bind_ok in H as (x2 & _ & H). apply bind_ok in H as (x3 & _ & H). apply bind_ok in H as (x4 & _ & H). apply Ok_inj in H. now subst c. }
    rewrite Ei. clear -Hb PC. unfold p_certificate in PC. apply bind_ok in PC as ([[[[[t rt] a] s] full] r2] & K & PC). cbn [fst snd] in PC. apply Ok_inj in PC. injection PC as <- ->. cbn [i_rawTBS].
    destruct (with_full_inv _ _ _ _ _ (loc_req 48 _) K) as [-> K0]. apply bytes_app_inv in Hb as [Hb _]. specialize (K0 []). rewrite app_nil_r in K0. unfold req at 1 in K0.
    apply bind_ok in K0 as ([h b1] & Hh & K0). cbn [fst snd] in K0. destruct (tag_is _ _); [|discriminate]. apply bind_ok in K0 as ([ct b2] & Ht & K0). apply bind_ok in K0 as (v & K0 & E). apply Ok_inj in E. injection E as -> _.
    destruct (loc_parse_hdr _ _ _ Hh) as (p1 & -> & _). apply bytes_app_inv in Hb as [_ Hb]. rewrite (take_split _ _ _ _ Ht) in Hb. apply bytes_app_inv in Hb as [Hb _].
    cbn [fst] in K0. clear K. unfold p_certificate_content in K0. apply bind_ok in K0 as ([[t' rt'] r3] & K1 & K). apply bind_ok in K as (a' & _ & K). apply bind_ok in K as (s' & _ & K). apply Ok_inj in K. injection K as -> -> _ _.
    destruct (with_full_inv _ _ _ _ _ (loc_req 48 _) K1) as [-> _]. now apply bytes_app_inv in Hb. }
  unfold X509C_model.CheckSignatureFrom. cbv zeta. repeat match goal with |- (if ?b then _ else _) <> Panic => destruct b; [discriminate|] end.
  unfold X509C_model.CheckSignature, X509C_model.checkSignature.
  destruct (hash_of (c_sigAlg c)) as [h|k|] eqn:Eh; [cbn [rbind]|discriminate|].
  2:{ exfalso. clear -Eh. unfold hash_of in Eh. repeat match type of Eh with (if ?b then _ else _) = _ => destruct b; [discriminate|] end. discriminate. }
  assert (Hd : exists d, digest_of hashf h (c_rawTBS c) = Ok d).
  { unfold digest_of. destruct (h =? hSM3); [|eexists; exact eq_refl]. destruct (SumSM3_total _ Hm) as (d & -> & _). eexists; exact eq_refl. }
  destruct Hd as (d & ->). cbn [rbind]. cbv zeta.
  assert (Hs : sig_ints (c_sig c) <> Panic).
  { unfold sig_ints. apply np_bind; [apply np_whole, np_req; intros l; apply np_two; apply np_req, np_int|]. intros a _. destruct (_ || _); discriminate. }
  destruct (c_pub parent) as [k x y|k x y|a b|p q g y| |] eqn:Ep; cbv iota; try discriminate.
  - rewrite (parsed_sm2_curve _ _ _ _ _ H2 Ep). destruct (sig_ints (c_sig c)) as [[r s]| |]; [|discriminate|congruence]. cbn [rbind fst snd sm2Verify].
    pose proof (verify_np x y (c_rawTBS c) r s Hm). destruct (Verify cv (mkPub x y None) (c_rawTBS c) r s) as [[]| |]; cbn; congruence.
  - destruct (sig_ints (c_sig c)) as [[r s]| |]; [|discriminate|congruence]. cbn [rbind fst snd]. unfold ok_if. destruct (ecdsa_verify _ _ _ _ _ _); discriminate.
  - unfold ok_if. destruct (rsa_verify _ _ _ _ _ _); discriminate.
  - destruct (sig_ints (c_sig c)) as [[r s]| |]; [|discriminate|congruence]. cbn [rbind fst snd]. unfold ok_if. destruct (dsa_verify _ _ _ _ _ _ _); discriminate.
Qed.
End P.

(** C144: what the GM certificate loaders return (tls/gm_support.go). *)
From Verif Require Import GoBase GoLemmas BigBytes Asn1_model NT Prime_cert SM2_curve_spec SM2_group SM2_jac SM2_order SM2_spec SM2_model SM2_proofs P_SM2 Keys_model Keys_proofs P_Keys.
From Verif Require Import X509C_model P_X509C_parse TLS_keypair_model P_TLS_keypair TLS_gmkeypair_model.
From Verif Require TLS_hs_safe X509C_ext_proofs.
Open Scope Z_scope.
#[local] Opaque sm2_p sm2_n sm2_a sm2_b sm2_gx sm2_gy smul pG Bytes be_bytes ParseCertificate unmarshal_ec unmarshal_pkcs8 parseECPrivateKey parsePrivateKey.

Section P.
Variables nm tm : Type.
Variable dec_name : list Z -> res nm.
Variable dec_time : bool -> list Z -> res tm.
Variable nist_unm : nat -> list Z -> option (Z * Z).
Variable T : Type.
Variable cv : curve T.
Variable nist_order : nat -> Z.
Variable nist_base : nat -> list Z -> Z * Z.
Variable unm1 : list Z -> res (rsapriv * list Z).
Variable validate : Z -> Z -> Z -> list Z -> bool.
Variable pemDecode : list Z -> option (block * list Z).
Notation ParseCert := (ParseCertificate nm tm dec_name dec_time nist_unm).
Notation parseKey := (parsePrivateKey T cv nist_order nist_base unm1 validate).
Notation KeyPair := (X509KeyPair nm tm dec_name dec_time nist_unm T cv nist_order nist_base unm1 validate pemDecode).
Notation GMPairs := (GMX509KeyPairs nm tm dec_name dec_time nist_unm T cv nist_order nist_base unm1 validate pemDecode).
Notation GMSingle := (GMX509KeyPairsSingle nm tm dec_name dec_time nist_unm T cv nist_order nist_base unm1 validate pemDecode).
Notation blocks := (decodes pemDecode).
Notation shr := (shrinks pemDecode).

(** ** Specification *)
(** the certificates of a PEM text: the contents of its CERTIFICATE blocks, in order *)
Definition certs_of (pem : list Z) (l : list (list Z)) : Prop := exists bs, blocks pem bs /\ l = map b_bytes (filter is_cert bs).
(** the private key of a PEM text: its first block that is of a private key type *)
Definition key_of (pem : list Z) (kb : block) : Prop :=
  exists before after, blocks pem (before ++ kb :: after) /\ key_type (b_type kb) /\ Forall (fun b => ~ key_type (b_type b)) before.
Definition sm2_cert (cert : list Z) : Prop := exists c cu x y, ParseCert cert = Ok c /\ c_pub c = XSM2 cu x y.
(** the SM2 key of [cert] is the public part of the SM2 key [k] that [kb] holds *)
Definition sm2_match (cert : list Z) (kb : block) (k : privk) : Prop :=
  exists c cu d x y, ParseCert cert = Ok c /\ c_pub c = XSM2 cu x y /\ parseKey (b_bytes kb) = Ok k /\ k = KSm2 d x y.

Lemma certs_of_fun pem l l' : certs_of pem l -> certs_of pem l' -> l = l'.
Proof. intros (bs & B & ->) (bs' & B' & ->). now rewrite (decodes_fun _ _ _ B _ B'). Qed.
Lemma getCert_spec : shr -> forall pem l, getCert pemDecode pem = Ok l <-> certs_of pem l /\ l <> [].
Proof.
  intros HS pem l. destruct (decodes_total nm tm dec_name dec_time nist_unm nist_order nist_base unm1 validate pemDecode HS pem) as [bs B]. pose proof (cert_blocks_spec nm tm dec_name dec_time nist_unm nist_order nist_base unm1 validate pemDecode HS bs pem B (Datatypes.S (length pem)) ltac:(lia)) as E.
  unfold getCert. destruct (cert_blocks pemDecode _ pem) as [cs sk]. cbn [fst] in E. assert (C : certs_of pem cs) by (exists bs; auto). clear E. destruct cs as [|c0 cs].
  - split; [discriminate|]. intros [H N]. now rewrite (certs_of_fun _ _ _ H C) in N.
  - split; [intros [= <-]; split; [exact C|discriminate]|]. intros [H _]. now rewrite (certs_of_fun _ _ _ H C).
Qed.
Lemma getCert_ok : shr -> forall pem x l, certs_of pem (x :: l) -> getCert pemDecode pem = Ok (x :: l).
Proof. intros HS pem x l H. apply (getCert_spec HS). split; [exact H|discriminate]. Qed.
Lemma getKey_spec : shr -> forall pem kb, getKey pemDecode pem = Ok kb <-> key_of pem kb.
Proof.
  intros HS pem kb. destruct (decodes_total nm tm dec_name dec_time nist_unm nist_order nist_base unm1 validate pemDecode HS pem) as [bs B]. pose proof (key_block_spec nm tm dec_name dec_time nist_unm nist_order nist_base unm1 validate pemDecode HS bs pem B (Datatypes.S (length pem)) [] kb ltac:(lia)) as E. unfold getKey. rewrite E. split.
  - intros (b & a & -> & H). exists b, a. auto.
  - intros (b & a & B' & H). exists b, a. split; [exact (decodes_fun _ _ _ B _ B')|exact H].
Qed.
Lemma match_spec kb cert k : matchKeyCert nm tm dec_name dec_time nist_unm T cv nist_order nist_base unm1 validate kb cert = Ok k <-> sm2_match cert kb k.
Proof.
  unfold matchKeyCert, sm2_match. destruct (ParseCert cert) as [c| |]; cbn [rbind].
  2,3: split; [discriminate|]; intros (? & ? & ? & ? & ? & H & _); discriminate.
  destruct (parseKey (b_bytes kb)) as [k'| |]; cbn [rbind].
  2,3: split; [discriminate|]; intros (? & ? & ? & ? & ? & _ & _ & H & _); discriminate.
  destruct (c_pub c) eqn:EP; try (split; [discriminate|]; intros (? & ? & ? & ? & ? & H1 & H2 & _); congruence).
  destruct k' as [| |d' x' y']; try (split; [discriminate|]; intros (? & ? & ? & ? & ? & _ & _ & H1 & H2); congruence).
  destruct (Z.eqb_spec x x') as [->|NX]; [destruct (Z.eqb_spec y y') as [->|NY]|]; cbn [negb orb].
  - split; [intros [= <-]; exists c; do 4 eexists; repeat split; eauto|]. intros (? & ? & ? & ? & ? & _ & _ & H & _). congruence.
  - split; [discriminate|]. intros (? & ? & ? & ? & ? & H1 & H2 & H3 & H4). congruence.
  - split; [discriminate|]. intros (? & ? & ? & ? & ? & H1 & H2 & H3 & H4). congruence.
Qed.

(** ** GMX509KeyPairs: exactly the first certificate of each certificate text, and a signing key that matches the first of them *)
Theorem C144_pairs_partial : shr -> forall certPEM keyPEM encCertPEM encKeyPEM chain k,
  GMPairs certPEM keyPEM encCertPEM encKeyPEM = Ok (chain, k) <->
  exists sign more enc more' kb, certs_of certPEM (sign :: more) /\ certs_of encCertPEM (enc :: more') /\ key_of keyPEM kb /\ sm2_match sign kb k /\ chain = [sign; enc].
Proof.
  intros HS certPEM keyPEM encCertPEM encKeyPEM chain k. unfold GMX509KeyPairs. split.
  - intros H. destruct (getCert pemDecode certPEM) as [[|s0 more]| |] eqn:E1; cbn [rbind] in H; try discriminate. destruct (getCert pemDecode encCertPEM) as [[|e0 more']| |] eqn:E2; cbn [rbind] in H; try discriminate.
    destruct (getKey pemDecode keyPEM) as [kb| |] eqn:E3; cbn [rbind] in H; try discriminate. match type of H with context [matchKeyCert ?a1 ?a2 ?a3 ?a4 ?a5 ?a6 ?a7 ?a8 ?a9 ?b1 ?b2 kb s0] => destruct (matchKeyCert a1 a2 a3 a4 a5 a6 a7 a8 a9 b1 b2 kb s0) as [k'| |] eqn:E4 end; cbn [rbind] in H; try discriminate.
    injection H as <- <-. apply (getCert_spec HS) in E1 as [E1 _]. apply (getCert_spec HS) in E2 as [E2 _]. apply (getKey_spec HS) in E3. apply match_spec in E4. exists s0, more, e0, more', kb. auto.
  - intros (s0 & more & e0 & more' & kb & E1 & E2 & E3 & E4 & ->). apply (getKey_spec HS) in E3. apply (proj2 (match_spec _ _ _)) in E4.
    rewrite (getCert_ok HS certPEM s0 more E1). cbn [rbind]. rewrite (getCert_ok HS encCertPEM e0 more' E2). cbn [rbind]. rewrite E3. cbn [rbind]. rewrite E4. reflexivity.
Qed.
(** the encryption key is never read *)
Theorem C144_enc_key_ignored : forall certPEM keyPEM encCertPEM encKey1 encKey2, GMPairs certPEM keyPEM encCertPEM encKey1 = GMPairs certPEM keyPEM encCertPEM encKey2.
Proof. reflexivity. Qed.

(** ** GMX509KeyPairsSingle *)
Transparent ParseCertificate.
Lemma pubAlg_sm2 cert c : ParseCert cert = Ok c -> (c_pubAlg c = SM2 <-> exists cu x y, c_pub c = XSM2 cu x y).
Proof.
  intros H. unfold ParseCertificate in H. apply X509C_ext_proofs.bind_ok in H as (i & _ & H). unfold parseCertificate in H. cbv zeta in H. apply X509C_ext_proofs.bind_ok in H as (pub & HP & H). apply X509C_ext_proofs.bind_ok in H as (x2 & _ & H).
  apply X509C_ext_proofs.bind_ok in H as (x3 & _ & H). apply X509C_ext_proofs.bind_ok in H as (x4 & _ & H). injection H as H. subst c. cbn [c_pub c_pubAlg].
  set (al := keyAlgorithm _) in *. clearbody al. unfold parsePublicKey in HP. cbv zeta in HP. destruct (Z.eqb_spec al SM2) as [EA|N].
  - apply X509C_ext_proofs.bind_ok in HP as (r & _ & HP). assert (pub = XSM2 (fst r) (fst (snd r)) (snd (snd r))) as -> by congruence. split; [eauto|intros _; exact EA].
  - split; [intros EA; exfalso; exact (N EA)|]. intros (cu & x & y & ->). exfalso.
    destruct (al =? RSA). { destruct (negb _); [discriminate|]. apply X509C_ext_proofs.bind_ok in HP as (r & HR & HP). destruct (_ || _); discriminate. }
    destruct (al =? DSA). { apply X509C_ext_proofs.bind_ok in HP as (r & HR & HP). apply X509C_ext_proofs.bind_ok in HP as (r2 & HR2 & HP). destruct (_ || _); discriminate. }
    destruct (al =? ECDSA). { apply X509C_ext_proofs.bind_ok in HP as (r & HR & HP). discriminate. }
    discriminate.
Qed.
Opaque ParseCertificate.
Theorem C144_single_partial : shr -> forall certPEM keyPEM chain k,
  GMSingle certPEM keyPEM = Ok (chain, k) <->
  exists leaf more, certs_of certPEM (leaf :: more) /\
    ((exists kb, key_of keyPEM kb /\ sm2_match leaf kb k /\ chain = [leaf]) \/
     (~ sm2_cert leaf /\ KeyPair certPEM keyPEM = Ok (chain, k) /\ chain = leaf :: more)).
Proof.
  intros HS certPEM keyPEM chain k. unfold GMX509KeyPairsSingle. split.
  - intros H. destruct (getCert pemDecode certPEM) as [[|s0 more]| |] eqn:E1; cbn [rbind] in H; try discriminate. apply (getCert_spec HS) in E1 as [E1 _]. exists s0, more. split; [exact E1|].
    destruct (ParseCert s0) as [c| |] eqn:EP; try discriminate. pose proof (pubAlg_sm2 _ _ EP) as PA. destruct (Z.eqb_spec (c_pubAlg c) SM2) as [EA|EA]; cbn [negb] in H.
    + left. destruct (getKey pemDecode keyPEM) as [kb| |] eqn:E3; cbn [rbind] in H; try discriminate. match type of H with context [matchKeyCert ?a1 ?a2 ?a3 ?a4 ?a5 ?a6 ?a7 ?a8 ?a9 ?b1 ?b2 kb s0] => destruct (matchKeyCert a1 a2 a3 a4 a5 a6 a7 a8 a9 b1 b2 kb s0) as [k'| |] eqn:E4 end; cbn [rbind] in H; try discriminate.
      injection H as <- <-. apply (getKey_spec HS) in E3. apply match_spec in E4. eauto.
    + right. split; [intros (c' & cu & x & y & P & Q); apply EA, PA; assert (c' = c) by congruence; subst; eauto|]. split; [exact H|].
      apply (C135_key_pair nm tm dec_name dec_time nist_unm T cv nist_order nist_base unm1 validate pemDecode HS) in H as (cbs & kbs & leaf & others & before & kb & after & c' & B1 & EC & _).
      exact (certs_of_fun _ _ _ (ex_intro _ cbs (conj B1 EC)) E1).
  - intros (s0 & more & E1 & H). rewrite (getCert_ok HS certPEM s0 more E1). cbn [rbind]. destruct H as [(kb & E3 & E4 & ->)|(N & H & EC)].
    + pose proof E4 as (c & cu & d & x & y & P & Q & _). rewrite P. rewrite (proj2 (pubAlg_sm2 _ _ P)) by eauto. cbn [negb]. change (SM2 =? SM2) with true. cbn [negb]. apply (getKey_spec HS) in E3. apply (proj2 (match_spec _ _ _)) in E4. rewrite E3. cbn [rbind]. rewrite E4. reflexivity.
    + assert (P : exists c, ParseCert s0 = Ok c).
      { pose proof H as H'. apply (C135_key_pair nm tm dec_name dec_time nist_unm T cv nist_order nist_base unm1 validate pemDecode HS) in H' as (cbs & kbs & leaf & others & before & kb & after & c' & _ & _ & EC' & _ & _ & _ & _ & P & _). exists c'. congruence. }
      destruct P as [c P]. rewrite P. destruct (Z.eqb_spec (c_pubAlg c) SM2) as [EA|EA]; cbn [negb]; [|exact H]. exfalso. apply N. apply (pubAlg_sm2 _ _ P) in EA as (cu & x & y & Q). exists c, cu, x, y. auto.
Qed.

(** ** how they relate to X509KeyPair *)
Lemma sm2_as_x509 : shr -> forall certPEM keyPEM leaf more kb k, certs_of certPEM (leaf :: more) -> key_of keyPEM kb -> sm2_match leaf kb k -> KeyPair certPEM keyPEM = Ok (leaf :: more, k).
Proof.
  intros HS certPEM keyPEM leaf more kb k (cbs & B1 & E1) (before & after & B2 & K1 & K2) (c & cu & d & x & y & P & Q & R & ->).
  apply (C135_key_pair nm tm dec_name dec_time nist_unm T cv nist_order nist_base unm1 validate pemDecode HS). exists cbs, (before ++ kb :: after), leaf, more, before, kb, after, c.
  repeat (split; [first [assumption|reflexivity]|]). rewrite Q. split; reflexivity.
Qed.
(** the intermediate certificates of the certificate text, which X509KeyPair keeps, are dropped *)
Theorem C144_chain_dropped : shr -> forall certPEM keyPEM encCertPEM encKeyPEM chain k, GMPairs certPEM keyPEM encCertPEM encKeyPEM = Ok (chain, k) ->
  exists sign more enc, KeyPair certPEM keyPEM = Ok (sign :: more, k) /\ chain = [sign; enc] /\ GMSingle certPEM keyPEM = Ok ([sign], k).
Proof.
  intros HS certPEM keyPEM encCertPEM encKeyPEM chain k H. apply (C144_pairs_partial HS) in H as (s & more & e & more' & kb & A & _ & C & D & ->). exists s, more, e.
  split; [eapply sm2_as_x509; eauto|]. split; [reflexivity|]. apply (C144_single_partial HS). exists s, more. split; [exact A|]. left. eauto.
Qed.
(** the signing key of an accepted pair works *)
Theorem C144_pair_works : good_curve cv -> shr -> (forall p b rest, pemDecode p = Some (b, rest) -> bytes (b_bytes b)) ->
  forall certPEM keyPEM encCertPEM encKeyPEM chain k, GMPairs certPEM keyPEM encCertPEM encKeyPEM = Ok (chain, k) ->
  exists d x y sign enc c, k = KSm2 d x y /\ chain = [sign; enc] /\ ParseCert sign = Ok c /\ c_pub c = XSM2 SM2C x y /\
    1 <= d <= sm2_n - 1 /\ Pt x y = smul d pG /\
    (d <> sm2_n - 1 -> forall rnd msg, bytes msg -> zlen msg < 2 ^ 60 ->
       exists r s, Sign cv (Some rnd) (mkPriv (mkPub x y None) d None) msg = Ok (r, s) /\ (r <> 0 -> s <> 0 -> Verify cv (mkPub x y None) msg r s = Ok true)).
Proof.
  intros GC HS HB certPEM keyPEM encCertPEM encKeyPEM chain k H. apply (C144_pairs_partial HS) in H as (s & more & e & more' & kb & A & _ & C & D & ->). pose proof (sm2_as_x509 HS _ _ _ _ _ _ A C D) as KP.
  destruct D as (c & cu & d & x & y & P & Q & R & ->).
  destruct (C135_sm2_pair_works nm tm dec_name dec_time nist_unm T cv nist_order nist_base unm1 validate pemDecode GC HS HB _ _ _ _ _ _ KP) as (D1 & D2 & (leaf & others & c' & L1 & L2 & L3) & D3).
  exists d, x, y, s, e, c. assert (leaf = s) by congruence. subst leaf. assert (c' = c) by congruence. subst c'. repeat (split; [first [assumption|reflexivity]|]). exact D3.
Qed.

(** ** files *)
Section Files.
Variable readFile : list Z -> res (list Z).
Notation LoadPairs := (LoadGMX509KeyPairs nm tm dec_name dec_time nist_unm T cv nist_order nist_base unm1 validate pemDecode readFile).
Notation LoadPair := (LoadGMX509KeyPair nm tm dec_name dec_time nist_unm T cv nist_order nist_base unm1 validate pemDecode readFile).
Notation LoadX := (LoadX509KeyPair nm tm dec_name dec_time nist_unm T cv nist_order nist_base unm1 validate pemDecode readFile).
Theorem C144_files : forall cf kf ecf ekf r,
  (LoadPairs cf kf ecf ekf = Ok r <-> exists a b c d, readFile cf = Ok a /\ readFile kf = Ok b /\ readFile ecf = Ok c /\ readFile ekf = Ok d /\ GMPairs a b c d = Ok r) /\
  (LoadPair cf kf = Ok r <-> exists a b, readFile cf = Ok a /\ readFile kf = Ok b /\ GMSingle a b = Ok r) /\
  (LoadX cf kf = Ok r <-> exists a b, readFile cf = Ok a /\ readFile kf = Ok b /\ KeyPair a b = Ok r).
Proof.
  intros cf kf ecf ekf r. unfold LoadGMX509KeyPairs, LoadGMX509KeyPair, LoadX509KeyPair. split; [|split]; split.
  - intros H. apply X509C_ext_proofs.bind_ok in H as (a & A & H). apply X509C_ext_proofs.bind_ok in H as (b & B & H). apply X509C_ext_proofs.bind_ok in H as (c & C & H). apply X509C_ext_proofs.bind_ok in H as (d & D & H). exists a, b, c, d. auto.
  - intros (a & b & c & d & -> & -> & -> & -> & H). exact H.
  - intros H. apply X509C_ext_proofs.bind_ok in H as (a & A & H). apply X509C_ext_proofs.bind_ok in H as (b & B & H). exists a, b. auto.
  - intros (a & b & -> & -> & H). exact H.
  - intros H. apply X509C_ext_proofs.bind_ok in H as (a & A & H). apply X509C_ext_proofs.bind_ok in H as (b & B & H). exists a, b. auto.
  - intros (a & b & -> & -> & H). exact H.
Qed.

End Files.
(** ** no panic *)
Section NoPanic.
Hypothesis Hunm1 : forall b, unm1 b <> Panic.
Hypothesis Hname : forall b, dec_name b <> Panic.
Hypothesis Htime : forall g b, dec_time g b <> Panic.
Hypothesis Hpem : forall p b rest, pemDecode p = Some (b, rest) -> bytes (b_bytes b).
Lemma getCert_np pem : getCert pemDecode pem <> Panic.
Proof. unfold getCert. destruct (cert_blocks _ _ _) as [[|] ?]; discriminate. Qed.
Lemma getKey_np pem : getKey pemDecode pem <> Panic. Proof. apply key_block_np. Qed.
Lemma getKey_bytes pem kb : getKey pemDecode pem = Ok kb -> bytes (b_bytes kb).
Proof.
  unfold getKey. generalize (@nil (list Z)). generalize (Datatypes.S (length pem)). intros f. revert pem. induction f as [|f IH]; intros pem sk H; cbn [key_block] in H; [discriminate|]. destruct (pemDecode pem) as [[b rest]|] eqn:E; [|discriminate].
  destruct (is_key_type _); [|eapply IH; exact H]. injection H as <-. eapply Hpem; exact E.
Qed.
Lemma ParseCert_np der : ParseCert der <> Panic.
Proof. exact (proj1 (C109_parsers_never_panic nm tm dec_name dec_time nist_unm Hname Htime der)). Qed.
Lemma match_np kb cert : bytes (b_bytes kb) -> matchKeyCert nm tm dec_name dec_time nist_unm T cv nist_order nist_base unm1 validate kb cert <> Panic.
Proof.
  intros HB. unfold matchKeyCert. pose proof (ParseCert_np cert). destruct (ParseCert cert) as [c| |]; [|discriminate|congruence]. cbn [rbind].
  pose proof (parseKey_np T cv nist_order nist_base unm1 validate Hunm1 _ HB) as G. destruct (parseKey (b_bytes kb)) as [k| |]; [|discriminate|congruence]. cbn [rbind]. destruct (c_pub c); try discriminate. destruct k; try discriminate. destruct (_ || _); discriminate.
Qed.
Theorem C144_never_panics : forall certPEM keyPEM encCertPEM encKeyPEM, GMPairs certPEM keyPEM encCertPEM encKeyPEM <> Panic /\ GMSingle certPEM keyPEM <> Panic.
Proof.
  intros certPEM keyPEM encCertPEM encKeyPEM. split.
  - unfold GMX509KeyPairs. pose proof (getCert_np certPEM). destruct (getCert pemDecode certPEM) as [[|s0 l]| |]; cbn [rbind]; try discriminate; [|congruence]. pose proof (getCert_np encCertPEM). destruct (getCert pemDecode encCertPEM) as [[|e0 l']| |]; cbn [rbind]; try discriminate; [|congruence].
    pose proof (getKey_np keyPEM). destruct (getKey pemDecode keyPEM) as [kb| |] eqn:E; cbn [rbind]; try discriminate; [|congruence]. pose proof (match_np kb s0 (getKey_bytes _ _ E)) as M.
    match goal with |- context [matchKeyCert ?a1 ?a2 ?a3 ?a4 ?a5 ?a6 ?a7 ?a8 ?a9 ?b1 ?b2 kb s0] => destruct (matchKeyCert a1 a2 a3 a4 a5 a6 a7 a8 a9 b1 b2 kb s0) end; cbn [rbind]; try discriminate. congruence.
  - unfold GMX509KeyPairsSingle. pose proof (getCert_np certPEM). destruct (getCert pemDecode certPEM) as [[|s0 l]| |]; cbn [rbind]; try discriminate; [|congruence]. pose proof (ParseCert_np s0). destruct (ParseCert s0) as [c| |]; [|discriminate|congruence].
    destruct (negb _). { exact (C135_never_panics nm tm dec_name dec_time nist_unm T cv nist_order nist_base unm1 validate pemDecode Hunm1 Hname Htime Hpem certPEM keyPEM). }
    pose proof (getKey_np keyPEM). destruct (getKey pemDecode keyPEM) as [kb| |] eqn:E; cbn [rbind]; try discriminate; [|congruence]. pose proof (match_np kb s0 (getKey_bytes _ _ E)) as M.
    match goal with |- context [matchKeyCert ?a1 ?a2 ?a3 ?a4 ?a5 ?a6 ?a7 ?a8 ?a9 ?b1 ?b2 kb s0] => destruct (matchKeyCert a1 a2 a3 a4 a5 a6 a7 a8 a9 b1 b2 kb s0) end; cbn [rbind]; try discriminate. congruence.
Qed.
End NoPanic.
End P.

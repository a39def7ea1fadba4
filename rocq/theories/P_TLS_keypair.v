(** C135: X509KeyPair returns only a chain whose leaf matches the private key (tls/tls.go). *)
From Verif Require Import GoBase GoLemmas BigBytes Asn1_model NT Prime_cert SM2_curve_spec SM2_group SM2_jac SM2_order SM2_spec SM2_model SM2_proofs P_SM2 Keys_model Keys_proofs P_Keys.
From Verif Require Import X509C_model P_X509C_parse TLS_keypair_model.
From Verif Require TLS_hs_safe X509C_ext_proofs.
Open Scope Z_scope.
#[local] Opaque sm2_p sm2_n sm2_a sm2_b sm2_gx sm2_gy smul pG Bytes be_bytes ParseCertificate unmarshal_ec unmarshal_pkcs8 parseECPrivateKey.

(** ** Specification *)
Section Spec.
Variable pemDecode : list Z -> option (block * list Z).
(** the PEM blocks of a text, in order *)
Inductive decodes : list Z -> list block -> Prop :=
| decodes_end pem : pemDecode pem = None -> decodes pem []
| decodes_cons pem b rest bs : pemDecode pem = Some (b, rest) -> decodes rest bs -> decodes pem (b :: bs).
End Spec.
(** "PRIVATE KEY", "EC PRIVATE KEY", "RSA PRIVATE KEY", ... *)
Definition key_type (t : list Z) : Prop := t = str_PRIVATE_KEY \/ exists p, t = p ++ str_sp_PRIVATE_KEY.
(** the public key of the certificate is the public part of the private key *)
Definition same_key (pub : xkey) (k : privk) : Prop :=
  match pub, k with
  | XRSA n _, KRsa n' => n = n'
  | XEC _ x y, KEcdsa _ _ x' y' => x = x' /\ y = y'
  | XSM2 _ x y, KSm2 _ x' y' => x = x' /\ y = y'
  | _, _ => False
  end.
Definition is_cert (b : block) : bool := beqb (b_type b) str_CERTIFICATE.

Lemma has_suffix_spec s suf : has_suffix s suf = true <-> exists p, s = p ++ suf.
Proof.
  unfold has_suffix. rewrite Bool.andb_true_iff. split.
  - intros [H1 H2]. apply Nat.leb_le in H1. apply beqb_eq in H2. exists (firstn (length s - length suf) s). rewrite <- H2 at 2. symmetry. apply firstn_skipn.
  - intros [p ->]. rewrite app_length. split; [apply Nat.leb_le; lia|]. replace (length p + length suf - length suf)%nat with (length p) by lia. rewrite skipn_app_l by reflexivity. apply beqb_refl.
Qed.
Lemma is_key_type_spec t : is_key_type t = true <-> key_type t.
Proof. unfold is_key_type, key_type. rewrite Bool.orb_true_iff, has_suffix_spec. rewrite beqb_eq. tauto. Qed.

Lemma ellUnmarshal_on_curve d x y : bytes d -> ellUnmarshal d = Some (x, y) -> on_curve (Pt x y).
Proof.
  intros Bd H. unfold ellUnmarshal in H. destruct (negb _); [discriminate|]. destruct (negb _); [discriminate|]. cbv zeta in H.
  remember (be_val (firstn 32 (skipn 1 d))) as xx eqn:EX. remember (be_val (skipn 33 d)) as yy eqn:EY.
  assert (Px : 0 <= xx) by (rewrite EX; apply be_val_bound, bytes_firstn, bytes_skipn, Bd). assert (Py : 0 <= yy) by (rewrite EY; apply be_val_bound, bytes_skipn, Bd).
  destruct ((sm2_p <=? xx) || (sm2_p <=? yy)) eqn:EL; [discriminate|]. destruct (on_curve_b xx yy) eqn:EO; [|discriminate].
  apply Bool.orb_false_iff in EL as [L1 L2]. apply Z.leb_gt in L1. apply Z.leb_gt in L2. assert (xx = x) by congruence. assert (yy = y) by congruence. subst x y.
  unfold on_curve_b in EO. apply Z.eqb_eq in EO. unfold on_curve. split; [lia|]. split; [lia|]. exact EO.
Qed.
Section P.
Variables nm tm : Type.
Variable dec_name : list Z -> res nm.
Variable dec_time : bool -> list Z -> res tm.
Variable nist_unm : nat -> list Z -> option (Z * Z).
Variable T : Type.
Variable cv : curve T.
Variable nist_order : nat -> Z.
Variable nist_base : nat -> list Z -> Z * Z.
Variable unm1 : list Z -> res (rsapriv * list Z).
Variable validate : Z -> Z -> Z -> list Z -> bool.
Variable pemDecode : list Z -> option (block * list Z).
Notation ParseCert := (ParseCertificate nm tm dec_name dec_time nist_unm).
Notation parseKey := (parsePrivateKey T cv nist_order nist_base unm1 validate).
Notation parse1 := (ParsePKCS1PrivateKey unm1 validate).
Notation parse8 := (ParsePKCS8 T cv nist_order nist_base unm1 validate).
Notation parseEC := (ParseEC T cv nist_order nist_base).
Notation KeyPair := (X509KeyPair nm tm dec_name dec_time nist_unm T cv nist_order nist_base unm1 validate pemDecode).
Notation blocks := (decodes pemDecode).
(** pem.Decode consumes something when it returns a block *)
Definition shrinks := forall p b rest, pemDecode p = Some (b, rest) -> (length rest < length p)%nat.

Lemma decodes_total : shrinks -> forall p, exists bs, blocks p bs.
Proof.
  intros HS. enough (G : forall n p, (length p < n)%nat -> exists bs, blocks p bs) by (intros p; apply (G (Datatypes.S (length p))); lia).
  induction n as [|n IH]; intros p Hp; [lia|]. destruct (pemDecode p) as [[b rest]|] eqn:E.
  - destruct (IH rest) as [bs Hbs]; [pose proof (HS _ _ _ E); lia|]. exists (b :: bs). econstructor; eauto.
  - exists []. now constructor.
Qed.
Lemma decodes_fun p bs : blocks p bs -> forall bs', blocks p bs' -> bs = bs'.
Proof. induction 1 as [p E|p b rest bs E H IH]; intros bs' H'; inversion H'; subst; try congruence. rewrite E in H0. injection H0 as <- <-. f_equal. now apply IH. Qed.
Lemma cert_blocks_spec : shrinks -> forall bs p, blocks p bs -> forall f, (length p < f)%nat ->
  fst (cert_blocks pemDecode f p) = map b_bytes (filter is_cert bs).
Proof.
  intros HS. induction 1 as [p E|p b rest bs E H IH]; intros f Hf; (destruct f as [|f]; [lia|]); cbn [cert_blocks]; rewrite E; [reflexivity|].
  specialize (IH f ltac:(pose proof (HS _ _ _ E); lia)). destruct (cert_blocks pemDecode f rest) as [cs sk]. cbn [fst] in IH. cbn [filter]. unfold is_cert at 1. destruct (beqb _ _); cbn [fst map]; congruence.
Qed.
Lemma key_block_spec : shrinks -> forall bs p, blocks p bs -> forall f sk kb, (length p < f)%nat ->
  key_block pemDecode f p sk = Ok kb <-> exists before after, bs = before ++ kb :: after /\ key_type (b_type kb) /\ Forall (fun b => ~ key_type (b_type b)) before.
Proof.
  intros HS. induction 1 as [p E|p b rest bs E H IH]; intros f sk kb Hf; (destruct f as [|f]; [lia|]); cbn [key_block]; rewrite E.
  - split; [discriminate|]. intros (before & after & X & _). destruct before; discriminate.
  - destruct (is_key_type (b_type b)) eqn:EK.
    + apply is_key_type_spec in EK. split.
      * intros [= <-]. exists [], bs. repeat split; auto.
      * intros (before & after & X & K & F). destruct before as [|b0 before]; cbn in X; injection X as <- X2; [reflexivity|]. inversion F; subst. contradiction.
    + assert (NK : ~ key_type (b_type b)) by (intros K; apply is_key_type_spec in K; congruence). rewrite IH by (pose proof (HS _ _ _ E); lia). split.
      * intros (before & after & -> & K & F). exists (b :: before), after. repeat split; auto.
      * intros (before & after & X & K & F). destruct before as [|b0 before]; cbn in X; injection X as <- X2; [contradiction|]. inversion F; subst. exists before, after. auto.
Qed.
Lemma key_block_np : forall f p sk, key_block pemDecode f p sk <> Panic.
Proof. induction f as [|f IH]; intros p sk; cbn [key_block]; [discriminate|]. destruct (pemDecode p) as [[b rest]|]; [|discriminate]. destruct (is_key_type _); [discriminate|apply IH]. Qed.

(** ** C135: what X509KeyPair returns, and when *)
Theorem C135_key_pair : shrinks -> forall certPEM keyPEM chain k,
  KeyPair certPEM keyPEM = Ok (chain, k) <->
  exists cbs kbs leaf others before kb after c,
    blocks certPEM cbs /\ chain = map b_bytes (filter is_cert cbs) /\ chain = leaf :: others /\
    blocks keyPEM kbs /\ kbs = before ++ kb :: after /\ key_type (b_type kb) /\ Forall (fun b => ~ key_type (b_type b)) before /\
    ParseCert leaf = Ok c /\ parseKey (b_bytes kb) = Ok k /\ same_key (c_pub c) k.
Proof.
  intros HS certPEM keyPEM chain k. destruct (decodes_total HS certPEM) as [cbs Hc]. destruct (decodes_total HS keyPEM) as [kbs Hk].
  pose proof (cert_blocks_spec HS cbs certPEM Hc (Datatypes.S (length certPEM)) ltac:(lia)) as EC.
  pose proof (fun kb => key_block_spec HS kbs keyPEM Hk (Datatypes.S (length keyPEM)) [] kb ltac:(lia)) as EK.
  unfold X509KeyPair. destruct (cert_blocks pemDecode _ certPEM) as [ch skipped]. cbn [fst] in EC. destruct ch as [|leaf others].
  { split; [discriminate|]. intros (cbs' & _ & leaf & others & _ & _ & _ & _ & B & E1 & E2 & _). rewrite (decodes_fun _ _ Hc _ B) in EC. congruence. }
  destruct (key_block pemDecode _ keyPEM []) as [kb| |] eqn:KB; cbn [rbind].
  2,3: split; [discriminate|]; intros (_ & kbs' & _ & _ & before & kb & after & _ & _ & _ & _ & B & E1 & E2 & E3 & _); rewrite <- (decodes_fun _ _ Hk _ B) in E1;
       pose proof (proj2 (EK kb) (ex_intro _ before (ex_intro _ after (conj E1 (conj E2 E3))))); discriminate.
  destruct (proj1 (EK kb) eq_refl) as (before & after & K1 & K2 & K3).
  assert (KU : forall before' kb' after', kbs = before' ++ kb' :: after' -> key_type (b_type kb') -> Forall (fun b => ~ key_type (b_type b)) before' -> kb' = kb).
  { intros b1 k1 a1 X1 X2 X3. assert (X : Ok kb = Ok k1) by (apply EK; eauto). congruence. }
  split.
  - intros H. destruct (ParseCert leaf) as [c| |] eqn:EP; cbn [rbind] in H; [|discriminate|discriminate].
    destruct (parseKey (b_bytes kb)) as [k0| |] eqn:EKey; cbn [rbind] in H; [|discriminate|discriminate].
    assert (G : chain = leaf :: others /\ k = k0 /\ same_key (c_pub c) k0).
    { clear -H. destruct (c_pub c); cbn [same_key]; try discriminate; destruct k0; try discriminate.
      - destruct ((x =? x0) && (y =? y0)) eqn:E; [|discriminate]. apply andb_prop in E as [E1 E2]. apply Z.eqb_eq in E1. apply Z.eqb_eq in E2. injection H as <- <-. auto.
      - destruct ((x =? x0) && (y =? y0)) eqn:E; [|discriminate]. apply andb_prop in E as [E1 E2]. apply Z.eqb_eq in E1. apply Z.eqb_eq in E2. injection H as <- <-. auto.
      - destruct (n =? n0) eqn:E; [|discriminate]. apply Z.eqb_eq in E. injection H as <- <-. auto. }
    destruct G as (-> & -> & G). exists cbs, kbs, leaf, others, before, kb, after, c. repeat (split; [first [assumption|reflexivity]|]). assumption.
  - intros (cbs' & kbs' & leaf' & others' & before' & kb' & after' & c & B1 & E1 & E2 & B2 & E3 & E4 & E5 & E6 & E7 & E8).
    rewrite <- (decodes_fun _ _ Hc _ B1) in E1. rewrite <- (decodes_fun _ _ Hk _ B2) in E3. rewrite (KU _ _ _ E3 E4 E5) in E7.
    rewrite <- EC in E1. rewrite E2 in E1. injection E1 as -> ->. rewrite E6, E7. cbn [rbind]. subst chain. clear -E8.
    destruct (c_pub c); cbn [same_key] in E8; try contradiction; destruct k; try contradiction; [destruct E8 as [-> ->]; now rewrite !Z.eqb_refl|destruct E8 as [-> ->]; now rewrite !Z.eqb_refl|subst; now rewrite Z.eqb_refl].
Qed.

(** ** the private key formats: PKCS#1, else PKCS#8, else SEC 1; the first that accepts decides *)
Theorem C135_key_formats : forall der k, parseKey der = Ok k <->
  (exists n, parse1 der = Ok n /\ k = KRsa n) \/
  (exists e1, parse1 der = Err e1 /\ parse8 der = Ok k) \/
  (exists e1 e2, parse1 der = Err e1 /\ parse8 der = Err e2 /\ parseEC der = Ok k).
Proof.
  intros der k. unfold parsePrivateKey. destruct (parse1 der) as [n| |] eqn:E1.
  - split; [intros [= <-]; left; eauto|]. intros [(n' & H & ->)|[(? & H & _)|(? & ? & H & _)]]; congruence.
  - destruct (parse8 der) as [k8| |] eqn:E8.
    + split; [intros [= <-]; right; left; eauto|]. intros [(n' & H & ->)|[(? & H & H2)|(? & ? & H & H2 & _)]]; congruence.
    + destruct (parseEC der) as [k3| |] eqn:E3.
      * split; [intros [= <-]; right; right; eauto|]. intros [(n' & H & ->)|[(? & H & H2)|(? & ? & H & H2 & H3)]]; congruence.
      * split; [discriminate|]. intros [(n' & H & ->)|[(? & H & H2)|(? & ? & H & H2 & H3)]]; congruence.
      * split; [discriminate|]. intros [(n' & H & ->)|[(? & H & H2)|(? & ? & H & H2 & H3)]]; congruence.
    + split; [discriminate|]. intros [(n' & H & ->)|[(? & H & H2)|(? & ? & H & H2 & H3)]]; congruence.
  - split; [discriminate|]. intros [(n' & H & ->)|[(? & H & H2)|(? & ? & H & H2 & H3)]]; congruence.
Qed.
(** an RSA key: exactly one structure, nothing after it, version 0 or 1, positive numbers, and rsa's own validation passed *)
Theorem C135_pkcs1 : forall der n, parse1 der = Ok n <->
  exists k, unm1 der = Ok (k, []) /\ n = rp_n k /\ rp_version k <= 1 /\ 0 < rp_n k /\ 0 < rp_d k /\ Forall (fun p => 0 < p) (rp_p k :: rp_q k :: rp_more k) /\
            validate (rp_n k) (rp_e k) (rp_d k) (rp_p k :: rp_q k :: rp_more k) = true.
Proof.
  intros der n. unfold ParsePKCS1PrivateKey. destruct (unm1 der) as [[k rest]| |]; cbn [rbind].
  2,3: split; [discriminate|intros (k & H & _); discriminate].
  destruct rest as [|b rest].
  2:{ replace (0 <? zlen (b :: rest)) with true by (rewrite zlen_cons; pose proof (zlen_nonneg rest); lia). split; [discriminate|]. intros (k' & H & _). discriminate. }
  change (0 <? zlen []) with false. cbv iota.
  assert (X : existsb (fun p => p <=? 0) (rp_more k) = false <-> Forall (fun p => 0 < p) (rp_more k)).
  { induction (rp_more k) as [|p l IH]; cbn [existsb]; [split; auto|]. rewrite Bool.orb_false_iff, IH, Z.leb_gt. split; [intros [A B]; constructor; auto|intros H; inversion H; auto]. }
  destruct (Z.ltb_spec 1 (rp_version k)) as [V|V].
  { split; [discriminate|]. intros (k' & [= <-] & _ & ? & _). lia. }
  destruct ((rp_n k <=? 0) || (rp_d k <=? 0) || (rp_p k <=? 0) || (rp_q k <=? 0)) eqn:EP.
  { split; [discriminate|]. intros (k' & [= <-] & _ & _ & ? & ? & F & _). inversion F as [|? ? F1 F2]; subst. inversion F2; subst. lia. }
  destruct (existsb (fun p => p <=? 0) (rp_more k)) eqn:EX.
  { split; [discriminate|]. intros (k' & [= <-] & _ & _ & ? & ? & F & _). inversion F as [|? ? F1 F2]; subst. inversion F2 as [|? ? F3 F4]; subst. apply X in F4. discriminate. }
  destruct (validate _ _ _ _) eqn:EV; cbn [negb].
  - split; [|intros (k' & [= <-] & -> & _); reflexivity]. intros [= <-]. exists k. split; [reflexivity|]. split; [reflexivity|]. split; [lia|]. split; [lia|]. split; [lia|]. split; [|exact EV].
    constructor; [lia|]. constructor; [lia|]. now apply X.
  - split; [discriminate|]. intros (k' & [= <-] & _ & _ & _ & _ & _ & H). congruence.
Qed.

(** ** octets stay octets *)
Lemma len_bytes_bytes : forall n acc b r rest, bytes b -> len_bytes n acc b = Ok (r, rest) -> bytes rest.
Proof.
  induction n as [|n IH]; intros acc b r rest Hb H; cbn in H; [injection H as <- <-; exact Hb|]. destruct b as [|x b]; [discriminate|]. destruct (8388608 <=? acc); [discriminate|]. destruct (_ =? 0); [discriminate|].
  apply bytes_cons in Hb as [_ Hb]. eapply IH; eauto.
Qed.
Lemma parse_len_bytes b n c : bytes b -> parse_len b = Ok (n, c) -> bytes c.
Proof.
  intros Hb H. unfold parse_len in H. destruct b as [|x b]; [discriminate|]. apply bytes_cons in Hb as [_ Hb]. destruct (x <? 128); [injection H as <- <-; exact Hb|]. destruct (x =? 128); [discriminate|].
  destruct (len_bytes _ _ _) as [[r rest]| |] eqn:E; cbn [rbind] in H; try discriminate. cbn [fst] in H. destruct (r <? 128); [discriminate|]. assert (rest = c) by congruence. subst. eapply len_bytes_bytes; eauto.
Qed.
Lemma parse_field_bytes tag b c rest : bytes b -> parse_field tag b = Ok (c, rest) -> bytes c /\ bytes rest.
Proof.
  intros Hb H. unfold parse_field in H. destruct b as [|t b]; [discriminate|]. apply bytes_cons in Hb as [_ Hb]. destruct (negb _); [discriminate|].
  destruct (parse_len b) as [[n d]| |] eqn:E; cbn [rbind] in H; try discriminate. destruct (_ <? _); [discriminate|]. injection H as <- <-. pose proof (parse_len_bytes _ _ _ Hb E). split; [now apply bytes_firstn|now apply bytes_skipn].
Qed.
Lemma parse_int_bytes b z rest : bytes b -> parse_int b = Ok (z, rest) -> bytes rest.
Proof.
  intros Hb H. unfold parse_int in H. destruct (parse_field 2 b) as [[c r]| |] eqn:E; cbn [rbind] in H; try discriminate. destruct (int_value c); cbn [rbind] in H; try discriminate. injection H as <- <-. eapply parse_field_bytes; eauto.
Qed.
Lemma parse_goint_bytes b z rest : bytes b -> parse_goint b = Ok (z, rest) -> bytes rest.
Proof. intros Hb H. unfold parse_goint in H. destruct (parse_int b) as [[c r]| |] eqn:E; cbn [rbind] in H; try discriminate. destruct (_ && _); [|discriminate]. injection H as <- <-. eapply parse_int_bytes; eauto. Qed.
Lemma parse_alg_bytes b a rest : bytes b -> parse_alg b = Ok (a, rest) -> bytes rest.
Proof.
  intros Hb H. unfold parse_alg in H. destruct (parse_field 48 b) as [[c r]| |] eqn:E; cbn [rbind] in H; try discriminate. destruct (parse_oid _); cbn [rbind] in H; try discriminate. destruct (parse_any_opt _); cbn [rbind] in H; try discriminate.
  cbn [fst snd] in H. assert (r = rest) by congruence. subst. eapply parse_field_bytes; eauto.
Qed.
Transparent unmarshal_ec unmarshal_pkcs8.
Lemma unmarshal_ec_bytes der e : bytes der -> unmarshal_ec der = Ok e -> bytes (e_priv e).
Proof.
  intros Hb H. unfold unmarshal_ec in H. destruct (parse_field 48 der) as [[t r]| |] eqn:E1; cbn [rbind fst snd] in H; try discriminate.
  destruct (parse_goint t) as [[v r1]| |] eqn:E2; cbn [rbind fst snd] in H; try discriminate. destruct (parse_field 4 r1) as [[k r2]| |] eqn:E3; cbn [rbind fst snd] in H; try discriminate.
  destruct (parse_explicit 160 _ _ _) as [o| |]; cbn [rbind fst snd] in H; try discriminate. destruct (parse_explicit 161 _ _ _) as [p| |]; cbn [rbind fst snd] in H; try discriminate.
  assert (e_priv e = k) by (injection H as <-; reflexivity). subst k. apply (parse_field_bytes 4 r1 _ r2); [|exact E3]. refine (parse_goint_bytes t v r1 _ E2). exact (proj1 (parse_field_bytes 48 der t r Hb E1)).
Qed.
Lemma unmarshal_pkcs8_bytes der a k : bytes der -> unmarshal_pkcs8 der = Ok (a, k) -> bytes k.
Proof.
  intros Hb H. unfold unmarshal_pkcs8 in H. destruct (parse_field 48 der) as [[t r]| |] eqn:E1; cbn [rbind fst snd] in H; try discriminate.
  destruct (parse_goint t) as [[v r1]| |] eqn:E2; cbn [rbind fst snd] in H; try discriminate. destruct (parse_alg r1) as [[al r2]| |] eqn:E3; cbn [rbind fst snd] in H; try discriminate.
  destruct (parse_field 4 r2) as [[kk r3]| |] eqn:E4; cbn [rbind fst snd] in H; try discriminate. assert (kk = k) by congruence. subst kk.
  apply (parse_field_bytes 4 r2 _ r3); [|exact E4]. eapply parse_alg_bytes; [|exact E3]. refine (parse_goint_bytes t v r1 _ E2). exact (proj1 (parse_field_bytes 48 der t r Hb E1)).
Qed.

(** ** no panic *)
Lemma parse_goint_np b : parse_goint b <> Panic.
Proof. unfold parse_goint. pose proof (TLS_hs_safe.parse_int_np b). destruct (parse_int b) as [[c r]| |]; [|discriminate|congruence]. cbn [rbind fst]. destruct (_ && _); discriminate. Qed.
Lemma parse_oid_np b : parse_oid b <> Panic.
Proof. unfold parse_oid. pose proof (TLS_hs_safe.parse_field_np 6 b). destruct (parse_field 6 b); [|discriminate|congruence]. cbn [rbind]. destruct (oid_valid _); discriminate. Qed.
Lemma parse_bits_np b : parse_bits b <> Panic.
Proof.
  unfold parse_bits. pose proof (TLS_hs_safe.parse_field_np 3 b). destruct (parse_field 3 b) as [[c r]| |]; [|discriminate|congruence]. cbn [rbind fst]. unfold parse_bits_content.
  destruct c; [discriminate|]. destruct (_ || _); discriminate.
Qed.
Lemma parse_any_opt_np b : parse_any_opt b <> Panic.
Proof. unfold parse_any_opt. destruct b as [|t b]; [discriminate|]. destruct (_ =? 31); [discriminate|]. pose proof (TLS_hs_safe.parse_field_np t (t :: b)). destruct (parse_field t (t :: b)); [discriminate|discriminate|congruence]. Qed.
Lemma parse_alg_np b : parse_alg b <> Panic.
Proof.
  unfold parse_alg. pose proof (TLS_hs_safe.parse_field_np 48 b). destruct (parse_field 48 b) as [[c r]| |]; [|discriminate|congruence]. cbn [rbind fst snd].
  pose proof (parse_oid_np c). destruct (parse_oid c) as [[o r1]| |]; [|discriminate|congruence]. cbn [rbind fst snd]. pose proof (parse_any_opt_np r1). destruct (parse_any_opt r1); [discriminate|discriminate|congruence].
Qed.
Lemma parse_explicit_np {A} tag (p : list Z -> res (A * list Z)) d b : (forall x, p x <> Panic) -> parse_explicit tag p d b <> Panic.
Proof.
  intros Hp. unfold parse_explicit. destruct b as [|t b]; [discriminate|]. destruct (_ =? _); [|discriminate]. pose proof (TLS_hs_safe.parse_field_np tag (t :: b)). destruct (parse_field tag (t :: b)) as [[c r]| |]; [|discriminate|congruence].
  cbn [rbind fst snd]. destruct (_ =? _)%nat; [discriminate|]. specialize (Hp c). destruct (p c); [discriminate|discriminate|congruence].
Qed.
Lemma unmarshal_ec_np b : unmarshal_ec b <> Panic.
Proof.
  unfold unmarshal_ec. pose proof (TLS_hs_safe.parse_field_np 48 b). destruct (parse_field 48 b) as [[t r]| |]; [|discriminate|congruence]. cbn [rbind fst snd].
  pose proof (parse_goint_np t). destruct (parse_goint t) as [[v r1]| |]; [|discriminate|congruence]. cbn [rbind fst snd].
  pose proof (TLS_hs_safe.parse_field_np 4 r1). destruct (parse_field 4 r1) as [[k r2]| |]; [|discriminate|congruence]. cbn [rbind fst snd].
  pose proof (parse_explicit_np 160 parse_oid [] r2 parse_oid_np). destruct (parse_explicit 160 parse_oid [] r2) as [[o r3]| |]; [|discriminate|congruence]. cbn [rbind fst snd].
  pose proof (parse_explicit_np 161 parse_bits (0, []) r3 parse_bits_np). destruct (parse_explicit 161 parse_bits (0, []) r3); [discriminate|discriminate|congruence].
Qed.
Lemma unmarshal_pkcs8_np b : unmarshal_pkcs8 b <> Panic.
Proof.
  unfold unmarshal_pkcs8. pose proof (TLS_hs_safe.parse_field_np 48 b). destruct (parse_field 48 b) as [[t r]| |]; [|discriminate|congruence]. cbn [rbind fst snd].
  pose proof (parse_goint_np t). destruct (parse_goint t) as [[v r1]| |]; [|discriminate|congruence]. cbn [rbind fst snd].
  pose proof (parse_alg_np r1). destruct (parse_alg r1) as [[a r2]| |]; [|discriminate|congruence]. cbn [rbind fst snd].
  pose proof (TLS_hs_safe.parse_field_np 4 r2). destruct (parse_field 4 r2); [discriminate|discriminate|congruence].
Qed.
Opaque unmarshal_ec unmarshal_pkcs8.
Section NoPanic.
Hypothesis Hunm1 : forall b, unm1 b <> Panic.
Lemma parse1_np b : parse1 b <> Panic.
Proof.
  unfold ParsePKCS1PrivateKey. specialize (Hunm1 b). destruct (unm1 b) as [[k rest]| |]; [|discriminate|congruence]. cbn [rbind].
  destruct (_ <? _); [discriminate|]. destruct (_ <? _); [discriminate|]. destruct (_ || _); [discriminate|]. destruct (existsb _ _); [discriminate|]. destruct (negb _); discriminate.
Qed.
Lemma to_priv_np k : to_priv k <> Panic. Proof. destruct k as [[|i] d x y|]; discriminate. Qed.
Lemma parse8_np b : bytes b -> parse8 b <> Panic.
Proof.
  intros Hb. unfold ParsePKCS8. pose proof (unmarshal_pkcs8_np b). destruct (unmarshal_pkcs8 b) as [[[oid params] key]| |] eqn:E; [|discriminate|congruence]. cbn [rbind].
  pose proof (unmarshal_pkcs8_bytes _ _ _ Hb E) as Hk. destruct (beqb oid _).
  - pose proof (parse1_np key). destruct (parse1 key); [discriminate|discriminate|congruence].
  - destruct (beqb oid _); [|discriminate]. cbv zeta. set (nc := match parse_oid params with Ok r => Some (fst r) | _ => None end). clearbody nc.
    pose proof (C46_no_panic cv nist_order nist_base unmarshal_ec nc key (unmarshal_ec_np key) (fun e => unmarshal_ec_bytes key e Hk)) as G.
    destruct (parseECPrivateKey T cv nist_order nist_base unmarshal_ec nc key); [apply to_priv_np|discriminate|congruence].
Qed.
Lemma parseEC_np b : bytes b -> parseEC b <> Panic.
Proof.
  intros Hb. unfold ParseEC. pose proof (C46_no_panic cv nist_order nist_base unmarshal_ec None b (unmarshal_ec_np b) (fun e => unmarshal_ec_bytes b e Hb)) as G.
  destruct (parseECPrivateKey T cv nist_order nist_base unmarshal_ec None b); [apply to_priv_np|discriminate|congruence].
Qed.
Lemma parseKey_np b : bytes b -> parseKey b <> Panic.
Proof.
  intros Hb. unfold parsePrivateKey. pose proof (parse1_np b). pose proof (parse8_np b Hb). pose proof (parseEC_np b Hb).
  destruct (parse1 b); [discriminate| |congruence]. destruct (parse8 b); [discriminate| |congruence]. destruct (parseEC b); [discriminate|discriminate|congruence].
Qed.
(** whatever text it is given, X509KeyPair returns a pair or an error; the standard library's decoders are assumed not to panic *)
Hypothesis Hname : forall b, dec_name b <> Panic.
Hypothesis Htime : forall g b, dec_time g b <> Panic.
Hypothesis Hpem : forall p b rest, pemDecode p = Some (b, rest) -> bytes (b_bytes b).
Theorem C135_never_panics : forall certPEM keyPEM, KeyPair certPEM keyPEM <> Panic.
Proof.
  intros certPEM keyPEM. unfold X509KeyPair. destruct (cert_blocks pemDecode _ certPEM) as [[|leaf others] skipped]; [discriminate|].
  assert (KBB : forall f p sk kb, key_block pemDecode f p sk = Ok kb -> bytes (b_bytes kb)).
  { induction f as [|f IH]; intros p sk kb H; cbn [key_block] in H; [discriminate|]. destruct (pemDecode p) as [[b rest]|] eqn:E; [|discriminate]. destruct (is_key_type _); [|eapply IH; exact H]. injection H as <-. eapply Hpem; exact E. }
  match goal with |- context [key_block pemDecode ?f keyPEM []] => pose proof (key_block_np f keyPEM []) as G; pose proof (KBB f keyPEM []) as G2; destruct (key_block pemDecode f keyPEM []) as [kb| |]; [|discriminate|congruence] end.
  cbn [rbind]. specialize (G2 kb eq_refl). pose proof (proj1 (C109_parsers_never_panic nm tm dec_name dec_time nist_unm Hname Htime leaf)) as G3.
  destruct (ParseCert leaf) as [c| |]; [|discriminate|congruence]. cbn [rbind]. pose proof (parseKey_np _ G2) as G4. destruct (parseKey (b_bytes kb)) as [k| |]; [|discriminate|congruence]. cbn [rbind].
  destruct (c_pub c); try discriminate; destruct k; try discriminate; [destruct (_ && _); discriminate|destruct (_ && _); discriminate|destruct (_ =? _); discriminate].
Qed.
End NoPanic.

(** ** an accepted SM2 pair works *)
Transparent ParseCertificate.
Lemma parsed_sm2_on_curve der c k x y : ParseCert der = Ok c -> c_pub c = XSM2 k x y -> k = SM2C /\ on_curve (Pt x y).
Proof.
  intros H E. pose proof (parsed_sm2_curve nm tm dec_name dec_time nist_unm der c k x y H E) as ->. split; [reflexivity|].
  unfold ParseCertificate in H. apply X509C_ext_proofs.bind_ok in H as (i & _ & H). unfold parseCertificate in H. cbv zeta in H. apply X509C_ext_proofs.bind_ok in H as (pub & HP & H). apply X509C_ext_proofs.bind_ok in H as (x2 & _ & H).
  apply X509C_ext_proofs.bind_ok in H as (x3 & _ & H). apply X509C_ext_proofs.bind_ok in H as (x4 & _ & H). injection H as H. subst c. cbn [c_pub] in E. subst pub. clear -HP.
  unfold parsePublicKey in HP. cbv zeta in HP. assert (BD : bytes (RightAlign (k_bits (b_spki (i_tbs i))))) by apply be_bytes_bytes. set (d := RightAlign _) in *. clearbody d.
  assert (G : forall r, parse_ec nist_unm (snd (k_alg (b_spki (i_tbs i)))) d = Ok r -> fst r = SM2C -> on_curve (Pt (fst (snd r)) (snd (snd r)))).
  { intros [c [a b]] H. unfold parse_ec in H. apply X509C_ext_proofs.bind_ok in H as (oid & _ & H). destruct (namedCurveFromOID oid) as [c'|]; [|discriminate]. destruct (ec_unmarshal nist_unm c' d) as [xy|] eqn:EU; [|discriminate].
    injection H as -> ->. cbn [fst snd]. intros ->. cbn [ec_unmarshal] in EU. eapply ellUnmarshal_on_curve; eauto. }
  set (al := keyAlgorithm _) in HP. clearbody al.
  destruct (al =? SM2). { apply X509C_ext_proofs.bind_ok in HP as (r & HR & HP). injection HP as H1 H2 H3. rewrite <- H2, <- H3. now apply G. }
  destruct (al =? RSA). { destruct (negb _); [discriminate|]. apply X509C_ext_proofs.bind_ok in HP as (r & HR & HP). destruct (_ || _); discriminate. }
  destruct (al =? DSA). { apply X509C_ext_proofs.bind_ok in HP as (r & HR & HP). apply X509C_ext_proofs.bind_ok in HP as (r2 & HR2 & HP). destruct (_ || _); discriminate. }
  destruct (al =? ECDSA). { apply X509C_ext_proofs.bind_ok in HP as (r & HR & HP). discriminate. }
  discriminate.
Qed.
Lemma sm2_key_parsed der d x y : bytes der -> parseKey der = Ok (KSm2 d x y) -> 0 <= d < sm2_n /\ (x, y) = cv_base cv (be_bytes (order_len nist_order SM2C) d).
Proof.
  intros Hb H. assert (G : forall nc key, bytes key -> (do k <- parseECPrivateKey T cv nist_order nist_base unmarshal_ec nc key; to_priv k) = Ok (KSm2 d x y) -> 0 <= d < sm2_n /\ (x, y) = cv_base cv (be_bytes (order_len nist_order SM2C) d)).
  { intros nc key Hk K. destruct (parseECPrivateKey T cv nist_order nist_base unmarshal_ec nc key) as [k| |] eqn:E; cbn [rbind] in K; try discriminate.
    destruct k as [[|i] d' x' y'|]; cbn [to_priv] in K; try discriminate. injection K as -> -> ->.
    apply (C46_parse_ec_private_key cv nist_order nist_base unmarshal_ec nc key SM2C d x y (fun e => unmarshal_ec_bytes key e Hk)) in E as (e & _ & _ & _ & _ & R & XY). split; [exact R|exact XY]. }
  apply C135_key_formats in H as [(n & _ & H)|[(e1 & _ & H)|(e1 & e2 & _ & _ & H)]]; [discriminate| |].
  - unfold ParsePKCS8 in H. destruct (unmarshal_pkcs8 der) as [[[oid params] key]| |] eqn:E; cbn [rbind] in H; try discriminate. pose proof (unmarshal_pkcs8_bytes _ _ _ Hb E) as Hk.
    destruct (beqb oid _). { destruct (parse1 key); discriminate. } destruct (beqb oid _); [|discriminate]. cbv zeta in H. eapply G; [exact Hk|exact H].
  - unfold ParseEC in H. eapply G; [exact Hb|exact H].
Qed.
Theorem C135_sm2_pair_works : good_curve cv -> shrinks -> (forall p b rest, pemDecode p = Some (b, rest) -> bytes (b_bytes b)) ->
  forall certPEM keyPEM chain d x y, KeyPair certPEM keyPEM = Ok (chain, KSm2 d x y) ->
  1 <= d <= sm2_n - 1 /\ Pt x y = smul d pG /\
  (exists leaf others c, chain = leaf :: others /\ ParseCert leaf = Ok c /\ c_pub c = XSM2 SM2C x y) /\
  (d <> sm2_n - 1 -> forall rnd msg, bytes msg -> zlen msg < 2 ^ 60 ->
     exists r s, Sign cv (Some rnd) (mkPriv (mkPub x y None) d None) msg = Ok (r, s) /\ (r <> 0 -> s <> 0 -> Verify cv (mkPub x y None) msg r s = Ok true)).
Proof.
  intros GC HS HB certPEM keyPEM chain d x y H. apply (C135_key_pair HS) in H as (cbs & kbs & leaf & others & before & kb & after & c & B1 & E1 & E2 & B2 & E3 & E4 & E5 & E6 & E7 & E8).
  destruct (c_pub c) eqn:EP; cbn [same_key] in E8; try contradiction. destruct E8 as [-> ->]. destruct (parsed_sm2_on_curve _ _ _ _ _ E6 EP) as [-> OC].
  assert (Hkb : bytes (b_bytes kb)).
  { clear -B2 E3 HB. subst kbs. remember (before ++ kb :: after) as l eqn:El. revert before El. induction B2 as [p E|p b rest bs E H IH]; intros [|b0 before] El; cbn in El; try discriminate; injection El as -> ->; [eapply HB; exact E|eapply IH; reflexivity]. }
  destruct (sm2_key_parsed _ _ _ _ Hkb E7) as [R XY]. rewrite (gc_base cv GC) in XY by apply be_bytes_bytes.
  assert (V : be_val (be_bytes (order_len nist_order SM2C) d) = d).
  { apply be_val_be_bytes_small. destruct (sm2_n_range nist_order) as (N1 & _ & ->). change (256 ^ Z.of_nat 32) with (2 ^ 256). lia. }
  rewrite V in XY.
  assert (D0 : d <> 0).
  { intros ->. rewrite smul_0 in XY. cbn [aff] in XY. injection XY as -> ->. clear -OC. destruct OC as (_ & _ & E). Transparent sm2_p sm2_a sm2_b. vm_compute in E. Opaque sm2_p sm2_a sm2_b. discriminate. }
  assert (PT : Pt x y = smul d pG).
  { assert (U : unaff x y = Pt x y). { pose proof (unaff_aff (Pt x y) OC) as U. exact U. }
    rewrite <- U. replace x with (fst (aff (smul d pG))) by (rewrite <- XY; reflexivity). replace y with (snd (aff (smul d pG))) by (rewrite <- XY; reflexivity). apply unaff_aff. apply on_smul. exact G_on. }
  split; [lia|]. split; [exact PT|]. split; [exists leaf, others, c; auto|].
  intros Dn rnd msg Hm Hl. set (priv := mkPriv (mkPub x y None) d None : privkey T).
  assert (KO : key_ok priv). { split; [change (sD priv) with d; lia|]. split; [|exact I]. change (sD priv) with d. exact XY. }
  destruct (C13_sign_verify_good T cv priv rnd msg GC KO (or_introl eq_refl) Hm Hl) as (r & s & S1 & _ & _ & S2 & _). exists r, s. split; [exact S1|]. intros r0 s0. apply S2. auto.
Qed.
End P.

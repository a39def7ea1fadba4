(** C144: concrete cases, among them pairs that are accepted although the encryption certificate and key are useless. *)
From Verif Require Import GoBase GoLemmas BigBytes Asn1_model NT Prime_cert SM2_curve_spec SM2_group SM2_jac SM2_order SM2_spec SM2_model SM2_proofs P_SM2 Keys_model Keys_proofs P_Keys
  X509C_model X509C_ext_proofs X509C_spec X509C_proofs P_X509C P_X509C_csr P_X509C_crl P_X509C_ex TLS_keypair_model P_TLS_keypair P_TLS_keypair_ex TLS_gmkeypair_model P_TLS_gmkeypair.
Open Scope Z_scope.
(** an armour of several blocks: one octet for the type (0: CERTIFICATE, 1: EC PRIVATE KEY, other: X), then the contents up to the mark 256 or the end *)
Fixpoint span (p : list Z) : list Z * list Z :=
  match p with [] => ([], []) | x :: q => if (0 <=? x) && (x <? 256) then (x :: fst (span q), snd (span q)) else ([], q) end.
Definition toy2 (p : list Z) : option (block * list Z) :=
  match p with
  | [] => None
  | t :: c => Some (mkBlock (if t =? 0 then str_CERTIFICATE else if t =? 1 then str_EC else [88]) None None (fst (span c)), snd (span c))
  end.
Lemma span_len p : (length (snd (span p)) <= length p)%nat.
Proof. induction p as [|x q IH]; cbn [span]; [reflexivity|]. destruct (_ && _); cbn [snd length]; lia. Qed.
Lemma span_bytes p : bytes (fst (span p)).
Proof. induction p as [|x q IH]; cbn [span]; [constructor|]. destruct (_ && _) eqn:E; cbn [fst]; [|constructor]. constructor; [|exact IH]. apply andb_prop in E as [E1 E2]. unfold is_byte. lia. Qed.
Lemma span_end c : bytes c -> span c = (c, []).
Proof. induction 1 as [|x q Hx H IH]; cbn [span]; [reflexivity|]. unfold is_byte in Hx. replace ((0 <=? x) && (x <? 256)) with true by lia. now rewrite IH. Qed.
Lemma span_mark c r : bytes c -> span (c ++ 256 :: r) = (c, r).
Proof. induction 1 as [|x q Hx H IH]; cbn [span app]; [reflexivity|]. unfold is_byte in Hx. replace ((0 <=? x) && (x <? 256)) with true by lia. now rewrite IH. Qed.
Lemma toy2_shrinks : shrinks toy2.
Proof. intros p b rest H. unfold toy2 in H. destruct p as [|t c]; [discriminate|]. assert (rest = snd (span c)) by congruence. subst. pose proof (span_len c). cbn [length]. lia. Qed.
Lemma toy2_bytes : forall p b rest, toy2 p = Some (b, rest) -> bytes (b_bytes b).
Proof. intros p b rest H. unfold toy2 in H. destruct p as [|t c]; [discriminate|]. injection H as <- <-. apply span_bytes. Qed.
Lemma one_cert c : bytes c -> certs_of toy2 (0 :: c) [c].
Proof.
  intros H. exists [mkBlock str_CERTIFICATE None None c]. split; [|exact eq_refl]. eapply decodes_cons; [unfold toy2; rewrite (span_end c H); exact eq_refl|]. constructor. exact eq_refl.
Qed.
Lemma two_certs c d : bytes c -> bytes d -> certs_of toy2 (0 :: c ++ 256 :: 0 :: d) [c; d].
Proof.
  intros H K. exists [mkBlock str_CERTIFICATE None None c; mkBlock str_CERTIFICATE None None d]. split; [|exact eq_refl]. eapply decodes_cons; [unfold toy2; rewrite (span_mark c _ H); exact eq_refl|].
  eapply decodes_cons; [unfold toy2, fst, snd; rewrite (span_end d K); exact eq_refl|]. constructor. exact eq_refl.
Qed.
Lemma one_key c : bytes c -> key_of toy2 (1 :: c) (mkBlock str_EC None None c).
Proof.
  intros H. exists [], []. split; [|split; [right; exists [69;67]; exact eq_refl|constructor]]. cbn [app]. eapply decodes_cons; [unfold toy2; rewrite (span_end c H); exact eq_refl|]. constructor. exact eq_refl.
Qed.
Definition gGM := GMX509KeyPairs (list Z) (list Z) en dt nu unit cv_std (fun _ => 1) (fun _ _ => (0, 0)) no_rsa (fun _ _ _ _ => false) toy2.
Definition gSingle := GMX509KeyPairsSingle (list Z) (list Z) en dt nu unit cv_std (fun _ => 1) (fun _ _ => (0, 0)) no_rsa (fun _ _ _ _ => false) toy2.
Definition gX := X509KeyPair (list Z) (list Z) en dt nu unit cv_std (fun _ => 1) (fun _ _ => (0, 0)) no_rsa (fun _ _ _ _ => false) toy2.
Lemma kder_bytes : bytes kder. Proof. apply bytesb_spec. vm_compute. reflexivity. Qed.
Lemma der_match der c : eParse der = Ok c -> c_pub c = ePub ->
  sm2_match (list Z) (list Z) en dt nu unit cv_std (fun _ => 1) (fun _ _ => (0, 0)) no_rsa (fun _ _ _ _ => false) der (mkBlock str_EC None None kder) (KSm2 1 sm2_gx sm2_gy).
Proof.
  intros H1 H2. exists c, SM2C, 1, sm2_gx, sm2_gy. split; [exact H1|]. split; [rewrite H2; exact eq_refl|]. split; [exact kder_key|exact eq_refl].
Qed.
#[local] Opaque eCreate eParse ParseCertificate parsePrivateKey.
(** a certificate with its key, followed by an intermediate certificate [inter]; as the encryption certificate any octets; as the encryption key any text, the empty one included *)
Lemma ex_pairs b : exists der, bytes der /\ eCreate eT eParent ePub (sm2_signer cv_std b ePriv) = Ok der /\
  forall inter enc anyKey, bytes inter -> bytes enc ->
    gX (0 :: der ++ 256 :: 0 :: inter) (1 :: kder) = Ok ([der; inter], KSm2 1 sm2_gx sm2_gy) /\
    gGM (0 :: der ++ 256 :: 0 :: inter) (1 :: kder) (0 :: enc) anyKey = Ok ([der; enc], KSm2 1 sm2_gx sm2_gy) /\
    gSingle (0 :: der ++ 256 :: 0 :: inter) (1 :: kder) = Ok ([der], KSm2 1 sm2_gx sm2_gy).
Proof.
  destruct (cert_key b) as (der & c & H1 & H2 & H3 & H4). exists der. split; [exact H2|]. split; [exact H1|]. intros inter enc anyKey Hi He.
  assert (G : gGM (0 :: der ++ 256 :: 0 :: inter) (1 :: kder) (0 :: enc) anyKey = Ok ([der; enc], KSm2 1 sm2_gx sm2_gy)).
  { unfold gGM. apply (C144_pairs_partial _ _ _ _ _ _ _ _ _ _ _ _ toy2_shrinks). exists der, [inter], enc, [], (mkBlock str_EC None None kder).
    split; [exact (two_certs der inter H2 Hi)|]. split; [exact (one_cert enc He)|]. split; [exact (one_key kder kder_bytes)|]. split; [exact (der_match der c H3 H4)|exact eq_refl]. }
  assert (K : gX (0 :: der ++ 256 :: 0 :: inter) (1 :: kder) = Ok ([der; inter], KSm2 1 sm2_gx sm2_gy)).
  { unfold gX. apply (sm2_as_x509 (list Z) (list Z) en dt nu unit cv_std (fun _ => 1) (fun _ _ => (0, 0)) no_rsa (fun _ _ _ _ => false) toy2 toy2_shrinks _ _ der [inter] (mkBlock str_EC None None kder)).
    - exact (two_certs der inter H2 Hi).
    - exact (one_key kder kder_bytes).
    - exact (der_match der c H3 H4). }
  split; [exact K|]. split; [exact G|].
  unfold gSingle. apply (C144_single_partial _ _ _ _ _ _ _ _ _ _ _ _ toy2_shrinks). exists der, [inter]. split; [exact (two_certs der inter H2 Hi)|]. left. exists (mkBlock str_EC None None kder).
  split; [exact (one_key kder kder_bytes)|]. split; [exact (der_match der c H3 H4)|exact eq_refl].
Qed.
(** "every certificate of an accepted pair has its private key in the corresponding file": false; here the encryption certificate does not even parse and its key file is empty *)
Theorem C144_enc_key_refuted : forall b, exists der, eCreate eT eParent ePub (sm2_signer cv_std b ePriv) = Ok der /\
  gGM (0 :: der) (1 :: kder) [0; 9] [] = Ok ([der; [9]], KSm2 1 sm2_gx sm2_gy) /\ ParseCertificate (list Z) (list Z) en dt nu [9] = Err 1 /\ getKey toy2 [] = Err eNoPEMKey.
Proof.
  intros b. destruct (cert_key b) as (der & c & H1 & H2 & H3 & H4). exists der. split; [exact H1|]. split.
  - unfold gGM. apply (C144_pairs_partial _ _ _ _ _ _ _ _ _ _ _ _ toy2_shrinks). exists der, [], [9], [], (mkBlock str_EC None None kder).
    split; [exact (one_cert der H2)|]. split; [apply one_cert; apply bytesb_spec; reflexivity|]. split; [exact (one_key kder kder_bytes)|]. split; [exact (der_match der c H3 H4)|exact eq_refl].
  - split; [|vm_compute; exact eq_refl]. Transparent ParseCertificate. vm_compute. exact eq_refl.
Qed.
#[local] Opaque ParseCertificate.
(** "the chain of an accepted pair is the chain of the certificate file": false; the intermediate certificate that X509KeyPair returns is lost *)
Theorem C144_chain_refuted : forall b, exists der, bytes der /\ eCreate eT eParent ePub (sm2_signer cv_std b ePriv) = Ok der /\
  certs_of toy2 (0 :: der ++ 256 :: 0 :: der) [der; der] /\
  gX (0 :: der ++ 256 :: 0 :: der) (1 :: kder) = Ok ([der; der], KSm2 1 sm2_gx sm2_gy) /\
  gSingle (0 :: der ++ 256 :: 0 :: der) (1 :: kder) = Ok ([der], KSm2 1 sm2_gx sm2_gy).
Proof.
  intros b. destruct (ex_pairs b) as (der & B & H1 & H2). exists der. destruct (H2 der der [] B B) as (K & _ & G). split; [exact B|]. split; [exact H1|]. split; [exact (two_certs der der B B)|]. split; [exact K|exact G].
Qed.
Theorem C144_hyps : forall b, good_curve cv_std /\ shrinks toy2 /\ (forall p bl rest, toy2 p = Some (bl, rest) -> bytes (b_bytes bl)) /\
  exists der, bytes der /\ eCreate eT eParent ePub (sm2_signer cv_std b ePriv) = Ok der /\
    gGM (0 :: der) (1 :: kder) (0 :: der) (1 :: kder) = Ok ([der; der], KSm2 1 sm2_gx sm2_gy).
Proof.
  intros b. split; [exact cv_std_good|]. split; [exact toy2_shrinks|]. split; [exact toy2_bytes|]. destruct (cert_key b) as (der & c & H1 & H2 & H3 & H4). exists der. split; [exact H2|]. split; [exact H1|].
  unfold gGM. apply (C144_pairs_partial _ _ _ _ _ _ _ _ _ _ _ _ toy2_shrinks). exists der, [], der, [], (mkBlock str_EC None None kder).
  split; [exact (one_cert der H2)|]. split; [exact (one_cert der H2)|]. split; [exact (one_key kder kder_bytes)|]. split; [exact (der_match der c H3 H4)|exact eq_refl].
Qed.

(** C135: a concrete case: an SM2 certificate made by CreateCertificate and the matching SEC 1 key, in a toy armour. *)
From Verif Require Import GoBase GoLemmas BigBytes Asn1_model NT Prime_cert SM2_curve_spec SM2_group SM2_jac SM2_order SM2_spec SM2_model SM2_proofs P_SM2 Keys_model Keys_proofs P_Keys
  X509C_model X509C_ext_proofs X509C_spec X509C_proofs P_X509C P_X509C_csr P_X509C_crl P_X509C_ex TLS_keypair_model P_TLS_keypair.
Open Scope Z_scope.
(** the armour: one octet for the type (0: CERTIFICATE, 1: EC PRIVATE KEY, other: X), then the contents up to the end *)
Definition str_EC : list Z := [69;67] ++ str_sp_PRIVATE_KEY.
Definition toyDecode (p : list Z) : option (block * list Z) :=
  match p with
  | [] => None
  | t :: c => if bytesb c then Some (mkBlock (if t =? 0 then str_CERTIFICATE else if t =? 1 then str_EC else [88]) None None c, []) else None
  end.
Lemma toy_shrinks : shrinks toyDecode.
Proof. intros p b rest H. unfold toyDecode in H. destruct p as [|t c]; [discriminate|]. destruct (bytesb c); [|discriminate]. assert (rest = []) by congruence. subst. cbn. lia. Qed.
Lemma toy_bytes : forall p b rest, toyDecode p = Some (b, rest) -> bytes (b_bytes b).
Proof. intros p b rest H. unfold toyDecode in H. destruct p as [|t c]; [discriminate|]. destruct (bytesb c) eqn:E; [|discriminate]. injection H as <- <-. now apply bytesb_spec. Qed.
Definition no_rsa (_ : list Z) : res (rsapriv * list Z) := Err 1.
Definition ec1 : ecpriv := mkEC 1 [1] oidNamedCurveSm2 [].
Definition kder : list Z := Eval vm_compute in marshal_ec ec1.
Definition eKeyPair := X509KeyPair (list Z) (list Z) en dt nu unit cv_std (fun _ => 1) (fun _ _ => (0, 0)) no_rsa (fun _ _ _ _ => false) toyDecode.
Lemma ec1_parse : unmarshal_ec kder = Ok ec1. Proof. vm_compute. reflexivity. Qed.
Lemma no_pkcs8 : unmarshal_pkcs8 kder = Err 1. Proof. vm_compute. reflexivity. Qed.
Lemma kder_key : parsePrivateKey unit cv_std (fun _ => 1) (fun _ _ => (0, 0)) no_rsa (fun _ _ _ _ => false) kder = Ok (KSm2 1 sm2_gx sm2_gy).
Proof.
  unfold parsePrivateKey. change (ParsePKCS1PrivateKey no_rsa (fun _ _ _ _ => false) kder) with (@Err Z 1). cbv iota.
  unfold ParsePKCS8. rewrite no_pkcs8. cbn [rbind]. unfold ParseEC.
  assert (G : parseECPrivateKey unit cv_std (fun _ => 1) (fun _ _ => (0, 0)) unmarshal_ec None kder = Ok (KEC SM2C 1 sm2_gx sm2_gy)).
  { apply C46_parse_ec_private_key.
    - intros e He. rewrite ec1_parse in He. injection He as <-. apply bytesb_spec. reflexivity.
    - exists ec1. split; [exact ec1_parse|]. split; [reflexivity|]. split; [vm_compute; reflexivity|]. split; [reflexivity|]. split; [vm_compute; split; [discriminate|reflexivity]|].
      cbn [baseMult]. rewrite (gc_base cv_std cv_std_good) by apply be_bytes_bytes. replace (be_val (be_bytes (order_len (fun _ => 1) SM2C) 1)) with 1 by (vm_compute; reflexivity).
      rewrite smul_1. reflexivity. }
  rewrite G. reflexivity.
Qed.
(** the certificate is parsed with the key it was made for *)
Lemma C99_pub (t parent : xcert (list Z) (list Z)) pub key der ib iname sb sname nb na :
  eCreate t parent pub key = Ok der -> bytes der -> small der ->
  exs_ok (c_x t) (c_extra t) -> pub_ok nu nma pub -> name_ok en en parent ib iname -> name_ok en en t sb sname ->
  time_ok et dt (c_nb t) nb -> time_ok et dt (c_na t) na -> exists c, eParse der = Ok c /\ c_pub c = pub.
Proof.
  unfold eCreate. intros HC HB HS HX HP HI HSb Hnb Hna.
  destruct (C99_certificate_fields _ _ _ _ _ _ _ _ _ _ _ _ _ _ _ _ _ _ _ _ HC HB HS HX HP HI HSb Hnb Hna) as (c & H1 & _ & _ & _ & _ & _ & _ & _ & _ & _ & H2 & _). exists c. split; [exact H1|exact H2].
Qed.
#[local] Opaque eCreate eParse.
Lemma cert_key b : exists der c, eCreate eT eParent ePub (sm2_signer cv_std b ePriv) = Ok der /\ bytes der /\ eParse der = Ok c /\ c_pub c = ePub.
Proof.
  destruct (C98_C99_hyps b) as (_ & HK & (der & HC & HB & HS) & HX & HP & HI & HSb & Hnb & Hna & _).
  destruct (C99_pub _ _ _ _ _ _ _ _ _ _ _ HC HB HS HX HP HI HSb Hnb Hna) as (c & H1 & H2).
  exists der, c. split; [exact HC|]. split; [exact HB|]. split; [exact H1|exact H2].
Qed.
#[local] Opaque ParseCertificate parsePrivateKey.
Theorem C135_hyps : forall b, good_curve cv_std /\ shrinks toyDecode /\ (forall p bl rest, toyDecode p = Some (bl, rest) -> bytes (b_bytes bl)) /\
  exists der, eCreate eT eParent ePub (sm2_signer cv_std b ePriv) = Ok der /\ eKeyPair (0 :: der) (1 :: kder) = Ok ([der], KSm2 1 sm2_gx sm2_gy) /\
    eKeyPair (2 :: der) (1 :: kder) = Err eNoCert /\ eKeyPair (1 :: der) (0 :: kder) = Err eSwitched /\ eKeyPair (0 :: der) (0 :: kder) = Err eCertNotKey.
Proof.
  intros b. split; [exact cv_std_good|]. split; [exact toy_shrinks|]. split; [exact toy_bytes|]. destruct (cert_key b) as (der & c & H1 & H2 & H3 & H4). exists der. split; [exact H1|].
  assert (BB : bytesb der = true) by (apply bytesb_spec; exact H2).
  split; [|split; [|split]].
  - unfold eKeyPair. apply (C135_key_pair _ _ _ _ _ _ _ _ _ _ _ _ toy_shrinks). set (cb := mkBlock str_CERTIFICATE None None der). set (kb := mkBlock str_EC None None kder).
    exists [cb], [kb], der, [], [], kb, [], c. split; [|split; [|split; [|split; [|split; [|split; [|split; [|split; [|split]]]]]]]].
    + apply (decodes_cons _ _ cb []); [unfold toyDecode; rewrite BB; exact eq_refl|apply decodes_end; exact eq_refl].
    + exact eq_refl.
    + exact eq_refl.
    + apply (decodes_cons _ _ kb []); [vm_compute; exact eq_refl|apply decodes_end; exact eq_refl].
    + exact eq_refl.
    + right. exists [69;67]. exact eq_refl.
    + constructor.
    + exact H3.
    + exact kder_key.
    + rewrite H4. split; exact eq_refl.
  - unfold eKeyPair, X509KeyPair. cbn [cert_blocks]. unfold toyDecode at 1. rewrite BB. destruct der; cbn [length cert_blocks toyDecode]; vm_compute; exact eq_refl.
  - unfold eKeyPair, X509KeyPair. cbn [cert_blocks]. unfold toyDecode at 1. rewrite BB. destruct der; cbn [length cert_blocks toyDecode]; vm_compute; exact eq_refl.
  - unfold eKeyPair, X509KeyPair. cbn [cert_blocks]. unfold toyDecode at 1. rewrite BB. destruct der; cbn [length cert_blocks toyDecode]; vm_compute; exact eq_refl.
Qed.

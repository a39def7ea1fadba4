(** Concrete cases: the hypotheses of C98-C107 are met, and some certificates that show what the code does not promise
    (C100, C108, C110). *)
From Verif Require Import GoBase GoLemmas BigBytes Asn1_model Asn1_go SM3_model NT Prime_cert SM2_curve_spec SM2_group SM2_jac SM2_order SM2_spec SM2_model SM2_proofs P_SM2
  Keys_model Keys_proofs X509C_model X509C_ext_proofs X509C_spec X509C_proofs P_X509C P_X509C_csr P_X509C_crl.
Open Scope Z_scope.
Notation small := Asn1_go.small (only parsing).

(** a name is its encoding, a time its UTCTime octets *)
Definition en (n : list Z) : res (list Z) := Ok n.
Definition et (t : list Z) : res (bool * list Z) := Ok (false, t).
Definition dt (_ : bool) (c : list Z) : res (list Z) := Ok c.
Definition zt (t : list Z) : bool := match t with [] => true | _ => false end.
Definition hf (_ : Z) (m : list Z) : list Z := firstn 4 m.
Definition nu (i : nat) (d : list Z) : option (Z * Z) := None.
Definition nma (i : nat) (x y : Z) : list Z := [4; x; y].
Definition eCreate := CreateCertificate (list Z) (list Z) en et hf nma.
Definition eParse := ParseCertificate (list Z) (list Z) en dt nu.
Definition ePriv : privkey unit := mkPriv (mkPub sm2_gx sm2_gy None) 1 None.
Definition ePub : xkey := XSM2 SM2C sm2_gx sm2_gy.
(** a CA with a critical extension of its own *)
Definition eX : exs := mkX (96 + 256) true true 0 true [[97;46;98]] [[97;64;98]] [[10;0;0;1]; [0;0;0;0;0;0;0;0;0;0;255;255;10;0;0;2]] [[99]] [[100;46;101]] true [[104;58]]
  [] [0;1;2] [[43;6;1;5;5;8]] [1;2;3] [[85;29;32;0]] [[104]] [[105]] [].
Definition eTpl (x : exs) (extra : list ext) : xcert (list Z) (list Z) := mkC [] [] [] [] [] [] 0 0 XNil 0 (Some 5) [] [49;1;7] [50;54] [51;54] [] extra x.
Definition eT : xcert (list Z) (list Z) := eTpl eX [mkExt [42;3] true [5;0]].
Definition eParent : xcert (list Z) (list Z) := mkC [] [] [] [] [] [] 0 SM2 ePub 3 (Some 1) [] [49;1;8] [50] [51] [] [] (mkX 32 true true 0 false [] [] [] [] [] false [] [] [] [] [9;9] [] [] [] []).
(** a signer that always returns the same octets *)
Definition eRSA : signer := mkSigner (XRSA 3233 17) false (fun _ _ _ => Ok [1;2;3]).

Lemma tlv_bytes t c : 0 <= t < 256 -> zlen c < 2 ^ 31 -> bytes c -> bytes (der_tlv t c).
Proof.
  intros Ht Hl Hc. unfold der_tlv. apply bytes_cons. split; [exact Ht|]. apply bytes_app. split; [|exact Hc].
  pose proof (zlen_nonneg c) as H0. unfold len_enc. destruct (Z.ltb_spec (zlen c) 128); [apply bytes_cons; split; [unfold is_byte; lia|constructor]|].
  apply bytes_cons. split; [|apply Bytes_bytes]. assert (nbytes (zlen c) <= 4)%nat by (apply nbytes_le; rewrite Z.abs_eq by lia; change (256 ^ Z.of_nat 4) with (2 ^ 32); lia). unfold is_byte. lia.
Qed.
(** *** the pieces of a certificate signed with the SM2 key *)
Lemma key_ePriv : key_ok ePriv. Proof. exact (proj2 C13_hyps). Qed.
Lemma sign_ePriv b m : bytes m -> zlen m < 2 ^ 60 -> exists sig, PrivSign cv_std (Some b) ePriv m = Ok sig /\ bytes sig /\ zlen sig <= 84.
Proof.
  intros Hb Hl. destruct (C13_sign_verify_good unit cv_std ePriv b m cv_std_good key_ePriv (or_introl eq_refl) Hb Hl) as (r & s & HS & Hr & Hs & _).
  assert (Hr2 : 0 <= r < 2 ^ 256) by exact (conj (proj1 Hr) (Z.lt_trans _ _ _ (proj2 Hr) n_lt256)).
  assert (Hs2 : 0 <= s < 2 ^ 256) by exact (conj (proj1 Hs) (Z.lt_trans _ _ _ (proj2 Hs) n_lt256)).
  unfold PrivSign. rewrite HS. cbn [rbind]. eexists. split; [exact eq_refl|]. clear HS Hr Hs.
  unfold der_seq. cbn [concat]. rewrite app_nil_r.
  assert (H1 : forall z, 0 <= z < 2 ^ 256 -> bytes (der_int z) /\ zlen (der_int z) <= 35).
  { intros z Hz. pose proof (int_content_length z Hz) as HL. unfold der_int. split; [apply tlv_bytes; [lia|lia|apply int_content_bytes]|].
    unfold der_tlv, len_enc. replace (zlen (int_content z) <? 128) with true by lia. rewrite zlen_cons, zlen_app, zlen_cons, zlen_nil. lia. }
  destruct (H1 r Hr2) as [B1 L1]. destruct (H1 s Hs2) as [B2 L2].
  assert (L : zlen (der_int r ++ der_int s) <= 70) by (rewrite zlen_app; lia).
  split; [apply tlv_bytes; [lia|lia|apply Forall_app; now split]|].
  unfold der_tlv, len_enc. replace (zlen (der_int r ++ der_int s) <? 128) with true by lia. rewrite zlen_cons, zlen_app, zlen_cons, zlen_nil. lia.
Qed.
Lemma zlen_tlv_le t c : zlen c < 2 ^ 16 -> zlen (der_tlv t c) <= zlen c + 4.
Proof.
  intros H. pose proof (zlen_nonneg c). unfold der_tlv, len_enc. rewrite zlen_cons, zlen_app. destruct (zlen c <? 128); [rewrite zlen_cons, zlen_nil; lia|].
  rewrite zlen_cons. assert (nbytes (zlen c) <= 2)%nat by (apply nbytes_le; rewrite Z.abs_eq by lia; change (256 ^ Z.of_nat 2) with (2 ^ 16); lia).
  assert (zlen (Bytes (zlen c)) <= 2) by (unfold zlen at 1; rewrite Bytes_length; lia). lia.
Qed.
#[local] Opaque der_tlv.
Lemma signed_ok m alg sig : bytes m -> zlen m < 2 ^ 15 -> bytes (der_algid alg) -> zlen (der_algid alg) < 2 ^ 10 -> bytes sig -> zlen sig <= 84 ->
  bytes (der_signed m alg sig) /\ small (der_signed m alg sig).
Proof.
  intros H1 H2 H3 H4 H5 H6. unfold der_signed, der_bits, Asn1_go.small.
  assert (L1 : zlen (0 :: sig) <= 85) by (rewrite zlen_cons; lia). pose proof (zlen_tlv_le 3 (0 :: sig) ltac:(lia)) as L2.
  assert (B1 : bytes (der_tlv 3 (0 :: sig))) by (apply tlv_bytes; [lia|lia|apply bytes_cons; split; [unfold is_byte; lia|exact H5]]).
  assert (L3 : zlen (m ++ der_algid alg ++ der_tlv 3 (0 :: sig)) < 2 ^ 16 - 10) by (rewrite !zlen_app; lia).
  split.
  - apply tlv_bytes; [lia|lia|]. apply bytes_app. split; [exact H1|]. apply bytes_app. now split.
  - pose proof (zlen_tlv_le 48 (m ++ der_algid alg ++ der_tlv 3 (0 :: sig)) ltac:(lia)). lia.
Qed.
#[local] Transparent der_tlv.
Definition sm2alg : list Z * list Z := (oidSignatureSM2WithSM3, []).
Lemma sm2alg_ok : bytes (der_algid sm2alg) /\ zlen (der_algid sm2alg) < 2 ^ 10.
Proof. split; [apply bytesb_spec; vm_compute; exact eq_refl|vm_compute; exact eq_refl]. Qed.
(** the signed part *)
Definition eTBS : list Z :=
  match buildExtensions (list Z) (list Z) eT [9;9] with
  | Ok exts => marshal_tbs 5 sm2alg (der_tlv 48 [49;1;8]) (der_tlv 23 [50;54]) (der_tlv 23 [51;54]) (der_tlv 48 [49;1;7]) (der_spki (ellMarshal sm2_gx sm2_gy, (oidPublicKeyECDSA, der_tlv 6 oidNamedCurveSm2))) exts
  | _ => []
  end.
Lemma eTBS_ok : bytes eTBS /\ zlen eTBS < 2 ^ 15.
Proof. split; [apply bytesb_spec; vm_compute; exact eq_refl|vm_compute; exact eq_refl]. Qed.
Lemma eExts : exists exts, buildExtensions (list Z) (list Z) eT [9;9] = Ok exts.
Proof. destruct (buildExtensions (list Z) (list Z) eT [9;9]) as [e| |] eqn:E; [now exists e| |]; exfalso; pose proof (f_equal (fun r => match r with Ok _ => true | _ => false end) E) as K; vm_compute in K; discriminate K. Qed.

(** what CreateCertificate needs *)
Section Create.
Variables (nm tm : Type) (enc_name : nm -> res (list Z)) (enc_time : tm -> res (bool * list Z)) (hashf : Z -> list Z -> list Z) (nist_mar : nat -> Z -> Z -> list Z).
Lemma create_from (t parent : xcert nm tm) pub key serial sp pk ib sb exts nb na sig :
  c_serial t = Some serial -> signingParamsForPublicKey (sg_pub key) (c_sigAlg t) = Ok sp -> marshalPublicKey nist_mar pub = Ok pk ->
  subjectBytes nm tm enc_name parent = Ok ib -> subjectBytes nm tm enc_name t = Ok sb ->
  buildExtensions nm tm t (if negb (beqb ib sb) && nonempty (x_ski (c_x parent)) then x_ski (c_x parent) else x_aki (c_x t)) = Ok exts ->
  der_time tm enc_time (c_nb t) = Ok nb -> der_time tm enc_time (c_na t) = Ok na ->
  sign_with hashf key (is_sm2 (sg_pub key)) (fst sp) (isRSAPSS (c_sigAlg t)) (marshal_tbs serial (snd sp) ib nb na sb (der_spki pk) exts) = Ok sig ->
  CreateCertificate nm tm enc_name enc_time hashf nist_mar t parent pub key = Ok (der_signed (marshal_tbs serial (snd sp) ib nb na sb (der_spki pk) exts) (snd sp) sig).
Proof.
  intros H1 H2 H3 H4 H5 H6 H7 H8 H9. unfold CreateCertificate. rewrite H1, H2. cbn [rbind]. rewrite H3. cbn [rbind]. rewrite H4. cbn [rbind]. rewrite H5. cbn [rbind]. cbv zeta.
  rewrite H6. cbn [rbind]. rewrite H7. cbn [rbind]. rewrite H8. cbn [rbind]. rewrite H9. exact eq_refl.
Qed.
End Create.
#[local] Opaque PrivSign buildExtensions marshal_tbs SumSM3 sm2_gx sm2_gy ellMarshal der_signed eTBS.
Lemma create_eT b : exists der, eCreate eT eParent ePub (sm2_signer cv_std b ePriv) = Ok der /\ bytes der /\ small der.
Proof.
  destruct eTBS_ok as [HB HL]. destruct (sign_ePriv b eTBS HB ltac:(lia)) as (sig & Hs & Hsb & Hsl). destruct sm2alg_ok as [A1 A2].
  exists (der_signed eTBS sm2alg sig). split; [|apply signed_ok; assumption].
  destruct (SumSM3_total eTBS HB) as (d & Hd & _). destruct eExts as (exts & Hexts).
  assert (ET : eTBS = marshal_tbs 5 sm2alg (der_tlv 48 [49;1;8]) (der_tlv 23 [50;54]) (der_tlv 23 [51;54]) (der_tlv 48 [49;1;7]) (der_spki (ellMarshal sm2_gx sm2_gy, (oidPublicKeyECDSA, der_tlv 6 oidNamedCurveSm2))) exts).
  { with_strategy transparent [eTBS] unfold eTBS. rewrite Hexts. exact eq_refl. }
  rewrite ET in Hs, Hd |- *.
  refine (create_from (list Z) (list Z) en et hf nma eT eParent ePub (sm2_signer cv_std b ePriv) 5 (hSM3, sm2alg) (ellMarshal sm2_gx sm2_gy, (oidPublicKeyECDSA, der_tlv 6 oidNamedCurveSm2))
    (der_tlv 48 [49;1;8]) (der_tlv 48 [49;1;7]) exts (der_tlv 23 [50;54]) (der_tlv 23 [51;54]) sig _ _ _ _ _ _ _ _ _).
  1-5: exact eq_refl. 1: exact Hexts. 1-2: exact eq_refl.
  unfold sign_with. change (fst (hSM3, sm2alg)) with hSM3. change (snd (hSM3, sm2alg)) with sm2alg. change (digest_of hf hSM3) with SumSM3. rewrite Hd. cbn [rbind]. exact Hs.
Qed.

Lemma eT_exs : exs_ok (c_x eT) (c_extra eT).
Proof.
  split.
  - cbn. lia.
  - repeat constructor; cbn; tauto.
  - split; repeat constructor; discriminate.
  - repeat constructor.
  - repeat constructor.
  - repeat constructor. intros H. cbn in H. repeat (destruct H as [H|H]; [discriminate H|]). exact H.
Qed.
Lemma ePub_ok : pub_ok nu nma ePub. Proof. exact (key_on_curve ePriv key_ePriv). Qed.
(** the hypotheses of C98 and C99 are met, for every draw of the signature's random number *)
Theorem C98_C99_hyps : forall b, good_curve cv_std /\ key_ok ePriv /\
  (exists der, eCreate eT eParent ePub (sm2_signer cv_std b ePriv) = Ok der /\ bytes der /\ small der) /\
  exs_ok (c_x eT) (c_extra eT) /\ pub_ok nu nma ePub /\
  name_ok en en eParent (der_tlv 48 [49;1;8]) [49;1;8] /\ name_ok en en eT (der_tlv 48 [49;1;7]) [49;1;7] /\
  time_ok et dt (c_nb eT) [50;54] /\ time_ok et dt (c_na eT) [51;54] /\ c_pub eParent = sm2_pub ePriv /\ c_pubAlg eParent <> 0 /\ may_sign _ _ eParent.
Proof.
  intros b. split; [exact cv_std_good|]. split; [exact key_ePriv|]. split; [apply create_eT|]. split; [exact eT_exs|]. split; [exact ePub_ok|].
  split; [exists [49;1;8]; split; [exact eq_refl|split; exact eq_refl]|]. split; [exists [49;1;7]; split; [exact eq_refl|split; exact eq_refl]|].
  split; [exists false, [50;54]; split; exact eq_refl|]. split; [exists false, [51;54]; split; exact eq_refl|]. split; [exact eq_refl|]. split; [discriminate|].
  split; [left; split; exact eq_refl|right; exact eq_refl].
Qed.

(** *** a request *)
Definition eQ (alg : Z) : csr (list Z) := mkCsr [] [] [] [] 0 [] alg 0 XNil [49;1;7] [] [mkExt [42;3] true [5;0]] [[97;46;98]] [] [[10;0;0;1]].
Definition eReq := CreateCertificateRequest (list Z) en hf nma.
Definition eReqTBS : list Z :=
  der_tlv 48 (der_int 0 ++ der_tlv 48 [49;1;7] ++ der_spki (ellMarshal sm2_gx sm2_gy, (oidPublicKeyECDSA, der_tlv 6 oidNamedCurveSm2)) ++
    der_tlv 160 (der_tlv 48 (der_tlv 6 oidExtensionRequest ++ der_tlv 49 (der_tlv 48 (concat (map atv [mkExt [85;29;17] false (marshalSANs [[97;46;98]] [] [[10;0;0;1]]); mkExt [42;3] true [5;0]])))))).
Lemma eReqTBS_ok : bytes eReqTBS /\ zlen eReqTBS < 2 ^ 15.
Proof. with_strategy transparent [sm2_gx sm2_gy ellMarshal] (split; [apply bytesb_spec; vm_compute; exact eq_refl|vm_compute; exact eq_refl]). Qed.
#[local] Opaque der_tlv marshalSANs concat oidExtensionRequest.
Lemma req_eQ alg sp b : signingParamsForPublicKey ePub alg = Ok sp -> 
  forall sig, PrivSign cv_std (Some b) ePriv eReqTBS = Ok sig -> eReq (eQ alg) (sm2_signer cv_std b ePriv) = Ok (der_signed eReqTBS (snd sp) sig).
Proof.
  intros H sig Hs. unfold eReq, CreateCertificateRequest. change (sg_pub (sm2_signer cv_std b ePriv)) with ePub. change (q_sigAlg (eQ alg)) with alg. rewrite H. cbn [rbind].
  change (marshalPublicKey nma ePub) with (Ok (ellMarshal sm2_gx sm2_gy, (oidPublicKeyECDSA, der_tlv 6 oidNamedCurveSm2))). cbn [rbind]. cbv zeta.
  cbn [eQ q_dns q_email q_ip q_extra nonempty orb andb optl app q_rawSubject q_subject en rbind].
  change (oidInExtensions oidExtensionSubjectAltName [mkExt [42;3] true [5;0]]) with false. cbn [negb andb optl app]. fold eReqTBS. unfold ePub at 1. cbn [sg_sign sm2_signer].
  change oidExtensionSubjectAltName with [85;29;17]. fold eReqTBS. rewrite Hs. exact eq_refl.
Qed.
#[local] Transparent der_tlv marshalSANs concat oidExtensionRequest.
Theorem C105_hyps : forall b alg, In alg [0; SM2WithSM3; SM2WithSHA1; SM2WithSHA256] -> good_curve cv_std /\ key_ok ePriv /\
  (exists der, eReq (eQ alg) (sm2_signer cv_std b ePriv) = Ok der /\ bytes der /\ small der) /\ csr_ok (list Z) (eQ alg) /\ csr_name_ok (list Z) en en (eQ alg) (der_tlv 48 [49;1;7]) [49;1;7].
Proof.
  intros b alg HA. split; [exact cv_std_good|]. split; [exact key_ePriv|]. split.
  - destruct eReqTBS_ok as [HB HL]. destruct (sign_ePriv b eReqTBS HB ltac:(lia)) as (sig & Hs & Hsb & Hsl).
    assert (K : exists sp, signingParamsForPublicKey ePub alg = Ok sp /\ bytes (der_algid (snd sp)) /\ zlen (der_algid (snd sp)) < 2 ^ 10).
    { repeat (destruct HA as [<- | HA]; [eexists; split; [exact eq_refl|]; split; [apply bytesb_spec; vm_compute; exact eq_refl|vm_compute; exact eq_refl]|]). destruct HA. }
    destruct K as (sp & Hsp & A1 & A2). eexists. split; [exact (req_eQ alg sp b Hsp sig Hs)|]. apply signed_ok; assumption.
  - split.
    + split; [repeat constructor|]. repeat constructor. discriminate.
    + exists [49;1;7]. split; [exact eq_refl|]. split; exact eq_refl.
Qed.

(** *** a revocation list *)
Definition eRevs : list (revoked (list Z)) := [mkRev 7 [50;55] []; mkRev 300 [50;56] [mkExt [42;3] true [5;0]]].
Definition eCRL := CreateCRL (list Z) (list Z) en et zt hf.
Definition eCRLTBS : list Z :=
  der_tlv 48 (der_int 1 ++ der_algid sm2alg ++ der_tlv 48 [49;1;8] ++ der_tlv 23 [50] ++ der_tlv 23 [51] ++
    der_tlv 48 (match der_revokeds (list Z) et eRevs with Ok r => r | _ => [] end) ++ der_tlv 160 (der_exts [mkExt oidExtensionAuthorityKeyId false (der_tlv 48 (der_tlv 128 [9;9]))])).
Lemma eCRLTBS_ok : bytes eCRLTBS /\ zlen eCRLTBS < 2 ^ 15.
Proof. split; [apply bytesb_spec; vm_compute; exact eq_refl|vm_compute; exact eq_refl]. Qed.
Theorem C107_hyps : forall b, good_curve cv_std /\ key_ok ePriv /\
  (exists der, eCRL eParent (sm2_signer cv_std b ePriv) eRevs [50] [51] = Ok der /\ bytes der /\ small der) /\
  en (c_subject eParent) = Ok [49;1;8] /\ time_ok et dt [50] [50] /\ expiry_ok (list Z) et dt zt [51] (Some [51]) /\ Forall2 (revoked_ok (list Z) et dt) eRevs eRevs.
Proof.
  intros b. split; [exact cv_std_good|]. split; [exact key_ePriv|]. split.
  - destruct eCRLTBS_ok as [HB HL]. destruct (sign_ePriv b eCRLTBS HB ltac:(lia)) as (sig & Hs & Hsb & Hsl). destruct (SumSM3_total eCRLTBS HB) as (d & Hd & _). destruct sm2alg_ok as [A1 A2].
    exists (der_signed eCRLTBS sm2alg sig). split; [|apply signed_ok; assumption].
    assert (HR : exists rv, der_revokeds (list Z) et eRevs = Ok rv) by (eexists; exact eq_refl). destruct HR as (rv & HR).
    assert (ET : eCRLTBS = der_tlv 48 (der_int 1 ++ der_algid sm2alg ++ der_tlv 48 [49;1;8] ++ der_tlv 23 [50] ++ der_tlv 23 [51] ++
      der_tlv 48 rv ++ der_tlv 160 (der_exts [mkExt oidExtensionAuthorityKeyId false (der_tlv 48 (der_tlv 128 [9;9]))]))) by (unfold eCRLTBS; rewrite HR; exact eq_refl).
    #[local] Opaque der_tlv der_exts der_algid eCRLTBS der_int.
    unfold eCRL, CreateCRL. change (sg_pub (sm2_signer cv_std b ePriv)) with ePub. change (signingParamsForPublicKey ePub 0) with (Ok (hSM3, sm2alg)). cbn [rbind].
    change (en (c_subject eParent)) with (Ok [49;1;8]). cbn [rbind]. change (der_time (list Z) et [50]) with (Ok (der_tlv 23 [50])). cbn [rbind]. change (zt [51]) with false. cbv iota.
    change (der_time (list Z) et [51]) with (Ok (der_tlv 23 [51])). cbn [rbind]. rewrite HR. cbn [rbind fst snd]. cbv zeta. cbn [eParent c_x x_ski].
    rewrite <- ET. unfold sign_with. change (digest_of hf hSM3) with SumSM3. rewrite Hd. cbn [rbind sg_sm2priv sm2_signer sg_sign]. rewrite Hs. exact eq_refl.
  - split; [exact eq_refl|]. split; [exists false, [50]; split; exact eq_refl|]. split; [exists [51]; split; [exact eq_refl|exists false, [51]; split; exact eq_refl]|].
    assert (K : forall t, time_ok et dt t t) by (intros t; exists false, t; split; exact eq_refl).
    constructor; [split; [exact eq_refl|split; [apply K|split; [exact eq_refl|repeat constructor]]]|].
    constructor; [split; [exact eq_refl|split; [apply K|split; [exact eq_refl|repeat constructor]]]|constructor].
Qed.

(** Properties of creating, parsing and checking certificates (x509/x509.go). *)
From Verif Require Import GoBase GoLemmas BigBytes Asn1_model Asn1_go SM3_model NT Prime_cert SM2_curve_spec SM2_spec SM2_model SM2_proofs SM2_group P_SM2
  Keys_model Keys_proofs X509C_model X509C_ext_proofs X509C_spec X509C_proofs.
Open Scope Z_scope.
#[local] Opaque der_tlv.
Notation small := Asn1_go.small (only parsing).

(** A *sm2.PrivateKey used as a crypto.Signer: the message itself is signed with fresh randomness [b] (sm2.go, external.go). *)
Definition sm2_pub {T} (k : privkey T) : xkey := XSM2 SM2C (pX (sPub k)) (pY (sPub k)).
Definition sm2_signer {T} (cv : curve T) (b : list Z) (k : privkey T) : signer := mkSigner (sm2_pub k) true (fun m _ _ => PrivSign cv (Some b) k m).

(** a signature as x509 reads it *)
Lemma sig_ints_der r s : 0 <= r < 2 ^ 256 -> 0 <= s < 2 ^ 256 -> sig_ints (der_seq [der_int r; der_int s]) = if (r <=? 0) || (s <=? 0) then Err 1 else Ok (r, s).
Proof.
  intros Hr Hs. unfold sig_ints, der_seq. cbn [concat]. rewrite app_nil_r.
  assert (Sr : small (int_content r)) by (unfold Asn1_go.small; pose proof (int_content_length r Hr); lia).
  assert (Ss : small (int_content s)) by (unfold Asn1_go.small; pose proof (int_content_length s Hs); lia).
  rewrite (whole_tlv 48 _ _ (r, s)); [exact eq_refl|lt| |].
  - unfold Asn1_go.small, der_int. with_strategy transparent [der_tlv] unfold der_tlv.
    rewrite !zlen_app, !zlen_cons, !zlen_app. pose proof (int_content_length r Hr). pose proof (int_content_length s Hs).
    pose proof (zlen_nonneg (int_content r)). pose proof (zlen_nonneg (int_content s)).
    unfold len_enc. replace (zlen (int_content r) <? 128) with true by lia. replace (zlen (int_content s) <? 128) with true by lia. rewrite !zlen_cons, !zlen_nil. lia.
  - unfold p_two, der_int. rewrite (req_tlv 2 int_value _ r) by (lt || exact Sr || apply int_value_content). cbn [rbind fst snd].
    rewrite <- (app_nil_r (der_tlv 2 (int_content s))). rewrite (req_tlv 2 int_value _ s) by (lt || exact Ss || apply int_value_content). exact eq_refl.
Qed.
Lemma sign_notab {T} (cv : curve T) d x y tab D I m : Sign cv d (mkPriv (mkPub x y tab) D I) m = Sign cv d (mkPriv (mkPub x y None) D I) m.
Proof. unfold Sign, s2_of, hash_msg, getZ, getZById. cbn [sPub sD sDInv pX pY]. reflexivity. Qed.
Lemma key_notab {T} x y (tab : option T) D I : key_ok (mkPriv (mkPub x y tab) D I) -> key_ok (mkPriv (mkPub (T := T) x y None) D I).
Proof. unfold key_ok. cbn [sPub sD sDInv pX pY]. intros H. exact H. Qed.
#[local] Opaque Sign Verify SumSM3 sig_ints hash_of digest_of.
Section SM2Check.
Variables (hashf : Z -> list Z -> list Z) (rsa_verify : bool -> Z -> Z -> Z -> list Z -> list Z -> bool) (dsa_verify : Z -> Z -> Z -> Z -> list Z -> Z -> Z -> bool)
  (ecdsa_verify : ncurve -> Z -> Z -> list Z -> Z -> Z -> bool) (T : Type) (cv : curve T) (sm2_verify_nist : nat -> Z -> Z -> list Z -> Z -> Z -> res bool).
Notation checkSignature := (checkSignature hashf rsa_verify dsa_verify ecdsa_verify T cv sm2_verify_nist).
Lemma sm2_check algo priv b m sig : good_curve cv -> key_ok priv -> bytes m -> zlen m < 2 ^ 60 -> In algo [SM2WithSM3; SM2WithSHA1; SM2WithSHA256] ->
  PrivSign cv (Some b) priv m = Ok sig ->
  exists r s, Sign cv (Some b) priv m = Ok (r, s) /\ sig = der_seq [der_int r; der_int s] /\ 0 <= r < sm2_n /\ 0 <= s < sm2_n /\
    (checkSignature algo m sig (sm2_pub priv) = Ok tt <-> r <> 0 /\ s <> 0).
Proof.
  intros GC HK Hb Hl HA HS.
  destruct priv as [[x y tab] D I]. unfold PrivSign in HS. rewrite sign_notab in HS. rewrite sign_notab. apply key_notab in HK.
  unfold sm2_pub. cbn [sPub pX pY]. remember (mkPriv (mkPub (T := T) x y None) D I) as priv' eqn:Ep.
  assert (E1 : mkPub x y None = sPub priv') by (rewrite Ep; exact eq_refl).
  assert (Ht : tab_ok cv (sPub priv')) by (rewrite <- E1; left; exact eq_refl). clear Ep.
  destruct (C13_sign_verify_good T cv priv' b m GC HK Ht Hb Hl) as (r & s & HSg & Hr & Hs & HV & _).
  exists r, s. split; [exact HSg|]. rewrite HSg in HS. cbn [rbind] in HS. apply Ok_inj in HS. subst sig.
  split; [exact eq_refl|]. split; [exact Hr|]. split; [exact Hs|]. clear HSg.
  assert (Hr2 : 0 <= r < 2 ^ 256) by exact (conj (proj1 Hr) (Z.lt_trans _ _ _ (proj2 Hr) n_lt256)).
  assert (Hs2 : 0 <= s < 2 ^ 256) by exact (conj (proj1 Hs) (Z.lt_trans _ _ _ (proj2 Hs) n_lt256)).
  unfold X509C_model.checkSignature.
  assert (Hd : exists h d, hash_of algo = Ok h /\ digest_of hashf h m = Ok d).
  { destruct HA as [<- | [<- | [<- | []]]].
    - destruct (SumSM3_total m Hb) as (d & Hd & _). exists hSM3, d. split; [with_strategy transparent [hash_of] exact eq_refl|with_strategy transparent [digest_of] exact Hd].
    - exists hSHA1. eexists. split; with_strategy transparent [hash_of digest_of] exact eq_refl.
    - exists hSHA256. eexists. split; with_strategy transparent [hash_of digest_of] exact eq_refl. }
  destruct Hd as (h & d & -> & Hd). cbn [rbind]. rewrite Hd. cbn [rbind]. rewrite sig_ints_der by assumption.
  destruct ((r <=? 0) || (s <=? 0)) eqn:Z0.
  - cbn [rbind]. split; [discriminate|]. intros [? ?]. exfalso. clear -Z0 H H0 Hr Hs. destruct Hr as [Hr _]. destruct Hs as [Hs _]. lia.
  - cbn [rbind fst snd sm2Verify]. rewrite E1.
    destruct (Verify cv (sPub priv') m r s) as [[|]| |] eqn:EV; cbn [rbind ok_if].
    + split; [intros _; now apply HV|intros _; exact eq_refl].
    + split; [discriminate|]. intros H. apply HV in H. discriminate.
    + split; [discriminate|]. intros H. apply HV in H. discriminate.
    + split; [discriminate|]. intros H. apply HV in H. discriminate.
Qed.
End SM2Check.

(** The standard library, as this package uses it. *)
Section P.
Variables (nm tm : Type) (enc_name : nm -> res (list Z)) (dec_name : list Z -> res nm) (enc_time : tm -> res (bool * list Z)) (dec_time : bool -> list Z -> res tm).
Variables (zero_name : nm) (zero_time : tm -> bool) (hashf : Z -> list Z -> list Z) (rsa_verify : bool -> Z -> Z -> Z -> list Z -> list Z -> bool) (dsa_verify : Z -> Z -> Z -> Z -> list Z -> Z -> Z -> bool)
  (ecdsa_verify : ncurve -> Z -> Z -> list Z -> Z -> Z -> bool) (nist_unm : nat -> list Z -> option (Z * Z)) (nist_mar : nat -> Z -> Z -> list Z)
  (T : Type) (cv : curve T) (sm2_verify_nist : nat -> Z -> Z -> list Z -> Z -> Z -> res bool).
Notation CreateCertificate := (CreateCertificate nm tm enc_name enc_time hashf nist_mar).
Notation ParseCertificate := (ParseCertificate nm tm dec_name dec_time nist_unm).
Notation CheckSignatureFrom := (CheckSignatureFrom nm tm hashf rsa_verify dsa_verify ecdsa_verify T cv sm2_verify_nist).
Notation CheckSignature := (CheckSignature nm tm hashf rsa_verify dsa_verify ecdsa_verify T cv sm2_verify_nist).
Notation checkSignature := (checkSignature hashf rsa_verify dsa_verify ecdsa_verify T cv sm2_verify_nist).

(** a parent allowed to sign certificates: the conditions of x509.go:842-864 in words: a CA (or older than v3 without basic
    constraints), and its key usage, if any, includes certificate signing *)
Definition may_sign (p : xcert nm tm) : Prop :=
  (x_bcv (c_x p) = true /\ x_isca (c_x p) = true \/ x_bcv (c_x p) = false /\ c_version p <> 3) /\
  (x_ku (c_x p) = 0 \/ Z.testbit (x_ku (c_x p)) 5 = true).
Lemma land32 z : Z.land z 32 = 0 <-> Z.testbit z 5 = false.
Proof.
  split; intros H.
  - assert (E : Z.testbit (Z.land z 32) 5 = false) by now rewrite H. rewrite Z.land_spec in E. change (Z.testbit 32 5) with true in E. now rewrite andb_true_r in E.
  - apply Z.bits_inj'. intros i Hi. rewrite Z.land_spec, Z.bits_0. change 32 with (2 ^ 5). rewrite Z.pow2_bits_eqb by lia.
    destruct (Z.eqb_spec 5 i) as [<- | _]; [now rewrite H|apply andb_false_r].
Qed.

(** C99: the parsed certificate carries the template: version 3, serial, names, times, key, signature algorithm, every
    extension field, and all the extensions in order, the extra ones last. *)
Theorem C99_certificate_fields : forall (t parent : xcert nm tm) pub key der ib iname sb sname nb na,
  CreateCertificate t parent pub key = Ok der -> bytes der -> small der ->
  exs_ok (c_x t) (c_extra t) -> pub_ok nist_unm nist_mar pub -> name_ok enc_name dec_name parent ib iname -> name_ok enc_name dec_name t sb sname ->
  time_ok enc_time dec_time (c_nb t) nb -> time_ok enc_time dec_time (c_na t) na ->
  exists c, ParseCertificate der = Ok c /\
    c_raw c = der /\ c_version c = 3 /\ c_serial c = c_serial t /\ c_subject c = sname /\ c_rawSubject c = sb /\ c_issuer c = iname /\ c_rawIssuer c = ib /\
    c_nb c = nb /\ c_na c = na /\ c_pub c = pub /\ c_pubAlg c = key_algorithm pub /\ MarshalPKIXPublicKeyX nist_mar pub = Ok (c_rawSPKI c) /\
    c_sigAlg c = signature_algorithm (sg_pub key) (c_sigAlg t) /\
    c_x c = written (c_x t) (authority_key_id t parent sb ib) (c_extra t) /\
    (exists built, c_exts c = built ++ c_extra t /\ Forall (fun e => In (ex_id e) known_ids) built).
Proof.
  intros t parent pub key der ib iname sb sname nb na HC HB HS HX HP HI HSb Hnb Hna.
  destruct (create_parse _ _ _ _ _ _ _ _ _ _ _ _ _ _ _ _ _ _ _ _ HC HB HS HX HP HI HSb Hnb Hna)
    as (m & spki & exts & sp & sig & Hsp & Hsig & _ & _ & _ & _ & HPC & HM & HE & _).
  eexists. split; [exact HPC|]. cbn [c_raw c_version c_serial c_subject c_rawSubject c_issuer c_rawIssuer c_nb c_na c_pub c_pubAlg c_rawSPKI c_sigAlg c_x c_exts].
  repeat (split; [first [exact eq_refl | exact HM]|]). exact HE.
Qed.
(** C98: a certificate signed with an SM2 key verifies, under any parent carrying the signer's public key that may sign, exactly
    when neither half of the signature is zero (which happens for about 2 in 2^256 draws). *)
Theorem C98_certificate_verifies : forall (t parent : xcert nm tm) pub priv b der ib iname sb sname nb na,
  good_curve cv -> key_ok priv ->
  CreateCertificate t parent pub (sm2_signer cv b priv) = Ok der -> bytes der -> small der ->
  exs_ok (c_x t) (c_extra t) -> pub_ok nist_unm nist_mar pub -> name_ok enc_name dec_name parent ib iname -> name_ok enc_name dec_name t sb sname ->
  time_ok enc_time dec_time (c_nb t) nb -> time_ok enc_time dec_time (c_na t) na ->
  exists c r s, ParseCertificate der = Ok c /\ Sign cv (Some b) priv (c_rawTBS c) = Ok (r, s) /\
    (forall issuer, c_pub issuer = sm2_pub priv -> c_pubAlg issuer <> 0 -> may_sign issuer ->
       (CheckSignatureFrom c issuer = Ok tt <-> r <> 0 /\ s <> 0)).
Proof.
  intros t parent pub priv b der ib iname sb sname nb na GC HK HC HB HS HX HP HI HSb Hnb Hna.
  destruct (create_parse _ _ _ _ _ _ _ _ _ _ _ _ _ _ _ _ _ _ _ _ HC HB HS HX HP HI HSb Hnb Hna)
    as (m & spki & exts & sp & sig & Hsp & Hsig & Hbm & Hsm & _ & _ & HPC & HM & HE & _).
  cbn [sm2_signer sg_pub] in Hsp, Hsig, HPC.
  assert (HA : In (signature_algorithm (sm2_pub priv) (c_sigAlg t)) [SM2WithSM3; SM2WithSHA1; SM2WithSHA256]).
  { unfold signature_algorithm, sm2_pub. unfold signingParamsForPublicKey, sm2_pub in Hsp. cbn [rbind] in Hsp. destruct (Z.eqb_spec (c_sigAlg t) 0) as [_|Hr]; [now left|].
    destruct (find _ signatureAlgorithmDetails) as [[[[a o2] pk] h2]|] eqn:E; [|discriminate]. apply find_details in E as [Hin Ha]. cbn [fst] in Ha.
    destruct (Z.eqb_spec pk SM2) as [->|]; [|discriminate]. clear -Hin Ha. subst a. generalize (c_sigAlg t) Hin. clear. intros a Hin. cbn [signatureAlgorithmDetails In] in Hin.
    repeat (destruct Hin as [E | Hin]; [first [discriminate E | injection E as <- <- <-; cbn; tauto]|]). destruct Hin. }
  unfold sign_with in Hsig. apply bind_ok in Hsig as (dg & Hdg & Hsig). cbn [is_sm2 sm2_pub sg_sign sm2_signer] in Hsig.
  assert (Hl : zlen m < 2 ^ 60) by (unfold Asn1_go.small in Hsm; lia).
  destruct (sm2_check hashf rsa_verify dsa_verify ecdsa_verify T cv sm2_verify_nist _ priv b m sig GC HK Hbm Hl HA Hsig) as (r & s & HSg & _ & _ & _ & HV).
  eexists _, r, s. split; [exact HPC|]. cbn [c_rawTBS]. split; [exact HSg|]. intros issuer Hpub Halg [Hca Hku].
  unfold X509C_model.CheckSignatureFrom, X509C_model.CheckSignature. cbn [c_rawSPKI c_sigAlg c_rawTBS c_sig].
  replace (((c_version issuer =? 3) && negb (x_bcv (c_x issuer))) || (x_bcv (c_x issuer) && negb (x_isca (c_x issuer)))) with false
    by (destruct Hca as [[-> ->]|[-> H]]; cbn [negb andb orb]; [now rewrite andb_false_r|]; replace (c_version issuer =? 3) with false by lia; exact eq_refl).
  cbn [andb]. replace (negb (x_ku (c_x issuer) =? 0) && (Z.land (x_ku (c_x issuer)) KeyUsageCertSign =? 0)) with false.
  2:{ destruct Hku as [-> | Hk]; [exact eq_refl|]. unfold KeyUsageCertSign. destruct (Z.eqb_spec (Z.land (x_ku (c_x issuer)) 32) 0) as [E|_]; [|now rewrite andb_false_r].
      apply land32 in E. congruence. }
  replace (c_pubAlg issuer =? UnknownPublicKeyAlgorithm) with false by (unfold UnknownPublicKeyAlgorithm; lia). rewrite Hpub. exact HV.
Qed.
End P.

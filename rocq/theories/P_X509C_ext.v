(** Extensions: what survives and what does not (x509/x509.go:1128-1182, 1222-1447, 1574-1757). *)
From Verif Require Import GoBase GoLemmas BigBytes Asn1_model Asn1_go SM3_model NT Prime_cert SM2_curve_spec SM2_spec SM2_model SM2_proofs P_SM2
  Keys_model Keys_proofs X509C_model X509C_ext_proofs X509C_spec X509C_proofs P_X509C P_X509C_csr P_X509C_crl P_X509C_ex.
Open Scope Z_scope.
Notation small := Asn1_go.small (only parsing).
#[local] Opaque der_tlv.
Section P.
Variables (nm tm : Type) (enc_name : nm -> res (list Z)) (dec_name : list Z -> res nm) (enc_time : tm -> res (bool * list Z)) (dec_time : bool -> list Z -> res tm).
Variables (hashf : Z -> list Z -> list Z) (nist_unm : nat -> list Z -> option (Z * Z)) (nist_mar : nat -> Z -> Z -> list Z).
Notation CreateCertificate := (CreateCertificate nm tm enc_name enc_time hashf nist_mar).
Notation ParseCertificate := (ParseCertificate nm tm dec_name dec_time nist_unm).
(** C100: each of the nine key usages RFC 5280 defines (bit i of KeyUsage, i = 0 digitalSignature ... 8 decipherOnly) is in the parsed
    certificate exactly when it is in the template; *)
Theorem C100_key_usage : forall (t parent : xcert nm tm) pub key der ib iname sb sname nb na,
  CreateCertificate t parent pub key = Ok der -> bytes der -> small der ->
  exs_ok (c_x t) (c_extra t) -> pub_ok nist_unm nist_mar pub -> name_ok enc_name dec_name parent ib iname -> name_ok enc_name dec_name t sb sname ->
  time_ok enc_time dec_time (c_nb t) nb -> time_ok enc_time dec_time (c_na t) na ->
  exists c, ParseCertificate der = Ok c /\ forall i, 0 <= i -> Z.testbit (x_ku (c_x c)) i = (i <? 9) && Z.testbit (x_ku (c_x t)) i.
Proof.
  intros t parent pub key der ib iname sb sname nb na HC HB HS HX HP HI HSb Hnb Hna.
  destruct (C99_certificate_fields nm tm enc_name dec_name enc_time dec_time hashf nist_unm nist_mar t parent pub key der ib iname sb sname nb na HC HB HS HX HP HI HSb Hnb Hna)
    as (c & Hc & _ & _ & _ & _ & _ & _ & _ & _ & _ & _ & _ & _ & _ & Hx & _).
  exists c. split; [exact Hc|]. intros i Hi. rewrite Hx. cbn [written x_ku]. change 512 with (2 ^ 9).
  destruct (Z.ltb_spec i 9); [rewrite Z.mod_pow2_bits_low by lia; exact eq_refl|rewrite Z.mod_pow2_bits_high by lia; exact eq_refl].
Qed.
(** and (refuted) a template restricted to usages outside these nine gives a certificate whose KeyUsage reads 0, which everywhere means
    "not restricted": the restriction is in the certificate but not in its parsed form. *)
Theorem C100_undefined_usage_refuted : forall (t parent : xcert nm tm) pub key der ib iname sb sname nb na,
  CreateCertificate t parent pub key = Ok der -> bytes der -> small der ->
  exs_ok (c_x t) (c_extra t) -> pub_ok nist_unm nist_mar pub -> name_ok enc_name dec_name parent ib iname -> name_ok enc_name dec_name t sb sname ->
  time_ok enc_time dec_time (c_nb t) nb -> time_ok enc_time dec_time (c_na t) na -> (forall i, 0 <= i < 9 -> Z.testbit (x_ku (c_x t)) i = false) ->
  exists c, ParseCertificate der = Ok c /\ x_ku (c_x c) = 0.
Proof.
  intros t parent pub key der ib iname sb sname nb na HC HB HS HX HP HI HSb Hnb Hna Hz.
  destruct (C100_key_usage t parent pub key der ib iname sb sname nb na HC HB HS HX HP HI HSb Hnb Hna) as (c & Hc & K).
  exists c. split; [exact Hc|]. apply Z.bits_inj'. intros i Hi. rewrite (K i Hi), Z.bits_0. destruct (Z.ltb_spec i 9); [apply Hz; lia|exact eq_refl].
Qed.
(** C110: a template naming an extended key usage this package does not know is never turned into a certificate *)
Theorem C110_unknown_usage_never_issued : forall (t parent : xcert nm tm) pub key der u,
  In u (x_eku (c_x t)) -> ~ 0 <= u <= 11 -> Forall (fun e => ex_id e <> [85;29;37]) (c_extra t) -> CreateCertificate t parent pub key <> Ok der.
Proof.
  intros t parent pub key der u Hu Hr HE H. unfold X509C_model.CreateCertificate in H. destruct (c_serial t); [|discriminate].
  apply bind_ok in H as (sp & _ & H). apply bind_ok in H as (pk & _ & H). apply bind_ok in H as (ib & _ & H). apply bind_ok in H as (sb & _ & H). cbv zeta in H. apply bind_ok in H as (exts & H & _).
  unfold buildExtensions in H. cbv zeta in H. apply bind_ok in H as (e2 & H & _).
  replace (oidInExtensions oidExtensionExtendedKeyUsage (c_extra t)) with false in H.
  2:{ symmetry. apply not_true_iff_false. unfold oidInExtensions. rewrite existsb_exists. intros (e & He & Hb). apply beqb_eq in Hb. rewrite Forall_forall in HE. exact (HE e He Hb). }
  destruct (x_eku (c_x t)) as [|u0 us] eqn:E; [destruct Hu|]. rewrite <- E in *. replace (nonempty (x_eku (c_x t))) with true in H by (rewrite E; exact eq_refl). cbn [orb negb andb] in H.
  apply bind_ok in H as (oids & H & _). clear -Hu Hr H. revert oids H. induction (x_eku (c_x t)) as [|v l IH]; intros oids H; [destruct Hu|].
  cbn [eku_oids] in H. destruct (oidFromExtKeyUsage v) as [o|] eqn:Eo; [|discriminate]. apply bind_ok in H as (r & H & _). destruct Hu as [-> | Hu]; [|exact (IH Hu r H)].
  unfold oidFromExtKeyUsage in Eo. destruct (Z.ltb_spec u 0); [discriminate|]. apply Hr. assert (L : (Z.to_nat u < length extKeyUsageOIDs)%nat) by (apply nth_error_Some; congruence). cbn in L. lia.
Qed.
End P.
(** C108: alternative names survive the encoder and the parser *)
Theorem C108_names_roundtrip : forall dns email ip, Forall (fun i => length i = 4%nat \/ length i = 16%nat) ip -> small (marshalSANs dns email ip) ->
  parseSANExtension (marshalSANs dns email ip) = Ok (dns, email, map ip_bytes ip).
Proof. exact san_roundtrip. Qed.
(** (refuted) the class of an alternative name is not looked at: what is not a dNSName (here an INTEGER, and an application-class value)
    becomes a DNS name the certificate is valid for. *)
Theorem C108_name_class_ignored_refuted : forall t name, In t [2; 34; 66; 98; 130; 162; 194; 226] -> small (der_tlv t name) ->
  parseSANExtension (der_tlv 48 (der_tlv t name)) = Ok ([name], [], []).
Proof.
  intros t name Ht HS. assert (Hl : lowtag t) by (cbn [In] in Ht; unfold lowtag; repeat (destruct Ht as [<- | Ht]; [cbn; lia|]); destruct Ht).
  unfold parseSANExtension. rewrite (whole_ok any (der_tlv 48 (der_tlv t name)) (mkRaw 32 16 (der_tlv t name) (der_tlv 48 (der_tlv t name)))) by (apply (any_tlv 48); [lt|exact HS]). cbn [rbind r_cc r_tag r_bytes Z.eqb andb negb].
  change (negb ((32 =? 32) && (16 =? 16))) with false. cbv iota.
  rewrite <- (app_nil_r (der_tlv t name)) at 2. destruct (length (der_tlv t name)) eqn:EL; [apply length_zero_iff_nil in EL; now apply tlv_not_nil in EL|].
  rewrite san_step by (try assumption; try exact (small_tlv _ _ HS); rewrite app_nil_r; lia). unfold add_san. cbn [r_tag r_bytes].
  replace (Z.land t 31) with 2 by (cbn [In] in Ht; repeat (destruct Ht as [<- | Ht]; [exact eq_refl|]); destruct Ht). cbn [Z.eqb rbind app].
  change (2 =? 1) with false. change (2 =? 2) with true. cbv iota. cbn [rbind]. destruct n; exact eq_refl.
Qed.
#[local] Transparent der_tlv.
(** *** certificates that show it, signed by a signer that always answers [1;2;3] *)
Definition accepted (t : xcert (list Z) (list Z)) (q : xcert (list Z) (list Z) -> bool) : bool :=
  match eCreate t eParent ePub eRSA with Ok der => match eParse der with Ok c => q c | _ => false end | _ => false end.
(** an IP address of 5 octets: CreateCertificate makes a certificate that ParseCertificate refuses *)
Theorem C108_bad_address_refuted :
  match eCreate (eTpl (mkX 0 false false 0 false [] [] [[1;2;3;4;5]] [] [] false [] [] [] [] [] [] [] [] []) []) eParent ePub eRSA with
  | Ok der => match eParse der with Err _ => true | _ => false end
  | _ => false
  end = true.
Proof. vm_compute. exact eq_refl. Qed.
(** a certificate restricted to usage 512 reads as unrestricted *)
Theorem C100_undefined_usage_example :
  accepted (eTpl (mkX 512 false false 0 false [] [] [] [] [] false [] [] [] [] [] [] [] [] []) [])
    (fun c => (x_ku (c_x c) =? 0) && existsb (fun e => beqb (ex_id e) [85;29;15]) (c_exts c)) = true.
Proof. vm_compute. exact eq_refl. Qed.
(** an INTEGER read as the DNS name "ab" *)
Theorem C108_name_class_example :
  accepted (eTpl x0 [mkExt [85;29;17] true [48;4;2;2;97;98]]) (fun c => match x_dns (c_x c), x_unh (c_x c) with [[97;98]], [] => true | _, _ => false end) = true.
Proof. vm_compute. exact eq_refl. Qed.
(** C110 (refuted): two basicConstraints extensions, the first saying "not a CA", the second "CA": accepted, as a CA *)
Theorem C110_duplicate_extension_refuted :
  accepted (eTpl x0 [mkExt [85;29;19] true (bc_value false (-1)); mkExt [85;29;19] true (bc_value true (-1))])
    (fun c => x_bcv (c_x c) && x_isca (c_x c) && (length (filter (fun e => beqb (ex_id e) [85;29;19]%Z) (c_exts c)) =? 2)%nat) = true.
Proof. vm_compute. exact eq_refl. Qed.
(** C110 (refuted): an element that does not belong there, before the extensions: the certificate is accepted and all its extensions,
    critical ones included, are gone. *)
Definition hidden_tbs : list Z :=
  der_tlv 48 (der_tlv 160 (der_int 2) ++ der_int 5 ++ der_algid sm2alg ++ der_tlv 48 [49;1;8] ++ der_tlv 48 (der_tlv 23 [50] ++ der_tlv 23 [51]) ++ der_tlv 48 [49;1;7] ++
    der_spki (ellMarshal sm2_gx sm2_gy, (oidPublicKeyECDSA, der_tlv 6 oidNamedCurveSm2)) ++ [5;0] ++
    der_tlv 163 (der_exts [mkExt [42;3] true [5;0]; mkExt [85;29;19] true (bc_value false (-1))])).
Theorem C110_hidden_extensions_refuted :
  match eParse (der_signed hidden_tbs sm2alg [1]) with
  | Ok c => match c_exts c, x_unh (c_x c) with [], [] => negb (x_bcv (c_x c)) | _, _ => false end
  | _ => false
  end = true.
Proof. vm_compute. exact eq_refl. Qed.
(** C110 (refuted): CreateCertificate panics on an extended key usage it does not know *)
Theorem C110_unknown_usage_panics_refuted :
  match eCreate (eTpl (mkX 0 false false 0 false [] [] [] [] [] false [] [] [12] [] [] [] [] [] []) []) eParent ePub eRSA with Panic => true | _ => false end = true.
Proof. vm_compute. exact eq_refl. Qed.
(** C106: the RSA request, unsigned, parses; its signature is empty *)
Theorem C106_example :
  match eReq (eQ 0) eRSA with
  | Ok der => match ParseCertificateRequest (list Z) en nu der with Ok q => match q_sig q with [] => true | _ => false end | _ => false end
  | _ => false
  end = true.
Proof. vm_compute. exact eq_refl. Qed.
(** the hypotheses of C101, C102 and C104 are met: *)
Definition eTD : xcert (list Z) (list Z) := eTpl eX [mkExt [42;3] true [5;0]].
Theorem C102_hyps : accepted eTD (fun c => match x_unh (c_x c) with [o] => beqb o [42;3] | _ => false end &&
    existsb (fun e => beqb (ex_id e) [85;29;30] && ex_crit e) (c_exts c) && (x_ku (c_x c) =? 352)) = true.
Proof. vm_compute. exact eq_refl. Qed.
(** the same signed bytes under two outer algorithms: both parse, and the algorithm reported is the inner one *)
Theorem C101_hyps :
  match eCreate eTD eParent ePub eRSA with
  | Ok der => match eParse der with
              | Ok c => match eParse (der_signed (c_rawTBS c) sm2alg (c_sig c)) with
                        | Ok c' => beqb (c_rawTBS c') (c_rawTBS c) && (c_sigAlg c' =? SHA256WithRSA) && negb (beqb (c_raw c) (c_raw c'))
                        | _ => false
                        end
              | _ => false
              end
  | _ => false
  end = true.
Proof. vm_compute. exact eq_refl. Qed.
(** an RSA-signed certificate under an RSA parent that may sign, with a signature scheme that accepts everything *)
Theorem C104_hyps :
  accepted eTD (fun c => match CheckSignatureFrom (list Z) (list Z) hf (fun _ _ _ _ _ _ => true) (fun _ _ _ _ _ _ _ => true) (fun _ _ _ _ _ _ => true) unit cv_std (fun _ _ _ _ _ _ => Ok true) c
    (mkC [] [] [] [] [] [] 0 RSA (XRSA 3233 17) 3 (Some 1) [] [49;1;8] [50] [51] [] [] (mkX 32 true true 0 false [] [] [] [] [] false [] [] [] [] [9;9] [] [] [] [])) with Ok tt => true | _ => false end) = true.
Proof. vm_compute. exact eq_refl. Qed.

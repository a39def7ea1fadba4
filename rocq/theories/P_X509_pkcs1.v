(** C140: RSA private keys in PKCS#1 form. *)
From Coq Require Import Znumtheory.
From Verif Require Import GoBase GoLemmas BigBytes Asn1_model Asn1_go Asn1_local SM2_model Keys_model X509C_model TLS_keypair_model X509_pkcs1_model P_TLS_keypair.
Open Scope Z_scope.

(** ** Specification: RSAPrivateKey of RFC 8017, A.1.2 *)
(** otherPrimeInfos: r_i, d_i = d mod (r_i - 1), t_i with t_i * r_1 ... r_(i-1) = 1 mod r_i *)
Inductive other_infos (d : Z) : Z -> list Z -> list (list Z) -> Prop :=
| OI_nil prod : other_infos d prod [] []
| OI_next prod r t rs l : 0 <= t < r -> (t * prod) mod r = 1 -> other_infos d (prod * r) rs l ->
    other_infos d prod (r :: rs) (der_seq [der_int r; der_int (d mod (r - 1)); der_int t] :: l).
Definition rfc8017_key (n e d : Z) (primes : list Z) (der : list Z) : Prop :=
  exists p q rs t l, primes = p :: q :: rs /\ 0 <= t < p /\ (t * q) mod p = 1 /\ other_infos d (p * q) rs l /\
    der = der_seq ([der_int (match rs with [] => 0 | _ => 1 end); der_int n; der_int e; der_int d; der_int p; der_int q; der_int (d mod (p - 1)); der_int (d mod (q - 1)); der_int t]
                   ++ match l with [] => [] | _ => [der_seq l] end).

Lemma zlen_cons {A} (x : A) l : zlen (x :: l) = 1 + zlen l. Proof. unfold zlen. cbn [length]. lia. Qed.
Section C140.
Variable modInverse : Z -> Z -> option Z.
Variable validate : Z -> Z -> Z -> list Z -> bool.
Notation parse := (ParsePKCS1 modInverse validate).
Notation marshal := (MarshalPKCS1PrivateKey modInverse).
Notation pre := (precompute modInverse).
(** math/big: ModInverse returns the inverse in [0, n), or nil if there is none *)
Definition inverse_ok : Prop := forall g n, 1 < n -> match modInverse g n with Some i => 0 <= i < n /\ (i * g) mod n = 1 | None => ~ rel_prime g n end.
(** crypto/rsa: Validate refuses primes below 2 *)
Definition validate_ok : Prop := forall n e d ps, validate n e d ps = true -> Forall (fun p => 1 < p) ps.

Lemma lt2 : lowtag 2. Proof. unfold lowtag. discriminate. Qed.
Lemma lt48 : lowtag 48. Proof. unfold lowtag. discriminate. Qed.
Lemma req_int z rest : small (der_int z) -> req 2 int_value (der_int z ++ rest) = Ok (z, rest).
Proof. intros H. apply req_tlv; [exact lt2|exact (small_tlv _ _ H)|apply int_value_content]. Qed.
Lemma opt_int z rest : small (der_int z) -> opt 2 int_value (der_int z ++ rest) = Ok (Some z, rest).
Proof. intros H. apply opt_tlv; [exact lt2|exact (small_tlv _ _ H)|apply int_value_content]. Qed.
Lemma req_int64 z rest : - 2 ^ 63 <= z < 2 ^ 63 -> small (der_int z) -> req 2 p_int64 (der_int z ++ rest) = Ok (z, rest).
Proof. intros B H. apply req_tlv; [exact lt2|exact (small_tlv _ _ H)|now apply p_int64_content]. Qed.
Lemma p_prime_der p e c rest : small (der_seq [der_int p; der_int e; der_int c]) -> req 48 p_prime (der_seq [der_int p; der_int e; der_int c] ++ rest) = Ok (p, rest).
Proof.
  intros H. apply req_tlv; [exact lt48|exact (small_tlv _ _ H)|]. apply small_tlv in H. cbn [concat] in *. rewrite app_nil_r in *.
  apply small_app in H as [H1 H]. apply small_app in H as [H2 H3]. unfold p_prime. rewrite req_int by assumption. cbn [rbind snd fst]. rewrite req_int by assumption. cbn [rbind snd fst].
  rewrite <- (app_nil_r (der_int c)), req_int by assumption. reflexivity.
Qed.
(** the structure: any (at most three) values in the places of exponent1, exponent2 and coefficient, and the further primes with any exponents and coefficients *)
Definition trip (x : Z * Z * Z) : list Z := der_seq [der_int (fst (fst x)); der_int (snd (fst x)); der_int (snd x)].
Definition others_der (others : list (Z * Z * Z)) : list (list Z) := match others with [] => [] | _ => [der_seq (map trip others)] end.
Definition key_der (v n e d p q : Z) (crt : list Z) (others : list (Z * Z * Z)) : list Z :=
  der_seq ([der_int v; der_int n; der_int e; der_int d; der_int p; der_int q] ++ map der_int crt ++ others_der others).
Lemma others_parse others : small (concat (others_der others)) ->
  opt 48 (seq_of (req 48 p_prime)) (concat (others_der others)) = Ok (match others with [] => None | _ => Some (map (fun x => fst (fst x)) others) end, []).
Proof.
  intros H. unfold others_der in *. destruct others as [|x others]; [reflexivity|]. remember (x :: others) as l eqn:EL. cbn [concat] in *. rewrite app_nil_r in H. 
  apply opt_tlv; [exact lt48|exact (small_tlv _ _ H)|]. apply small_tlv in H. apply seq_of_map2. intros y rest Hy. unfold trip. split; [|discriminate].
  apply p_prime_der. eapply small_concat; [exact H|]. apply in_map_iff. exists y. split; [reflexivity|exact Hy].
Qed.
Lemma opt_int_skip others : small (concat (others_der others)) -> opt 2 int_value (concat (others_der others)) = Ok (None, concat (others_der others)).
Proof.
  intros H. unfold others_der in *. destruct others as [|x others]; [reflexivity|]. cbn [concat] in *. rewrite app_nil_r in H.
  apply opt_skip; [exact lt48|exact (small_tlv _ _ H)|reflexivity].
Qed.
Definition int64 (z : Z) : Prop := - 2 ^ 63 <= z < 2 ^ 63.
Lemma key_der_parse v n e d p q crt others : int64 v -> int64 e -> (length crt <= 3)%nat -> small (key_der v n e d p q crt others) ->
  unm_pkcs1 (key_der v n e d p q crt others) = Ok (mkRsa v n e d p q (map (fun x => fst (fst x)) others), []).
Proof.
  intros Bv Be L H. unfold unm_pkcs1. rewrite <- (app_nil_r (key_der _ _ _ _ _ _ _ _)). apply req_tlv; [exact lt48|exact (small_tlv _ _ H)|]. apply small_tlv in H.
  rewrite concat_app in *. cbn [concat] in *. rewrite app_nil_r, <- !app_assoc in *. rewrite concat_app in *.
  apply small_app in H as [H1 H]. apply small_app in H as [H2 H]. apply small_app in H as [H3 H]. apply small_app in H as [H4 H]. apply small_app in H as [H5 H]. apply small_app in H as [H6 H].
  unfold p_rsa. rewrite req_int64 by assumption. cbn [rbind snd fst]. rewrite req_int by assumption. cbn [rbind snd fst]. rewrite req_int64 by assumption. cbn [rbind snd fst].
  rewrite req_int by assumption. cbn [rbind snd fst]. rewrite req_int by assumption. cbn [rbind snd fst]. rewrite req_int by assumption. cbn [rbind snd fst].
  assert (G : forall o, match match o with [] => None | _ :: _ => Some (map (fun x : Z * Z * Z => fst (fst x)) o) end with Some l => l | None => [] end = map (fun x => fst (fst x)) o) by (intros [|? ?]; reflexivity).
  apply small_app in H as [H7 H8].
  destruct crt as [|a [|b [|c [|? ?]]]]; [| | | |cbn in L; lia]; cbn [map concat app] in *; repeat rewrite <- app_assoc in *; try rewrite app_nil_r in H7.
  - rewrite opt_int_skip by assumption. cbn [rbind snd fst]. rewrite opt_int_skip by assumption. cbn [rbind snd fst]. rewrite opt_int_skip by assumption. cbn [rbind snd fst].
    rewrite others_parse by assumption. cbn [rbind snd fst]. now rewrite G.
  - cbn [app]. rewrite opt_int by assumption. cbn [rbind snd fst]. rewrite opt_int_skip by assumption. cbn [rbind snd fst]. rewrite opt_int_skip by assumption. cbn [rbind snd fst].
    rewrite others_parse by assumption. cbn [rbind snd fst]. now rewrite G.
  - apply small_app in H7 as [H7 H9]. cbn [app]. rewrite opt_int by assumption. cbn [rbind snd fst]. rewrite opt_int by assumption. cbn [rbind snd fst]. rewrite opt_int_skip by assumption. cbn [rbind snd fst].
    rewrite others_parse by assumption. cbn [rbind snd fst]. now rewrite G.
  - apply small_app in H7 as [H7 H9]. apply small_app in H9 as [H9 H10]. cbn [app]. rewrite opt_int by assumption. cbn [rbind snd fst]. rewrite opt_int by assumption. cbn [rbind snd fst]. rewrite opt_int by assumption. cbn [rbind snd fst].
    rewrite others_parse by assumption. cbn [rbind snd fst]. now rewrite G.
Qed.

(** ** The precomputed values *)
Lemma bigMod_ok x p : 1 < p -> bigMod x (p - 1) = Ok (x mod (p - 1)).
Proof. intros H. unfold bigMod. destruct (Z.eqb_spec (p - 1) 0) as [E|E]; [lia|]. now rewrite Z.abs_eq by lia. Qed.
Lemma crt_total d ps : Forall (fun p => 1 < p) ps -> forall r, exists l, crt_values modInverse d r ps = Ok l /\ length l = length ps.
Proof.
  induction 1 as [|p ps H HF IH]; intros r; cbn [crt_values]; [eauto|]. rewrite bigMod_ok by exact H. cbn [rbind]. destruct (IH (r * p)) as (l & -> & L). cbn [rbind]. eexists. split; [reflexivity|]. cbn. congruence.
Qed.
Lemma pre_total n e d ps : Forall (fun p => 1 < p) ps -> (2 <= length ps)%nat -> exists v, pre (mkRK n e d ps None) = Ok v /\ length (y_crt v) = (length ps - 2)%nat.
Proof.
  intros HF HL. unfold precompute. cbn [y_pre y_primes y_d]. destruct ps as [|p [|q more]]; cbn in HL; try lia. inversion HF as [|? ? H1 HF']; subst. inversion HF' as [|? ? H2 H3]; subst.
  rewrite !bigMod_ok by assumption. cbn [rbind]. destruct (crt_total d more H3 (p * q)) as (l & -> & L). cbn [rbind]. eexists. split; [reflexivity|]. cbn. lia.
Qed.
Lemma more_primes_inv vals : forall ps l, length vals = length ps -> more_primes vals ps = Ok (Some l) -> exists others, l = map trip others /\ map (fun x => fst (fst x)) others = ps.
Proof.
  induction vals as [|v vals IH]; intros ps l L H; cbn [more_primes] in H.
  - destruct ps; [|discriminate]. injection H as <-. exists []. split; reflexivity.
  - destruct ps as [|p ps]; [discriminate|]. destruct (more_primes vals ps) as [o| |] eqn:E; cbn [rbind] in H; try discriminate. destruct (y_coeff v) as [c|]; [|discriminate]. destruct o as [l'|]; [|discriminate].
    injection H as <-. destruct (IH ps l' ltac:(cbn in L; lia) E) as (others & -> & M). exists ((p, y_exp v, c) :: others). split; [reflexivity|]. cbn [map fst]. now rewrite M.
Qed.
(** a key as ParsePKCS1PrivateKey or rsa.GenerateKey gives it: nothing precomputed yet, or the values for all primes *)
Definition pre_fits (k : rsakey) : Prop := match y_pre k with None => True | Some v => length (y_crt v) = (length (y_primes k) - 2)%nat end.
Lemma marshal_inv k der : validate_ok -> validate (y_n k) (y_e k) (y_d k) (y_primes k) = true -> pre_fits k -> marshal k = Ok der -> der <> [] ->
  exists p q more crt others, y_primes k = p :: q :: more /\ map (fun x => fst (fst x)) others = more /\ (length crt <= 3)%nat /\
    der = key_der (if 2 <? zlen (y_primes k) then 1 else 0) (y_n k) (y_e k) (y_d k) p q crt others.
Proof.
  intros VO V PF H N. pose proof (VO _ _ _ _ V) as HF. unfold MarshalPKCS1PrivateKey in H. destruct (pre k) as [v| |] eqn:EP; cbn [rbind] in H; try discriminate.
  destruct (y_primes k) as [|p [|q more]] eqn:EPr; try discriminate.
  assert (LC : length (y_crt v) = length more).
  { unfold pre_fits in PF. unfold precompute in EP. rewrite EPr in *. destruct (y_pre k) as [w|]; [injection EP as <-; rewrite PF; cbn; lia|].
    destruct (pre_total (y_n k) (y_e k) (y_d k) (p :: q :: more) HF ltac:(cbn; lia)) as (w & E & L). unfold precompute in E. cbn [y_pre y_primes y_d] in E. rewrite EP in E. injection E as <-. rewrite L. cbn. lia. }
  destruct (more_primes (y_crt v) more) as [o| |] eqn:EM; cbn [rbind] in H; try discriminate. injection H as H. destruct o as [l|]; [|congruence].
  destruct (more_primes_inv _ _ _ LC EM) as (others & -> & M). exists p, q, more, (y_dp v :: y_dq v :: match y_qinv v with Some i => [i] | None => [] end), others.
  split; [reflexivity|]. split; [exact M|]. split; [destruct (y_qinv v); cbn; lia|]. rewrite <- H. unfold key_der, others_der. destruct (y_qinv v), others; reflexivity.
Qed.
Lemma parse_checks r : (let '(k, rest) := r in rest = [] /\ rp_version k <= 1 /\ 0 < rp_n k /\ 0 < rp_d k /\ Forall (fun p => 0 < p) (rp_p k :: rp_q k :: rp_more k) /\ validate (rp_n k) (rp_e k) (rp_d k) (rp_p k :: rp_q k :: rp_more k) = true) ->
  forall der, unm_pkcs1 der = Ok r -> parse der = (do v <- pre (mkRK (rp_n (fst r)) (rp_e (fst r)) (rp_d (fst r)) (rp_p (fst r) :: rp_q (fst r) :: rp_more (fst r)) None);
    Ok (mkRK (rp_n (fst r)) (rp_e (fst r)) (rp_d (fst r)) (rp_p (fst r) :: rp_q (fst r) :: rp_more (fst r)) (Some v))).
Proof.
  destruct r as [k rest]. intros (-> & V & N & D & F & VV) der E. unfold ParsePKCS1. rewrite E. cbn [rbind]. change (0 <? zlen []) with false. cbv iota.
  inversion F as [|? ? F1 F']; subst. inversion F' as [|? ? F2 F3]; subst.
  replace (1 <? rp_version k) with false by lia. replace ((rp_n k <=? 0) || (rp_d k <=? 0) || (rp_p k <=? 0) || (rp_q k <=? 0)) with false by lia.
  replace (existsb (fun p => p <=? 0) (rp_more k)) with false.
  2: { symmetry. clear -F3. induction F3 as [|p l H F IH]; cbn [existsb]; [reflexivity|]. rewrite IH. lia. }
  rewrite VV. reflexivity.
Qed.
(** ** Writing and reading back *)
Theorem C140_round_trip : validate_ok -> forall k der, marshal k = Ok der -> der <> [] -> small der ->
  0 < y_n k -> 0 < y_d k -> int64 (y_e k) -> validate (y_n k) (y_e k) (y_d k) (y_primes k) = true -> pre_fits k ->
  exists k', parse der = Ok k' /\ y_n k' = y_n k /\ y_e k' = y_e k /\ y_d k' = y_d k /\ y_primes k' = y_primes k /\ (exists v, y_pre k' = Some v) /\ pre_fits k' /\
             (y_pre k = None -> marshal k' = Ok der).
Proof.
  intros VO k der HM NE HS Hn Hd He V PF. destruct (marshal_inv k der VO V PF HM NE) as (p & q & more & crt & others & EP & EO & LC & ED). pose proof (VO _ _ _ _ V) as HF.
  pose proof (key_der_parse (if 2 <? zlen (y_primes k) then 1 else 0) (y_n k) (y_e k) (y_d k) p q crt others ltac:(destruct (2 <? _); split; reflexivity || discriminate) He LC ltac:(rewrite <- ED; exact HS)) as HU.
  rewrite <- ED, EO in HU. rewrite EP in HF.
  destruct (pre_total (y_n k) (y_e k) (y_d k) (p :: q :: more) HF ltac:(cbn; lia)) as (v & EV & LV).
  pose proof (parse_checks (mkRsa (if 2 <? zlen (y_primes k) then 1 else 0) (y_n k) (y_e k) (y_d k) p q more, [])) as HC. cbn [fst rp_n rp_e rp_d rp_p rp_q rp_more rp_version] in HC.
  rewrite EP in V. specialize (HC ltac:(split; [reflexivity|]; split; [destruct (2 <? _); lia|]; split; [exact Hn|]; split; [exact Hd|]; split; [eapply Forall_impl; [|exact HF]; cbn; intros; lia|exact V]) der HU).
  rewrite EV in HC. cbn [rbind] in HC. eexists. split; [exact HC|]. cbn [y_n y_e y_d y_primes y_pre]. rewrite EP. do 4 (split; [reflexivity|]). split; [eauto|].
  split; [unfold pre_fits; cbn [y_pre y_primes]; exact LV|]. intros NP. rewrite <- HM. unfold MarshalPKCS1PrivateKey.
  replace (pre (mkRK (y_n k) (y_e k) (y_d k) (p :: q :: more) (Some v))) with (@Ok precomp v) by reflexivity.
  assert (EK : pre k = Ok v). { rewrite <- EV. unfold precompute. cbn [y_pre y_primes y_d]. rewrite NP, EP. reflexivity. }
  rewrite EK. cbn [rbind y_primes y_n y_e y_d]. rewrite EP. reflexivity.
Qed.
(** What is accepted: one structure, nothing after it, version at most 1, positive numbers, rsa's validation; the key carries its precomputed values. *)
Theorem C140_accepts : validate_ok -> forall der k, parse der = Ok k <->
  exists r v, unm_pkcs1 der = Ok (r, []) /\ rp_version r <= 1 /\ 0 < rp_n r /\ 0 < rp_d r /\ Forall (fun p => 0 < p) (rp_p r :: rp_q r :: rp_more r) /\
    validate (rp_n r) (rp_e r) (rp_d r) (rp_p r :: rp_q r :: rp_more r) = true /\
    pre (mkRK (rp_n r) (rp_e r) (rp_d r) (rp_p r :: rp_q r :: rp_more r) None) = Ok v /\ k = mkRK (rp_n r) (rp_e r) (rp_d r) (rp_p r :: rp_q r :: rp_more r) (Some v).
Proof.
  intros VO der k. split.
  - intros H. assert (H0 := H). unfold ParsePKCS1 in H. destruct (unm_pkcs1 der) as [[r rest]| |] eqn:EU; cbn [rbind] in H; try discriminate.
    destruct (0 <? zlen rest) eqn:E0; [discriminate|]. assert (rest = []) by (destruct rest; [reflexivity|]; rewrite zlen_cons in E0; pose proof (zlen_nonneg rest); lia). subst rest.
    destruct (Z.ltb_spec 1 (rp_version r)) as [V|V]; [discriminate|]. destruct ((rp_n r <=? 0) || (rp_d r <=? 0) || (rp_p r <=? 0) || (rp_q r <=? 0)) eqn:EP; [discriminate|].
    destruct (existsb (fun p => p <=? 0) (rp_more r)) eqn:EX; [discriminate|]. destruct (validate _ _ _ _) eqn:EV; [|discriminate]. cbn [negb] in H.
    destruct (pre _) as [v| |] eqn:EQ; cbn [rbind] in H; try discriminate. injection H as <-. exists r, v.
    assert (X : Forall (fun p => 0 < p) (rp_more r)). { clear -EX. induction (rp_more r) as [|p l IH]; cbn [existsb] in EX; [constructor|]. apply Bool.orb_false_iff in EX as [X1 X2]. constructor; [lia|auto]. }
    split; [reflexivity|]. split; [exact V|]. split; [lia|]. split; [lia|]. split; [constructor; [lia|]; constructor; [lia|exact X]|]. split; [exact EV|]. split; [exact EQ|reflexivity].
  - intros (r & v & EU & V & N & D & F & VV & EQ & ->). rewrite (parse_checks (r, [])) with (2 := EU); [|repeat (split; [first [reflexivity|assumption]|]); assumption]. cbn [fst]. rewrite EQ. reflexivity.
Qed.
(** The exponents and coefficients in the structure do not matter, present or not: rsa computes its own. *)
Theorem C140_crt_ignored : forall v n e d p q crt crt' others others', int64 v -> int64 e -> (length crt <= 3)%nat -> (length crt' <= 3)%nat ->
  map (fun x => fst (fst x)) others = map (fun x => fst (fst x)) others' ->
  small (key_der v n e d p q crt others) -> small (key_der v n e d p q crt' others') ->
  parse (key_der v n e d p q crt others) = parse (key_der v n e d p q crt' others').
Proof. intros v n e d p q crt crt' others others' Bv Be L L' M S1 S2. unfold ParsePKCS1. rewrite !key_der_parse by assumption. now rewrite M. Qed.
(** No input crashes the parser. *)
Lemma np_p_rsa : npp p_rsa.
Proof.
  intros c. unfold p_rsa.
  repeat (apply np_bind; [first [apply np_req; first [exact np_int64|exact np_int]|apply np_opt; first [exact np_int|apply np_seq_of, np_req; intros b; unfold p_prime; repeat (apply np_bind; [apply np_req; exact np_int|intros ? _]); discriminate]]|intros ? _]).
  discriminate.
Qed.
Theorem C140_never_panics : validate_ok -> forall der, parse der <> Panic.
Proof.
  intros VO der. unfold ParsePKCS1. apply np_bind; [apply np_req; exact np_p_rsa|]. intros [r rest] _. destruct (0 <? _); [discriminate|]. destruct (1 <? _); [discriminate|]. destruct (_ || _); [discriminate|].
  destruct (existsb _ _); [discriminate|]. destruct (validate _ _ _ _) eqn:EV; [|discriminate]. cbn [negb].
  destruct (pre_total (rp_n r) (rp_e r) (rp_d r) (rp_p r :: rp_q r :: rp_more r) (VO _ _ _ _ EV) ltac:(cbn; lia)) as (v & -> & _). discriminate.
Qed.
(** The modulus is the one X509KeyPair compares (C135) when its RSA decoder is this one. *)
Theorem C140_modulus : validate_ok -> forall der n, ParsePKCS1PrivateKey unm_pkcs1 validate der = Ok n <-> exists k, parse der = Ok k /\ y_n k = n.
Proof.
  intros VO der n. rewrite (C135_pkcs1 unit unit (fun _ => Err 1) (fun _ _ => Err 1) (fun _ _ => None) (fun _ _ => (0, 0)) unm_pkcs1 validate (fun _ => None)). split.
  - intros (r & EU & -> & V & N & D & F & VV). destruct (pre_total (rp_n r) (rp_e r) (rp_d r) (rp_p r :: rp_q r :: rp_more r) (VO _ _ _ _ VV) ltac:(cbn; lia)) as (v & EQ & _).
    exists (mkRK (rp_n r) (rp_e r) (rp_d r) (rp_p r :: rp_q r :: rp_more r) (Some v)). split; [|reflexivity]. apply (C140_accepts VO). exists r, v. repeat (split; [assumption|]). reflexivity.
  - intros (k & H & <-). apply (C140_accepts VO) in H as (r & v & EU & V & N & D & F & VV & EQ & ->). exists r. split; [exact EU|]. split; [reflexivity|]. repeat (split; [assumption|]). assumption.
Qed.

(** ** The structure written is that of RFC 8017, for keys whose primes are distinct primes *)
Lemma prime_in_product p ps : prime p -> Forall prime ps -> (p | fold_left Z.mul ps 1) -> In p ps.
Proof.
  intros Hp. assert (G : forall a, (p | fold_left Z.mul ps a) -> (p | a) \/ exists q, In q ps /\ (p | q)).
  { induction ps as [|q ps IH]; intros a H; cbn [fold_left] in H; [now left|]. destruct (IH _ H) as [H1|(x & H1 & H2)].
    - apply prime_mult in H1; [|exact Hp]. destruct H1 as [H1|H1]; [now left|]. right. exists q. split; [now left|exact H1].
    - right. exists x. split; [now right|exact H2]. }
  intros HF H. destruct (G 1 H) as [H1|(q & H1 & H2)].
  - exfalso. destruct Hp as [Hp _]. apply Z.divide_1_r_nonneg in H1; lia.
  - rewrite Forall_forall in HF. rewrite (prime_div_prime p q Hp (HF q H1) H2). exact H1.
Qed.
Lemma fold_mul_acc ps : forall a, fold_left Z.mul ps a = a * fold_left Z.mul ps 1.
Proof. induction ps as [|p ps IH]; intros a; cbn [fold_left]; [lia|]. rewrite IH, (IH (1 * p)). lia. Qed.
Lemma inverse_prime : inverse_ok -> forall g p, prime p -> ~ (p | g) -> exists i, modInverse g p = Some i /\ 0 <= i < p /\ (i * g) mod p = 1.
Proof.
  intros IO g p Hp N. assert (1 < p) by (destruct Hp; assumption). pose proof (IO g p H) as X. destruct (modInverse g p) as [i|]; [eauto|]. exfalso. apply X. apply rel_prime_sym. now apply prime_rel_prime.
Qed.
Lemma others_written : inverse_ok -> forall d rs seen, Forall prime (seen ++ rs) -> NoDup (seen ++ rs) ->
  exists vals l, crt_values modInverse d (fold_left Z.mul seen 1) rs = Ok vals /\ more_primes vals rs = Ok (Some l) /\ other_infos d (fold_left Z.mul seen 1) rs l.
Proof.
  intros IO d. induction rs as [|p rs IH]; intros seen HF ND; cbn [crt_values].
  - exists [], []. repeat split; constructor.
  - assert (Hp : prime p) by (rewrite Forall_forall in HF; apply HF, in_or_app; right; now left). assert (P1 : 1 < p) by (destruct Hp; assumption).
    rewrite bigMod_ok by exact P1. cbn [rbind].
    destruct (IH (seen ++ [p])) as (vals & l & E1 & E2 & E3); [rewrite <- app_assoc; exact HF|rewrite <- app_assoc; exact ND|]. rewrite fold_left_app in E1, E3. cbn [fold_left] in E1, E3. rewrite E1. cbn [rbind].
    assert (NI : ~ (p | fold_left Z.mul seen 1)).
    { intros H. apply prime_in_product in H; [|exact Hp|apply Forall_app in HF; tauto]. apply NoDup_remove_2 in ND. apply ND, in_or_app. now left. }
    destruct (inverse_prime IO _ _ Hp NI) as (i & EI & BI & MI). rewrite EI. eexists _, _. split; [reflexivity|]. cbn [more_primes y_coeff y_exp]. rewrite E2. cbn [rbind]. split; [reflexivity|]. now constructor.
Qed.
Theorem C140_written : inverse_ok -> forall n e d primes, (2 <= length primes)%nat -> Forall prime primes -> NoDup primes ->
  exists der, marshal (mkRK n e d primes None) = Ok der /\ rfc8017_key n e d primes der.
Proof.
  intros IO n e d primes HL HF ND. destruct primes as [|p [|q rs]]; cbn in HL; try lia.
  assert (Hp : prime p) by (inversion HF; assumption). assert (Hq : prime q) by (inversion HF as [|? ? ? X]; inversion X; assumption). assert (P1 : 1 < p) by (destruct Hp; assumption). assert (Q1 : 1 < q) by (destruct Hq; assumption).
  assert (NI : ~ (p | q)). { intros H. rewrite (prime_div_prime p q Hp Hq H) in ND. inversion ND as [|? ? X]. apply X. now left. }
  destruct (inverse_prime IO q p Hp NI) as (t & ET & BT & MT). destruct (others_written IO d rs [p; q] HF ND) as (vals & l & E1 & E2 & E3). cbn [fold_left] in E1, E3. rewrite Z.mul_1_l in E1, E3.
  unfold MarshalPKCS1PrivateKey, precompute. cbn [y_pre y_primes y_d y_n y_e]. rewrite !bigMod_ok by assumption. cbn [rbind]. rewrite E1. cbn [rbind y_crt]. rewrite E2. cbn [rbind y_dp y_dq y_qinv]. rewrite ET.
  eexists. split; [reflexivity|]. exists p, q, rs, t, l. split; [reflexivity|]. split; [exact BT|]. split; [exact MT|]. split; [exact E3|].
  replace (if 2 <? zlen (p :: q :: rs) then 1 else 0) with (match rs with [] => 0 | _ => 1 end) by (destruct rs as [|x rs]; [reflexivity|]; rewrite !zlen_cons; pose proof (zlen_nonneg rs); replace (2 <? _) with true by lia; reflexivity).
  destruct l; reflexivity.
Qed.
(** A key that ParsePKCS1PrivateKey accepts, and that MarshalPKCS1PrivateKey turns into nothing: rsa's validation does not ask for distinct primes, a repeated third prime
    has no coefficient, and the error of asn1.Marshal is dropped. *)
Theorem C140_marshal_refuted : inverse_ok -> validate 45 3 3 [3; 5; 3] = true -> 
  exists der k, parse der = Ok k /\ marshal k = Ok [] /\ marshal (mkRK 45 3 3 [3; 5; 3] None) = Ok [].
Proof.
  intros IO V. exists (key_der 1 45 3 3 3 5 [] [(3, 0, 0)]).
  assert (N : modInverse 15 3 = None). { pose proof (IO 15 3 ltac:(lia)) as X. destruct (modInverse 15 3) as [i|]; [|reflexivity]. destruct X as [_ X]. exfalso. replace (i * 15) with (i * 5 * 3) in X by lia. rewrite Z.mod_mul in X by lia. discriminate. }
  pose proof (key_der_parse 1 45 3 3 3 5 [] [(3, 0, 0)] ltac:(split; reflexivity || discriminate) ltac:(split; reflexivity || discriminate) ltac:(cbn; lia) ltac:(reflexivity)) as HU.
  assert (HF : Forall (fun p => 0 < p) [3; 5; 3]) by (repeat constructor; lia).
  pose proof (parse_checks (mkRsa 1 45 3 3 3 5 [3], [])) as HP. cbn [fst rp_version rp_n rp_e rp_d rp_p rp_q rp_more] in HP.
  specialize (HP (conj eq_refl (conj (Z.le_refl 1) (conj (eq_refl : 0 < 45) (conj (eq_refl : 0 < 3) (conj HF V))))) _ HU). cbn [fst map rp_n rp_e rp_d rp_p rp_q rp_more] in HP.
  unfold precompute in HP. cbn [y_pre y_primes y_d crt_values] in HP. change (bigMod 3 (3 - 1)) with (Ok 1) in HP. change (bigMod 3 (5 - 1)) with (Ok 3) in HP. cbn [rbind] in HP. change (3 * 5) with 15 in HP. rewrite N in HP.
  eexists. split; [exact HP|]. split; [reflexivity|]. unfold MarshalPKCS1PrivateKey, precompute. cbn [y_pre y_primes y_d crt_values]. change (bigMod 3 (3 - 1)) with (Ok 1). change (bigMod 3 (5 - 1)) with (Ok 3). cbn [rbind]. change (3 * 5) with 15. rewrite N. reflexivity.
Qed.
End C140.

(** ** Parameters that meet the hypotheses, and keys that meet those of the theorems *)
(** ModInverse by search *)
Definition ex_inverse (g n : Z) : option Z := find (fun i => (i * g) mod n =? 1) (map Z.of_nat (seq 0 (Z.to_nat n))).
Lemma ex_inverse_ok : inverse_ok ex_inverse.
Proof.
  intros g n Hn. unfold ex_inverse. destruct (find _ _) as [i|] eqn:E.
  - apply find_some in E as [E1 E2]. apply in_map_iff in E1 as (k & <- & E1). apply in_seq in E1. apply Z.eqb_eq in E2. split; [lia|exact E2].
  - intros R. apply rel_prime_bezout in R. destruct R as [u v R]. pose proof (Z.mod_pos_bound u n ltac:(lia)) as B.
    assert (I : In (u mod n) (map Z.of_nat (seq 0 (Z.to_nat n)))) by (apply in_map_iff; exists (Z.to_nat (u mod n)); split; [lia|apply in_seq; lia]).
    pose proof (find_none _ _ E _ I) as X. cbn beta in X. apply Z.eqb_neq in X. apply X. rewrite Z.mul_mod_idemp_l by lia. replace (u * g) with (1 + (- v) * n) by lia. rewrite Z.mod_add by lia. apply Z.mod_1_l. lia.
Qed.
(** crypto/rsa Validate *)
Definition ex_validate (n e d : Z) (ps : list Z) : bool :=
  (2 <=? e) && (e <? 2 ^ 31) && forallb (fun p => 1 <? p) ps && (fold_left Z.mul ps 1 =? n) && forallb (fun p => (e * d) mod (p - 1) =? 1) ps.
Lemma ex_validate_ok : validate_ok ex_validate.
Proof.
  intros n e d ps H. unfold ex_validate in H. apply andb_prop in H as [H _]. apply andb_prop in H as [H _]. apply andb_prop in H as [_ H]. apply Forall_forall. intros p Hp. rewrite forallb_forall in H. apply H in Hp. lia.
Qed.
Definition ex_key2 := mkRK 3233 17 2753 [61; 53] None.
Definition ex_key3 := mkRK 4199 5 173 [13; 17; 19] None.
Definition ex_ok (k : rsakey) : bool :=
  match MarshalPKCS1PrivateKey ex_inverse k with
  | Ok der => match ParsePKCS1 ex_inverse ex_validate der with
              | Ok k' => (y_n k' =? y_n k) && (y_d k' =? y_d k) && (y_e k' =? y_e k) && beqb (y_primes k') (y_primes k) && (0 <? zlen der)
              | _ => false end
  | _ => false end.
Theorem C140_hyps : inverse_ok ex_inverse /\ validate_ok ex_validate /\ ex_validate 3233 17 2753 [61; 53] = true /\ ex_validate 4199 5 173 [13; 17; 19] = true /\
  ex_ok ex_key2 = true /\ ex_ok ex_key3 = true /\ ex_validate 45 3 3 [3; 5; 3] = true.
Proof.
  split; [exact ex_inverse_ok|]. split; [exact ex_validate_ok|]. repeat split; vm_compute; reflexivity.
Qed.

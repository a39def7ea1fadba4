(** Round trips of the certificate extensions: what buildExtensions (x509.go:1574) writes is what parseCertificate (x509.go:1184) reads. *)
From Verif Require Import GoBase GoLemmas BigBytes Asn1_model Asn1_go Keys_model X509C_model.
Open Scope Z_scope.
Ltac Zify.zify_post_hook ::= Z.div_mod_to_equations.

Ltac lt := unfold lowtag; cbn; lia.
Lemma bind_ok {A B} (r : res A) (f : A -> res B) v : rbind r f = Ok v -> exists a, r = Ok a /\ f a = Ok v.
Proof. destruct r; try discriminate. intros H. exists a. now split. Qed.

Lemma Ok_inj {A} (a b : A) : Ok a = Ok b -> a = b. Proof. congruence. Qed.
(** ** Key usage *)
Definition all_bytes : list Z := map Z.of_nat (seq 0 256).
Lemma in_all_bytes b : 0 <= b < 256 -> In b all_bytes.
Proof. intros H. unfold all_bytes. apply in_map_iff. exists (Z.to_nat b). split; [lia|apply in_seq; lia]. Qed.
Definition pad_of (l : list Z) : Z := (8 - asn1BitLength l mod 8) mod 8.
(** one octet *)
Definition ku1 (b : Z) : bool :=
  let r := reverseBitsInAByte b in
  match p_bits (pad_of [r] :: [r]) with Ok v => (usage_of v =? b) && (fst v =? pad_of [r]) && beqb (snd v) [r] | _ => false end
  && (usage_of (0, [r]) =? b) && (Z.land (Z.shiftr r 7) 1 =? b mod 2) && ((r =? 0) || negb (b =? 0)) && negb ((r =? 0) && negb (b =? 0)).
Lemma ku1_all : forallb ku1 all_bytes = true.
Proof. vm_compute. exact eq_refl. Qed.
Lemma ku1_byte b : 0 <= b < 256 -> ku1 b = true.
Proof. intros H. apply (proj1 (forallb_forall _ _) ku1_all), in_all_bytes, H. Qed.
(** the second octet alone fixes the padding *)
Definition ku2 (b : Z) : bool :=
  let r := reverseBitsInAByte b in
  if r =? 0 then true
  else match bitlen_scan [0;1;2;3;4;5;6;7] r 16 with
       | inl n => (8 <? n) && (n <=? 16) && (Z.land r (Z.shiftl 1 ((8 - n mod 8) mod 8) - 1) =? 0) &&
                  ((Z.land (Z.shiftr r 7) 1 =? 0) || (16 - (8 - n mod 8) mod 8 >? 8)) && ((8 - n mod 8) mod 8 =? 16 - n)
       | inr _ => false
       end.
Lemma ku2_all : forallb ku2 all_bytes = true.
Proof. vm_compute. exact eq_refl. Qed.
Lemma usage_two p a0 a1 : 0 <= p <= 7 ->
  usage_of (p, [a0; a1]) = (if Z.land (Z.shiftr a1 7) 1 =? 0 then usage_of (0, [a0]) else Z.lor (usage_of (0, [a0])) 256).
Proof.
  intros Hp.
  assert (Hb : forall i, 0 <= i < 8 -> bit_at (p, [a0; a1]) i = bit_at (0, [a0]) i).
  { intros i Hi. unfold bit_at. cbn [fst snd]. unfold zlen. cbn [length]. change (8 * Z.of_nat 2) with 16. change (8 * Z.of_nat 1) with 8.
    replace (i <? 0) with false by lia. replace (16 - p <=? i) with false by lia. replace (8 - 0 <=? i) with false by lia. cbn [orb].
    replace (Z.to_nat (i / 8)) with 0%nat by lia. reflexivity. }
  assert (H8 : bit_at (p, [a0; a1]) 8 = Z.land (Z.shiftr a1 7) 1).
  { unfold bit_at. cbn [fst snd]. unfold zlen. cbn [length]. change (8 * Z.of_nat 2) with 16. replace (16 - p <=? 8) with false by lia. reflexivity. }
  assert (H9 : bit_at (0, [a0]) 8 = 0) by reflexivity.
  unfold usage_of. cbn [fold_left]. rewrite (Hb 0), (Hb 1), (Hb 2), (Hb 3), (Hb 4), (Hb 5), (Hb 6), (Hb 7), H8, H9 by lia.
  change (negb (0 =? 0)) with false. cbv iota. change (Z.shiftl 1 8) with 256.
  destruct (Z.land (Z.shiftr a1 7) 1 =? 0); reflexivity.
Qed.
Lemma ku_roundtrip ku : exists v, whole (req 3 p_bits) (ku_value ku) = Ok v /\ usage_of v = ku mod 512.
Proof.
  set (b0 := ku mod 256). set (b1 := (ku / 256) mod 256). assert (H0 : 0 <= b0 < 256) by (subst b0; lia). assert (H1 : 0 <= b1 < 256) by (subst b1; lia).
  assert (HM : ku mod 512 = b0 + 256 * (b1 mod 2)) by (subst b0 b1; lia).
  pose proof (ku1_byte b0 H0) as K0. pose proof (ku1_byte b1 H1) as K1. pose proof (proj1 (forallb_forall _ _) ku2_all b1 (in_all_bytes _ H1)) as K2.
  unfold ku_value. change (u8 ku) with b0. replace (u8 (Z.shiftr ku 8)) with b1 by (unfold u8; rewrite Z.shiftr_div_pow2 by lia; reflexivity).
  clearbody b0 b1. unfold ku1 in K0, K1. unfold ku2 in K2.
  set (a0 := reverseBitsInAByte b0) in *. set (a1 := reverseBitsInAByte b1) in *. clearbody a0 a1. cbv zeta in *.
  apply andb_prop in K0 as [K0 _]. apply andb_prop in K0 as [K0 _]. apply andb_prop in K0 as [K0 _]. apply andb_prop in K0 as [K0 K0u]. apply Z.eqb_eq in K0u.
  apply andb_prop in K1 as [K1 K1z]. apply andb_prop in K1 as [K1 _]. apply andb_prop in K1 as [_ K1b]. apply Z.eqb_eq in K1b.
  destruct (Z.eqb_spec a1 0) as [E1|N1].
  - assert (b1 = 0) by (subst a1; cbn [Z.eqb andb negb] in K1z; destruct (Z.eqb_spec b1 0); [assumption|discriminate]).
    fold (pad_of [a0]). destruct (p_bits (pad_of [a0] :: [a0])) as [v| |] eqn:EP; try discriminate.
    exists v. split.
    + apply whole_tlv; [lt|unfold small, zlen; cbn; lia|exact EP].
    + apply andb_prop in K0 as [K0 _]. apply andb_prop in K0 as [K0 _]. apply Z.eqb_eq in K0. rewrite K0, HM. subst b1. cbn. lia.
  - unfold asn1BitLength. cbn [rev app bitlen_loop]. unfold zlen. cbn [length]. change (8 * Z.of_nat 2) with 16.
    destruct (bitlen_scan [0; 1; 2; 3; 4; 5; 6; 7] a1 16) as [n0|]; [|discriminate].
    set (p := (8 - n0 mod 8) mod 8) in *. assert (Hp : 0 <= p <= 7) by (subst p; lia). clearbody p.
    apply andb_prop in K2 as [K2 _]. apply andb_prop in K2 as [K2 _]. apply andb_prop in K2 as [_ K2].
    exists (p, [a0; a1]). split.
    + apply whole_tlv; [lt|unfold small, zlen; cbn; lia|]. unfold p_bits. replace (7 <? p) with false by lia. cbn [length Nat.eqb last].
      rewrite andb_false_r, K2. reflexivity.
    + rewrite usage_two by exact Hp. rewrite K1b, K0u, HM. assert (Hm : b1 mod 2 = 0 \/ b1 mod 2 = 1) by lia.
      destruct Hm as [-> | ->].
      * cbn [Z.eqb]. lia.
      * cbn [Z.eqb].
        change (256 * 1) with 256. rewrite <- Z.lxor_lor, <- Z.add_nocarry_lxor; [reflexivity| |];
        apply Z.bits_inj'; intros i Hi; rewrite Z.land_spec, Z.bits_0; change 256 with (2 ^ 8); rewrite Z.pow2_bits_eqb by lia;
        (destruct (Z.eqb_spec 8 i) as [<-|]; [rewrite andb_true_r|apply andb_false_r]);
        (rewrite Z.testbit_eqb by lia; apply Z.eqb_neq; rewrite Z.div_small by (change (2 ^ 8) with 256; lia); cbn; lia).
Qed.

(** ** The other extensions *)
Lemma known_ueku l : Forall (fun o => extKeyUsageFromOID o = None) l -> known_eku l = [] /\ unknown_eku l = l.
Proof.
  induction 1 as [|o l Ho Hl IH]; [split; reflexivity|]. unfold known_eku, unknown_eku in *. cbn [flat_map filter]. rewrite Ho. cbn [app].
  destruct IH as [-> ->]. split; reflexivity.
Qed.
Lemma eku_oid_index u o : oidFromExtKeyUsage u = Some o -> extKeyUsageFromOID o = Some u /\ oid_ok o = true.
Proof.
  unfold oidFromExtKeyUsage. destruct (Z.ltb_spec u 0); [discriminate|]. intros H1.
  assert (Hu : (Z.to_nat u < 12)%nat) by (change 12%nat with (length extKeyUsageOIDs); apply nth_error_Some; congruence).
  replace u with (Z.of_nat (Z.to_nat u)) by lia. revert H1. generalize (Z.to_nat u) as k, Hu. clear.
  intros k Hk. do 12 (destruct k as [|k]; [cbn [extKeyUsageOIDs nth_error]; intros [= <-]; vm_compute; split; exact eq_refl|]). lia.
Qed.
Lemma eku_split l oids ueku : eku_oids l = Ok oids -> Forall (fun o => extKeyUsageFromOID o = None) ueku ->
  known_eku (oids ++ ueku) = l /\ unknown_eku (oids ++ ueku) = ueku /\ Forall (fun o => oid_ok o = true) oids.
Proof.
  intros H HU. revert oids H. induction l as [|u l IH]; intros oids H.
  - injection H as <-. cbn [app]. destruct (known_ueku _ HU) as [-> ->]. repeat split; constructor.
  - cbn [eku_oids] in H. destruct (oidFromExtKeyUsage u) as [o|] eqn:E; [|discriminate]. apply bind_ok in H as (r & Hr & H). injection H as <-.
    destruct (IH r Hr) as (H1 & H2 & H3). destruct (eku_oid_index _ _ E) as [Hi Hk]. unfold known_eku, unknown_eku in *.
    cbn [app flat_map filter]. rewrite Hi. cbn [app]. rewrite H1, H2. repeat split. now constructor.
Qed.
Lemma concat_small {A} (f : A -> list Z) l x : small (concat (map f l)) -> In x l -> small (f x).
Proof. intros H HI. apply (small_concat _ _ H). now apply in_map. Qed.
Lemma tlv_not_nil t c : der_tlv t c <> []. Proof. unfold der_tlv. discriminate. Qed.
Lemma small_tlv_seq {A} t (f : A -> list Z) l x : small (der_tlv t (concat (map f l))) -> In x l -> small (f x).
Proof. intros H. apply concat_small. exact (small_tlv _ _ H). Qed.
(** a list of OIDs *)
Lemma oids_roundtrip l : Forall (fun o => oid_ok o = true) l -> small (der_tlv 48 (concat (map (der_tlv 6) l))) ->
  whole (req 48 (seq_of (req 6 p_oid_content))) (der_tlv 48 (concat (map (der_tlv 6) l))) = Ok l.
Proof.
  intros HO HS. apply whole_tlv; [lt|exact (small_tlv _ _ HS)|]. apply seq_of_map. intros x rest Hx. split; [|apply tlv_not_nil].
  apply req_tlv; [lt|exact (small_tlv _ _ (small_tlv_seq _ _ _ _ HS Hx))|]. unfold p_oid_content. rewrite Forall_forall in HO. now rewrite (HO x Hx).
Qed.
Lemma p_oid_req o rest : oid_ok o = true -> small (der_tlv 6 o) -> req 6 p_oid_content (der_tlv 6 o ++ rest) = Ok (o, rest).
Proof. intros HO HS. apply req_tlv; [lt|exact (small_tlv _ _ HS)|]. unfold p_oid_content. now rewrite HO. Qed.
Lemma pol_roundtrip l : Forall (fun o => oid_ok o = true) l -> small (der_tlv 48 (concat (map (fun p => der_tlv 48 (der_tlv 6 p)) l))) ->
  whole (req 48 (seq_of (req 48 p_policy))) (der_tlv 48 (concat (map (fun p => der_tlv 48 (der_tlv 6 p)) l))) = Ok l.
Proof.
  intros HO HS. apply whole_tlv; [lt|exact (small_tlv _ _ HS)|].
  apply (seq_of_map _ (fun p => der_tlv 48 (der_tlv 6 p))). intros x rest Hx. split; [|apply tlv_not_nil].
  pose proof (small_tlv_seq _ _ _ _ HS Hx) as Hs. cbv beta in Hs. apply small_tlv in Hs.
  apply req_tlv; [lt|exact Hs|]. unfold p_policy. rewrite Forall_forall in HO.
  rewrite <- (app_nil_r (der_tlv 6 x)). rewrite p_oid_req by (auto || exact Hs). reflexivity.
Qed.
Lemma bc_roundtrip ca mpl : - 2 ^ 63 <= mpl < 2 ^ 63 -> whole (req 48 p_basic) (bc_value ca mpl) = Ok (ca, mpl).
Proof.
  intros Hm. unfold bc_value.
  assert (Hc : small (int_content mpl)).
  { unfold small. destruct (Z.leb_spec 0 mpl); [pose proof (int_content_length mpl ltac:(lia)); lia|].
    unfold int_content. replace (mpl =? 0) with false by lia. replace (0 <? mpl) with false by lia.
    assert (Hl : (length (Bytes (- mpl - 1)) <= 8)%nat) by (rewrite Bytes_length; apply nbytes_le; change (256 ^ Z.of_nat 8) with (2 ^ 64); lia).
    pose proof (map_length (fun x => 255 - x) (Bytes (- mpl - 1))) as Hml. destruct (map _ _) as [|x l]; [unfold zlen; cbn; lia|].
    cbn [length] in Hml. unfold zlen. destruct (x <? 128); cbn [length]; lia. }
  assert (Hs : small (der_tlv 2 (int_content mpl))).
  { unfold small in *. assert (Hl : zlen (int_content mpl) <= 100).
    { unfold int_content. destruct (mpl =? 0); [unfold zlen; cbn; lia|]. destruct (Z.ltb_spec 0 mpl).
      - pose proof (int_content_length mpl ltac:(lia)) as Hx. unfold int_content in Hx. replace (mpl =? 0) with false in Hx by lia.
        replace (0 <? mpl) with true in Hx by lia. lia.
      - assert (Hl : (length (Bytes (- mpl - 1)) <= 8)%nat) by (rewrite Bytes_length; apply nbytes_le; change (256 ^ Z.of_nat 8) with (2 ^ 64); lia).
        pose proof (map_length (fun x => 255 - x) (Bytes (- mpl - 1))) as Hml. destruct (map _ _) as [|x l]; [unfold zlen; cbn; lia|].
        cbn [length] in Hml. unfold zlen. destruct (x <? 128); cbn [length]; lia. }
    pose proof (der_tlv_length 2 (int_content mpl) Hc). lia. }
  assert (Hi : forall rest, opt 2 p_int64 (der_tlv 2 (int_content mpl) ++ rest) = Ok (Some mpl, rest)).
  { intros rest. apply opt_tlv; [lt|exact Hc|]. now apply p_int64_content. }
  assert (Hall : small ((if ca then der_bool else []) ++ (if mpl =? -1 then [] else der_int mpl))).
  { unfold small in *. rewrite zlen_app. unfold der_int. pose proof (der_tlv_length 2 (int_content mpl) Hc).
    assert (Hl : zlen (int_content mpl) <= 100).
    { unfold int_content. destruct (mpl =? 0); [unfold zlen; cbn; lia|]. destruct (Z.ltb_spec 0 mpl).
      - pose proof (int_content_length mpl ltac:(lia)) as Hx. unfold int_content in Hx. replace (mpl =? 0) with false in Hx by lia.
        replace (0 <? mpl) with true in Hx by lia. lia.
      - assert (Hl : (length (Bytes (- mpl - 1)) <= 8)%nat) by (rewrite Bytes_length; apply nbytes_le; change (256 ^ Z.of_nat 8) with (2 ^ 64); lia).
        pose proof (map_length (fun x => 255 - x) (Bytes (- mpl - 1))) as Hml. destruct (map _ _) as [|x l]; [unfold zlen; cbn; lia|].
        cbn [length] in Hml. unfold zlen. destruct (x <? 128); cbn [length]; lia. }
    destruct ca, (mpl =? -1); unfold zlen in *; cbn [length der_bool] in *; lia. }
  apply whole_tlv; [lt|exact Hall|]. unfold p_basic, der_int. change der_bool with (der_tlv 1 [255]).
  destruct ca.
  - rewrite (opt_tlv 1 p_bool [255] true) by (lt || (unfold small, zlen; cbn; lia) || reflexivity). cbn [rbind fst snd].
    destruct (Z.eqb_spec mpl (-1)) as [->|Hn]; [reflexivity|]. rewrite <- (app_nil_r (der_tlv 2 _)), Hi. reflexivity.
  - cbn [app]. destruct (Z.eqb_spec mpl (-1)) as [->|Hn]; [reflexivity|]. rewrite <- (app_nil_r (der_tlv 2 _)).
    rewrite opt_skip by (lt || exact Hc || reflexivity). cbn [rbind fst snd]. rewrite Hi. reflexivity.
Qed.
Lemma ski_roundtrip k : small (der_tlv 4 k) -> whole (req 4 p_id) (der_tlv 4 k) = Ok k.
Proof. intros H. apply whole_tlv; [lt|exact (small_tlv _ _ H)|reflexivity]. Qed.
Lemma aki_roundtrip k : small (der_tlv 48 (der_tlv 128 k)) -> whole (req 48 p_aki) (der_tlv 48 (der_tlv 128 k)) = Ok k.
Proof.
  intros H. apply small_tlv in H. apply whole_tlv; [lt|exact H|]. unfold p_aki. rewrite <- (app_nil_r (der_tlv 128 k)).
  rewrite (opt_tlv 128 p_id k k) by (lt || exact (small_tlv _ _ H) || reflexivity). reflexivity.
Qed.
(** authority information access *)
Lemma aia_names_app m a b : aia_names m (a ++ b) = aia_names m a ++ aia_names m b.
Proof. unfold aia_names. now rewrite filter_app, map_app. Qed.
Definition uri_raw (n : list Z) : raw := mkRaw 128 6 n (der_tlv 134 n).
Lemma aia_names_same m l : aia_names m (map (fun n => (m, uri_raw n)) l) = l.
Proof. induction l as [|n l IH]; [reflexivity|]. unfold aia_names in *. cbn [map filter snd uri_raw r_tag fst]. rewrite beqb_refl. cbn. now rewrite IH. Qed.
Lemma aia_names_diff m m' l : beqb m' m = false -> aia_names m (map (fun n => (m', uri_raw n)) l) = [].
Proof. intros H. induction l as [|n l IH]; [reflexivity|]. unfold aia_names in *. cbn [map filter snd uri_raw r_tag fst]. rewrite H. exact IH. Qed.
Lemma aia_roundtrip ocsp iss : small (aia_value ocsp iss) ->
  exists l, whole (req 48 (seq_of (req 48 p_aia))) (aia_value ocsp iss) = Ok l /\
    aia_names oidAuthorityInfoAccessOcsp l = ocsp /\ aia_names oidAuthorityInfoAccessIssuers l = iss.
Proof.
  intros H. exists (map (fun n => (oidAuthorityInfoAccessOcsp, uri_raw n)) ocsp ++ map (fun n => (oidAuthorityInfoAccessIssuers, uri_raw n)) iss).
  split; [|split].
  - unfold aia_value in *. cbv zeta in *. apply whole_tlv; [lt|exact (small_tlv _ _ H)|]. apply small_tlv in H.
    set (enc := fun p : list Z * raw => der_tlv 48 (der_tlv 6 (fst p) ++ der_tlv 134 (r_bytes (snd p)))).
    assert (E : forall m l, map (fun n => der_tlv 48 (der_tlv 6 m ++ der_tlv 134 n)) l = map enc (map (fun n => (m, uri_raw n)) l)).
    { intros m l. rewrite map_map. reflexivity. }
    rewrite (E oidAuthorityInfoAccessOcsp), (E oidAuthorityInfoAccessIssuers) in *. rewrite <- concat_app, <- map_app in *.
    apply (seq_of_map _ enc). intros x rest Hx. split; [|apply tlv_not_nil].
    pose proof (concat_small _ _ _ H Hx) as Hs. unfold enc in Hs. apply small_tlv in Hs. unfold enc. apply req_tlv; [lt|exact Hs|].
    apply small_app in Hs as [Hs1 Hs2]. unfold p_aia.
    assert (HO : oid_ok (fst x) = true /\ snd x = uri_raw (r_bytes (snd x))).
    { apply in_app_iff in Hx as [Hx|Hx]; apply in_map_iff in Hx as (n & <- & _); split; reflexivity. }
    destruct HO as [HO Hu]. rewrite p_oid_req by assumption. cbn [rbind fst snd]. rewrite <- (app_nil_r (der_tlv 134 _)).
    rewrite any_tlv by (lt || exact (small_tlv _ _ Hs2)). cbn [rbind fst]. destruct x as [m r]. cbn [fst snd] in *. rewrite Hu. reflexivity.
  - rewrite aia_names_app, aia_names_same, aia_names_diff, app_nil_r by reflexivity. reflexivity.
  - rewrite aia_names_app, aia_names_same, aia_names_diff by reflexivity. reflexivity.
Qed.
(** name constraints *)
Lemma subtrees_roundtrip l : Forall (fun n => is_ia5 n = true) l -> small (concat (map subtree_value l)) ->
  seq_of (req 48 p_subtree) (concat (map subtree_value l)) = Ok l.
Proof.
  intros HI HS. apply seq_of_map. intros x rest Hx. unfold subtree_value. split; [|apply tlv_not_nil].
  pose proof (concat_small _ _ _ HS Hx) as Hs. unfold subtree_value in Hs. apply small_tlv in Hs. apply req_tlv; [lt|exact Hs|].
  unfold p_subtree. destruct x as [|z x]; [reflexivity|]. rewrite <- (app_nil_r (der_tlv 130 _)).
  rewrite (opt_tlv 130 p_ia5 (z :: x) (z :: x)); [reflexivity|lt|exact (small_tlv _ _ Hs)|].
  unfold p_ia5. rewrite Forall_forall in HI. unfold is_ia5 in HI. now rewrite (HI _ Hx).
Qed.
Lemma nc_roundtrip perm excl v : nc_value perm excl = Ok v -> small v -> whole (req 48 p_nc) v = Ok (perm, excl).
Proof.
  unfold nc_value. destruct (forallb is_ia5 perm && forallb is_ia5 excl) eqn:E; [|discriminate]. intros HV HS. apply Ok_inj in HV. subst v.
  apply andb_prop in E as [Ep Ee]. apply small_tlv in HS. apply whole_tlv; [lt|exact HS|]. apply small_app in HS as [HS1 HS2].
  apply small_tlv in HS1, HS2. rewrite forallb_forall in Ep, Ee. unfold p_nc.
  rewrite (opt_tlv 160 _ _ perm); [|lt|exact HS1|apply subtrees_roundtrip; [now apply Forall_forall|exact HS1]].
  cbn [rbind fst snd]. rewrite <- (app_nil_r (der_tlv 161 _)).
  rewrite (opt_tlv 161 _ _ excl); [|lt|exact HS2|apply subtrees_roundtrip; [now apply Forall_forall|exact HS2]]. reflexivity.
Qed.
Lemma getDNSNames_all l crit : Forall (fun n => n <> []) l -> getDNSNames l crit = Ok l.
Proof.
  intros H. unfold getDNSNames.
  assert (E : existsb (fun n : list Z => (length n =? 0)%nat) l = false).
  { rewrite <- not_true_iff_false, existsb_exists. intros (n & Hn & Hl). rewrite Forall_forall in H. apply (H n Hn). destruct n; [reflexivity|discriminate]. }
  rewrite E, andb_false_r. f_equal. clear E. induction H as [|n l Hn Hl IH]; [reflexivity|]. cbn [filter]. destruct n; [congruence|]. cbn [length Nat.eqb negb]. now rewrite IH.
Qed.
(** CRL distribution points *)
Section CRLDP.
Variable nm : Type. Variable dec_name : list Z -> res nm.
Lemma opt_raw_tlv t u c rest : lowtag u -> small c -> (Z.land (Z.land u 224) 192 =? 128) && (Z.land u 31 =? t) = true ->
  opt_raw t (der_tlv u c ++ rest) = Ok (Some c, rest).
Proof.
  intros Hu Hc Hd. unfold opt_raw. destruct (tlv_cons u c rest) as (b & E). rewrite E, <- E. rewrite parse_hdr_tlv by assumption.
  cbn [rbind fst snd h_cc h_tag h_len]. rewrite Hd, take_app. reflexivity.
Qed.
Lemma crldp_roundtrip l : small (crldp_value l) ->
  whole (req 48 (seq_of (req 48 (p_dp nm dec_name)))) (crldp_value l) = Ok (map (der_tlv 134) l) /\ crldp_names (map (der_tlv 134) l) = Ok l.
Proof.
  intros H. unfold crldp_value in *. split.
  - apply whole_tlv; [lt|exact (small_tlv _ _ H)|]. apply small_tlv in H.
    apply seq_of_map2. intros x rest Hx. split; [|apply tlv_not_nil].
    pose proof (concat_small _ _ _ H Hx) as Hs. cbv beta in Hs. apply small_tlv in Hs. apply req_tlv; [lt|exact Hs|]. apply small_tlv in Hs.
    unfold p_dp. rewrite <- (app_nil_r (der_tlv 160 (der_tlv 160 _))).
    rewrite (opt_tlv 160 _ _ (der_tlv 134 x)); [reflexivity|lt|exact Hs|]. unfold p_dpname.
    rewrite <- (app_nil_r (der_tlv 160 _)). rewrite opt_raw_tlv by (lt || exact (small_tlv _ _ Hs) || reflexivity). reflexivity.
  - apply small_tlv in H. induction l as [|n l IH]; [reflexivity|]. cbn [map concat] in H. apply small_app in H as [Hn Hl]. do 4 apply small_tlv in Hn.
    cbn [map crldp_names]. destruct (der_tlv 134 n) as [|z y] eqn:E; [discriminate|]. rewrite <- E, <- (app_nil_r (der_tlv 134 n)).
    rewrite any_tlv; [|lt|exact Hn]. cbn [rbind fst r_tag r_bytes].
    rewrite IH by exact Hl. reflexivity.
Qed.
End CRLDP.
(** subject alternative names *)
Lemma san_step f s t c rest : lowtag t -> small c -> (length (der_tlv t c ++ rest) <= S f)%nat ->
  san_loop (S f) s (der_tlv t c ++ rest) = do s' <- add_san s (mkRaw (Z.land t 224) (Z.land t 31) c (der_tlv t c)); san_loop f s' rest.
Proof.
  intros Ht Hc Hf. destruct (tlv_cons t c rest) as (b & E). cbn [san_loop]. rewrite E, <- E. rewrite any_tlv by assumption. reflexivity.
Qed.
Lemma san_list t l (g : list Z -> list Z) (upd : san -> list Z -> san) : lowtag t ->
  (forall s x, In x l -> add_san s (mkRaw (Z.land t 224) (Z.land t 31) (g x) (der_tlv t (g x))) = Ok (upd s (g x))) ->
  forall f s rest, small (concat (map (fun x => der_tlv t (g x)) l)) -> (length (concat (map (fun x => der_tlv t (g x)) l) ++ rest) <= f)%nat ->
  exists f', (length rest <= f')%nat /\
    san_loop f s (concat (map (fun x => der_tlv t (g x)) l) ++ rest) = san_loop f' (fold_left upd (map g l) s) rest.
Proof.
  intros Ht. induction l as [|x l IH]; intros HA f s rest HS Hf; cbn [map concat fold_left app] in *.
  - exists f. split; [exact Hf|reflexivity].
  - apply small_app in HS as [Hx Hl]. rewrite <- app_assoc in *. destruct f as [|f].
    + rewrite app_length in Hf. destruct (tlv_cons t (g x) []) as (b & E). rewrite app_nil_r in E. rewrite E in Hf. cbn [length] in Hf. lia.
    + rewrite san_step by (assumption || exact (small_tlv _ _ Hx)). rewrite HA by (now left). cbn [rbind].
      apply IH; [intros; apply HA; now right|exact Hl|]. rewrite app_length in Hf. destruct (tlv_cons t (g x) []) as (b & E). rewrite app_nil_r in E. rewrite E in Hf.
      cbn [length] in Hf. lia.
Qed.
Lemma fold_dns l : forall d e i, fold_left (fun (s : san) x => let '(d, e, i) := s in (d ++ [x], e, i)) l (d, e, i) = (d ++ l, e, i).
Proof. induction l as [|x l IH]; intros d e i; cbn [fold_left]; [now rewrite app_nil_r|]. rewrite IH, <- app_assoc. reflexivity. Qed.
Lemma fold_email l : forall d e i, fold_left (fun (s : san) x => let '(d, e, i) := s in (d, e ++ [x], i)) l (d, e, i) = (d, e ++ l, i).
Proof. induction l as [|x l IH]; intros d e i; cbn [fold_left]; [now rewrite app_nil_r|]. rewrite IH, <- app_assoc. reflexivity. Qed.
Lemma fold_ip l : forall d e i, fold_left (fun (s : san) x => let '(d, e, i) := s in (d, e, i ++ [x])) l (d, e, i) = (d, e, i ++ l).
Proof. induction l as [|x l IH]; intros d e i; cbn [fold_left]; [now rewrite app_nil_r|]. rewrite IH, <- app_assoc. reflexivity. Qed.
Definition ip_len (ip : list Z) : Prop := length ip = 4%nat \/ length ip = 16%nat.
Lemma ip_bytes_len ip : ip_len ip -> ip_len (ip_bytes ip).
Proof.
  intros H. unfold ip_bytes, To4. destruct (length ip =? 4)%nat eqn:E4; [now apply Nat.eqb_eq in E4; left|].
  destruct ((length ip =? 16)%nat && beqb (firstn 12 ip) [0;0;0;0;0;0;0;0;0;0;255;255]) eqn:E; [|exact H].
  apply andb_prop in E as [E _]. apply Nat.eqb_eq in E. left. rewrite skipn_length. lia.
Qed.
Lemma san_roundtrip dns email ip : Forall ip_len ip -> small (marshalSANs dns email ip) ->
  parseSANExtension (marshalSANs dns email ip) = Ok (dns, email, map ip_bytes ip).
Proof.
  intros HI HS. unfold parseSANExtension, marshalSANs in *.
  set (body := concat (map (der_tlv 130) dns) ++ concat (map (der_tlv 129) email) ++ concat (map (fun i => der_tlv 135 (ip_bytes i)) ip)) in *.
  apply small_tlv in HS. rewrite (whole_ok any (der_tlv 48 body) (mkRaw 32 16 body (der_tlv 48 body))) by (apply (any_tlv 48 body []); [lt|exact HS]).
  cbn [rbind r_cc r_tag r_bytes]. change (negb ((32 =? 32) && (16 =? 16))) with false. cbv iota.
  pose proof (small_app_l _ _ HS) as Hd. pose proof (small_app_l _ _ (small_app_r _ _ HS)) as He. pose proof (small_app_r _ _ (small_app_r _ _ HS)) as Hi.
  unfold body.
  edestruct (san_list 130 dns (fun x => x) (fun (s : san) x => let '(d, e, i) := s in (d ++ [x], e, i))) as (f1 & Hf1 & E1);
    [lt|intros [[d e] i] x _; reflexivity|exact Hd|apply Nat.le_refl|]. rewrite E1, map_id, fold_dns. clear E1.
  edestruct (san_list 129 email (fun x => x) (fun (s : san) x => let '(d, e, i) := s in (d, e ++ [x], i))) as (f2 & Hf2 & E2);
    [lt|intros [[d e] i] x _; reflexivity|exact He|exact Hf1|]. rewrite E2, map_id, fold_email. clear E2.
  rewrite <- (app_nil_r (concat (map (fun i => der_tlv 135 (ip_bytes i)) ip))) in *.
  edestruct (san_list 135 ip ip_bytes (fun (s : san) x => let '(d, e, i) := s in (d, e, i ++ [x]))) as (f3 & Hf3 & E3); [lt| | |exact Hf2|].
  - intros [[d e] i] x Hx. unfold add_san. cbn [r_tag r_bytes]. change (Z.land 135 31) with 7. cbn [Z.eqb Pos.eqb].
    rewrite Forall_forall in HI. destruct (ip_bytes_len x (HI x Hx)) as [El|El]; rewrite El; reflexivity.
  - exact (small_app_l _ _ Hi).
  - rewrite E3, fold_ip. destruct f3; reflexivity.
Qed.

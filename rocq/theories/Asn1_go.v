(** The part of Go's encoding/asn1 (standard library, src/encoding/asn1/asn1.go) that /repo/x509/x509.go relies on beyond
    Asn1_model.v: identifier octets with any tag number, OPTIONAL and EXPLICIT fields, RawValue, SEQUENCE OF, BOOLEAN.
    These are standard-library contracts; they are modelled so that certificates can be followed byte by byte.
    Error codes are not distinguished (one code, 1). *)
From Verif Require Import GoBase GoLemmas BigBytes Asn1_model.
Open Scope Z_scope.

(** asn1.go parseBase128Int: at most five octets, not starting with 0x80, at most MaxInt32 *)
Fixpoint base128 (k : nat) (acc : Z) (b : list Z) : res (Z * list Z) :=
  match k, b with
  | S k', x :: b' => let acc' := acc * 128 + Z.land x 127 in
                     if x <? 128 then if 2 ^ 31 - 1 <? acc' then Err 1 else Ok (acc', b') else base128 k' acc' b'
  | _, _ => Err 1
  end.
Definition parseBase128 (b : list Z) : res (Z * list Z) := if hd 0 b =? 128 then Err 1 else base128 5 0 b.
(** asn1.go parseObjectIdentifier: is this a well formed OBJECT IDENTIFIER content? *)
Fixpoint arcs_ok (fuel : nat) (c : list Z) : bool :=
  match c, fuel with
  | [], _ => true
  | _, O => false
  | _, S f => match parseBase128 c with Ok (_, r) => arcs_ok f r | _ => false end
  end.
Definition oid_ok (c : list Z) : bool := match c with [] => false | _ => arcs_ok (length c) c end.
Definition p_oid_content (c : list Z) : res (list Z) := if oid_ok c then Ok c else Err 1.

(** asn1.go parseTagAndLength: class and constructed bits, tag number, length *)
Record hdr := mkHdr { h_cc : Z; h_tag : Z; h_len : Z }.
Definition parse_hdr (b : list Z) : res (hdr * list Z) :=
  match b with
  | [] => Err 1
  | t :: b' =>
      do tg <- (if Z.land t 31 =? 31 then do r <- parseBase128 b'; if fst r <? 31 then Err 1 else Ok r
                else Ok (Z.land t 31, b'));
      do l <- parse_len (snd tg); Ok (mkHdr (Z.land t 224) (fst tg) (fst l), snd l)
  end.
Definition tag_is (h : hdr) (t : Z) : bool := (h_cc h =? Z.land t 224) && (h_tag h =? Z.land t 31).
Definition take (n : Z) (c : list Z) : res (list Z * list Z) :=
  if zlen c <? n then Err 1 else Ok (firstn (Z.to_nat n) c, skipn (Z.to_nat n) c).

(** a field whose identifier octet is [t]; contents and rest *)
Definition req {A} (t : Z) (p : list Z -> res A) (b : list Z) : res (A * list Z) :=
  do h <- parse_hdr b;
  if tag_is (fst h) t then do c <- take (h_len (fst h)) (snd h); do v <- p (fst c); Ok (v, snd c) else Err 1.
(** the same, OPTIONAL (asn1.go parseField: absent at the end of the data or when the tag differs) *)
Definition opt {A} (t : Z) (p : list Z -> res A) (b : list Z) : res (option A * list Z) :=
  match b with
  | [] => Ok (None, [])
  | _ => do h <- parse_hdr b;
         if tag_is (fst h) t then do c <- take (h_len (fst h)) (snd h); do v <- p (fst c); Ok (Some v, snd c)
         else Ok (None, b)
  end.
(** EXPLICIT context tag [t] around a field with identifier octet [i].  Like Go, the length of the outer element is not
    compared with the inner one; an inner identifier that does not match counts as an absent field. *)
Definition explicit {A} (t i : Z) (p : list Z -> res A) (b : list Z) : res (option A * list Z) :=
  match b with
  | [] => Ok (None, [])
  | _ => do h <- parse_hdr b;
         if (length (snd h) =? 0)%nat then Err 1
         else if (Z.land (h_cc (fst h)) 192 =? 128) && (h_tag (fst h) =? t) && ((h_len (fst h) =? 0) || (Z.land (h_cc (fst h)) 32 =? 32))
         then if h_len (fst h) =? 0 then Err 1
              else do g <- parse_hdr (snd h);
                   if tag_is (fst g) i then do c <- take (h_len (fst g)) (snd g); do v <- p (fst c); Ok (Some v, snd c)
                   else Ok (None, b)
         else Ok (None, b)
  end.
(** asn1.RawValue (no tag parameter): any element *)
Record raw := mkRaw { r_cc : Z; r_tag : Z; r_bytes : list Z; r_full : list Z }.
Definition any (b : list Z) : res (raw * list Z) :=
  do h <- parse_hdr b; do c <- take (h_len (fst h)) (snd h);
  Ok (mkRaw (h_cc (fst h)) (h_tag (fst h)) (fst c) (firstn (length b - length (snd c)) b), snd c).
(** asn1.RawContent: the octets of a whole element *)
Definition with_full {A} (p : list Z -> res (A * list Z)) (b : list Z) : res ((A * list Z) * list Z) :=
  do r <- p b; Ok ((fst r, firstn (length b - length (snd r)) b), snd r).
(** asn1.go parseSequenceOf *)
Fixpoint seq_of_aux {A} (fuel : nat) (p : list Z -> res (A * list Z)) (b : list Z) : res (list A) :=
  match b, fuel with
  | [], _ => Ok []
  | _, O => Err 1
  | _, S f => do r <- p b; do l <- seq_of_aux f p (snd r); Ok (fst r :: l)
  end.
Definition seq_of {A} (p : list Z -> res (A * list Z)) (c : list Z) : res (list A) := seq_of_aux (length c) p c.
(** asn1.go parseBool *)
Definition p_bool (c : list Z) : res bool := match c with [0] => Ok false | [255] => Ok true | _ => Err 1 end.
(** asn1.go parseInt64 into an int *)
Definition p_int64 (c : list Z) : res Z :=
  do v <- int_value c; if (- 2 ^ 63 <=? v) && (v <? 2 ^ 63) then Ok v else Err 1.
(** asn1.go parseBitString: (padding bits, octets) *)
Definition p_bits (c : list Z) : res (Z * list Z) :=
  match c with
  | [] => Err 1
  | p :: b => if (7 <? p) || ((0 <? p) && (length b =? 0)%nat) || negb (Z.land (last c 0) (Z.shiftl 1 p - 1) =? 0) then Err 1
              else Ok (p, b)
  end.
Definition p_id (c : list Z) : res (list Z) := Ok c.
(** asn1.Unmarshal of a whole value by callers that refuse trailing data *)
Definition whole {A} (p : list Z -> res (A * list Z)) (b : list Z) : res A :=
  do r <- p b; match snd r with [] => Ok (fst r) | _ => Err 1 end.
(** pkix.AlgorithmIdentifier contents: OID, any OPTIONAL *)
Definition p_alg (c : list Z) : res (list Z * list Z) :=
  do o <- req 6 p_oid_content c;
  match snd o with [] => Ok (fst o, []) | _ => do a <- any (snd o); Ok (fst o, r_full (fst a)) end.

(** ** Round trips.  [small]: lengths encoding/asn1 can read back *)
Definition small (l : list Z) : Prop := zlen l < 2 ^ 31.
Lemma small_app a b : small (a ++ b) -> small a /\ small b.
Proof. unfold small. rewrite zlen_app. pose proof (zlen_nonneg a). pose proof (zlen_nonneg b). lia. Qed.
Lemma small_app_l a b : small (a ++ b) -> small a. Proof. intros H. now apply small_app in H. Qed.
Lemma small_app_r a b : small (a ++ b) -> small b. Proof. intros H. now apply small_app in H. Qed.
Lemma small_cons x a : small (x :: a) -> small a.
Proof. unfold small, zlen. cbn [length]. lia. Qed.
Lemma small_tlv t c : small (der_tlv t c) -> small c.
Proof. unfold der_tlv. intros H. apply small_cons in H. now apply small_app in H. Qed.
Lemma small_nil : small []. Proof. unfold small, zlen. cbn. lia. Qed.
Lemma small_concat l x : small (concat l) -> In x l -> small x.
Proof.
  induction l as [|y l IH]; cbn [concat In]; [tauto|]. intros H [->|HI]; apply small_app in H; tauto.
Qed.
Definition lowtag (t : Z) : Prop := Z.land t 31 <> 31.
Lemma parse_hdr_tlv t c rest : lowtag t -> small c -> parse_hdr (der_tlv t c ++ rest) = Ok (mkHdr (Z.land t 224) (Z.land t 31) (zlen c), c ++ rest).
Proof.
  intros Ht Hc. unfold parse_hdr, der_tlv. cbn [app]. destruct (Z.eqb_spec (Z.land t 31) 31) as [E|N]; [exfalso; exact (Ht E)|].
  cbn [rbind fst snd]. rewrite <- app_assoc, parse_len_enc by (unfold small in Hc; pose proof (zlen_nonneg c); lia). reflexivity.
Qed.
Lemma tag_is_refl t l : tag_is (mkHdr (Z.land t 224) (Z.land t 31) l) t = true.
Proof. unfold tag_is. cbn [h_cc h_tag]. now rewrite !Z.eqb_refl. Qed.
Lemma take_app c rest : take (zlen c) (c ++ rest) = Ok (c, rest).
Proof.
  unfold take. rewrite zlen_app. pose proof (zlen_nonneg rest). replace (zlen c + zlen rest <? zlen c) with false by lia.
  unfold zlen. rewrite Nat2Z.id. now rewrite firstn_app_l, skipn_app_l.
Qed.
Lemma tlv_cons t c rest : exists b, der_tlv t c ++ rest = t :: b. Proof. unfold der_tlv. cbn [app]. eauto. Qed.
Lemma req_tlv {A} t (p : list Z -> res A) c v rest : lowtag t -> small c -> p c = Ok v -> req t p (der_tlv t c ++ rest) = Ok (v, rest).
Proof.
  intros Ht Hc Hp. unfold req. rewrite parse_hdr_tlv by assumption. cbn [rbind fst snd h_len]. rewrite tag_is_refl, take_app.
  cbn [rbind fst snd]. rewrite Hp. reflexivity.
Qed.
Lemma opt_tlv {A} t (p : list Z -> res A) c v rest : lowtag t -> small c -> p c = Ok v -> opt t p (der_tlv t c ++ rest) = Ok (Some v, rest).
Proof.
  intros Ht Hc Hp. unfold opt. destruct (tlv_cons t c rest) as (b & E). rewrite E, <- E. rewrite parse_hdr_tlv by assumption.
  cbn [rbind fst snd h_len]. rewrite tag_is_refl, take_app. cbn [rbind fst snd]. rewrite Hp. reflexivity.
Qed.
Lemma opt_skip {A} t (p : list Z -> res A) u c rest : lowtag u -> small c ->
  (Z.land u 224 =? Z.land t 224) && (Z.land u 31 =? Z.land t 31) = false -> opt t p (der_tlv u c ++ rest) = Ok (None, der_tlv u c ++ rest).
Proof.
  intros Ht Hc Hd. unfold opt. destruct (tlv_cons u c rest) as (b & E). rewrite E, <- E. rewrite parse_hdr_tlv by assumption.
  cbn [rbind fst snd]. unfold tag_is. cbn [h_cc h_tag]. rewrite Hd. reflexivity.
Qed.
Lemma any_tlv t c rest : lowtag t -> small c -> any (der_tlv t c ++ rest) = Ok (mkRaw (Z.land t 224) (Z.land t 31) c (der_tlv t c), rest).
Proof.
  intros Ht Hc. unfold any. rewrite parse_hdr_tlv by assumption. cbn [rbind fst snd h_len]. rewrite take_app. cbn [rbind fst snd h_cc h_tag].
  rewrite app_length. replace (length (der_tlv t c) + length rest - length rest)%nat with (length (der_tlv t c)) by lia.
  now rewrite firstn_app_l.
Qed.
Lemma with_full_tlv {A} (p : list Z -> res (A * list Z)) x v rest : p (x ++ rest) = Ok (v, rest) -> with_full p (x ++ rest) = Ok ((v, x), rest).
Proof.
  intros H. unfold with_full. rewrite H. cbn [rbind fst snd]. rewrite app_length.
  replace (length x + length rest - length rest)%nat with (length x) by lia. now rewrite firstn_app_l.
Qed.
Lemma explicit_tlv {A} t i (p : list Z -> res A) c v rest : 0 <= t < 31 -> lowtag i -> small (der_tlv i c) -> p c = Ok v ->
  explicit t i p (der_tlv (160 + t) (der_tlv i c) ++ rest) = Ok (Some v, rest).
Proof.
  intros Ht Hi Hc Hp. unfold explicit. destruct (tlv_cons (160 + t) (der_tlv i c) rest) as (b & E). rewrite E, <- E.
  assert (Hl : Z.land (160 + t) 31 = t /\ Z.land (160 + t) 224 = 160).
  { assert (Hin : In t (map Z.of_nat (seq 0 31))) by (apply in_map_iff; exists (Z.to_nat t); split; [lia|apply in_seq; lia]).
    clear -Hin. cbn in Hin. repeat (destruct Hin as [<- | Hin]; [split; exact eq_refl|]). destruct Hin. }
  destruct Hl as [Hl1 Hl2]. rewrite parse_hdr_tlv; [|unfold lowtag; rewrite Hl1; lia|exact Hc]. cbn [rbind fst snd h_cc h_tag h_len].
  rewrite Hl1, Hl2. change (Z.land 160 192 =? 128) with true. change (Z.land 160 32 =? 32) with true. rewrite Z.eqb_refl, orb_true_r. cbn [andb].
  replace (length (der_tlv i c ++ rest) =? 0)%nat with false by (destruct (tlv_cons i c rest) as (b' & ->); exact eq_refl).
  replace (zlen (der_tlv i c) =? 0) with false by (unfold der_tlv, zlen; cbn [length]; lia).
  rewrite parse_hdr_tlv by (assumption || exact (small_tlv _ _ Hc)). cbn [rbind fst snd h_len]. rewrite tag_is_refl, take_app. cbn [rbind fst snd].
  rewrite Hp. reflexivity.
Qed.
Lemma explicit_skip {A} t i (p : list Z -> res A) u c rest : lowtag u -> small c -> c ++ rest <> [] ->
  (Z.land (Z.land u 224) 192 =? 128) && (Z.land u 31 =? t) = false -> explicit t i p (der_tlv u c ++ rest) = Ok (None, der_tlv u c ++ rest).
Proof.
  intros Hu Hc Hn Hd. unfold explicit. destruct (tlv_cons u c rest) as (b & E). rewrite E, <- E. rewrite parse_hdr_tlv by assumption.
  cbn [rbind fst snd h_cc h_tag]. rewrite Hd. cbn [andb]. destruct (c ++ rest); [congruence|reflexivity].
Qed.
Lemma seq_of_aux_map {A} (p : list Z -> res (A * list Z)) (enc : A -> list Z) l : 
  (forall x rest, In x l -> p (enc x ++ rest) = Ok (x, rest) /\ enc x <> []) ->
  forall f, (length (concat (map enc l)) <= f)%nat -> seq_of_aux f p (concat (map enc l)) = Ok l.
Proof.
  induction l as [|x l IH]; intros H f Hf; cbn [map concat] in *; [destruct f; reflexivity|].
  destruct (H x (concat (map enc l)) (or_introl eq_refl)) as [Hp Hn]. destruct (enc x) as [|b0 e0] eqn:Ex; [congruence|].
  rewrite app_length in Hf. cbn [length] in Hf. destruct f as [|f]; [lia|]. cbn [seq_of_aux app]. cbn [app] in Hp. rewrite Hp.
  cbn [rbind fst snd]. rewrite IH; [reflexivity| |lia]. intros y rest Hy. apply H. now right.
Qed.
Lemma seq_of_map {A} (p : list Z -> res (A * list Z)) (enc : A -> list Z) l :
  (forall x rest, In x l -> p (enc x ++ rest) = Ok (x, rest) /\ enc x <> []) -> seq_of p (concat (map enc l)) = Ok l.
Proof. intros H. unfold seq_of. now apply seq_of_aux_map. Qed.
(** the same when the parsed values [g x] differ from the encoded ones *)
Lemma seq_of_aux_map2 {A B} (p : list Z -> res (A * list Z)) (enc : B -> list Z) (g : B -> A) l :
  (forall x rest, In x l -> p (enc x ++ rest) = Ok (g x, rest) /\ enc x <> []) ->
  forall f, (length (concat (map enc l)) <= f)%nat -> seq_of_aux f p (concat (map enc l)) = Ok (map g l).
Proof.
  induction l as [|x l IH]; intros H f Hf; cbn [map concat] in *; [destruct f; reflexivity|].
  destruct (H x (concat (map enc l)) (or_introl eq_refl)) as [Hp Hn]. destruct (enc x) as [|b0 e0] eqn:Ex; [congruence|].
  rewrite app_length in Hf. cbn [length] in Hf. destruct f as [|f]; [lia|]. cbn [seq_of_aux app]. cbn [app] in Hp. rewrite Hp.
  cbn [rbind fst snd]. rewrite IH; [reflexivity| |lia]. intros y rest Hy. apply H. now right.
Qed.
Lemma seq_of_map2 {A B} (p : list Z -> res (A * list Z)) (enc : B -> list Z) (g : B -> A) l :
  (forall x rest, In x l -> p (enc x ++ rest) = Ok (g x, rest) /\ enc x <> []) -> seq_of p (concat (map enc l)) = Ok (map g l).
Proof. intros H. unfold seq_of. now apply seq_of_aux_map2. Qed.
Lemma whole_ok {A} (p : list Z -> res (A * list Z)) b v : p (b ++ []) = Ok (v, []) -> whole p b = Ok v.
Proof. rewrite app_nil_r. intros H. unfold whole. rewrite H. reflexivity. Qed.
Lemma whole_tlv {A} t (p : list Z -> res A) c v : lowtag t -> small c -> p c = Ok v -> whole (req t p) (der_tlv t c) = Ok v.
Proof. intros. apply whole_ok, req_tlv; assumption. Qed.
Lemma p_bits_0 b : p_bits (0 :: b) = Ok (0, b).
Proof. unfold p_bits. cbn [andb orb Z.ltb Z.compare]. change (Z.shiftl 1 0 - 1) with 0. now rewrite Z.land_0_r. Qed.
Lemma p_int64_content v : - 2 ^ 63 <= v < 2 ^ 63 -> p_int64 (int_content v) = Ok v.
Proof.
  intros H. unfold p_int64. rewrite int_value_content. cbn [rbind]. replace (- 2 ^ 63 <=? v) with true by lia.
  replace (v <? 2 ^ 63) with true by lia. reflexivity.
Qed.
(** AlgorithmIdentifier parameters: absent, or one element *)
Definition params1 (p : list Z) : Prop := p = [] \/ exists t c, p = der_tlv t c /\ lowtag t.
Lemma p_alg_der oid p : oid_ok oid = true -> params1 p -> small (der_tlv 6 oid ++ p) -> p_alg (der_tlv 6 oid ++ p) = Ok (oid, p).
Proof.
  intros Ho Hp Hs. apply small_app in Hs as [Hs1 Hs2]. apply small_tlv in Hs1. unfold p_alg.
  rewrite (req_tlv 6 p_oid_content oid oid); [|unfold lowtag; cbn; lia|exact Hs1|unfold p_oid_content; now rewrite Ho]. cbn [rbind fst snd].
  destruct Hp as [->|(t & c & -> & Ht)]; [reflexivity|]. destruct (tlv_cons t c []) as (b & E). rewrite app_nil_r in E. rewrite E, <- E.
  rewrite <- (app_nil_r (der_tlv t c)) at 1. rewrite any_tlv by (assumption || exact (small_tlv _ _ Hs2)). reflexivity.
Qed.

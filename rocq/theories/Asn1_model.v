(** The part of Go's encoding/asn1 (standard library) that /repo/sm2/{external,sm2enc}.go and /repo/utils rely on:
    DER INTEGER, OCTET STRING and SEQUENCE, Marshal and Unmarshal (go1.16 src/encoding/asn1/{marshal,asn1}.go).
    These are standard-library contracts used by the code, modelled so that round trips through them can be proved. *)
From Verif Require Import GoBase GoLemmas BigBytes.
Open Scope Z_scope.
Ltac Zify.zify_post_hook ::= Z.div_mod_to_equations.

(** asn1/marshal.go makeBigInt *)
Definition int_content (z : Z) : list Z :=
  if z =? 0 then [0]
  else if 0 <? z then
    let b := Bytes z in if 128 <=? hd 0 b then 0 :: b else b
  else
    let b := map (fun x => 255 - x) (Bytes (- z - 1)) in
    match b with [] => [255] | x :: _ => if x <? 128 then 255 :: b else b end.
(** asn1/marshal.go appendTagAndLength / appendLength (lengths up to 2^32) *)
Definition len_enc (n : Z) : list Z := if n <? 128 then [n] else (128 + Z.of_nat (nbytes n)) :: Bytes n.
Definition der_tlv (tag : Z) (c : list Z) : list Z := tag :: len_enc (zlen c) ++ c.
Definition der_int (z : Z) : list Z := der_tlv 2 (int_content z).
Definition der_octets (b : list Z) : list Z := der_tlv 4 b.
Definition der_seq (fields : list (list Z)) : list Z := der_tlv 48 (concat fields).

(** asn1.go parseTagAndLength: long-form length bytes.  Error codes are not distinguished (one code, 1). *)
Fixpoint len_bytes (n : nat) (acc : Z) (b : list Z) : res (Z * list Z) :=
  match n with
  | O => Ok (acc, b)
  | S k => match b with
           | [] => Err 1                                        (* truncated tag or length *)
           | x :: b' => if 2 ^ 23 <=? acc then Err 1            (* length too large *)
                        else let acc' := acc * 256 + x in
                             if acc' =? 0 then Err 1            (* superfluous leading zeros in length *)
                             else len_bytes k acc' b'
           end
  end.
Definition parse_len (b : list Z) : res (Z * list Z) :=
  match b with
  | [] => Err 1
  | x :: b' => if x <? 128 then Ok (x, b')
               else if x =? 128 then Err 1                      (* indefinite length *)
               else do r <- len_bytes (Z.to_nat (x - 128)) 0 b';
                    if fst r <? 128 then Err 1 else Ok r        (* non-minimal length *)
  end.
(** asn1.go parseField for a field whose tag octet must be [tag]: contents and remaining bytes.
    (A high-tag-number first octet never equals one of the tags used, and is an error in Go as well.) *)
Definition parse_field (tag : Z) (b : list Z) : res (list Z * list Z) :=
  match b with
  | [] => Err 1
  | t :: b' =>
      if negb (t =? tag) then Err 1
      else do r <- parse_len b';
           let '(n, c) := r in
           if zlen c <? n then Err 1 else Ok (firstn (Z.to_nat n) c, skipn (Z.to_nat n) c)
  end.
(** asn1.go checkInteger / parseBigInt *)
Definition int_value (c : list Z) : res Z :=
  match c with
  | [] => Err 1
  | x :: rest =>
      let minimal := match rest with
                     | [] => true
                     | y :: _ => negb ((x =? 0) && (y <? 128)) && negb ((x =? 255) && (128 <=? y))
                     end in
      if negb minimal then Err 1
      else if 128 <=? x then Ok (- (be_val (map (fun v => 255 - v) c) + 1)) else Ok (be_val c)
  end.
Definition parse_int (b : list Z) : res (Z * list Z) :=
  do r <- parse_field 2 b; let '(c, rest) := r in do z <- int_value c; Ok (z, rest).

(** asn1.Unmarshal of the structs used: trailing bytes after the SEQUENCE are returned and then ignored by /repo,
    trailing bytes inside it are ignored by encoding/asn1. *)
Definition parse_ints1 (b : list Z) : res Z :=
  do r <- parse_field 48 b; do i <- parse_int (fst r); Ok (fst i).
Definition parse_ints2 (b : list Z) : res (Z * Z) :=
  do r <- parse_field 48 b; do i <- parse_int (fst r); do j <- parse_int (snd i); Ok (fst i, fst j).
Definition parse_cipher (b : list Z) : res (Z * Z * list Z * list Z) :=
  do r <- parse_field 48 b; do i <- parse_int (fst r); do j <- parse_int (snd i);
  do h <- parse_field 4 (snd j); do c <- parse_field 4 (snd h); Ok (fst i, fst j, fst h, fst c).

(** ** Round trips *)
Lemma int_content_bytes z : bytes (int_content z).
Proof.
  unfold int_content. destruct (z =? 0); [repeat constructor; lia|]. destruct (0 <? z).
  - destruct (128 <=? hd 0 (Bytes z)); [constructor; [unfold is_byte; lia|]|]; apply Bytes_bytes.
  - assert (H : bytes (map (fun x => 255 - x) (Bytes (- z - 1)))).
    { pose proof (Bytes_bytes (- z - 1)) as Hb. induction Hb; cbn [map]; constructor; auto. unfold is_byte in *. lia. }
    destruct (map _ _) as [|x l] eqn:E; [constructor; [unfold is_byte; lia|constructor]|].
    destruct (x <? 128); auto. constructor; auto. unfold is_byte; lia.
Qed.
Lemma map_compl_invol l : map (fun v => 255 - v) (map (fun x => 255 - x) l) = l.
Proof. rewrite map_map. rewrite <- map_id. apply map_ext. intros; lia. Qed.
Lemma int_value_content z : int_value (int_content z) = Ok z.
Proof.
  unfold int_content. destruct (Z.eqb_spec z 0) as [->|Hz]; [reflexivity|]. destruct (Z.ltb_spec 0 z) as [Hp|Hn].
  - destruct (Bytes_head z Hz) as (h & t & E & Hh). pose proof (Bytes_bytes z) as Hb.
    pose proof (be_val_Bytes z ltac:(lia)) as Hv. rewrite E in *. cbn [hd].
    apply bytes_cons in Hb as [Hh' Ht]. unfold is_byte in Hh'.
    destruct (Z.leb_spec 128 h) as [Hbig|Hsm].
    + unfold int_value. destruct (Z.ltb_spec h 128); [lia|]. cbn -[be_val]. rewrite be_val_cons.
      change (Z.eqb 0 0) with true. destruct (Z.leb_spec 128 h); [|lia]. cbn -[be_val Z.mul].
      now rewrite Hv, Z.mul_0_l, Z.add_0_l.
    + unfold int_value. destruct (Z.eqb_spec h 0); [contradiction|]. destruct (Z.eqb_spec h 255); [lia|].
      replace (128 <=? h) with false by lia. rewrite Hv. destruct t; reflexivity.
  - set (w := - z - 1). assert (Hw : 0 <= w) by lia.
    pose proof (be_val_Bytes w Hw) as Hv. pose proof (Bytes_bytes w) as Hb.
    destruct (Z.eq_dec w 0) as [E0|N0].
    + rewrite E0. cbn. f_equal. lia.
    + destruct (Bytes_head w N0) as (h & t & E & Hh). rewrite E in *. cbn [map].
      apply bytes_cons in Hb as [Hh' Ht]. unfold is_byte in Hh'.
      destruct (Z.ltb_spec (255 - h) 128) as [Hl|Hg].
      * unfold int_value. replace (128 <=? 255 - h) with false by lia.
        cbn [map]. rewrite be_val_cons. replace (255 - 255) with 0 by lia.
        replace (255 - (255 - h)) with h by lia. rewrite map_compl_invol.
        cbn -[be_val Z.mul]. rewrite Hv. f_equal. lia.
      * unfold int_value. replace (128 <=? 255 - h) with true by lia.
        replace (255 - h =? 255) with false by lia. replace (255 - h =? 0) with false by lia.
        cbn [map]. replace (255 - (255 - h)) with h by lia. rewrite map_compl_invol, Hv.
        destruct t; cbn [map andb negb]; f_equal; lia.
Qed.
Lemma len_bytes_app l : forall acc rest, bytes l -> 0 <= acc -> (acc <> 0 \/ hd 1 l <> 0) ->
  acc * 256 ^ zlen l + be_val l < 2 ^ 31 ->
  len_bytes (length l) acc (l ++ rest) = Ok (acc * 256 ^ zlen l + be_val l, rest).
Proof.
  induction l as [|x l IH]; intros acc rest Hb Ha Hnz Hlt; cbn [len_bytes length app].
  - unfold zlen, be_val. cbn [fold_left length Z.of_nat]. do 2 f_equal. lia.
  - apply bytes_cons in Hb as [Hx Hl]. unfold is_byte in Hx.
    rewrite be_val_cons in *. pose proof (be_val_bound l Hl) as Hbl.
    assert (Hz : zlen (x :: l) = zlen l + 1) by (unfold zlen; cbn [length]; lia). rewrite Hz in *.
    pose proof (zlen_nonneg l) as Hzl. rewrite Z.pow_add_r in * by lia. change (256 ^ 1) with 256 in *.
    assert (Hpw : 1 <= 256 ^ zlen l) by (apply Z.lt_pred_le; apply Z.pow_pos_nonneg; lia).
    set (W := 256 ^ zlen l) in *.
    destruct (Z.leb_spec (2 ^ 23) acc) as [Hbig|_]; [exfalso; nia|].
    destruct (Z.eqb_spec (acc * 256 + x) 0) as [E|N]; [exfalso; cbn [hd] in Hnz; lia|].
    rewrite IH; auto.
    + f_equal. f_equal. fold W. ring.
    + lia.
    + fold W. nia.
Qed.
Lemma parse_len_enc n rest : 0 <= n < 2 ^ 31 -> parse_len (len_enc n ++ rest) = Ok (n, rest).
Proof.
  intros Hn. unfold len_enc. destruct (Z.ltb_spec n 128) as [Hs|Hl]; cbn [app parse_len].
  - now replace (n <? 128) with true by lia.
  - assert (Hk : (1 <= nbytes n <= 4)%nat).
    { split; [|apply nbytes_le; change (256 ^ Z.of_nat 4) with (2 ^ 32); lia].
      unfold nbytes. destruct (Z.eqb_spec n 0); [lia|]. pose proof (Z.log2_nonneg (Z.abs n)).
      assert (0 <= Z.log2 (Z.abs n) / 8) by (apply Z.div_pos; lia). lia. }
    replace (128 + Z.of_nat (nbytes n) <? 128) with false by lia.
    replace (128 + Z.of_nat (nbytes n) =? 128) with false by lia.
    replace (Z.to_nat (128 + Z.of_nat (nbytes n) - 128)) with (length (Bytes n)) by (rewrite Bytes_length; lia).
    destruct (Bytes_head n ltac:(lia)) as (h & t & E & Hh).
    rewrite len_bytes_app.
    + rewrite be_val_Bytes by lia. cbn [rbind fst]. rewrite Z.mul_0_l, Z.add_0_l. now replace (n <? 128) with false by lia.
    + apply Bytes_bytes.
    + lia.
    + right. rewrite E. exact Hh.
    + rewrite be_val_Bytes by lia. lia.
Qed.
Lemma parse_field_tlv tag c rest : zlen c < 2 ^ 31 -> parse_field tag (der_tlv tag c ++ rest) = Ok (c, rest).
Proof.
  intros H. unfold der_tlv, parse_field. cbn [app]. rewrite Z.eqb_refl. cbn [negb].
  rewrite <- app_assoc, parse_len_enc by (pose proof (zlen_nonneg c); lia). cbn [rbind].
  rewrite zlen_app. pose proof (zlen_nonneg rest). replace (zlen c + zlen rest <? zlen c) with false by lia.
  unfold zlen. rewrite Nat2Z.id. now rewrite firstn_app_l, skipn_app_l.
Qed.
Lemma parse_int_der z rest : zlen (int_content z) < 2 ^ 31 -> parse_int (der_int z ++ rest) = Ok (z, rest).
Proof.
  intros H. unfold parse_int, der_int. rewrite parse_field_tlv by auto. cbn [rbind]. now rewrite int_value_content.
Qed.
Lemma len_enc_length n : 0 <= n < 2 ^ 31 -> zlen (len_enc n) <= 5.
Proof.
  intros H. unfold len_enc. destruct (n <? 128); [unfold zlen; cbn; lia|].
  assert (nbytes n <= 4)%nat by (apply nbytes_le; change (256 ^ Z.of_nat 4) with (2 ^ 32); lia).
  unfold zlen. cbn [length]. rewrite Bytes_length. lia.
Qed.
Lemma der_tlv_length t c : zlen c < 2 ^ 31 -> zlen (der_tlv t c) <= zlen c + 6.
Proof.
  intros H. unfold der_tlv. change (t :: len_enc (zlen c) ++ c) with ([t] ++ (len_enc (zlen c) ++ c)).
  rewrite !zlen_app. pose proof (len_enc_length (zlen c) ltac:(pose proof (zlen_nonneg c); lia)).
  change (zlen [t]) with 1. lia.
Qed.
Lemma int_content_length z : 0 <= z < 2 ^ 256 -> zlen (int_content z) <= 33.
Proof.
  intros H. unfold int_content. destruct (z =? 0); [unfold zlen; cbn; lia|]. destruct (Z.ltb_spec 0 z) as [Hp|Hn].
  - assert (Hn : (nbytes z <= 32)%nat) by (apply nbytes_le; rewrite Z.abs_eq by lia; exact (proj2 H)).
    unfold zlen. destruct (128 <=? hd 0 (Bytes z)); cbn [length]; rewrite Bytes_length; lia.
  - replace (- z - 1) with (-1) by lia. vm_compute. discriminate.
Qed.
Lemma der_int_length z : 0 <= z < 2 ^ 256 -> zlen (der_int z) <= 39.
Proof. intros H. pose proof (int_content_length z H). unfold der_int. pose proof (der_tlv_length 2 (int_content z) ltac:(lia)). lia. Qed.

Lemma der_ints1_roundtrip a rest : 0 <= a < 2 ^ 256 -> parse_ints1 (der_seq [der_int a] ++ rest) = Ok a.
Proof.
  intros Ha. unfold parse_ints1, der_seq. cbn [concat]. pose proof (der_int_length a Ha). pose proof (int_content_length a Ha).
  rewrite parse_field_tlv by (rewrite zlen_app; change (zlen (@nil Z)) with 0; lia). cbn [rbind fst].
  rewrite parse_int_der by lia. reflexivity.
Qed.
Lemma der_ints2_roundtrip a b rest : 0 <= a < 2 ^ 256 -> 0 <= b < 2 ^ 256 ->
  parse_ints2 (der_seq [der_int a; der_int b] ++ rest) = Ok (a, b).
Proof.
  intros Ha Hb. unfold parse_ints2, der_seq. cbn [concat].
  pose proof (der_int_length a Ha). pose proof (der_int_length b Hb).
  pose proof (int_content_length a Ha). pose proof (int_content_length b Hb).
  rewrite parse_field_tlv by (rewrite !zlen_app; change (zlen (@nil Z)) with 0; lia). cbn [rbind fst].
  rewrite parse_int_der by lia. cbn [rbind snd]. rewrite parse_int_der by lia. reflexivity.
Qed.
Lemma der_cipher_roundtrip a b h c rest : 0 <= a < 2 ^ 256 -> 0 <= b < 2 ^ 256 -> zlen h = 32 -> zlen c < 2 ^ 31 - 200 ->
  parse_cipher (der_seq [der_int a; der_int b; der_octets h; der_octets c] ++ rest) = Ok (a, b, h, c).
Proof.
  intros Ha Hb Hh Hc. unfold parse_cipher, der_seq, der_octets. cbn [concat].
  pose proof (der_int_length a Ha). pose proof (der_int_length b Hb).
  pose proof (int_content_length a Ha). pose proof (int_content_length b Hb).
  pose proof (der_tlv_length 4 h ltac:(lia)). pose proof (der_tlv_length 4 c ltac:(lia)).
  rewrite parse_field_tlv by (rewrite !zlen_app; change (zlen (@nil Z)) with 0; lia). cbn [rbind fst].
  rewrite parse_int_der by lia. cbn [rbind snd]. rewrite parse_int_der by lia. cbn [rbind snd fst].
  rewrite parse_field_tlv by lia. cbn [rbind snd fst]. rewrite parse_field_tlv by lia. reflexivity.
Qed.

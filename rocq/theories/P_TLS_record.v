(** Property theorems for the TLS record layer (C47-C53, C72). *)
From Verif Require Import GoBase GoLemmas CBC SM3_spec SM4_spec SM4_proofs SM4_modes HMAC TLS_record_model TLS_rec_proofs TLS_io_proofs.
Open Scope Z_scope.
Ltac Zify.zify_post_hook ::= Z.div_mod_to_equations.
#[local] Opaque sm3 sm4_enc sm4_dec.

(** ** C47: record protection round-trips.
    [in_sync k s r] (TLS_rec_proofs): the sending half [s] and the receiving half [r] have the same version, MAC and sequence number [k],
    and matching ciphers (the same key stream at the same position, an AEAD whose Open inverts its Seal, or CBC over an invertible
    block cipher with the same chaining IV).  [len16 n] is the two-byte length.
    For every 3 header bytes (type, version), explicit IV of the length in force, and payload, the protected record has the same type and
    version, its length field is its body's length, and the receiver recovers exactly the payload; both halves are then in sync at k+1. *)
Theorem C47_record_round_trip : forall k s r hd3 iv m,
  in_sync k s r -> k < 2 ^ 64 - 1 -> length hd3 = 3%nat -> length iv = fst (explicit_iv_len s) -> bytes iv -> bytes m ->
  zlen m + Z.of_nat (mac_size s) < 2 ^ 30 ->
  exists body s' r' d,
    encrypt s (hd3 ++ len16 (length m) ++ iv ++ m) (length iv) = Ok (hd3 ++ len16 (length body) ++ body, s') /\
    decrypt r (hd3 ++ len16 (length body) ++ body) = Ok (DecOk (5 + length iv) d r') /\ skipn (5 + length iv) d = m /\
    in_sync (k + 1) s' r' /\ h_seq s' = be_bytes 8 (k + 1) /\ h_seq r' = be_bytes 8 (k + 1).
Proof.
  intros k s r hd3 iv m HS Hk Hh Hiv Bi Bm Hl. destruct (record_round_trip k s r hd3 iv m HS Hk Hh Hiv Bi Bm Hl) as (body & s' & r' & E1 & _ & _ & E2 & HS' & _).
  exists body, s', r'. eexists. split; [exact E1|]. split; [exact E2|]. split; [|split; [exact HS'|destruct HS' as (_ & A & B & _); auto]].
  rewrite (app_assoc (len16 _)), app_assoc. apply skipn_app_l. rewrite !app_length, len16_length. lia.
Qed.
Print Assumptions C47_record_round_trip.
(** the GM suite ECC-SM4-SM3 (gm_support.go:118-143): for all keys, the halves that ChangeCipherSpec installs on the two ends are in sync *)
Definition gm_mac (key : list Z) : macT := mkMac 32 (fun seq hdr data => hmac sm3 64 key (map u8 (seq ++ hdr ++ data))).
Definition gm_half (h : half) (isRead : bool) (mackey key iv : list Z) : res half :=
  changeCipherSpec (prepareCipherSpec h VersionGMSSL (Some (if isRead then Cbc false 16 (sm4_dec key) iv else Cbc true 16 (sm4_enc key) iv)) (Some (gm_mac mackey))).
Lemma sm4_block_ok key : block_ok 16 (sm4_enc key) (sm4_dec key).
Proof.
  constructor; [lia| |].
  - intros x Bx Lx. split; [apply sm4_enc_length|apply sm4_enc_bytes].
  - intros x Bx Lx. apply sm4_dec_enc; assumption.
Qed.
Lemma bytes_map_u8 l : bytes (map u8 l).
Proof. unfold bytes. apply Forall_forall. intros x Hx. apply in_map_iff in Hx as (y & <- & _). unfold is_byte, u8. apply Z.mod_pos_bound. lia. Qed.
Theorem C47_gm_suite : forall hs hr mackey key iv,
  length (h_seq hs) = 8%nat -> length (h_seq hr) = 8%nat -> bytes mackey -> length iv = 16%nat -> bytes iv ->
  exists s r, gm_half hs false mackey key iv = Ok s /\ gm_half hr true mackey key iv = Ok r /\ in_sync 0 s r /\
    fst (explicit_iv_len s) = 16%nat /\ mac_size s = 32%nat.
Proof.
  intros hs hr mackey key iv Ls Lr Bm Li Bi. unfold gm_half, changeCipherSpec, prepareCipherSpec. cbn [h_nextCipher h_nextMac h_seq h_version].
  eexists _, _. split; [reflexivity|]. split; [reflexivity|].
  assert (Z8 : forall l : list Z, length l = 8%nat -> map (fun _ => 0) l = be_bytes 8 0).
  { intros l Hl. do 9 (destruct l as [|? l]; try discriminate Hl). reflexivity. }
  split; [|split; reflexivity].
  unfold in_sync. cbn [h_version h_seq h_mac h_cipher]. split; [reflexivity|]. split; [now apply Z8|]. split; [now apply Z8|]. split; [lia|]. split; [reflexivity|].
  split; [intros s hd d; apply hmac_sm3_length; [exact Bm|apply bytes_map_u8]|]. split; [|intros _; discriminate].
  cbn [cipher_sync]. split; [reflexivity|]. split; [reflexivity|]. split; [exact Li|]. split; [exact Bi|]. split; [lia|apply sm4_block_ok].
Qed.
Print Assumptions C47_gm_suite.

(** ** C48: exactly which CBC records are accepted.
    The body of the record deciphers to [cbc_plain]; the record is accepted with payload [p] iff its length is legal (a multiple of the
    block size, room for the explicit IV, the MAC and one padding byte) and the plaintext is [p], its MAC over (sequence number, type,
    version, length of p, p), and legal padding: a byte [pad] preceded by [pad] bytes all equal to [pad] (SSL 3.0: any bytes).
    ([carries] also allows what the code allows when fewer bytes than a MAC precede the padding: the first bytes of the plaintext are
    then compared with the MAC of the empty payload.)  Otherwise the record is refused (bad_record_mac) and the sequence number does
    not move.  Decryption never panics. *)
Theorem C48_accepts_exactly : forall h hd body k bs D iv m,
  length hd = 5%nat -> bytes body -> zlen body < 2 ^ 30 ->
  h_cipher h = Some (Cbc false bs D iv) -> h_mac h = Some m -> (0 < bs)%nat ->
  (forall x, length x = bs -> bytes x -> length (D x) = bs /\ bytes (D x)) -> length iv = bs -> bytes iv ->
  (forall s hd d, length (m_fun m s hd d) = m_size m) -> h_seq h = be_bytes 8 k -> 0 <= k < 2 ^ 64 - 1 ->
  let mac p := m_fun m (be_bytes 8 k) (firstn 3 hd ++ len16 (length p)) p in
  let acceptable p := legal_cbc_length h bs body /\ carries (h_version h =? VersionSSL30) (m_size m) mac (cbc_plain h bs D iv body) p in
  (exists off data h' p, decrypt h (hd ++ body) = Ok (DecOk off data h') /\ skipn off data = p /\ h_seq h' = be_bytes 8 (k + 1) /\
      acceptable p /\ forall q, acceptable q -> q = p) \/
  ((forall p, ~ acceptable p) /\ exists h', decrypt h (hd ++ body) = Ok (DecBad h') /\ h_seq h' = h_seq h).
Proof.
  intros h hd body k bs D iv m Lh Bb Hlb HC HM Hp HD Li Bi Hmac Hs Hk mac acceptable.
  pose proof (decrypt_cbc h hd body k bs D iv m Lh Bb Hlb HC HM Hp HD Li Bi Hmac Hs Hk) as [(p & iv' & Hg & E)|(Hno & c & E)].
  - left. rewrite Hs in Hg. change (fun d => m_fun m (be_bytes 8 k) (mac_header hd d) d) with mac in Hg. destruct Hg as [Hl Hc].
    eexists _, _, _, p. split; [exact E|]. split.
    { rewrite app_assoc. apply skipn_app_l. rewrite app_length. unfold mac_header. rewrite app_length, !firstn_length, len16_length. destruct Hl as [_ Hl]. lia. }
    split; [reflexivity|]. split; [split; assumption|]. intros q [_ Hq]. symmetry. eapply carries_unique; [|exact Hc|exact Hq]. intros d. apply Hmac.
  - right. rewrite Hs in Hno. split; [exact Hno|]. eexists. split; [exact E|]. reflexivity.
Qed.
Print Assumptions C48_accepts_exactly.
(** stream suites: exactly the payload followed by its MAC; no cipher, no MAC: everything *)
Theorem C48_stream : forall h hd body k ks pos m,
  length hd = 5%nat -> h_cipher h = Some (Stream ks pos) -> h_mac h = Some m -> (forall s hd d, length (m_fun m s hd d) = m_size m) ->
  zlen body < 2 ^ 30 -> h_seq h = be_bytes 8 k -> 0 <= k < 2 ^ 64 - 1 ->
  let plain := xorl body (keystream ks pos (length body)) in
  let acceptable p := plain = p ++ m_fun m (be_bytes 8 k) (firstn 3 hd ++ len16 (length p)) p in
  (exists off data h' p, decrypt h (hd ++ body) = Ok (DecOk off data h') /\ skipn off data = p /\ h_seq h' = be_bytes 8 (k + 1) /\ acceptable p /\ forall q, acceptable q -> q = p) \/
  ((forall p, ~ acceptable p) /\ exists h', decrypt h (hd ++ body) = Ok (DecBad h') /\ h_seq h' = h_seq h).
Proof.
  intros h hd body k ks pos m Lh HC HM Hmac Hlb Hs Hk plain acceptable.
  assert (Lp : length plain = length body) by (unfold plain; rewrite xorl_length, keystream_length; lia).
  assert (HU : forall p q, acceptable p -> acceptable q -> q = p).
  { unfold acceptable. intros p q E1 E2. rewrite E1 in E2. assert (EL : length p = length q) by (apply (f_equal (@length Z)) in E2; rewrite !app_length, !Hmac in E2; lia).
    apply (f_equal (firstn (length p))) in E2. rewrite firstn_app_l in E2 by reflexivity. rewrite EL, firstn_app_l in E2 by reflexivity. now symmetry. }
  unfold decrypt. replace (length (hd ++ body) <? 5)%nat with false by (symmetry; apply Nat.ltb_ge; rewrite app_length; lia).
  rewrite <- Lh, firstn_app_l, skipn_app_l by reflexivity. rewrite Lh. unfold decipher. rewrite HC. cbn [rbind]. fold plain. rewrite set_cipher_mac, HM.
  destruct (Nat.ltb_spec (length plain) (m_size m)) as [Hlt|Hge].
  { right. split; [|eexists; split; reflexivity]. intros p E. apply (f_equal (@length Z)) in E. rewrite app_length, Hmac in E. lia. }
  rewrite Z.sub_0_r. set (n := zlen plain - Z.of_nat (m_size m)). assert (Hn : 0 <= n) by (unfold n, zlen; lia).
  rewrite shiftr31_small by (unfold n, zlen in *; lia). cbn [Z.eqb].
  replace ((n <? 0) || (zlen plain <? n + Z.of_nat (m_size m))) with false by (symmetry; apply Bool.orb_false_iff; split; apply Z.ltb_ge; unfold n; lia).
  set (p := firstn (Z.to_nat n) plain). assert (Lpp : length p = Z.to_nat n) by (unfold p; rewrite firstn_length; unfold n, zlen in *; lia).
  replace [u8 (Z.shiftr n 8); u8 n] with (len16 (length p)) by (unfold len16; rewrite Lpp, Z2Nat.id by lia; reflexivity).
  change (h_seq (set_cipher h (Some (Stream ks (pos + length body))))) with (h_seq h). rewrite Hs.
  set (mac := m_fun m (be_bytes 8 k) (firstn 3 hd ++ len16 (length p)) p).
  replace (firstn (m_size m) (skipn (Z.to_nat n) plain)) with (skipn (Z.to_nat n) plain) by (symmetry; apply firstn_all2; rewrite skipn_length; unfold n, zlen; lia).
  change (negb (255 =? 255)) with false. rewrite Bool.orb_false_r.
  destruct (beqb mac (skipn (Z.to_nat n) plain)) eqn:EB; cbn [negb].
  - apply beqb_eq in EB. assert (Hp : acceptable p) by (unfold acceptable; fold mac; rewrite EB; unfold p; symmetry; apply firstn_skipn).
    rewrite (incSeq_spec (set_cipher h (Some (Stream ks (pos + length body)))) k Hs) by lia. replace (k <? 2 ^ 64 - 1) with true by (symmetry; apply Z.ltb_lt; lia). cbn [rbind].
    left. eexists _, _, _, p. split; [reflexivity|]. split; [|split; [reflexivity|split; [exact Hp|intros q; now apply HU]]].
    rewrite app_nil_l. change (5 + length (@nil Z))%nat with 5%nat. apply skipn_app_l. rewrite app_length, firstn_length, len16_length. lia.
  - apply beqb_neq in EB. right. split; [|eexists; split; [reflexivity|exact Hs]]. intros q E.
    assert (Lq : zlen q = n) by (unfold acceptable in E; apply (f_equal (@length Z)) in E; rewrite app_length, Hmac in E; unfold n, zlen; lia).
    assert (q = p). { unfold p. rewrite <- Lq. unfold zlen. rewrite Nat2Z.id, E. symmetry. apply firstn_app_l. reflexivity. }
    subst q. apply EB. unfold acceptable in E. fold mac in E. rewrite E. rewrite <- Lpp. symmetry. apply skipn_app_l. reflexivity.
Qed.
(** the overlap case is possible: a record whose padding runs into the MAC is accepted as an empty payload when the MAC happens to fit *)
Example C48_hyps : exists h hd body p, decrypt h (hd ++ body) = Ok (DecOk 5 (mac_header hd p ++ p) (set_seq (set_cipher h (Some (Cbc false 4 (fun x => x) (skipn 4 body)))) (be_bytes 8 1))) /\
  h_seq h = be_bytes 8 0 /\ p = [] /\ h_version h = VersionTLS10.
Proof.
  exists (mkHalf VersionTLS10 (Some (Cbc false 4 (fun x => x) [0; 0; 0; 0])) (Some (mkMac 4 (fun _ _ _ => [1; 2; 3; 4]))) (be_bytes 8 0) None None), [23; 3; 1; 0; 8],
    [1; 2; 3; 4; Z.lxor 3 1; Z.lxor 3 2; Z.lxor 3 3; Z.lxor 3 4], []. split; [reflexivity|auto].
Qed.

(** ** C49: extractPadding against its specification *)
Theorem C49_extractPadding : forall payload, bytes payload -> payload <> [] -> zlen payload <= 2 ^ 31 ->
  let p := last payload 0 in
  let valid := p < zlen payload /\ forall i, Z.of_nat i <= p -> nth (length payload - 1 - i) payload 0 = p in
  fst (extractPadding payload) = p + 1 /\ (valid -> snd (extractPadding payload) = 255) /\ (~ valid -> snd (extractPadding payload) = 0).
Proof.
  intros payload Hb Hne Hl p valid. destruct (extractPadding_spec payload Hb Hne Hl) as (E1 & E2 & E3). unfold valid_padding in E3. fold p in E1, E3.
  split; [exact E1|]. split.
  - intros V. apply E3. split; [reflexivity|exact V].
  - intros NV. destruct E2 as [E2|E2]; [|exact E2]. exfalso. apply NV. apply E3 in E2 as [_ V]. exact V.
Qed.
Print Assumptions C49_extractPadding.
Theorem C49_empty : extractPadding [] = (0, 0). Proof. reflexivity. Qed.
Example C49_hyps : snd (extractPadding [9; 9; 2; 2; 2]) = 255 /\ snd (extractPadding [9; 9; 2; 1; 2]) = 0 /\ snd (extractPadding [9]) = 0.
Proof. repeat split. Qed.

(** ** C50: sequence numbers *)
(** a history of a half-connection: records protected ([encrypt]), accepted or refused ([decrypt]); the count is that of the records
    protected or accepted *)
Inductive history : half -> Z -> half -> Prop :=
| hist_nil h : history h 0 h
| hist_enc h data n d h1 k h2 : encrypt h data n = Ok (d, h1) -> history h1 k h2 -> history h (1 + k) h2
| hist_dec h data off d h1 k h2 : decrypt h data = Ok (DecOk off d h1) -> history h1 k h2 -> history h (1 + k) h2
| hist_bad h data h1 k h2 : decrypt h data = Ok (DecBad h1) -> history h1 k h2 -> history h k h2.
Lemma encrypt_inc h data n d h' : encrypt h data n = Ok (d, h') -> exists c, incSeq (set_cipher h c) = Ok h'.
Proof.
  unfold encrypt. destruct (_ <? _)%nat; [discriminate|]. destruct (encipher _ _ _) as [[x c]| |]; cbn [rbind]; try discriminate.
  destruct (incSeq (set_cipher h c)) as [h1| |] eqn:E; cbn [rbind]; try discriminate. intros [= _ <-]. now exists c.
Qed.
Lemma decrypt_inc h data r : decrypt h data = Ok r -> match r with DecOk _ _ h' => exists c, incSeq (set_cipher h c) = Ok h' | DecBad h' => exists c, h' = set_cipher h c end.
Proof.
  unfold decrypt. destruct (_ <? _)%nat; [discriminate|]. destruct (decipher _ _ _ _) as [[[[[[e p] pl] g] c]|]| |]; cbn [rbind]; try discriminate.
  2:{ intros [= <-]. exists (h_cipher h). now destruct h. }
  rewrite set_cipher_mac. destruct (h_mac h) as [m|].
  - destruct (_ <? _)%nat; [intros [= <-]; now exists c|]. destruct (_ || _); [discriminate|]. destruct (_ || _); [intros [= <-]; now exists c|].
    destruct (incSeq (set_cipher h c)) as [h1| |] eqn:E; cbn [rbind]; try discriminate. intros H. apply (f_equal (fun x => match x with Ok y => y | _ => DecBad h end)) in H. cbv beta iota in H. subst r. exists c. exact E.
  - destruct (incSeq (set_cipher h c)) as [h1| |] eqn:E; cbn [rbind]; try discriminate. intros H. apply (f_equal (fun x => match x with Ok y => y | _ => DecBad h end)) in H. cbv beta iota in H. subst r. exists c. exact E.
Qed.
Lemma history_seq : forall h n h', history h n h' -> forall k, 0 <= k < 2 ^ 64 -> h_seq h = be_bytes 8 k -> 0 <= n /\ k + n < 2 ^ 64 /\ h_seq h' = be_bytes 8 (k + n).
Proof.
  induction 1 as [h|h data n d h1 k0 h2 E _ IH|h data off d h1 k0 h2 E _ IH|h data h1 k0 h2 E _ IH]; intros k Hk Hs.
  - rewrite Z.add_0_r. auto with zarith.
  - apply encrypt_inc in E as (c & E). rewrite (incSeq_spec (set_cipher h c) k Hs Hk) in E. destruct (Z.ltb_spec k (2 ^ 64 - 1)); [|discriminate]. injection E as <-.
    destruct (IH (k + 1) ltac:(lia) eq_refl) as (I1 & I2 & I3). split; [lia|]. split; [lia|]. rewrite I3. f_equal. lia.
  - apply decrypt_inc in E as (c & E). rewrite (incSeq_spec (set_cipher h c) k Hs Hk) in E. destruct (Z.ltb_spec k (2 ^ 64 - 1)); [|discriminate]. injection E as <-.
    destruct (IH (k + 1) ltac:(lia) eq_refl) as (I1 & I2 & I3). split; [lia|]. split; [lia|]. rewrite I3. f_equal. lia.
  - apply decrypt_inc in E as (c & ->). exact (IH k Hk Hs).
Qed.
Theorem C50_counts_records : forall h h0 n h', length (h_seq h) = 8%nat -> changeCipherSpec h = Ok h0 -> history h0 n h' ->
  h_seq h' = be_bytes 8 n /\ 0 <= n < 2 ^ 64.
Proof.
  intros h h0 n h' Hl HC HH. unfold changeCipherSpec in HC. destruct (h_nextCipher h); [|discriminate]. injection HC as <-.
  assert (Z8 : map (fun _ => 0) (h_seq h) = be_bytes 8 0). { destruct (h_seq h) as [|a l]; [discriminate|]. do 8 (destruct l as [|? l]; try discriminate Hl). reflexivity. }
  destruct (history_seq _ _ _ HH 0 ltac:(lia) Z8) as (I1 & I2 & I3). auto.
Qed.
Theorem C50_never_wraps : forall h, h_seq h = be_bytes 8 (2 ^ 64 - 1) ->
  (forall data n x, encrypt h data n <> Ok x) /\ (forall data off d h', decrypt h data <> Ok (DecOk off d h')).
Proof.
  intros h Hs. split.
  - intros data n [d h'] E. apply encrypt_inc in E as (c & E). rewrite (incSeq_spec (set_cipher h c) (2 ^ 64 - 1) Hs ltac:(lia)) in E. discriminate.
  - intros data off d h' E. apply decrypt_inc in E as (c & E). rewrite (incSeq_spec (set_cipher h c) (2 ^ 64 - 1) Hs ltac:(lia)) in E. discriminate.
Qed.
Print Assumptions C50_counts_records.
Print Assumptions C50_never_wraps.
(** every count below 2^64 is reached from the GM suite's ChangeCipherSpec *)
Example C50_hyps : forall hs mackey key iv n, length (h_seq hs) = 8%nat -> bytes mackey -> length iv = 16%nat -> bytes iv -> Z.of_nat n < 2 ^ 64 ->
  exists s s', gm_half hs false mackey key iv = Ok s /\ history s (Z.of_nat n) s'.
Proof.
  intros hs mackey key iv n Hl Bm Li Bi Hn. destruct (C47_gm_suite hs hs mackey key iv Hl Hl Bm Li Bi) as (s & r & E1 & _ & HS & He & Hm).
  exists s. assert (G : forall n k s r, in_sync k s r -> k + Z.of_nat n < 2 ^ 64 -> fst (explicit_iv_len s) = 16%nat -> mac_size s = 32%nat -> exists s', history s (Z.of_nat n) s').
  { clear. induction n as [|n IH]; intros k s r HS Hk He Hm; [exists s; constructor|].
    destruct (record_round_trip k s r [23; 1; 1] (zeros 16) [1; 2; 3] HS) as (body & s' & r' & A1 & _ & _ & _ & A2 & _ & _ & A3 & _ & A4 & _); auto; try lia.
    { apply bytes_zeros. } { apply bytesb_spec. reflexivity. } { rewrite Hm. cbn. lia. }
    destruct (IH (k + 1) s' r' A2 ltac:(lia) ltac:(congruence) ltac:(unfold mac_size in *; now rewrite A3)) as (s2 & H2). exists s2. replace (Z.of_nat (Datatypes.S n)) with (1 + Z.of_nat n) by lia. econstructor; eassumption. }
  destruct (G n 0 s r HS ltac:(lia) He Hm) as (s' & H'). exists s'. auto.
Qed.

(** ** C51: reassembly does not depend on the fragmentation *)
(** the caller of readRecord calls it again after a temporary network error *)
Fixpoint fetch_n (n : nat) (c : conn) (t : transport) (want : Z) : res (conn * option terr * transport) :=
  match n with
  | O => readRecord c t want
  | Datatypes.S n => match readRecord c t want with Ok (c', Some ETemp, t') => fetch_n n c' t' want | r => r end
  end.
Definition fetch (c : conn) (t : transport) (want : Z) := fetch_n (temps t) c t want.
(** a run of [n] record reads: after each, the rest of the program ([next], arbitrary) looks at everything observable of the connection
    (all but the buffered raw bytes) and the error, may change any of it, and says which record type to read next, or stops.
    The trace lists what each read left. *)
Fixpoint session (next : conn -> option terr -> option (conn * Z)) (n : nat) (c : conn) (t : transport) (want : Z) : list (res (conn * option terr)) :=
  match n with
  | O => []
  | Datatypes.S n => match fetch c t want with
                     | Ok (c', e, t') => Ok (view c', e) :: match next (view c') e with
                                                            | Some (c1, w) => session next n (with_raw c1 (c_raw c')) t' w
                                                            | None => []
                                                            end
                     | Err x => [Err x]
                     | Panic => [Panic]
                     end
  end.
Definition sane (c : conn) : Prop := 0 <= c_warn c /\ c_err c <> Some ETemp.
Lemma process_sane c want rec o : sane c -> process c want rec = Ok o -> sane (out_conn o) /\ match o with Ret _ e => e <> Some ETemp | Again _ => True end.
Proof.
  intros [HW HE]. unfold process. destruct (decrypt _ _) as [[off d h|h]| |]; cbn [rbind]; try discriminate.
  2:{ intros [= <-]. unfold sane. cbn [fail_alert ret failed sent with_in out_conn c_warn c_err]. repeat split; [exact HW|discriminate|discriminate]. }
  assert (HW1 : 0 <= c_warn (with_in c h)) by exact HW. assert (HE1 : c_err (with_in c h) <> Some ETemp) by exact HE.
  set (c1 := with_in c h) in *. clearbody c1. set (data := skipn off d). clearbody data. set (typ := nth 0 rec 0). clearbody typ.
  unfold handle. destruct (_ <? _). { intros [= <-]. unfold sane. repeat split; [exact HW1|discriminate|discriminate]. }
  set (c2 := if _ && _ then with_warn c1 0 else c1). assert (HW2 : 0 <= c_warn c2) by (unfold c2; destruct (_ && _); [cbn; lia|exact HW1]).
  assert (HE2 : c_err c2 <> Some ETemp) by (unfold c2; destruct (_ && _); exact HE1). clearbody c2.
  Ltac sfin := intros [= <-]; unfold sane; cbn; repeat split; (assumption || discriminate || lia).
  destruct (typ =? recordTypeAlert). { destruct (negb _); [sfin|]. destruct (_ =? alertCloseNotify); [sfin|]. destruct (_ =? 1); [destruct (_ <? _); sfin|]. destruct (_ =? 2); sfin. }
  destruct (typ =? recordTypeChangeCipherSpec). { destruct (_ || _); [sfin|]. destruct (0 <? _)%nat; [sfin|]. destruct (changeCipherSpec _); [sfin|sfin|discriminate]. }
  destruct (typ =? recordTypeApplicationData). { destruct (negb _); sfin. }
  destruct (typ =? recordTypeHandshake); [destruct (_ && _); sfin|sfin].
Qed.
Lemma pure_one_sane c s want o s' : sane c -> pure_one c s want = Ok (o, s') -> sane (out_conn o) /\ match o with Ret _ e => e <> Some ETemp | Again _ => True end.
Proof.
  intros [HW HE]. unfold pure_one. destruct (_ <? _)%nat. { sfin. }
  destruct (bad_header c want _) as [o0|] eqn:EB.
  { intros [= <- <-]. unfold bad_header in EB. repeat match type of EB with (if ?b then _ else _) = _ => destruct b end; injection EB as <- || discriminate; unfold sane; cbn; repeat split; (assumption || discriminate). }
  cbv zeta. destruct (_ <? _)%nat; [sfin|]. destruct (process c want _) as [o0| |] eqn:EP; cbn [rbind]; try discriminate. intros [= <- <-]. eapply process_sane; [split; eassumption|exact EP].
Qed.
Lemma pure_loop_sane : forall f c s want c' e s', sane c -> pure_loop f c s want = Ok (c', e, s') -> sane c' /\ e <> Some ETemp.
Proof.
  induction f as [|f IH]; intros c s want c' e s' Hs H; [discriminate|]. cbn [pure_loop] in H. destruct (pure_one c s want) as [[o s1]| |] eqn:E; cbn [rbind] in H; try discriminate.
  apply pure_one_sane in E as [S1 S2]; [|exact Hs]. destruct o as [c1|c1 e1]; cbn [out_conn] in S1; [eapply IH; eassumption|]. injection H as <- <- <-. auto.
Qed.
Lemma pure_readRecord_sane c s want c' e s' : sane c -> pure_readRecord c s want = Ok (c', e, s') -> sane c' /\ e <> Some ETemp.
Proof.
  unfold pure_readRecord. intros Hs. cbv zeta. match goal with |- context [if ?b then Ok _ else pure_loop _ _ _ _] => destruct b end; [|now apply pure_loop_sane]. intros [= <- <- <-]. destruct Hs as [HW HE]. unfold sane. cbn. repeat split; (assumption || discriminate).
Qed.
Lemma fetch_n_pure : forall n c t want, sane c -> (temps t <= n)%nat -> res_view (fetch_n n c t want) = pure_readRecord (view c) (stream c t) want.
Proof.
  assert (G : forall c t want, sane c -> res_view (readRecord c t want) = pure_readRecord (view c) (stream c t) want -> match readRecord c t want with Ok (_, Some ETemp, _) => False | _ => True end).
  { intros c t want Hs E. destruct (readRecord c t want) as [[[c' [[]|]] t']| |]; try exact I. cbn in E. symmetry in E. apply pure_readRecord_sane in E as [_ E]; [congruence|exact Hs]. }
  induction n as [|n IH]; intros c t want Hs Ht; cbn [fetch_n]; destruct (readRecord_pure c t want (proj1 Hs)) as [(c' & t' & E & HT & W' & P)|[E _]].
  - lia.
  - exact E.
  - rewrite E. rewrite <- P. apply IH; [|lia]. split; [exact W'|]. apply readRecord_err in E as [[_ E]|[E [E'|(x & [= <-] & N & _)]]]; [rewrite E; apply Hs|exfalso; apply (proj2 Hs); now symmetry|congruence].
  - specialize (G c t want Hs E). destruct (readRecord c t want) as [[[c' e] t']| |]; try exact E. destruct e as [[]|]; try exact E. contradiction.
Qed.
Theorem C51_fragmentation_irrelevant : forall next n c1 t1 c2 t2 want,
  (forall c e c' w, sane c -> next c e = Some (c', w) -> sane c') -> sane c1 ->
  view c1 = view c2 -> stream c1 t1 = stream c2 t2 ->
  session next n c1 t1 want = session next n c2 t2 want.
Proof.
  intros next n. induction n as [|n IH]; intros c1 t1 c2 t2 want HN Hs Hv Hst; [reflexivity|]. cbn [session].
  assert (Hs2 : sane c2). { destruct Hs as [A B]. split; [change (c_warn c2) with (c_warn (view c2))|change (c_err c2) with (c_err (view c2))]; rewrite <- Hv; assumption. }
  pose proof (fetch_n_pure (temps t1) c1 t1 want Hs ltac:(lia)) as P1. pose proof (fetch_n_pure (temps t2) c2 t2 want Hs2 ltac:(lia)) as P2.
  rewrite <- Hv, <- Hst, <- P1 in P2. change (fetch_n (temps t1) c1 t1 want) with (fetch c1 t1 want) in *. change (fetch_n (temps t2) c2 t2 want) with (fetch c2 t2 want) in *.
  destruct (fetch c1 t1 want) as [[[d1 e1] u1]| |]; destruct (fetch c2 t2 want) as [[[d2 e2] u2]| |]; cbn [res_view] in P2; try discriminate P2; [|f_equal; congruence|reflexivity].
  assert (EV : view d2 = view d1) by congruence. assert (e2 = e1) by congruence. assert (ES : stream d2 u2 = stream d1 u1) by congruence. subst e2. rewrite EV. f_equal.
  destruct (next (view d1) e1) as [[c' w]|] eqn:EN; [|reflexivity]. apply IH; [exact HN| |reflexivity|].
  { cbn [res_view] in P1. symmetry in P1. apply pure_readRecord_sane in P1 as [P1 _]; [|exact Hs]. apply (HN _ _ _ _ P1) in EN. exact EN. }
  unfold stream in *. cbn [c_raw with_raw]. now symmetry.
Qed.
Print Assumptions C51_fragmentation_irrelevant.

(** the hypotheses are met by every connection after its handshake; two schedules of the same bytes *)
Example C51_hyps : exists c, sane c /\ c_complete c = true /\
  fetch c (mkTr [21; 1; 1; 0; 2; 2; 40] [None; Some 0%nat; None; None; Some 3%nat]) recordTypeApplicationData =
    Ok (failed (with_in c (set_seq (c_in c) (be_bytes 8 1))) (ERemote 40), Some (ERemote 40), mkTr [] []) /\
  view c = view c.
Proof.
  exists (mkConn true VersionGMSSL true false (mkHalf VersionGMSSL None None (be_bytes 8 0) None None) None [] [] None 0 []).
  split; [split; [cbn; lia|discriminate]|]. split; [reflexivity|]. split; [vm_compute; reflexivity|reflexivity].
Qed.

(** ** C52: Write *)
(** [wire v r recs ms r'] (TLS_io_proofs): [recs] are well-formed application-data records of version [v] which a receiver with
    half-connection [r] deciphers, in order, to the payloads [ms].  [can_write]: the half is in sync with a receiver and its suite's
    overhead is at most 1000 bytes. *)
Theorem C52_write : forall k w r b rnds, can_write k w r -> k + zlen b < 2 ^ 64 -> bytes b -> ivs_ok w rnds ->
  exists w' recs ms r', Write w b rnds = Ok (w', zlen b) /\ w_log w' = w_log w ++ recs /\ wire (w_vers w) r recs ms r' /\
    concat ms = b /\ Forall (fun m => 1 <= zlen m <= 16384) ms /\
    ((2 <= length b)%nat ->
     ((exists bs E iv, h_cipher (w_out w) = Some (Cbc true bs E iv)) /\ w_vers w <= 0x0301 /\ w_vers w <> 0x0101 <->
      exists x m ms', ms = [x] :: m :: ms')).
Proof.
  intros k w r b rnds HW Hk Bb HI. destruct (Write_spec k w r b rnds HW Hk Bb HI) as (w' & recs & ms & k' & r' & E1 & E2 & E3 & E4 & _ & _ & _ & _ & E5).
  exists w', recs, ms, r'. split; [exact E1|]. split; [exact E2|]. split; [exact E3|]. split; [exact E4|]. split.
  - clear -E3. induction E3; constructor; [|assumption]. unfold maxPlaintext in *. destruct m; [congruence|]. unfold zlen in *. cbn [length] in *. lia.
  - intros Hb. assert (EC : is_block_mode (w_out w) = true <-> exists bs E iv, h_cipher (w_out w) = Some (Cbc true bs E iv)).
    { destruct HW as [(_ & _ & _ & _ & _ & _ & HC & _) _]. unfold is_block_mode. destruct (h_cipher (w_out w)) as [[ks pos|a|[|] bs F iv]|]; split; try discriminate; try (intros (? & ? & ? & [=])); eauto.
      intros _. exfalso. destruct (h_cipher r) as [[| |[|] ? ? ?]|]; cbn in HC; tauto. }
    unfold splits in E5. replace (1 <? length b)%nat with true in E5 by (symmetry; apply Nat.ltb_lt; lia). cbn [andb] in E5.
    destruct (Z.leb_spec (w_vers w) VersionTLS10) as [Hv|Hv]; cbn [andb] in E5; destruct (Z.eqb_spec (w_vers w) VersionGMSSL) as [Hg|Hg]; cbn [andb negb] in E5;
      destruct (is_block_mode (w_out w)) eqn:EB; unfold VersionTLS10, VersionGMSSL in *;
      (split; [intros (HC & H1 & H2); first [exfalso; congruence|exfalso; lia|exact E5|apply EC in HC; discriminate]|]);
      (intros (x & m & ms' & ->); first [split; [now apply EC|split; assumption]|destruct (E5 Hb) as (? & ? & ? & ? & [=])]).
Qed.
Print Assumptions C52_write.
(** the GM suite can write from its ChangeCipherSpec on *)
Lemma gm_can_write hs hr mackey key iv : length (h_seq hs) = 8%nat -> length (h_seq hr) = 8%nat -> bytes mackey -> length iv = 16%nat -> bytes iv ->
  exists s r, gm_half hs false mackey key iv = Ok s /\ gm_half hr true mackey key iv = Ok r /\
    can_write 0 (mkW VersionGMSSL s true 0 0 []) r /\ ivs_ok (mkW VersionGMSSL s true 0 0 []) (fun _ => Some (zeros 16)).
Proof.
  intros H1 H2 Bm Li Bi. destruct (C47_gm_suite hs hr mackey key iv H1 H2 Bm Li Bi) as (s & r & E1 & E2 & HS & He & Hm). exists s, r. split; [exact E1|]. split; [exact E2|].
  unfold can_write, ivs_ok. cbn [w_out w_packetsSent w_bytesSent w_vers]. split.
  - split; [exact HS|]. split; [|unfold VersionGMSSL; lia]. unfold overhead. unfold gm_half, changeCipherSpec, prepareCipherSpec in E1. cbn in E1. injection E1 as <-. cbn. lia.
  - intros _. exists (zeros 16). split; [reflexivity|]. split; [now rewrite He|apply bytes_zeros].
Qed.
Example C52_hyps : exists w r, can_write 0 w r /\ ivs_ok w (fun _ => Some (zeros 16)) /\ is_block_mode (w_out w) = true.
Proof.
  destruct (gm_can_write (mkHalf 0 None None (zeros 8) None None) (mkHalf 0 None None (zeros 8) None None) [1] [2] (zeros 16)) as (s & r & E1 & _ & HW & HI); try reflexivity; try apply bytes_zeros.
  { apply bytesb_spec. reflexivity. } eexists _, r. split; [exact HW|]. split; [exact HI|]. unfold gm_half in E1. cbn in E1. injection E1 as <-. reflexivity.
Qed.

(** ** C53: warning floods and sticky errors *)
(** [warn_run v h s n h' s']: the stream [s] starts with [n] warning alerts (other than close_notify) protected for [h]; [s'] follows *)
Definition right_phase (c : conn) (want : Z) : Prop :=
  c_complete c = true /\ want = recordTypeApplicationData \/ c_complete c = false /\ (want = recordTypeHandshake \/ want = recordTypeChangeCipherSpec).
Lemma pure_readRecord_phase c s want : right_phase c want -> pure_readRecord c s want = pure_loop 8 c s want.
Proof. unfold pure_readRecord. intros [[-> ->]|[-> [-> | ->]]]; reflexivity. Qed.
Theorem C53_flood : forall v n c t h' s' want, warn_run v (c_in c) (stream c t) n h' s' -> sane c -> c_haveVers c = true -> c_vers c = v -> 0 <= v < 65536 ->
  right_phase c want -> c_warn c <= 5 -> 5 < c_warn c + Z.of_nat n ->
  exists c' t', fetch c t want = Ok (c', Some ETooManyWarn, t') /\ c_err c' = Some ETooManyWarn /\ c_alerts c' = c_alerts c ++ [alertUnexpectedMessage] /\ c_input c' = c_input c.
Proof.
  intros v n c t h' s' want HW Hs HV Hv Hr HP H5 Hn. pose proof (fetch_n_pure (temps t) c t want Hs ltac:(lia)) as P. rewrite pure_readRecord_phase in P by exact HP.
  destruct (warn_flood v n (view c) (stream c t) h' s' want HW HV Hv Hr ltac:(split; [apply Hs|exact H5]) Hn) as (c1 & s1 & E & A1 & A2 & A3 & _). rewrite E in P.
  change (fetch_n (temps t) c t want) with (fetch c t want) in P. destruct (fetch c t want) as [[[c' e] t']| |]; cbn [res_view] in P; try discriminate.
  assert (view c' = c1) as Ev by congruence. assert (e = Some ETooManyWarn) as -> by congruence. exists c', t'. subst c1. auto.
Qed.
(** up to five in a row are skipped: the read behaves as if they were absent, apart from the count and the cipher state *)
Theorem C53_tolerated : forall v n c t h' s' want c2 t2, warn_run v (c_in c) (stream c t) n h' s' -> sane c -> c_haveVers c = true -> c_vers c = v -> 0 <= v < 65536 ->
  right_phase c want -> c_warn c + Z.of_nat n <= 5 ->
  view c2 = view (with_warn (with_in c h') (c_warn c + Z.of_nat n)) -> stream c2 t2 = s' ->
  res_view (fetch c t want) = res_view (fetch c2 t2 want).
Proof.
  intros v n c t h' s' want c2 t2 HW Hs HV Hv Hr HP H5 E2 Es. assert (Hs2 : sane c2).
  { destruct Hs as [A B]. split; [change (c_warn c2) with (c_warn (view c2))|change (c_err c2) with (c_err (view c2))]; rewrite E2; cbn; [lia|exact B]. }
  unfold fetch. rewrite !fetch_n_pure by (assumption || lia). rewrite E2, Es. rewrite (pure_readRecord_phase (view c)) by exact HP. rewrite pure_readRecord_phase by exact HP.
  replace 8%nat with (n + (8 - n))%nat by (destruct Hs; lia). rewrite (warn_run_skip v n (8 - n) (view c) (stream c t) h' s' want HW HV Hv Hr H5).
  apply pure_loop_fuel; cbn [c_warn with_warn with_in view with_raw]; destruct Hs; lia.
Qed.
(** received data resets the count *)
Lemma process_input c want rec o : process c want rec = Ok o -> c_input c = None ->
  match o with Again c' => c_input c' = None | Ret c' e => match c_input c' with Some d => d <> [] -> c_warn c' = 0 | None => True end end.
Proof.
  unfold process. destruct (decrypt _ _) as [[off d h|h]| |]; cbn [rbind]; try discriminate.
  2:{ intros [= <-] H. unfold ret. cbn. now rewrite H. }
  change (c_input c) with (c_input (with_in c h)). set (c1 := with_in c h). clearbody c1. set (data := skipn off d). clearbody data. set (typ := nth 0 rec 0). clearbody typ.
  unfold handle. intros H H0. destruct (_ <? _). { injection H as <-. cbn. now rewrite H0. }
  Ltac ifin H H0 := injection H as <-; cbn; rewrite ?H0; exact I || auto.
  assert (H2 : c_input (if negb (typ =? recordTypeAlert) && (0 <? length data)%nat then with_warn c1 0 else c1) = None) by (destruct (_ && _); exact H0).
  assert (H3 : typ = recordTypeApplicationData -> data <> [] -> c_warn (if negb (typ =? recordTypeAlert) && (0 <? length data)%nat then with_warn c1 0 else c1) = 0).
  { intros -> Hd. destruct data; [congruence|]. reflexivity. }
  set (c2 := if _ && _ then _ else _) in *. clearbody c2.
  destruct (typ =? recordTypeAlert). { destruct (negb _); [ifin H H2|]. destruct (_ =? alertCloseNotify); [ifin H H2|]. destruct (_ =? 1); [destruct (_ <? _); ifin H H2|]. destruct (_ =? 2); ifin H H2. }
  destruct (typ =? recordTypeChangeCipherSpec). { destruct (_ || _); [ifin H H2|]. destruct (0 <? _)%nat; [ifin H H2|]. destruct (changeCipherSpec _); [ifin H H2|ifin H H2|discriminate]. }
  destruct (Z.eqb_spec typ recordTypeApplicationData) as [Ht|]. { destruct (negb _); [ifin H H2|]. injection H as <-. cbn. auto. }
  destruct (typ =? recordTypeHandshake); [destruct (_ && _); ifin H H2|ifin H H2].
Qed.
Lemma pure_loop_input : forall f c s want c' e s', c_input c = None -> pure_loop f c s want = Ok (c', e, s') -> match c_input c' with Some d => d <> [] -> c_warn c' = 0 | None => True end.
Proof.
  induction f as [|f IH]; intros c s want c' e s' H0 H; [discriminate|]. cbn [pure_loop] in H. unfold pure_one in H.
  destruct (_ <? _)%nat in H. { cbn in H. injection H as <- <- <-. cbn. now rewrite H0. }
  destruct (bad_header c want _) as [o|] eqn:EB. { apply bad_header_ret in EB as (a & x & -> & _). cbn in H. injection H as <- <- <-. cbn. now rewrite H0. }
  cbv zeta in H. destruct (_ <? _)%nat in H. { cbn in H. injection H as <- <- <-. cbn. now rewrite H0. }
  destruct (process c want _) as [o| |] eqn:EP; cbn [rbind] in H; try discriminate. apply process_input in EP; [|exact H0].
  destruct o as [c1|c1 e1]; [eapply IH; eassumption|]. injection H as <- <- <-. exact EP.
Qed.
Theorem C53_data_resets : forall c t want c' e t' d, sane c -> c_input c = None -> fetch c t want = Ok (c', e, t') -> c_input c' = Some d -> d <> [] -> c_warn c' = 0.
Proof.
  intros c t want c' e t' d Hs H0 H Hd Hne. pose proof (fetch_n_pure (temps t) c t want Hs ltac:(lia)) as P. change (fetch_n (temps t) c t want) with (fetch c t want) in P. rewrite H in P. cbn [res_view] in P. symmetry in P.
  unfold pure_readRecord in P. cbv zeta in P. match type of P with (if ?b then _ else _) = _ => destruct b end.
  - assert (c_input (view c') = None) as E by (assert (EV : view c' = failed (sent (view c) alertInternalError) EWant) by congruence; rewrite EV; exact H0). cbn in E. congruence.
  - apply pure_loop_input in P; [|exact H0]. cbn in P. rewrite Hd in P. auto.
Qed.
(** a fatal alert and close_notify end the connection's reading side *)
Theorem C53_alert_ends : forall v c t rec off d h1 s' want x a, wf_record v recordTypeAlert rec -> decrypt (c_in c) rec = Ok (DecOk off d h1) -> skipn off d = [x; a] ->
  sane c -> c_haveVers c = true -> c_vers c = v -> 0 <= v < 65536 -> right_phase c want -> stream c t = rec ++ s' -> a = alertCloseNotify \/ x = 2 ->
  exists c' t', let e := if a =? alertCloseNotify then EEof else ERemote a in fetch c t want = Ok (c', Some e, t') /\ c_err c' = Some e /\ c_input c' = c_input c.
Proof.
  intros v c t rec off d h1 s' want x a HR HD Hsk Hs HV Hv Hr HP Es Ha. pose proof (fetch_n_pure (temps t) c t want Hs ltac:(lia)) as P. rewrite pure_readRecord_phase in P by exact HP.
  rewrite Es in P. change 8%nat with (Datatypes.S 7) in P. cbn [pure_loop] in P. rewrite (pure_one_wf (view c) rec s' want v recordTypeAlert HR HV Hv Hr) in P by discriminate.
  unfold process in P. change (c_in (view c)) with (c_in c) in P. rewrite HD in P. cbn [rbind] in P. rewrite (wf_nth0 _ _ _ HR) in P. unfold handle in P. rewrite Hsk in P.
  change (maxPlaintext <? zlen [x; a]) with false in P. change (recordTypeAlert =? recordTypeAlert) with true in P. cbn [negb andb length Nat.eqb nth] in P.
  change (fetch_n (temps t) c t want) with (fetch c t want) in P.
  destruct (fetch c t want) as [[[c' e] t']| |] eqn:EF; cbn [res_view] in P.
  - exists c', t'. cbv zeta. destruct (Z.eqb_spec a alertCloseNotify) as [-> |Hn].
    + cbn in P. assert (EV : view c' = failed (with_in (view c) h1) EEof) by congruence. assert (e = Some EEof) as -> by congruence. split; [reflexivity|].
      change (c_err c') with (c_err (view c')). change (c_input c') with (c_input (view c')). rewrite EV. auto.
    + destruct Ha as [Ha| ->]; [contradiction|]. cbn in P. assert (EV : view c' = failed (with_in (view c) h1) (ERemote a)) by congruence. assert (e = Some (ERemote a)) as -> by congruence. split; [reflexivity|].
      change (c_err c') with (c_err (view c')). change (c_input c') with (c_input (view c')). rewrite EV. auto.
  - destruct (a =? alertCloseNotify) eqn:EA; [discriminate|]. destruct Ha as [-> | ->]; [discriminate|]. discriminate.
  - destruct (a =? alertCloseNotify) eqn:EA; [discriminate|]. destruct Ha as [-> | ->]; [discriminate|]. discriminate.
Qed.
(** once Read has returned an error other than a temporary network error or io.ErrNoProgress, every later Read returns it, and no data *)
Theorem C53_sticky : forall c t k c' out e t', c_err c = None -> (0 < k)%nat -> Read c t k = Ok (Some (c', out, Some e, t')) -> e <> ETemp -> e <> ENoProgress ->
  forall t2 k2, (0 < k2)%nat -> Read c' t2 k2 = Ok (Some (c', [], Some e, t2)).
Proof.
  intros c t k c' out e t' H0 Hk H N1 N2 t2 k2 Hk2. unfold Read in *. replace (k =? 0)%nat with false in H by (symmetry; apply Nat.eqb_neq; lia). replace (k2 =? 0)%nat with false by (symmetry; apply Nat.eqb_neq; lia).
  apply read_iter_err in H; [|exact H0]. destruct H as [[[?|?] _]|[H _]]; [contradiction|contradiction|]. change 101%nat with (Datatypes.S 100). now apply read_iter_sticky.
Qed.
Print Assumptions C53_flood. Print Assumptions C53_tolerated. Print Assumptions C53_data_resets. Print Assumptions C53_alert_ends. Print Assumptions C53_sticky.
(** six protected-by-nothing warnings end the connection; five followed by data do not *)
Definition plain_half (k : Z) : half := mkHalf VersionGMSSL None None [0; 0; 0; 0; 0; 0; 0; k] None None.
Definition plain_conn : conn := mkConn true VersionGMSSL true false (plain_half 0) None [] [] None 0 [].
Definition warning : list Z := [21; 1; 1; 0; 2; 1; 90].
Example C53_hyps : (exists h', warn_run VersionGMSSL (c_in plain_conn) (concat (repeat warning 6)) 6 h' []) /\ sane plain_conn /\ right_phase plain_conn recordTypeApplicationData /\
  match fetch plain_conn (mkTr (concat (repeat warning 6)) [Some 2%nat; None]) recordTypeApplicationData with Ok (_, Some ETooManyWarn, _) => true | _ => false end = true /\
  match fetch plain_conn (mkTr (concat (repeat warning 5) ++ [23; 1; 1; 0; 1; 7]) []) recordTypeApplicationData with Ok (c', None, _) => match c_input c' with Some [7] => c_warn c' =? 0 | _ => false end | _ => false end = true.
Proof.
  split.
  { exists (plain_half 6). cbn [repeat concat].
    assert (W : forall k s n h' s', decrypt (plain_half k) warning = Ok (DecOk 5 warning (plain_half (k + 1))) -> warn_run VersionGMSSL (plain_half (k + 1)) s n h' s' -> warn_run VersionGMSSL (plain_half k) (warning ++ s) (Datatypes.S n) h' s').
    { intros k s n h' s' HD HW. eapply wr_S; [exists [1; 90]; split; [reflexivity|cbn; unfold maxCiphertext; lia]|exact HD|reflexivity|discriminate|exact HW]. }
    do 6 (apply W; [vm_compute; reflexivity|]). constructor. }
  split; [split; [cbn; lia|discriminate]|]. split; [left; split; reflexivity|]. split; vm_compute; reflexivity.
Qed.

(** ** C72: end to end: what is read is what was written, for every fragmentation *)
(** a sequence of Writes, each with its explicit IVs *)
Inductive writes : wconn -> list (list Z) -> wconn -> Prop :=
| writes_nil w : writes w [] w
| writes_cons w b rnds n w1 bs w2 : ivs_ok w rnds -> Write w b rnds = Ok (w1, n) -> writes w1 bs w2 -> writes w (b :: bs) w2.
(** a sequence of Reads with the given buffer sizes *)
Fixpoint reads (ks : list nat) (c : conn) (t : transport) : option (list (list Z * option terr)) :=
  match ks with
  | [] => Some []
  | k :: ks => match Read c t k with
               | Ok (Some (c', out, e, t')) => match reads ks c' t' with Some l => Some ((out, e) :: l) | None => None end
               | _ => None
               end
  end.
Lemma writes_wire : forall bufs w w' k r, writes w bufs w' -> can_write k w r -> k + zlen (concat bufs) < 2 ^ 64 -> bytes (concat bufs) ->
  exists recs ms r', w_log w' = w_log w ++ recs /\ wire (w_vers w) r recs ms r' /\ concat ms = concat bufs.
Proof.
  induction bufs as [|b bufs IH]; intros w w' k r HWs HW Hk Bb; inversion HWs as [|? ? rnds n w1 ? ? HI E HWs']; subst.
  - exists [], [], r. split; [now rewrite app_nil_r|]. split; [constructor|reflexivity].
  - cbn [concat] in *. assert (Hz : zlen (b ++ concat bufs) = zlen b + zlen (concat bufs)) by (unfold zlen; rewrite app_length; lia). apply bytes_app in Bb as [B1 B2].
    assert (P1 : 0 <= zlen (concat bufs)) by (unfold zlen; lia).
    destruct (Write_spec k w r b rnds HW ltac:(lia) B1 HI) as (w1' & recs & ms & k' & r' & E1 & E2 & E3 & E4 & E5 & E6 & E7 & _). rewrite E in E1.
    assert (w1' = w1) by congruence. subst w1'.
    destruct (IH w1 w' k' r' HWs' E5 ltac:(lia) B2) as (recs2 & ms2 & r2 & F1 & F2 & F3). exists (recs ++ recs2), (ms ++ ms2), r2.
    split; [rewrite F1, E2, app_assoc; reflexivity|]. split; [rewrite E7 in F2; eapply wire_app; eassumption|]. rewrite concat_app. congruence.
Qed.
Lemma reads_spec : forall ks v c t data, reading v c t data -> Forall (fun k => (0 < k)%nat) ks ->
  exists l rest, reads ks c t = Some l /\ data = concat (map fst l) ++ rest /\
    Forall (fun oe => snd oe = None /\ fst oe <> [] \/ fst oe = [] /\ snd oe = Some ETemp \/ fst oe = [] /\ snd oe = Some EEof) l /\
    (In EEof (concat (map (fun oe => match snd oe with Some e => [e] | None => [] end) l)) -> rest = []) /\
    ((length data + temps t < length ks)%nat -> last (map snd l) None = Some EEof).
Proof.
  induction ks as [|k ks IH]; intros v c t data HR HK.
  { exists [], data. split; [reflexivity|]. split; [reflexivity|]. split; [constructor|]. split; [intros []|]. cbn [length]. lia. }
  inversion HK as [|? ? Hk HK']; subst. destruct (Read_step v c t data k HR Hk) as (c' & out & e & t' & E & [(-> & Ho & Hl & (rest & -> & HR') & HT)|[(-> & -> & HR' & HT)|(-> & -> & -> & HE)]]).
  - destruct (IH v c' t' rest HR' HK') as (l & rest' & E1 & E2 & E3 & E4 & E5). exists ((out, None) :: l), rest'. cbn [reads]. rewrite E, E1. split; [reflexivity|].
    split; [cbn [map fst concat]; rewrite <- app_assoc; congruence|]. split; [constructor; [left; auto|exact E3]|]. split; [exact E4|].
    cbn [length]. rewrite app_length. intros HL. assert (L1 : (1 <= length out)%nat) by (destruct out; [congruence|cbn; lia]). specialize (E5 ltac:(lia)). cbn [map snd last]. destruct (map snd l); [discriminate|exact E5].
  - destruct (IH v c' t' data HR' HK') as (l & rest' & E1 & E2 & E3 & E4 & E5). exists (([], Some ETemp) :: l), rest'. cbn [reads]. rewrite E, E1. split; [reflexivity|].
    split; [cbn [map fst concat app]; exact E2|]. split; [constructor; [right; left; auto|exact E3]|]. split; [intros [H|H]; [discriminate|auto]|].
    cbn [length]. intros HL. specialize (E5 ltac:(lia)). cbn [map snd last]. destruct (map snd l); [discriminate|exact E5].
  - assert (G : forall ks t, Forall (fun k => (0 < k)%nat) ks -> reads ks c' t = Some (map (fun _ => ([], Some EEof)) ks)).
    { clear -HE. induction ks as [|k ks IH]; intros t HK; [reflexivity|]. inversion HK; subst. cbn [reads]. unfold Read. replace (k =? 0)%nat with false by (symmetry; apply Nat.eqb_neq; lia). change 101%nat with (Datatypes.S 100).
      rewrite (read_iter_sticky 100 c' t k EEof HE). rewrite IH by assumption. reflexivity. }
    exists (map (fun _ => ([], Some EEof)) (k :: ks)), []. cbn [reads]. rewrite E, G by exact HK'. split; [reflexivity|].
    assert (C0 : concat (map fst (map (fun _ : nat => ([] : list Z, Some EEof)) (k :: ks))) = []) by (clear; induction (k :: ks) as [|a l IH]; [reflexivity|exact IH]).
    rewrite C0. split; [reflexivity|]. split; [apply Forall_forall; intros x Hx; apply in_map_iff in Hx as (? & <- & _); auto|]. split; [reflexivity|]. intros _.
    rewrite map_map. cbn [snd map]. clear. induction ks as [|a ks IH]; [reflexivity|exact IH].
Qed.
(** Any sequence of Writes on one end; the other end, after its handshake, in sync with it, receives exactly the bytes written to the
    transport, split in any way into network reads with temporary errors anywhere; it Reads with any non-zero buffer sizes.  Every Read
    returns new bytes of the stream in order, or a temporary error, or EOF, and EOF only after everything was delivered; after enough
    Reads everything has been delivered and EOF is returned. *)
Theorem C72_end_to_end : forall bufs w w' k r c sched ks,
  writes w bufs w' -> can_write k w r -> k + zlen (concat bufs) < 2 ^ 64 -> bytes (concat bufs) -> w_log w = [] ->
  c_in c = r -> (c_haveVers c = true /\ c_vers c = w_vers w \/ c_haveVers c = false /\ w_vers w < 0x1000) ->
  c_complete c = true -> c_err c = None -> c_hand c = [] -> c_input c = None -> c_raw c = [] -> 0 <= c_warn c ->
  Forall (fun k => (0 < k)%nat) ks ->
  let t := mkTr (concat (w_log w')) sched in
  exists l rest, reads ks c t = Some l /\ concat bufs = concat (map fst l) ++ rest /\
    Forall (fun oe => snd oe = None /\ fst oe <> [] \/ fst oe = [] /\ snd oe = Some ETemp \/ fst oe = [] /\ snd oe = Some EEof) l /\
    (In (Some EEof) (map snd l) -> rest = []) /\
    ((length (concat bufs) + length sched < length ks)%nat -> last (map snd l) None = Some EEof /\ concat (map fst l) = concat bufs).
Proof.
  intros bufs w w' k r c sched ks HWs HW Hk Bb HL HC HV0 Hcp HE HH HI HRaw Hwn HK t.
  assert (HV : hdr_ok (w_vers w) c) by (unfold hdr_ok; destruct HV0 as [[-> E]|[-> E]]; exact E).
  destruct (writes_wire bufs w w' k r HWs HW Hk Bb) as (recs & ms & r' & E1 & E2 & E3). rewrite HL in E1. cbn [app] in E1.
  assert (HR : reading (w_vers w) c t (concat bufs)).
  { unfold reading. rewrite HC. repeat (split; [first [assumption|destruct HW as (_ & _ & _ & _ & HW); lia]|]). split; [rewrite HI; discriminate|].
    exists recs, ms, r'. split; [exact E2|]. split; [unfold stream, t; cbn; rewrite HRaw, E1; reflexivity|]. rewrite HI, E3. reflexivity. }
  destruct (reads_spec ks (w_vers w) c t (concat bufs) HR HK) as (l & rest & F1 & F2 & F3 & F4 & F5). exists l, rest. split; [exact F1|]. split; [exact F2|]. split; [exact F3|].
  assert (F4' : In (Some EEof) (map snd l) -> rest = []).
  { intros H. apply F4. apply in_concat. exists [EEof]. split; [|left; reflexivity]. apply in_map_iff in H as (x & Hx & Hi). apply in_map_iff. exists x. rewrite Hx. auto. }
  split; [exact F4'|]. intros Hn. assert (HT : (temps t <= length sched)%nat) by (unfold temps, t; cbn; clear; induction sched as [|[|] s IH]; cbn; lia).
  specialize (F5 ltac:(lia)). split; [exact F5|]. assert (rest = []) as R0.
  { apply F4'. clear -F5. induction (map snd l) as [|a m IH]; [discriminate|]. destruct m; [left; exact F5|right; apply IH; exact F5]. }
  rewrite R0, app_nil_r in F2. now symmetry.
Qed.
Print Assumptions C72_end_to_end.
(** the hypotheses are met by the GM suite for all keys, and any buffers can be written *)
Lemma C72_writes : forall bufs w k r, can_write k w r -> k + zlen (concat bufs) < 2 ^ 64 -> bytes (concat bufs) -> (exists rnds, ivs_ok w rnds) -> exists w', writes w bufs w'.
Proof.
  induction bufs as [|b bufs IH]; intros w k r HW Hk Bb [rnds HI]; [exists w; constructor|]. cbn [concat] in *.
  assert (Hz : zlen (b ++ concat bufs) = zlen b + zlen (concat bufs)) by (unfold zlen; rewrite app_length; lia). apply bytes_app in Bb as [B1 B2]. assert (P1 : 0 <= zlen (concat bufs)) by (unfold zlen; lia).
  destruct (Write_spec k w r b rnds HW ltac:(lia) B1 HI) as (w1 & recs & ms & k' & r' & E1 & _ & _ & _ & E5 & E6 & _ & E8 & _).
  destruct (IH w1 k' r' E5 ltac:(lia) B2) as (w2 & H2). { exists rnds. intros i. rewrite E8. apply HI. } exists w2. econstructor; eassumption.
Qed.
Example C72_hyps : forall mackey key iv bufs, bytes mackey -> length iv = 16%nat -> bytes iv -> bytes (concat bufs) -> zlen (concat bufs) < 2 ^ 64 ->
  exists w w' r, can_write 0 w r /\ w_log w = [] /\ writes w bufs w' /\ (exists s, gm_half (mkHalf 0 None None (zeros 8) None None) false mackey key iv = Ok s /\ w_out w = s).
Proof.
  intros mackey key iv bufs Bm Li Bi Bb Hl. destruct (gm_can_write (mkHalf 0 None None (zeros 8) None None) (mkHalf 0 None None (zeros 8) None None) mackey key iv) as (s & r & E1 & _ & HW & HI); auto.
  destruct (C72_writes bufs _ 0 r HW ltac:(lia) Bb (ex_intro _ _ HI)) as (w' & H'). eexists _, w', r. split; [exact HW|]. split; [reflexivity|]. split; [exact H'|]. exists s. auto.
Qed.

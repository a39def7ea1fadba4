(** Handshake steps of ordinary TLS that do not panic, whatever arrives (continuation of TLS_hs_safe.v). *)
From Verif Require Import GoBase GoLemmas BigBytes HMAC Asn1_model X509_spec SM2_model SM2_proofs TLS_record_model TLS_prf_model TLS_prf_spec TLS_prf_proofs
  TLS_gmka_model TLS_ticket_model TLS_msg_model TLS_msg_proofs TLS_neg_model TLS_hs_model TLS_hs_proofs TLS_hs_bytes TLS_hs_server TLS_hs_client TLS_hs_spec TLS_hs_run P_TLS_hs_server P_TLS_hs_client P_TLS_hs_agree P_TLS_hs_run TLS_hs_safe
  TLS_std_model TLS_std_spec TLS_std_proofs TLS_std_server TLS_std_client P_TLS_std_server.
From Verif Require X509_model P_TLS_msg P_TLS_prf P_TLS_neg P_TLS_ticket.
Open Scope Z_scope.
#[local] Opaque PRF be_bytes fh_Write discardHandshakeBuffer clientSum serverSum newFinishedHash hashForClientCertificate parse_msg.

(** ** Messages that arrive *)
Lemma parse_std_np v m : bytes m -> m <> [] -> parse_std v m <> Panic.
Proof.
  intros B N. destruct m as [|t m'] eqn:EM; [congruence|]. unfold parse_std. rewrite <- EM in *. destruct (t =? 13); [|now apply parse_np].
  pose proof (P_TLS_msg.C64_certificateRequest (VersionTLS12 <=? v) m B) as X. destruct (u_certificateRequest _ m); cbn; congruence.
Qed.
(** the extensions of a ClientHello: the data that remain are bytes of the message *)
Lemma wloop_inv2 {A} (P : A -> list Z -> Prop) body : (forall a d r, P a d -> body a d = Ok r -> P (fst r) (snd r)) -> forall fuel a d r, P a d -> wloop body fuel a d = Ok r -> exists d', P r d'.
Proof.
  intros HB. induction fuel as [|fuel IH]; intros a d r Ha H; destruct d as [|x d]; cbn [wloop] in H; try (injection H as <-; eauto; fail); [discriminate|].
  apply rbind_ok in H as ([a' d'] & H1 & H). apply HB in H1; [|exact Ha]. cbn [fst snd] in *. eapply IH; eauto.
Qed.
Definition hello_fine (n : Z) (ch : clientHello) : Prop := bytes (ch_sessionId ch) /\ zlen (ch_sessionId ch) <= 32 /\ bytes (ch_ticket ch) /\ zlen (ch_ticket ch) <= n.
Lemma ch_ext_fine n m e l d r : hello_fine n m -> bytes d -> zlen d <= n -> ch_ext m e l d = Ok r -> hello_fine n r.
Proof.
  intros HR Bd Ld H. unfold ch_ext in H.
  destruct (e =? 0).
  { apply rbind_ok in H as (? & _ & H). apply fails_ok in H as [_ H]. do 2 (apply rbind_ok in H as (? & _ & H)). apply fails_ok in H as [_ H].
    revert H. unfold wrun. apply (wloop_inv (hello_fine n)); [|exact HR].
    clear. intros a d r Ha H. unfold sni_body in H. apply fails_ok in H as [_ H]. do 3 (apply rbind_ok in H as (? & _ & H)). apply fails_ok in H as [_ H].
    apply rbind_ok in H as (? & _ & H). destruct (x =? 0); ropen H; injection H as <-; exact Ha. }
  destruct (e =? 13172); [ropen H; injection H as <-; exact HR|]. destruct (e =? 5); [destruct (0 <? l); ropen H; injection H as <-; exact HR|].
  destruct (e =? 10); [ropen H; injection H as <-; exact HR|]. destruct (e =? 11); [ropen H; injection H as <-; exact HR|].
  destruct (e =? 35).
  { apply rbind_ok in H as (t & Ht & H). apply sl_to_ok in Ht as [Hl ->]. injection H as <-. destruct HR as (H1 & H2 & _ & _). split; [exact H1|]. split; [exact H2|]. cbn [ch_ticket set_ch_ticket].
    split; [now apply bytes_firstn|]. unfold zlen in *. rewrite firstn_length. lia. }
  destruct (e =? 13); [ropen H; injection H as <-; exact HR|]. destruct (e =? 65281); [ropen H; injection H as <-; exact HR|]. destruct (e =? 16); [ropen H; injection H as <-; exact HR|].
  destruct (e =? 18); [ropen H; injection H as <-; exact HR|]. injection H as <-. exact HR.
Qed.
Lemma ch_fine d r : u_clientHello ch_empty d = Ok r -> bytes d -> hello_fine (zlen d) r.
Proof.
  intros H Hb. unfold u_clientHello in H. apply fails_ok in H as [_ H]. do 2 (apply rbind_ok in H as (? & _ & H)). apply rbind_ok in H as (sl0 & HL & H). apply fails_ok in H as [HS H].
  apply orb_false_iff in HS as [HS _]. apply Z.ltb_ge in HS. apply rbind_ok in H as (sid & HR & H). apply sl_ok in HR as [BR LR]; [|exact Hb].
  apply rbind_ok in H as (d1 & E1 & H). apply sl_from_ok in E1 as [_ E1]. assert (B1 : bytes d1 /\ zlen d1 <= zlen d) by (subst d1; split; [now apply bytes_skipn|unfold zlen; rewrite skipn_length; lia]). clear E1. destruct B1 as [B1 L1].
  apply fails_ok in H as [_ H]. apply rbind_ok in H as (? & _ & H). apply fails_ok in H as [_ H]. do 2 (apply rbind_ok in H as (? & _ & H)). cbv zeta in H.
  apply rbind_ok in H as (d2 & E2 & H). apply sl_from_ok in E2 as [_ E2]. assert (B2 : bytes d2 /\ zlen d2 <= zlen d) by (subst d2; split; [now apply bytes_skipn|unfold zlen in *; rewrite skipn_length; lia]). clear E2. destruct B2 as [B2 L2].
  apply fails_ok in H as [_ H]. apply rbind_ok in H as (? & _ & H). apply fails_ok in H as [_ H]. apply rbind_ok in H as (? & _ & H).
  apply rbind_ok in H as (d3 & E3 & H). apply sl_from_ok in E3 as [_ E3]. assert (B3 : bytes d3 /\ zlen d3 <= zlen d) by (subst d3; split; [now apply bytes_skipn|unfold zlen in *; rewrite skipn_length; lia]). clear E3. destruct B3 as [B3 L3].
  assert (HF : forall v rnd su co cu po rn on, hello_fine (zlen d) (mkCH v rnd sid su co false [] false false cu po false [] [] rn on [])).
  { intros. split; [exact BR|]. split; [cbn [ch_sessionId]; lia|]. split; [constructor|]. cbn [ch_ticket]. rewrite (@zlen_nil Z). apply zlen_nonneg. }
  match type of H with (if ?c then _ else _) = _ => destruct c end; [injection H as <-; apply HF|].
  apply fails_ok in H as [_ H]. apply rbind_ok in H as (? & _ & H).
  apply rbind_ok in H as (d4 & E4 & H). apply sl_from_ok in E4 as [_ E4]. assert (B4 : bytes d4 /\ zlen d4 <= zlen d) by (subst d4; split; [now apply bytes_skipn|unfold zlen in *; rewrite skipn_length; lia]). clear E4. destruct B4 as [B4 L4].
  apply fails_ok in H as [_ H]. unfold wrun in H.
  destruct (wloop_inv2 (fun a dd => hello_fine (zlen d) a /\ bytes dd /\ zlen dd <= zlen d) (ext_body ch_ext)) with (3 := H) as (d' & X & _); [|auto|exact X].
  clear. intros a dd r (Ha & Bd & Ld) H. unfold ext_body in H. apply fails_ok in H as [_ H]. do 2 (apply rbind_ok in H as (? & _ & H)). apply rbind_ok in H as (e1 & E1 & H). apply sl_from_ok in E1 as [_ E1].
  assert (B1 : bytes e1 /\ zlen e1 <= zlen d) by (subst e1; split; [now apply bytes_skipn|unfold zlen in *; rewrite skipn_length; lia]). clear E1. destruct B1 as [B1 L1].
  apply fails_ok in H as [_ H]. apply rbind_ok in H as (m & HM & H). apply rbind_ok in H as (e2 & E2 & H). apply sl_from_ok in E2 as [_ E2]. injection H as <-. cbn [fst snd].
  split; [eapply ch_ext_fine; eauto|]. subst e2. split; [now apply bytes_skipn|unfold zlen in *; rewrite skipn_length; lia].
Qed.

(** ** Tickets *)
Lemma marshal_len s : zlen (marshal_state s) = 8 + zlen (ss_masterSecret s) + 4 * zlen (ss_certificates s) + sum_len (ss_certificates s).
Proof.
  unfold marshal_state, hi_lo. rewrite !zlen_app. change (zlen [_; _]) with 2. assert (X : forall cs, zlen (concat (map (fun c => len4 (zlen c) ++ c) cs)) = 4 * zlen cs + sum_len cs).
  { assert (SL : forall cs a, fold_left (fun a (c : list Z) => a + zlen c) cs a = a + sum_len cs). { unfold sum_len. induction cs as [|c cs IH]; intros a; cbn [fold_left]; [lia|]. rewrite IH, (IH (0 + zlen c)). lia. }
    induction cs as [|c cs IH]; [reflexivity|]. cbn [map concat]. rewrite !zlen_app, IH. unfold sum_len at 2. cbn [fold_left]. rewrite SL. unfold len4. change (zlen [_; _; _; _]) with 4. unfold zlen. cbn [length]. lia. }
  rewrite X. lia.
Qed.
Lemma marshal_bytes s : bytes (ss_masterSecret s) -> Forall bytes (ss_certificates s) -> bytes (marshal_state s).
Proof.
  intros B1 B2. unfold marshal_state, hi_lo. byt. apply bytes_concat_map. intros x Hx. unfold len4. byt. rewrite Forall_forall in B2. auto.
Qed.
Definition ders_fine (ders : list (list Z)) : Prop := Forall bytes ders /\ 4 * zlen ders + sum_len ders <= 2 ^ 30.
Lemma sum_len_nonneg l : 0 <= sum_len l.
Proof. unfold sum_len. assert (X : forall a, 0 <= a -> 0 <= fold_left (fun a (c : list Z) => a + zlen c) l a). { induction l as [|c l IH]; intros a Ha; cbn [fold_left]; [exact Ha|]. apply IH. pose proof (zlen_nonneg c). lia. } apply X. lia. Qed.
Lemma cert_msg_fine m ders : u_certificate m = Ok ders -> bytes m -> zlen m < 2 ^ 25 -> ders_fine ders.
Proof.
  intros U B Ln. destruct (P_TLS_msg.C75_certificate m ders B ltac:(lia) U) as (hdr & Lh & ->). apply bytes_app in B as [_ B]. apply bytes_app in B as [_ B].
  rewrite !zlen_app in Ln. rewrite zlen_be_bytes in Ln. pose proof (zlen_nonneg hdr).
  assert (X : zlen (concat (map (fun c => be_bytes 3 (zlen c) ++ c) ders)) = 3 * zlen ders + sum_len ders).
  { clear. assert (SL : forall cs a, fold_left (fun a (c : list Z) => a + zlen c) cs a = a + sum_len cs). { unfold sum_len. induction cs as [|c cs IH]; intros a; cbn [fold_left]; [lia|]. rewrite IH, (IH (0 + zlen c)). lia. }
    induction ders as [|c cs IH]; [reflexivity|]. cbn [map concat]. rewrite !zlen_app, IH, zlen_be_bytes. unfold sum_len at 2. cbn [fold_left]. rewrite SL. unfold zlen. cbn [length]. lia. }
  rewrite X in Ln. split.
  - clear -B. induction ders as [|c cs IH]; [constructor|]. cbn [map concat] in B. apply bytes_app in B as [B1 B2]. apply bytes_app in B1 as [_ B1]. constructor; auto.
  - pose proof (sum_len_nonneg ders). pose proof (zlen_nonneg ders). change (2 ^ 25) with 33554432 in Ln. change (2 ^ 30) with 1073741824. lia.
Qed.
Section Ticket.
Context (aes : list Z -> list Z -> list Z) (sha256 : list Z -> list Z) (HA : forall k, P_TLS_ticket.block_ok (aes k)) (HS : good_hash sha256 32).
Lemma decrypt_fine dis keys enc st : bytes enc -> zlen enc <= 2 ^ 25 -> decryptTicket aes sha256 dis keys enc = Some st -> small (ss_masterSecret st) /\ zlen (ss_masterSecret st) < 2 ^ 40 /\ ders_fine (ss_certificates st).
Proof.
  intros B Ln H. unfold decryptTicket in H. destruct (_ || _); [discriminate|]. destruct (find_key _ _ _) as [[i k]|]; [|discriminate]. destruct (negb _); [discriminate|].
  set (ct := skipn 32 _) in H. assert (Bc : bytes ct) by (unfold ct; apply bytes_skipn, bytes_firstn, B). assert (Lc : zlen ct <= 2 ^ 25) by (unfold ct, zlen in *; rewrite skipn_length, firstn_length; lia). clearbody ct.
  set (pt := ctr_xor _ _ _) in H. assert (Bp : bytes pt) by (apply P_TLS_ticket.ctr_xor_bytes; [apply HA|exact Bc]). assert (Lp : zlen pt <= 2 ^ 25) by (unfold pt, zlen; rewrite P_TLS_ticket.ctr_xor_length by apply HA; exact Lc). clearbody pt.
  pose proof (P_TLS_ticket.C62_unmarshal_then_marshal _ _ _ Bp H) as M. destruct (P_TLS_ticket.unmarshal_inv _ _ _ Bp H) as (_ & OK & _). rewrite <- M in Lp. rewrite marshal_len in Lp.
  pose proof (sum_len_nonneg (ss_certificates st)). pose proof (zlen_nonneg (ss_certificates st)). pose proof (zlen_nonneg (ss_masterSecret st)). change (2 ^ 25) with 33554432 in Lp.
  unfold P_TLS_ticket.state_ok in OK. destruct OK as (_ & _ & BM & _ & _ & HF). split; [split; [exact BM|change (2 ^ 60) with 1152921504606846976; lia]|]. split; [change (2 ^ 40) with 1099511627776; lia|].
  split; [|change (2 ^ 30) with 1073741824; lia]. eapply Forall_impl; [|exact HF]. intros c [Hc _]. exact Hc.
Qed.
Lemma encrypt_fine iv keys st : (forall b, iv = Some b -> bytes b /\ zlen b < 2 ^ 20) -> keys <> [] -> Forall (fun k => bytes (k_name k) /\ bytes (k_hmac k) /\ zlen (k_name k) < 2 ^ 20) keys ->
  small (ss_masterSecret st) -> zlen (ss_masterSecret st) < 2 ^ 40 -> ders_fine (ss_certificates st) ->
  match encryptTicket aes sha256 iv keys st with Ok t => bytes t /\ zlen t < 2 ^ 42 | Err _ => True | Panic => False end.
Proof.
  intros HI NK HK [BM _] LM [BD LD]. unfold encryptTicket. cbv zeta. destruct iv as [b|]; [|exact I]. destruct (HI b eq_refl) as [Bb Lb]. destruct keys as [|k keys]; [congruence|]. inversion_clear HK as [|? ? (K1 & K2 & K3) _].
  pose proof (marshal_bytes st BM BD) as BX. pose proof (marshal_len st) as LX. set (s := marshal_state st) in *. clearbody s.
  assert (BC : bytes (ctr_xor (aes (k_aes k)) b s)) by (apply P_TLS_ticket.ctr_xor_bytes; [apply HA|exact BX]).
  assert (LC : zlen (ctr_xor (aes (k_aes k)) b s) = zlen s) by (unfold zlen; rewrite P_TLS_ticket.ctr_xor_length by apply HA; reflexivity).
  assert (BB : bytes (k_name k ++ b ++ ctr_xor (aes (k_aes k)) b s)) by byt.
  destruct (hmac_good sha256 32 64 (k_hmac k) HS ltac:(lia) K2 _ BB) as [B1 L1]. assert (L2 : zlen (hmac sha256 64 (k_hmac k) (k_name k ++ b ++ ctr_xor (aes (k_aes k)) b s)) = 32) by (unfold zlen; rewrite L1; reflexivity). split; [byt|]. rewrite !zlen_app in *. rewrite L2, LC, LX. change (2 ^ 20) with 1048576 in *. change (2 ^ 30) with 1073741824 in *. change (2 ^ 40) with 1099511627776 in *. change (2 ^ 42) with 4398046511104. lia.
Qed.
End Ticket.

(** ** Encoded messages *)
Definition fineB (r : res (list Z)) : Prop := match r with Ok m => bytes m /\ zlen m < 2 ^ 50 | Err _ => True | Panic => False end.
Lemma fill_fine size p : bytes p -> zlen p <= size -> size < 2 ^ 50 -> fineB (fill size p).
Proof.
  intros B Lp Ls. destruct (fill size p) as [m| |] eqn:F; [|exact I|unfold fill in F; destruct (Z.leb_spec (zlen p) size); [discriminate|lia]].
  apply fill_out in F as [H1 H2]; [|exact B]. split; [exact H1|lia].
Qed.
Lemma fine_big r : fine r -> fineB r.
Proof. destruct r; cbn; auto. intros [B H]. split; [exact B|]. change (2 ^ 26) with 67108864 in H. change (2 ^ 50) with 1125899906842624. lia. Qed.
Lemma fineB_fin v : bytes v -> zlen v <= 255 -> fineB (m_finished v).
Proof. intros B Lv. destruct (P_TLS_msg.C63_finished v Lv) as (m & M & _). rewrite M. destruct (out_fin _ _ B ltac:(change (2 ^ 20) with 1048576; lia) M) as [H1 H2]. split; [exact H1|]. change (2 ^ 50) with 1125899906842624. lia. Qed.
Lemma fineB_np p : bytes p -> fineB (m_nextProto p).
Proof.
  intros B. unfold m_nextProto. cbv zeta. set (l := if 255 <? zlen p then 255 else zlen p). assert (Hl : 0 <= l <= 255 /\ l <= zlen p) by (unfold l; pose proof (zlen_nonneg p); destruct (Z.ltb_spec 255 (zlen p)); lia). clearbody l.
  pose proof (Z.mod_pos_bound (l + 2) 32). apply fill_fine.
  - byt. now apply bytes_firstn.
  - rewrite !zlen_app. change (zlen [_]) with 1. change (zlen (b3 _)) with 3. change (zlen [u8 (32 - (l + 2) mod 32)]) with 1. change (zlen [u8 l]) with 1. unfold zlen in *. rewrite firstn_length. lia.
  - change (2 ^ 50) with 1125899906842624. lia.
Qed.
Lemma fineB_ticket t : bytes t -> zlen t < 2 ^ 42 -> fineB (m_newSessionTicket t).
Proof.
  intros B Lt. unfold m_newSessionTicket. cbv zeta. apply fill_fine; [byt| |].
  - rewrite !zlen_app. change (zlen [_]) with 1. change (zlen (b3 _)) with 3. change (zlen [0; 0; 0; 0]) with 4. change (zlen (b2 _)) with 2. lia.
  - change (2 ^ 42) with 4398046511104 in Lt. change (2 ^ 50) with 1125899906842624. lia.
Qed.
Lemma fineB_cv hs alg sig : bytes sig -> zlen sig < 2 ^ 40 -> fineB (m_certificateVerify hs (alg, sig)).
Proof.
  intros B Lt. unfold m_certificateVerify. cbv zeta. cbn [fst snd]. apply fill_fine; [destruct hs; byt| |].
  - rewrite !zlen_app. change (zlen [_]) with 1. change (zlen (b3 _)) with 3. destruct hs; rewrite ?(@zlen_nil Z); change (zlen (b2 _)) with 2; lia.
  - change (2 ^ 40) with 1099511627776 in Lt. change (2 ^ 50) with 1125899906842624. destruct hs; lia.
Qed.
Lemma fineB_ckx k : bytes k -> zlen k < 2 ^ 20 -> fineB (m_clientKeyExchange k).
Proof. intros. apply fine_big, fine_ckx; assumption. Qed.
Lemma fineB_cert ders : Forall P_TLS_msg.cert_ok ders -> 3 * zlen ders + sum_len ders < 2 ^ 24 - 3 -> fineB (m_certificate ders).
Proof. intros. apply fine_big, fine_cert; assumption. Qed.
Lemma sum_len_cons c cs : sum_len (c :: cs) = zlen c + sum_len cs.
Proof. unfold sum_len. cbn [fold_left]. assert (SL : forall l a, fold_left (fun a (c : list Z) => a + zlen c) l a = a + fold_left (fun a (c : list Z) => a + zlen c) l 0). { induction l as [|x l IH]; intros a; cbn [fold_left]; [lia|]. rewrite IH, (IH (0 + zlen x)). lia. } rewrite SL. lia. Qed.
Lemma concat_b2_len l : zlen (concat (map b2 l)) = 2 * zlen l.
Proof. induction l as [|x l IH]; [reflexivity|]. cbn [map concat]. rewrite zlen_app, IH. change (zlen (b2 x)) with 2. unfold zlen. cbn [length]. lia. Qed.
Lemma fineB_creq hs types sigs cas : bytes types -> zlen types < 2 ^ 20 -> zlen sigs < 2 ^ 20 -> Forall bytes cas -> 2 * zlen cas + sum_len cas < 2 ^ 40 -> fineB (m_certificateRequest hs (TLS_msg_model.mkCR types sigs cas)).
Proof.
  intros B1 L1 L2 B3 L3. unfold m_certificateRequest. cbv zeta. cbn [cr_types cr_sigs cr_cas].
  assert (CL : forall l, cas_len l = 2 * zlen l + sum_len l).
  { intros l. unfold cas_len. assert (X : forall l a, fold_left (fun a (c : list Z) => a + (2 + zlen c)) l a = a + 2 * zlen l + sum_len l). { clear. induction l as [|c cs IH]; intros a; cbn [fold_left]; [change (sum_len []) with 0; unfold zlen; cbn [length]; lia|]. rewrite IH, sum_len_cons. unfold zlen. cbn [length]. lia. } rewrite X. lia. }
  assert (LC : zlen (concat (map (fun c => b2 (zlen c) ++ c) cas)) = 2 * zlen cas + sum_len cas).
  { clear. induction cas as [|c cs IH]; [reflexivity|]. cbn [map concat]. rewrite !zlen_app, IH, sum_len_cons. change (zlen (b2 _)) with 2. unfold zlen. cbn [length]. lia. }
  rewrite CL. apply fill_fine.
  - apply bytes_app; split; [byt|]. apply bytes_app; split; [byt|]. apply bytes_app; split; [byt|]. apply bytes_app; split; [byt|]. apply bytes_app; split; [destruct hs; byt|]. apply bytes_app; split; [byt|].
    apply bytes_concat_map. intros x Hx. byt. rewrite Forall_forall in B3. auto.
  - rewrite !zlen_app, LC. change (zlen [13]) with 1. change (zlen (b3 _)) with 3. change (zlen [_]) with 1. destruct hs; rewrite ?zlen_app, ?concat_b2_len, ?(@zlen_nil Z); change (zlen (b2 _)) with 2; change (zlen (b2 (zlen sigs * 2))) with 2; lia.
  - pose proof (zlen_nonneg sigs). change (2 ^ 20) with 1048576 in *. change (2 ^ 40) with 1099511627776 in *. change (2 ^ 50) with 1125899906842624. destruct hs; lia.
Qed.
Lemma fineB_status r : bytes r -> zlen r < 2 ^ 24 - 4 -> fineB (m_certificateStatus (1, r)).
Proof.
  intros B Lr. unfold m_certificateStatus. cbn [fst snd]. change (1 =? 1) with true. cbv iota zeta. apply fill_fine; [byt| |].
  - rewrite !zlen_app. change (zlen [22]) with 1. change (zlen (b3 _)) with 3. change (zlen [1]) with 1. change (zlen (b3 (zlen r))) with 3. lia.
  - change (2 ^ 24) with 16777216 in Lr. change (2 ^ 50) with 1125899906842624. lia.
Qed.
Lemma alpn_strings_len ps : zlen (alpn_strings ps) = zlen ps + sum_len ps.
Proof. induction ps as [|p ps IH]; [reflexivity|]. unfold alpn_strings in *. cbn [map concat]. rewrite zlen_app, IH, sum_len_cons. unfold zlen. cbn [length]. lia. Qed.

(** Property theorems for the handshake messages: C63 (round trips), C64 (parsers never crash). *)
From Verif Require Import GoBase GoLemmas TLS_msg_model TLS_msg_proofs.
Open Scope Z_scope.
Ltac Zify.zify_post_hook ::= Z.div_mod_to_equations.

(** ** C64: for every byte string each parser returns true or false; it never reads out of range and always terminates *)
Theorem C64_clientHello : forall m d, bytes d -> u_clientHello m d <> Panic.
Proof.
  intros m d Hb. apply (post_no_panic _ (fun _ => True)). unfold u_clientHello. cbv zeta. repeat pstep.
  apply post_wrun; [|assumption]. apply np_ext_body. exact np_ch_ext.
Qed.
Theorem C64_serverHello : forall m d, bytes d -> u_serverHello m d <> Panic.
Proof.
  intros m d Hb. apply (post_no_panic _ (fun _ => True)). unfold u_serverHello. cbv zeta. repeat pstep.
  apply post_wrun; [|assumption]. apply np_ext_body. exact np_sh_ext.
Qed.
Theorem C64_certificate : forall d, bytes d -> u_certificate d <> Panic.
Proof.
  intros d Hb. apply (post_no_panic _ (fun _ => True)). unfold u_certificate. pstep. pstep. pstep. pstep.
  eapply post_bind; [apply np_count; [assumption| |]|].
  - match goal with H : zlen a0 = _ |- _ => rewrite H end.
    match goal with H : negb (_ =? _) = false |- _ => apply negb_false_iff, Z.eqb_eq in H; rename H into E end.
    unfold u32 in *. rewrite Zminus_mod, E, <- Zminus_mod. symmetry. replace (a + 7 - 7) with a by lia. apply Z.mod_small. lia.
  - unfold zlen in *. lia.
  - intros n [_ HT]. rewrite Nat.sub_0_r in HT. exact HT.
Qed.
Theorem C64_serverKeyExchange : forall d, bytes d -> u_serverKeyExchange d <> Panic.
Proof. intros d Hb. apply (post_no_panic _ (fun _ => True)). unfold u_serverKeyExchange. repeat pstep. Qed.
Theorem C64_clientKeyExchange : forall d, bytes d -> u_clientKeyExchange d <> Panic.
Proof. intros d Hb. apply (post_no_panic _ (fun _ => True)). unfold u_clientKeyExchange. repeat pstep. Qed.
Theorem C64_finished : forall d, bytes d -> u_finished d <> Panic.
Proof. intros d Hb. apply (post_no_panic _ (fun _ => True)). unfold u_finished. repeat pstep. Qed.
Theorem C64_certificateStatus : forall d, bytes d -> u_certificateStatus d <> Panic.
Proof. intros d Hb. apply (post_no_panic _ (fun _ => True)). unfold u_certificateStatus. repeat pstep. Qed.
Theorem C64_serverHelloDone : forall d, u_serverHelloDone d <> Panic.
Proof. intros d. unfold u_serverHelloDone, fails. destruct (negb _); discriminate. Qed.
Theorem C64_helloRequest : forall d, u_helloRequest d <> Panic.
Proof. intros d. unfold u_helloRequest, fails. destruct (negb _); discriminate. Qed.
Theorem C64_nextProto : forall d, bytes d -> u_nextProto d <> Panic.
Proof. intros d Hb. apply (post_no_panic _ (fun _ => True)). unfold u_nextProto. repeat pstep. Qed.
Theorem C64_certificateRequest : forall hasSig d, bytes d -> u_certificateRequest hasSig d <> Panic.
Proof.
  intros hasSig d Hb. apply (post_no_panic _ (fun _ => True)). unfold u_certificateRequest. repeat pstep.
  eapply (post_bind _ _ (fun sd => bytes (snd sd))).
  { destruct hasSig; [|cbn; assumption]. repeat pstep. cbn [post snd]. assumption. }
  intros [sg dd] Hd. cbn [snd fst] in *. cbv zeta. repeat pstep.
  eapply post_bind; [apply post_wrun; [exact np_ca_body|assumption]|]. intros ? _. repeat pstep.
Qed.
Theorem C64_certificateRequestGM : forall d, bytes d -> u_certificateRequestGM d <> Panic.
Proof. intros d Hb. now apply C64_certificateRequest. Qed.
Theorem C64_certificateVerify : forall hasSig alg0 d, bytes d -> u_certificateVerify hasSig alg0 d <> Panic.
Proof.
  intros hasSig alg0 d Hb. apply (post_no_panic _ (fun _ => True)). unfold u_certificateVerify. repeat pstep.
  eapply (post_bind _ _ (fun sd => bytes (snd sd))).
  { destruct hasSig; [|cbn; assumption]. repeat pstep. cbn [post snd]. assumption. }
  intros [sg dd] Hd. cbn [snd fst] in *. cbv zeta. repeat pstep.
Qed.
Theorem C64_newSessionTicket : forall d, bytes d -> u_newSessionTicket d <> Panic.
Proof. intros d Hb. apply (post_no_panic _ (fun _ => True)). unfold u_newSessionTicket. repeat pstep. Qed.

(** ** C63 *)
(** the encoding of a handshake message: type, 24-bit length of the body, body *)
Definition framed (t : Z) (w : list Z) : Prop := exists body, w = t :: be_bytes 3 (zlen body) ++ body.
Lemma framed_intro t n body : zlen body = n -> framed t ([t] ++ b3 n ++ body).
Proof. intros <-. exists body. rewrite b3_be. reflexivity. Qed.
#[local] Opaque be_bytes u32 b2 b3.
Ltac lens := rewrite ?zlen_cons, ?zlen_app, ?zlen_cons, ?zlen_app, ?zlen_cons, ?zlen_b2, ?zlen_b3, ?(@zlen_nil Z), ?zlen_u16s, ?zlen_alpn, ?zlen_cas.

Theorem C63_serverKeyExchange : forall key, exists w, m_serverKeyExchange key = Ok w /\ framed 12 w /\ u_serverKeyExchange w = Ok key.
Proof.
  intros key. unfold m_serverKeyExchange. rewrite fill_exact by (lens; lia). eexists. split; [reflexivity|]. split; [now apply framed_intro|].
  unfold u_serverKeyExchange. pose proof (zlen_nonneg key). rewrite fails_false by (lens; lia). apply (sl_from_at _ ([12] ++ b3 (zlen key))); [now rewrite <- app_assoc|reflexivity].
Qed.
Theorem C63_clientKeyExchange : forall ct, zlen ct < 2 ^ 24 -> exists w, m_clientKeyExchange ct = Ok w /\ framed 16 w /\ u_clientKeyExchange w = Ok ct.
Proof.
  intros ct Hl. unfold m_clientKeyExchange. rewrite fill_exact by (lens; lia). eexists. split; [reflexivity|]. split; [now apply framed_intro|].
  unfold u_clientKeyExchange. pose proof (zlen_nonneg ct). rewrite fails_false by (lens; lia).
  rewrite (be24_at _ [16] (zlen ct) ct 1 eq_refl eq_refl) by lia. cbn [rbind]. rewrite fails_false by (lens; lia).
  apply (sl_from_at _ ([16] ++ b3 (zlen ct))); [now rewrite <- app_assoc|reflexivity].
Qed.
Theorem C63_finished : forall vd, zlen vd <= 255 -> exists w, m_finished vd = Ok w /\ framed 20 w /\ u_finished w = Ok vd.
Proof.
  intros vd Hl. unfold m_finished. pose proof (zlen_nonneg vd). rewrite fill_exact by (lens; lia). eexists. split; [reflexivity|]. split.
  - exists vd. Transparent be_bytes. cbn [be_bytes app]. unfold u8. rewrite (Z.mod_small (zlen vd)) by lia. rewrite (Z.div_small (zlen vd)) by lia.
    change (2 ^ 8) with 256. rewrite (Z.mod_small (zlen vd)) by lia. reflexivity.
  - unfold u_finished. rewrite fails_false by (lens; lia). now apply (sl_from_at _ [20; 0; 0; u8 (zlen vd)]).
Qed.
Opaque be_bytes.
Theorem C63_certificateStatus : forall st resp, is_byte st -> zlen resp + 4 < 2 ^ 24 -> (st <> 1 -> resp = []) ->
  exists w, m_certificateStatus (st, resp) = Ok w /\ framed 22 w /\ u_certificateStatus w = Ok (st, resp).
Proof.
  intros st resp Hs Hl Hn. unfold m_certificateStatus. cbn [fst snd]. destruct (Z.eqb_spec st 1) as [->|Hst].
  - pose proof (zlen_nonneg resp). rewrite fill_exact by (lens; lia). eexists. split; [reflexivity|]. split; [apply framed_intro; lens; lia|].
    replace (zlen resp + 4 - 4) with (zlen resp) by lia. unfold u_certificateStatus. rewrite fails_false by (lens; lia).
    rewrite (idx_at _ ([22] ++ b3 (zlen resp + 4)) 1 (b3 (zlen resp) ++ resp) 4); [|now rewrite <- app_assoc|reflexivity]. cbn [rbind Z.eqb Pos.eqb].
    rewrite fails_false by (lens; lia).
    rewrite (be24_at _ ([22] ++ b3 (zlen resp + 4) ++ [1]) (zlen resp) resp 5); [|now rewrite <- !app_assoc|reflexivity|lia]. cbn [rbind].
    rewrite fails_false. 2: { lens. apply negb_false_iff, Z.eqb_eq. f_equal. lia. }
    rewrite (sl_from_at _ ([22] ++ b3 (zlen resp + 4) ++ [1] ++ b3 (zlen resp)) resp 8); [|now rewrite <- !app_assoc|reflexivity]. reflexivity.
  - rewrite (Hn Hst). eexists. split; [reflexivity|]. split; [exists [st]; reflexivity|]. unfold u_certificateStatus. rewrite fails_false by (lens; lia).
    rewrite (idx_at [22; 0; 0; 1; st] [22; 0; 0; 1] st [] 4 eq_refl eq_refl). cbn [rbind]. destruct (Z.eqb_spec st 1); [contradiction|]. reflexivity.
Qed.
Theorem C63_serverHelloDone : framed 14 m_serverHelloDone /\ u_serverHelloDone m_serverHelloDone = Ok tt.
Proof. split; [exists []; reflexivity|reflexivity]. Qed.
Theorem C63_helloRequest : framed 0 m_helloRequest /\ u_helloRequest m_helloRequest = Ok tt.
Proof. split; [exists []; reflexivity|reflexivity]. Qed.
Theorem C63_nextProto : forall proto, zlen proto <= 255 -> exists w, m_nextProto proto = Ok w /\ framed 67 w /\ u_nextProto w = Ok proto.
Proof.
  intros proto Hl. unfold m_nextProto. pose proof (zlen_nonneg proto). destruct (Z.ltb_spec 255 (zlen proto)); [lia|]. cbv zeta.
  set (pad := 32 - (zlen proto + 2) mod 32). assert (Hp : 1 <= pad <= 32) by (unfold pad; pose proof (Z.mod_pos_bound (zlen proto + 2) 32); lia).
  clearbody pad. replace (firstn (Z.to_nat (zlen proto)) proto) with proto by (unfold zlen; rewrite Nat2Z.id, firstn_all; reflexivity).
  unfold fill. lens. destruct (Z.leb_spec (1 + 0 + (3 + (1 + 0 + (zlen proto + (1 + 0))))) (zlen proto + pad + 2 + 4)); [|lia].
  replace (zlen proto + pad + 2 + 4 - (1 + 0 + (3 + (1 + 0 + (zlen proto + (1 + 0)))))) with pad by lia.
  eexists. split; [reflexivity|]. rewrite !u8_small by lia.
  assert (Ez : zlen (zeros (Z.to_nat pad)) = pad) by (rewrite zlen_zeros; lia).
  set (zs := zeros (Z.to_nat pad)) in *. clearbody zs. rewrite <- !app_assoc. split; [apply framed_intro; lens; lia|].
  unfold u_nextProto. rewrite fails_false by (lens; lia).
  rewrite (sl_from_at _ ([67] ++ b3 (zlen proto + pad + 2)) ([zlen proto] ++ proto ++ [pad] ++ zs) 4); [|now rewrite <- app_assoc|reflexivity]. cbn [rbind app].
  rewrite idx_hd. cbn [rbind]. rewrite tl_hd. cbn [rbind]. rewrite fails_false by (lens; lia).
  rewrite (sl_to_at _ proto (pad :: zs) _ eq_refl eq_refl). cbn [rbind]. rewrite (sl_from_at _ proto (pad :: zs) _ eq_refl eq_refl). cbn [rbind].
  rewrite fails_false by (lens; pose proof (zlen_nonneg zs); lia). rewrite idx_hd. cbn [rbind]. rewrite tl_hd. cbn [rbind]. rewrite fails_false by (rewrite Ez; lia). reflexivity.
Qed.
Theorem C63_newSessionTicket : forall t, zlen t < 2 ^ 16 -> exists w, m_newSessionTicket t = Ok w /\ framed 4 w /\ u_newSessionTicket w = Ok t.
Proof.
  intros t Hl. unfold m_newSessionTicket. cbv zeta. pose proof (zlen_nonneg t). rewrite fill_exact by (lens; lia). eexists. split; [reflexivity|]. split; [apply framed_intro; lens; lia|].
  unfold u_newSessionTicket. rewrite fails_false by (lens; lia).
  rewrite (be24_at _ [4] (2 + 4 + zlen t) ([0; 0; 0; 0] ++ b2 (zlen t) ++ t) 1 eq_refl eq_refl) by lia. cbn [rbind].
  rewrite fails_false. 2: { lens. rewrite u32_sub. apply negb_false_iff, Z.eqb_eq. rewrite u32_small; lia. }
  rewrite (be16_at _ ([4] ++ b3 (2 + 4 + zlen t) ++ [0; 0; 0; 0]) (zlen t) t 8); [|now rewrite <- !app_assoc|reflexivity|lia]. cbn [rbind].
  rewrite fails_false by (lens; lia). apply (sl_from_at _ ([4] ++ b3 (2 + 4 + zlen t) ++ [0; 0; 0; 0] ++ b2 (zlen t))); [now rewrite <- !app_assoc|reflexivity].
Qed.
(** in TLS < 1.2 and GMSSL (hasSig = false) the algorithm is not transmitted: the receiver keeps its own value *)
Theorem C63_certificateVerify : forall hasSig alg sig alg0, 0 <= alg < 2 ^ 16 -> zlen sig < 2 ^ 16 ->
  exists w, m_certificateVerify hasSig (alg, sig) = Ok w /\ framed 15 w /\ u_certificateVerify hasSig alg0 w = Ok (if hasSig then alg else alg0, sig).
Proof.
  intros hasSig alg sig alg0 Ha Hl. unfold m_certificateVerify. cbv zeta. cbn [fst snd]. pose proof (zlen_nonneg sig).
  rewrite fill_exact by (destruct hasSig; lens; lia). eexists. split; [reflexivity|]. split; [apply framed_intro; destruct hasSig; lens; lia|].
  unfold u_certificateVerify. set (n := 2 + zlen sig + (if hasSig then 2 else 0)). assert (Hn : 0 <= n < 2 ^ 24) by (unfold n; destruct hasSig; lia).
  rewrite fails_false by (destruct hasSig; lens; lia).
  rewrite (be24_at _ [15] n _ 1 eq_refl eq_refl) by lia. cbn [rbind].
  rewrite fails_false. 2: { rewrite u32_sub. apply negb_false_iff, Z.eqb_eq. unfold n. destruct hasSig; lens; rewrite u32_small; lia. }
  rewrite (sl_from_at _ ([15] ++ b3 n) ((if hasSig then b2 alg else []) ++ b2 (zlen sig) ++ sig) 4); [|now rewrite <- !app_assoc|reflexivity]. cbn [rbind].
  assert (E : (if hasSig then do a <- be16 ((if hasSig then b2 alg else []) ++ b2 (zlen sig) ++ sig) 0; do data <- sl_from ((if hasSig then b2 alg else []) ++ b2 (zlen sig) ++ sig) 2; Ok (a, data)
               else Ok (alg0, (if hasSig then b2 alg else []) ++ b2 (zlen sig) ++ sig)) = Ok (if hasSig then alg else alg0, b2 (zlen sig) ++ sig)).
  { destruct hasSig; [|reflexivity]. rewrite be16_hd by lia. cbn [rbind]. rewrite (sl_from_at _ (b2 alg) _ 2 eq_refl eq_refl). reflexivity. }
  rewrite E. cbn [rbind snd fst]. rewrite fails_false by (lens; lia). rewrite be16_hd by lia. cbn [rbind].
  rewrite (sl_from_at _ (b2 (zlen sig)) sig 2 eq_refl eq_refl). cbn [rbind]. rewrite fails_false by lia. reflexivity.
Qed.

(** ** Certificate *)
Definition cert_ok (c : list Z) : Prop := bytes c /\ 1 <= zlen c < 2 ^ 24.
Definition cert_wire (c : list Z) : list Z := b3 (zlen c) ++ c.
Lemma zlen_certs cs : zlen (concat (map cert_wire cs)) = 3 * zlen cs + sum_len cs.
Proof. induction cs as [|c cs IH]; [reflexivity|]. cbn [map concat]. unfold cert_wire at 1. rewrite sum_len_cons. lens. rewrite IH. lia. Qed.
Lemma count_enc cs : Forall cert_ok cs -> forall fuel n, (length cs < fuel)%nat -> zlen (concat (map cert_wire cs)) < 2 ^ 24 ->
  count_certs fuel (zlen (concat (map cert_wire cs))) n (concat (map cert_wire cs)) = Ok (n + length cs)%nat.
Proof.
  induction 1 as [|c cs [Bc Lc] _ IH]; intros fuel n Hf Ht.
  - destruct fuel; cbn; f_equal; lia.
  - destruct fuel as [|fuel]; [cbn [length] in Hf; lia|]. cbn [length] in Hf. pose proof (zlen_nonneg (concat (map cert_wire cs))) as Hz.
    cbn [map concat] in *. unfold cert_wire at 1 in Ht. unfold cert_wire at 1 3. rewrite <- !app_assoc in *. set (R := concat (map cert_wire cs)) in *.
    repeat rewrite zlen_app, ?zlen_b3 in Ht. cbn [count_certs]. assert (EL : zlen (b3 (zlen c) ++ c ++ R) = 3 + (zlen c + zlen R)) by (lens; lia).
    rewrite EL. destruct (Z.ltb_spec 0 (3 + (zlen c + zlen R))); [|lia].
    rewrite fails_false by lia. rewrite (be24_at _ [] (zlen c) (c ++ R) 0) by (reflexivity || lia). cbn [rbind].
    rewrite !(u32_small (3 + zlen c)) by lia. rewrite (u32_small (3 + (zlen c + zlen R))) by lia. rewrite fails_false by lia.
    rewrite (sl_from_at _ (b3 (zlen c) ++ c) R (3 + zlen c)); [|now rewrite <- app_assoc|lens; lia]. cbn [rbind].
    replace (3 + (zlen c + zlen R) - (3 + zlen c)) with (zlen R) by lia. rewrite u32_small by lia. rewrite IH by lia. f_equal. cbn [length]. lia.
Qed.
Lemma take_enc cs : Forall cert_ok cs -> take_certs (length cs) (concat (map cert_wire cs)) = Ok cs.
Proof.
  induction 1 as [|c cs [Bc Lc] _ IH]; [reflexivity|]. cbn [length map concat take_certs]. unfold cert_wire at 1 2 3. rewrite <- !app_assoc. set (R := concat (map cert_wire cs)) in *.
  rewrite (be24_at _ [] (zlen c) (c ++ R) 0) by (reflexivity || lia). cbn [rbind]. rewrite u32_small by lia.
  rewrite (sl_at _ (b3 (zlen c)) c R 3 (3 + zlen c) eq_refl eq_refl eq_refl). cbn [rbind].
  rewrite (sl_from_at _ (b3 (zlen c) ++ c) R (3 + zlen c)); [|now rewrite <- app_assoc|lens; lia]. cbn [rbind]. rewrite IH. reflexivity.
Qed.
Theorem C63_certificate : forall certs, Forall cert_ok certs -> 3 * zlen certs + sum_len certs < 2 ^ 24 - 3 ->
  exists w, m_certificate certs = Ok w /\ framed 11 w /\ u_certificate w = Ok certs.
Proof.
  intros cs HF Hl. unfold m_certificate. cbv zeta. pose proof (zlen_nonneg cs). pose proof (sum_len_nonneg cs).
  change (fun c : list Z => b3 (zlen c) ++ c) with cert_wire. pose proof (zlen_certs cs) as EZ.
  rewrite fill_exact by (lens; lia). eexists. split; [reflexivity|]. split; [apply framed_intro; lens; lia|].
  set (n := 3 + 3 * zlen cs + sum_len cs). replace (n - 3) with (zlen (concat (map cert_wire cs))) by (unfold n; lia).
  set (R := concat (map cert_wire cs)) in *. unfold u_certificate. rewrite fails_false by (lens; lia).
  rewrite (be24_at _ ([11] ++ b3 n) (zlen R) R 4); [|now rewrite <- app_assoc|reflexivity|lia]. cbn [rbind].
  rewrite fails_false. 2: { lens. apply negb_false_iff, Z.eqb_eq. f_equal. lia. }
  rewrite (sl_from_at _ ([11] ++ b3 n ++ b3 (zlen R)) R 7); [|now rewrite <- !app_assoc|reflexivity]. cbn [rbind].
  unfold R at 2 3. rewrite count_enc; [|exact HF| |fold R; lia].
  - cbn [rbind]. rewrite Nat.add_0_l. now apply take_enc.
  - assert (length cs <= length R)%nat by (unfold zlen in *; pose proof (sum_len_nonneg cs); lia). fold R. rewrite !app_length. lia.
Qed.

(** ** CertificateRequest (and its GM form, without algorithms) *)
Definition cr_ok (hasSig : bool) (m : certRequest) : Prop :=
  bytes (cr_types m) /\ 1 <= zlen (cr_types m) <= 255 /\ u16s (cr_sigs m) /\ 2 * zlen (cr_sigs m) < 2 ^ 16 /\
  Forall ca_ok (cr_cas m) /\ cas_len (cr_cas m) < 2 ^ 16 /\ (hasSig = false -> cr_sigs m = []).
Lemma land1_even n : Z.land (2 * n) 1 = 0.
Proof. change 1 with (Z.ones 1). rewrite Z.land_ones by lia. change (2 ^ 1) with 2. lia. Qed.
Theorem C63_certificateRequest : forall hasSig m, cr_ok hasSig m ->
  exists w, m_certificateRequest hasSig m = Ok w /\ framed 13 w /\ u_certificateRequest hasSig w = Ok m.
Proof.
  intros hasSig [types sigs cas] (Bt & Lt & Hs & Ls & Hc & Lc & Hn). cbn [cr_types cr_sigs cr_cas] in *.
  unfold m_certificateRequest. cbv zeta. cbn [cr_types cr_sigs cr_cas].
  pose proof (zlen_cas cas) as EC. set (CC := concat (map (fun c : list Z => b2 (zlen c) ++ c) cas)) in *.
  pose proof (zlen_u16s sigs) as ES. set (SS := concat (map b2 sigs)) in *. pose proof (zlen_nonneg CC). pose proof (zlen_nonneg sigs).
  rewrite <- EC. set (n := 1 + zlen types + 2 + zlen CC + (if hasSig then 2 + 2 * zlen sigs else 0)).
  assert (Hnn : 0 <= n < 2 ^ 24) by (unfold n; destruct hasSig; lia).
  assert (EB : zlen ([u8 (zlen types)] ++ types ++ (if hasSig then b2 (zlen sigs * 2) ++ SS else []) ++ b2 (zlen CC) ++ CC) = n) by (unfold n; destruct hasSig; lens; lia).
  rewrite fill_exact by (rewrite !(zlen_app [13]), (zlen_app (b3 n)), EB; lens; lia). eexists. split; [reflexivity|]. split; [now apply framed_intro|].
  unfold u_certificateRequest. rewrite fails_false by (rewrite (zlen_app [13]), (zlen_app (b3 n)), EB; lens; unfold n; destruct hasSig; lia).
  rewrite (be24_at _ [13] n _ 1 eq_refl eq_refl) by lia. cbn [rbind].
  rewrite fails_false. 2: { rewrite (zlen_app [13]), (zlen_app (b3 n)), EB, u32_sub. lens. apply negb_false_iff, Z.eqb_eq. rewrite u32_small; lia. }
  rewrite u8_small by lia.
  rewrite (idx_at _ ([13] ++ b3 n) (zlen types) (types ++ (if hasSig then b2 (zlen sigs * 2) ++ SS else []) ++ b2 (zlen CC) ++ CC) 4); [|now rewrite <- app_assoc|reflexivity].
  cbn [rbind]. rewrite (sl_from_at _ ([13] ++ b3 n ++ [zlen types]) (types ++ (if hasSig then b2 (zlen sigs * 2) ++ SS else []) ++ b2 (zlen CC) ++ CC) 5); [|now rewrite <- !app_assoc|reflexivity].
  cbn [rbind]. rewrite fails_false by (pose proof (zlen_nonneg SS); destruct hasSig; lens; lia).
  rewrite (sl_to_at _ types _ _ eq_refl eq_refl). cbn [rbind]. rewrite (sl_from_at _ types _ _ eq_refl eq_refl). cbn [rbind].
  match goal with |- rbind ?X _ = _ => assert (EX : X = Ok (sigs, b2 (zlen CC) ++ CC)) end.
  { destruct hasSig; [|rewrite (Hn eq_refl); reflexivity]. rewrite <- !app_assoc. rewrite fails_false by (lens; lia). rewrite be16_hd by lia. cbn [rbind].
    rewrite (sl_from_at _ (b2 (zlen sigs * 2)) _ 2 eq_refl eq_refl). cbn [rbind].
    rewrite (Z.mul_comm (zlen sigs) 2). rewrite land1_even. rewrite fails_false by reflexivity. rewrite fails_false by (lens; lia).
    replace (2 * zlen sigs / 2) with (zlen sigs) by lia. replace (Z.to_nat (zlen sigs)) with (length sigs) by (unfold zlen; lia).
    unfold SS at 1. rewrite rd_u16s_at by exact Hs. cbn [rbind]. rewrite (sl_from_at _ SS _ (2 * zlen sigs) eq_refl ES). reflexivity. }
  rewrite EX. cbn [rbind snd fst]. rewrite fails_false by (lens; lia). rewrite be16_hd by lia. cbn [rbind].
  rewrite (sl_from_at _ (b2 (zlen CC)) CC 2 eq_refl eq_refl). cbn [rbind]. rewrite fails_false by lia.
  rewrite (sl_to_at CC CC [] (zlen CC)), (sl_from_at CC CC [] (zlen CC)) by (now rewrite ?app_nil_r). cbn [rbind].
  rewrite (runs_wrun ca_body [] CC cas); [reflexivity|]. apply (runs_list ca_body (fun c => b2 (zlen c) ++ c) ca_ok ca_item cas Hc []).
Qed.
Theorem C63_certificateRequestGM : forall types cas, cr_ok false (mkCR types [] cas) ->
  exists w, m_certificateRequestGM types cas = Ok w /\ framed 13 w /\ u_certificateRequestGM w = Ok (mkCR types [] cas).
Proof. intros types cas H. exact (C63_certificateRequest false (mkCR types [] cas) H). Qed.

(** ** ClientHello *)
Definition ch_ok (m : clientHello) : Prop :=
  0 <= ch_vers m < 2 ^ 16 /\ length (ch_random m) = 32%nat /\ zlen (ch_sessionId m) <= 32 /\
  u16s (ch_suites m) /\ 2 * zlen (ch_suites m) < 2 ^ 16 /\ zlen (ch_comp m) <= 255 /\
  (ch_sni m <> [] -> last (ch_sni m) 0 <> 46) /\ u16s (ch_curves m) /\ zlen (ch_points m) <= 255 /\ u16s (ch_sigalgs m) /\
  zlen (ch_reneg m) <= 254 /\ Forall short_name (ch_alpn m) /\
  (ch_ticketOn m = false -> ch_ticket m = []) /\ (ch_renegOn m = false -> ch_reneg m = [] /\ ~ In 0x00ff (ch_suites m)) /\
  (* the extensions fit in their 16-bit length *)
  zlen (ch_extensions m) < 2 ^ 16.
Lemma copy32_id r : length r = 32%nat -> copy32 r = r.
Proof. intros H. unfold copy32. rewrite H, Nat.sub_diag, firstn_all2 by lia. cbn [zeros repeat]. apply app_nil_r. Qed.
Lemma len_pos {X} (l : list X) : (0 <? zlen l) = false -> l = [].
Proof. destruct l; [reflexivity|]. rewrite zlen_cons. pose proof (zlen_nonneg l). lia. Qed.
Lemma ch_ext_len m : zlen (ch_extensions m) = ch_extLen m + 4 * ch_numExt m.
Proof.
  unfold ch_extensions, ch_extLen, ch_numExt.
  assert (G : forall (c : bool) (e : list Z) (n : Z), zlen e = n + 4 -> zlen (if c then e else []) = (if c then n else 0) + 4 * Z.b2z c).
  { intros [|] e n He; [rewrite He; cbn; lia|reflexivity]. }
  rewrite !zlen_app.
  rewrite (G (ch_npn m) _ 0) by (lens; lia). rewrite (G (0 <? zlen (ch_sni m)) _ (5 + zlen (ch_sni m))) by (lens; lia).
  rewrite (G (ch_ocsp m) _ (1 + 2 + 2)) by (lens; lia). rewrite (G (0 <? zlen (ch_curves m)) _ (2 + 2 * zlen (ch_curves m))) by (lens; lia).
  rewrite (G (0 <? zlen (ch_points m)) _ (1 + zlen (ch_points m))) by (lens; lia). rewrite (G (ch_ticketOn m) _ (zlen (ch_ticket m))) by (lens; lia).
  rewrite (G (0 <? zlen (ch_sigalgs m)) _ (2 + 2 * zlen (ch_sigalgs m))) by (lens; lia). rewrite (G (ch_renegOn m) _ (1 + zlen (ch_reneg m))) by (lens; lia).
  rewrite (G (0 <? zlen (ch_alpn m)) _ (2 + (zlen (ch_alpn m) + sum_len (ch_alpn m)))) by (lens; lia). rewrite (G (ch_scts m) _ 0) by (lens; lia).
  destruct (ch_npn m), (ch_scts m); lia.
Qed.
Lemma opt_len (c : bool) (e : list Z) n : 0 <= n -> zlen (if c then e else []) <= n -> c = true -> zlen e <= n.
Proof. intros H1 H2 ->. exact H2. Qed.

(** the extensions, one by one; [mk] = the receiver's fields *)
Ltac norm := rewrite <- ?app_assoc.
Lemma x_npn a rest : ext_body ch_ext a ((b2 13172 ++ [0; 0]) ++ rest) = Ok (set_ch_npn a true, rest).
Proof. apply (ext_item ch_ext a 13172 [] rest); [lia|reflexivity|reflexivity]. Qed.
Lemma x_scts a rest : ext_body ch_ext a ((b2 18 ++ [0; 0]) ++ rest) = Ok (set_ch_scts a true, rest).
Proof. apply (ext_item ch_ext a 18 [] rest); [lia|reflexivity|reflexivity]. Qed.
Lemma x_ocsp a rest : ext_body ch_ext a ((b2 5 ++ [0; 5; 1; 0; 0; 0; 0]) ++ rest) = Ok (set_ch_ocsp a true, rest).
Proof. apply (ext_item ch_ext a 5 [1; 0; 0; 0; 0] rest); [lia|reflexivity|reflexivity]. Qed.
Lemma x_sni a s rest : s <> [] -> last s 0 <> 46 -> zlen s + 5 < 65536 ->
  ext_body ch_ext a ((b2 0 ++ b2 (zlen s + 5) ++ b2 (zlen s + 3) ++ [0] ++ b2 (zlen s) ++ s) ++ rest) = Ok (set_ch_sni a s, rest).
Proof.
  intros Hne Hd Hl. pose proof (zlen_nonneg s). set (body := b2 (zlen s + 3) ++ [0] ++ b2 (zlen s) ++ s).
  assert (EL : zlen s + 5 = zlen body) by (unfold body; lens; lia). rewrite EL. apply ext_item; [lia|lia|].
  unfold ch_ext. cbn [Z.eqb Pos.eqb]. rewrite (sl_to_at _ body rest _ eq_refl eq_refl). cbn [rbind].
  rewrite fails_false by lia. unfold body. rewrite be16_hd by lia. cbn [rbind]. rewrite (sl_from_at _ (b2 (zlen s + 3)) _ 2 eq_refl eq_refl). cbn [rbind].
  rewrite fails_false by (lens; lia). apply runs_wrun.
  eapply runs_step; [discriminate| |  |apply runs_nil].
  - unfold sni_body. cbn [app]. rewrite fails_false by (lens; lia). rewrite idx_hd. cbn [rbind].
    rewrite (be16_at (0 :: b2 (zlen s) ++ s) [0] (zlen s) s 1 eq_refl eq_refl) by lia. cbn [rbind].
    rewrite (sl_from_at (0 :: b2 (zlen s) ++ s) (0 :: b2 (zlen s)) s 3 eq_refl eq_refl). cbn [rbind]. rewrite fails_false by lia.
    rewrite (sl_to_at s s [] (zlen s)) by (now rewrite ?app_nil_r). cbn [rbind Z.eqb]. rewrite fails_false by lia. reflexivity.
  - cbn [app length]. lia.
Qed.
Lemma u16_list_read cs rest : u16s cs -> rd_u16s (Z.to_nat (2 * zlen cs / 2)) (concat (map b2 cs) ++ rest) = Ok cs.
Proof.
  intros H. replace (Z.to_nat (2 * zlen cs / 2)) with (length cs) by (unfold zlen; lia). now apply rd_u16s_at.
Qed.
Lemma x_curves a cs rest : u16s cs -> 2 + 2 * zlen cs < 65536 ->
  ext_body ch_ext a ((b2 10 ++ b2 (2 + 2 * zlen cs) ++ b2 (2 * zlen cs) ++ concat (map b2 cs)) ++ rest) = Ok (set_ch_curves a cs, rest).
Proof.
  intros Hc Hl. pose proof (zlen_nonneg cs). set (body := b2 (2 * zlen cs) ++ concat (map b2 cs)).
  assert (EL : 2 + 2 * zlen cs = zlen body) by (unfold body; lens; lia). rewrite EL. apply ext_item; [lia|lia|].
  rewrite <- EL. unfold ch_ext. cbn [Z.eqb Pos.eqb]. rewrite fails_false by lia. unfold body. rewrite <- app_assoc. rewrite be16_hd by lia. cbn [rbind].
  rewrite fails_false by (rewrite orb_false_iff; split; lia). rewrite (sl_from_at _ (b2 (2 * zlen cs)) _ 2 eq_refl eq_refl). cbn [rbind].
  rewrite u16_list_read by exact Hc. reflexivity.
Qed.
Lemma x_sigalgs a cs rest : u16s cs -> 2 + 2 * zlen cs < 65536 ->
  ext_body ch_ext a ((b2 13 ++ b2 (2 + 2 * zlen cs) ++ b2 (2 * zlen cs) ++ concat (map b2 cs)) ++ rest) = Ok (set_ch_sigalgs a cs, rest).
Proof.
  intros Hc Hl. pose proof (zlen_nonneg cs). set (body := b2 (2 * zlen cs) ++ concat (map b2 cs)).
  assert (EL : 2 + 2 * zlen cs = zlen body) by (unfold body; lens; lia). rewrite EL. apply ext_item; [lia|lia|].
  rewrite <- EL. unfold ch_ext. cbn [Z.eqb Pos.eqb]. rewrite fails_false.
  2: { replace (2 + 2 * zlen cs) with (2 * (1 + zlen cs)) by lia. rewrite land1_even. cbn [Z.eqb negb]. lia. }
  unfold body. rewrite <- app_assoc. rewrite be16_hd by lia. cbn [rbind].
  rewrite fails_false by lia. rewrite (sl_from_at _ (b2 (2 * zlen cs)) _ 2 eq_refl eq_refl). cbn [rbind].
  rewrite u16_list_read by exact Hc. reflexivity.
Qed.
Lemma x_points a ps rest : zlen ps <= 255 ->
  ext_body ch_ext a ((b2 11 ++ b2 (1 + zlen ps) ++ [u8 (zlen ps)] ++ ps) ++ rest) = Ok (set_ch_points a ps, rest).
Proof.
  intros Hl. pose proof (zlen_nonneg ps). rewrite u8_small by lia. set (body := [zlen ps] ++ ps).
  assert (EL : 1 + zlen ps = zlen body) by (unfold body; lens; lia). rewrite EL. apply ext_item; [lia|lia|].
  rewrite <- EL. unfold ch_ext. cbn [Z.eqb Pos.eqb]. rewrite fails_false by lia. unfold body. cbn [app]. rewrite idx_hd. cbn [rbind].
  rewrite fails_false by lia. rewrite tl_hd. cbn [rbind]. do 2 f_equal.
  replace (Z.to_nat (zlen ps)) with (length ps) by (unfold zlen; lia). rewrite firstn_app_l by reflexivity. rewrite app_length.
  replace (length ps - (length ps + length rest))%nat with 0%nat by lia. apply app_nil_r.
Qed.
Lemma x_ticket a t rest : zlen t < 65536 ->
  ext_body ch_ext a ((b2 35 ++ b2 (zlen t) ++ t) ++ rest) = Ok (set_ch_ticket (set_ch_ticketOn a true) t, rest).
Proof.
  intros Hl. apply ext_item; [lia|lia|]. unfold ch_ext. cbn [Z.eqb Pos.eqb]. rewrite (sl_to_at _ t rest _ eq_refl eq_refl). reflexivity.
Qed.
Lemma x_reneg a r rest : zlen r <= 254 ->
  ext_body ch_ext a ((b2 0xff01 ++ [0; u8 (zlen r + 1)] ++ [u8 (zlen r)] ++ r) ++ rest) = Ok (set_ch_renegOn (set_ch_reneg a r) true, rest).
Proof.
  intros Hl. pose proof (zlen_nonneg r). rewrite <- b2_small by lia. rewrite u8_small by lia. set (body := [zlen r] ++ r).
  assert (EL : zlen r + 1 = zlen body) by (unfold body; lens; lia). rewrite EL. apply ext_item; [lia|lia|].
  unfold ch_ext. cbn [Z.eqb Pos.eqb]. rewrite fails_false by lia. rewrite (sl_to_at _ body rest _ eq_refl eq_refl). cbn [rbind]. unfold body. cbn [app].
  rewrite idx_hd. cbn [rbind]. rewrite tl_hd. cbn [rbind]. rewrite fails_false by lia. reflexivity.
Qed.
Lemma x_alpn a ps rest : Forall short_name ps -> ch_alpn a = [] -> zlen (alpn_strings ps) + 2 < 65536 ->
  ext_body ch_ext a ((b2 16 ++ b2 (zlen (alpn_strings ps) + 2) ++ b2 (zlen (alpn_strings ps)) ++ alpn_strings ps) ++ rest) = Ok (set_ch_alpn a ps, rest).
Proof.
  intros HF Ha Hl. set (ss := alpn_strings ps) in *. pose proof (zlen_nonneg ss). set (body := b2 (zlen ss) ++ ss).
  assert (EL : zlen ss + 2 = zlen body) by (unfold body; rewrite zlen_app, zlen_b2; lia). rewrite EL. apply ext_item; [lia|lia|].
  rewrite <- EL. unfold ch_ext. cbn [Z.eqb Pos.eqb]. rewrite fails_false by lia. unfold body. rewrite <- app_assoc. rewrite be16_hd by lia. cbn [rbind].
  rewrite fails_false by lia. rewrite (sl_at _ (b2 (zlen ss)) ss rest 2 (zlen ss + 2) eq_refl eq_refl) by lia. cbn [rbind]. rewrite Ha.
  rewrite (runs_wrun alpn_body [] ss ps); [reflexivity|]. exact (runs_list alpn_body _ short_name alpn_item ps HF []).
Qed.
Ltac opt_ext L := eapply runs_opt; [discriminate|intros HC; apply L| |].
Lemma ch_ext_runs m (HM : ch_ok m) :
  runs (ext_body ch_ext) (mkCH (ch_vers m) (ch_random m) (ch_sessionId m) (ch_suites m) (ch_comp m) false [] false false [] [] false [] [] []
                           (existsb (fun x => x =? 0x00ff) (ch_suites m)) [])
       (ch_extensions m) m.
Proof.
  destruct HM as (H1 & H2 & H3 & H4 & H5 & H6 & H7 & H8 & H9 & H10 & H11 & H12 & H13 & H14 & H15).
  destruct m as [vers random sid suites comp npn sni ocsp scts curves points tOn ticket sigs reneg rOn alpn].
  cbn [ch_vers ch_random ch_sessionId ch_suites ch_comp ch_npn ch_sni ch_ocsp ch_scts ch_curves ch_points ch_ticketOn ch_ticket ch_sigalgs ch_reneg ch_renegOn ch_alpn] in *.
  unfold ch_extensions in *.
  cbn [ch_vers ch_random ch_sessionId ch_suites ch_comp ch_npn ch_sni ch_ocsp ch_scts ch_curves ch_points ch_ticketOn ch_ticket ch_sigalgs ch_reneg ch_renegOn ch_alpn] in *.
  set (scsv := existsb (fun x => x =? 255) suites).
  assert (H15' := H15). repeat rewrite zlen_app in H15'.
  repeat match type of H15' with context [zlen (if ?c then ?e else [])] =>
    let v := fresh "v" in let Ev := fresh "Ev" in
    pose proof (zlen_nonneg (if c then e else [])); remember (zlen (if c then e else [])) as v eqn:Ev in * end.
  clear H15. change (2 ^ 16) with 65536 in H15'.
  Ltac bound E := match type of E with ?c = true =>
    match goal with Ev : _ = zlen (if c then _ else _) |- _ => rewrite E in Ev; revert Ev; lens; lia end end.
  pose proof (zlen_nonneg sni). pose proof (zlen_nonneg curves). pose proof (zlen_nonneg points). pose proof (zlen_nonneg ticket).
  pose proof (zlen_nonneg sigs). pose proof (zlen_nonneg reneg). pose proof (zlen_nonneg alpn).
  apply (runs_opt _ npn _ _ _ (mkCH vers random sid suites comp npn [] false false [] [] false [] [] [] scsv [])); [discriminate|intros ->; apply x_npn|intros ->; reflexivity|].
  apply (runs_opt _ (0 <? zlen sni) _ _ _ (mkCH vers random sid suites comp npn sni false false [] [] false [] [] [] scsv [])); [discriminate| |intros E; rewrite (len_pos _ E); reflexivity|].
  { intros E. assert (sni <> []) by (intros ->; discriminate). apply x_sni; [assumption|auto|bound E]. }
  apply (runs_opt _ ocsp _ _ _ (mkCH vers random sid suites comp npn sni ocsp false [] [] false [] [] [] scsv [])); [discriminate|intros ->; apply x_ocsp|intros ->; reflexivity|].
  apply (runs_opt _ (0 <? zlen curves) _ _ _ (mkCH vers random sid suites comp npn sni ocsp false curves [] false [] [] [] scsv [])); [discriminate| |intros E; rewrite (len_pos _ E); reflexivity|].
  { intros E. apply x_curves; [assumption|bound E]. }
  apply (runs_opt _ (0 <? zlen points) _ _ _ (mkCH vers random sid suites comp npn sni ocsp false curves points false [] [] [] scsv [])); [discriminate| |intros E; rewrite (len_pos _ E); reflexivity|].
  { intros E. now apply x_points. }
  apply (runs_opt _ tOn _ _ _ (mkCH vers random sid suites comp npn sni ocsp false curves points tOn ticket [] [] scsv [])); [discriminate| |intros E; rewrite (H13 E), E; reflexivity|].
  { intros E. rewrite E. apply x_ticket. bound E. }
  apply (runs_opt _ (0 <? zlen sigs) _ _ _ (mkCH vers random sid suites comp npn sni ocsp false curves points tOn ticket sigs [] scsv [])); [discriminate| |intros E; rewrite (len_pos _ E); reflexivity|].
  { intros E. apply x_sigalgs; [assumption|bound E]. }
  apply (runs_opt _ rOn _ _ _ (mkCH vers random sid suites comp npn sni ocsp false curves points tOn ticket sigs reneg rOn [])); [discriminate| | |].
  { intros E. rewrite E. now apply x_reneg. }
  { intros E. destruct (H14 E) as [-> Hn]. rewrite E. f_equal. unfold scsv. apply not_true_iff_false. intros HE. apply existsb_exists in HE as (x & Hx & Ex). apply Z.eqb_eq in Ex. subst x. contradiction. }
  apply (runs_opt _ (0 <? zlen alpn) _ _ _ (mkCH vers random sid suites comp npn sni ocsp false curves points tOn ticket sigs reneg rOn alpn)); [discriminate| |intros E; rewrite (len_pos _ E); reflexivity|].
  { intros E. apply x_alpn; [assumption|reflexivity|]. bound E. }
  rewrite <- (app_nil_r (if scts then _ else _)).
  apply (runs_opt _ scts _ _ _ (mkCH vers random sid suites comp npn sni ocsp scts curves points tOn ticket sigs reneg rOn alpn)); [discriminate|intros ->; apply x_scts|intros ->; reflexivity|apply runs_nil].
Qed.
Lemma u16_list_len (suites : list Z) : 2 * zlen suites < 2 ^ 16 -> [u8 (Z.shiftr (zlen suites) 7); u8 (Z.shiftl (zlen suites) 1)] = b2 (2 * zlen suites).
Proof.
  Transparent b2. intros H. unfold b2, u8. rewrite Z.shiftl_mul_pow2, !Z.shiftr_div_pow2 by lia. change (2 ^ 8) with 256. change (2 ^ 7) with 128. change (2 ^ 1) with 2.
  f_equal; [f_equal; lia|]. do 2 f_equal. lia.
Qed.
Opaque b2.
Lemma b2z_snoc (r : Z) (b : bool) : r + Z.b2z b <= 0 -> 0 <= r -> r <= 0 /\ b = false.
Proof. destruct b; cbn [Z.b2z]; [lia|]. split; [lia|reflexivity]. Qed.
Lemma b2z_nonneg (b : bool) : 0 <= Z.b2z b. Proof. destruct b; cbn; lia. Qed.
Ltac b2z_pos := repeat apply Z.add_nonneg_nonneg; apply b2z_nonneg.
Ltac none_step H := let E := fresh "E" in apply b2z_snoc in H as [H E]; [rewrite E in *; clear E|b2z_pos].
Lemma ch_none m : ch_numExt m <= 0 -> ch_extensions m = [].
Proof.
  unfold ch_numExt, ch_extensions. intros H. do 9 none_step H. destruct (ch_npn m); [cbn [Z.b2z] in H; lia|reflexivity].
Qed.
Theorem C63_clientHello : forall m, ch_ok m -> exists w, m_clientHello m = Ok w /\ framed 1 w /\ u_clientHello ch_empty w = Ok m.
Proof.
  intros m HM. pose proof (ch_ext_runs m HM) as HR. pose proof (ch_ext_len m) as EX. pose proof (ch_none m) as HNone.
  destruct HM as (H1 & H2 & H3 & H4 & H5 & H6 & _ & _ & _ & _ & _ & H12 & _ & _ & H15).
  unfold m_clientHello. replace (existsb bad_alpn (ch_alpn m)) with false.
  2: { symmetry. apply not_true_iff_false. intros HE. apply existsb_exists in HE as (x & Hx & Ex). rewrite Forall_forall in H12. destruct (H12 x Hx) as [_ Hl]. unfold bad_alpn in Ex. lia. }
  cbv zeta. rewrite u16_list_len by exact H5. rewrite copy32_id by exact H2.
  set (X := ch_extensions m) in *. pose proof (zlen_nonneg X) as HXp.
  set (el := ch_extLen m + (if 0 <? ch_numExt m then 4 * ch_numExt m else 0)).
  set (tail := (if 0 <? ch_numExt m then b2 el else []) ++ X).
  assert (EE : 0 < ch_numExt m -> el = zlen X) by (intros Hp; unfold el; destruct (Z.ltb_spec 0 (ch_numExt m)); lia).
  assert (ET : (if 0 <? ch_numExt m then 2 + el else 0) = zlen tail).
  { unfold tail. destruct (Z.ltb_spec 0 (ch_numExt m)); lens; [rewrite EE; lia|]. rewrite HNone by lia. reflexivity. }
  rewrite ET. set (sid := ch_sessionId m) in *. set (suites := ch_suites m) in *. set (comp := ch_comp m) in *. set (random := ch_random m) in *.
  pose proof (zlen_nonneg sid) as Ps. pose proof (zlen_nonneg suites) as Pu. pose proof (zlen_nonneg comp) as Pc. pose proof (zlen_nonneg tail) as Pt.
  assert (Lr : zlen random = 32) by (unfold zlen; lia).
  set (n := 2 + 32 + 1 + zlen sid + 2 + zlen suites * 2 + 1 + zlen comp + zlen tail).
  change ((if 0 <? ch_numExt m then b2 el else []) ++ X) with tail.
  set (SU := concat (map b2 suites)). assert (LS : zlen SU = 2 * zlen suites) by apply zlen_u16s.
  rewrite fill_exact by (unfold n; lens; lia). eexists. split; [reflexivity|]. split; [apply framed_intro; unfold n; lens; lia|].
  rewrite !u8_small by lia. unfold u_clientHello.
  rewrite fails_false by (lens; lia).
  rewrite (be16_at _ ([1] ++ b3 n) (ch_vers m) (random ++ [zlen sid] ++ sid ++ b2 (2 * zlen suites) ++ SU ++ [zlen comp] ++ comp ++ tail) 4); [|now norm|reflexivity|lia]. cbn [rbind].
  rewrite (sl_at _ ([1] ++ b3 n ++ b2 (ch_vers m)) random ([zlen sid] ++ sid ++ b2 (2 * zlen suites) ++ SU ++ [zlen comp] ++ comp ++ tail) 6 38); [|now norm|reflexivity|lia]. cbn [rbind].
  rewrite (idx_at _ ([1] ++ b3 n ++ b2 (ch_vers m) ++ random) (zlen sid) (sid ++ b2 (2 * zlen suites) ++ SU ++ [zlen comp] ++ comp ++ tail) 38); [|now norm|lens; lia]. cbn [rbind].
  rewrite fails_false by (lens; lia).
  rewrite (sl_at _ ([1] ++ b3 n ++ b2 (ch_vers m) ++ random ++ [zlen sid]) sid (b2 (2 * zlen suites) ++ SU ++ [zlen comp] ++ comp ++ tail) 39 (39 + zlen sid)); [|now norm|lens; lia|lia]. cbn [rbind].
  rewrite (sl_from_at _ ([1] ++ b3 n ++ b2 (ch_vers m) ++ random ++ [zlen sid] ++ sid) (b2 (2 * zlen suites) ++ SU ++ [zlen comp] ++ comp ++ tail) (39 + zlen sid)); [|now norm|lens; lia]. cbn [rbind].
  rewrite fails_false by (lens; lia). rewrite be16_hd by lia. cbn [rbind]. rewrite fails_false by (lens; lia).
  rewrite (sl_from_at _ (b2 (2 * zlen suites)) _ 2 eq_refl eq_refl). cbn [rbind]. unfold SU at 1. rewrite u16_list_read by exact H4. cbn [rbind].
  rewrite (sl_from_at _ (b2 (2 * zlen suites) ++ SU) ([zlen comp] ++ comp ++ tail) (2 + 2 * zlen suites)); [|now norm|lens; lia]. cbn [rbind app].
  rewrite fails_false by (lens; lia). rewrite idx_hd. cbn [rbind]. rewrite fails_false by (lens; lia).
  rewrite (sl_at (zlen comp :: comp ++ tail) [zlen comp] comp tail 1 (1 + zlen comp) eq_refl eq_refl eq_refl). cbn [rbind].
  rewrite (sl_from_at _ ([zlen comp] ++ comp) tail (1 + zlen comp)); [|now norm|lens; lia]. cbn [rbind].
  set (m0 := if existsb (fun x => x =? 255) suites then set_ch_renegOn ch_empty true else ch_empty).
  assert (EM : mkCH (ch_vers m) random sid suites comp false [] false false (ch_curves m0) (ch_points m0) false [] [] (ch_reneg m0) (ch_renegOn m0) [] =
               mkCH (ch_vers m) random sid suites comp false [] false false [] [] false [] [] [] (existsb (fun x => x =? 255) suites) []).
  { unfold m0. destruct (existsb (fun x => x =? 255) suites); reflexivity. }
  rewrite EM. unfold tail. destruct (Z.ltb_spec 0 (ch_numExt m)) as [Hp|Hp].
  - destruct (Z.eqb_spec (zlen (b2 el ++ X)) 0) as [E0|_]; [revert E0; lens; lia|]. rewrite fails_false by (lens; lia).
    rewrite (EE Hp), be16_hd by lia. cbn [rbind]. rewrite (sl_from_at _ (b2 (zlen X)) X 2 eq_refl eq_refl). cbn [rbind]. rewrite fails_false by lia.
    apply runs_wrun. exact HR.
  - rewrite HNone in * by lia. cbn [app]. destruct (Z.eqb_spec (zlen (@nil Z)) 0) as [_|E0]; [|exfalso; apply E0; reflexivity].
    destruct HR as (f & _ & Ef). destruct f; exact Ef.
Qed.

(** the limits are met by a realistic GM ClientHello with all extensions *)
Example C63_clientHello_hyps :
  ch_ok (mkCH 0x0101 (zeros 32) (zeros 16) [0xe013; 0xe011; 0x00ff] [0] true [97; 46; 99] true true [29; 23] [0] true [1; 2; 3] [0x0403] [5] true [[104; 50]; [104]]).
Proof.
  unfold ch_ok. cbn [ch_vers ch_random ch_sessionId ch_suites ch_comp ch_npn ch_sni ch_ocsp ch_scts ch_curves ch_points ch_ticketOn ch_ticket ch_sigalgs ch_reneg ch_renegOn ch_alpn].
  assert (U : forall l, forallb (fun x => (0 <=? x) && (x <? 65536)) l = true -> u16s l).
  { intros l H. apply Forall_forall. intros x Hx. rewrite forallb_forall in H. specialize (H x Hx). lia. }
  split; [lia|]. split; [reflexivity|]. split; [apply Z.leb_le; reflexivity|]. split; [apply U; reflexivity|]. split; [reflexivity|]. split; [apply Z.leb_le; reflexivity|].
  split; [cbn [last]; lia|]. split; [apply U; reflexivity|]. split; [apply Z.leb_le; reflexivity|]. split; [apply U; reflexivity|]. split; [apply Z.leb_le; reflexivity|].
  split. { apply Forall_cons; [split; [apply bytesb_spec; reflexivity|rewrite !zlen_cons, zlen_nil; lia]|]. apply Forall_cons; [split; [apply bytesb_spec; reflexivity|rewrite !zlen_cons, zlen_nil; lia]|constructor]. }
  split; [discriminate|]. split; [discriminate|]. vm_compute. reflexivity.
Qed.

(** ** ServerHello *)
Definition sh_ok (m : serverHello) : Prop :=
  0 <= sh_vers m < 2 ^ 16 /\ length (sh_random m) = 32%nat /\ zlen (sh_sessionId m) <= 32 /\ 0 <= sh_suite m < 2 ^ 16 /\ is_byte (sh_comp m) /\
  (sh_npn m = false -> sh_protos m = []) /\ Forall short_name (sh_protos m) /\ Forall sct_ok (sh_scts m) /\
  zlen (sh_reneg m) <= 254 /\ (sh_renegOn m = false -> sh_reneg m = []) /\ zlen (sh_alpn m) <= 255 /\
  zlen (sh_extensions m) < 2 ^ 16.
Lemma proto_enc_short ps : Forall short_name ps -> concat (map proto_enc ps) = alpn_strings ps.
Proof.
  unfold alpn_strings. induction 1 as [|p ps [_ Hp] _ IH]; [reflexivity|]. cbn [map concat]. rewrite IH. apply (f_equal (fun x => x ++ _)).
  unfold proto_enc. destruct (Z.ltb_spec 255 (zlen p)); [lia|]. apply (f_equal (cons _)). unfold zlen. rewrite Nat2Z.id. apply firstn_all.
Qed.
Lemma y_npn a ps rest : Forall short_name ps -> sh_protos a = [] -> sum_len ps + zlen ps < 65536 ->
  ext_body sh_ext a ((b2 13172 ++ b2 (sum_len ps + zlen ps) ++ concat (map proto_enc ps)) ++ rest) = Ok (set_sh_protos (set_sh_npn a true) ps, rest).
Proof.
  intros HF Ha Hl. rewrite proto_enc_short by exact HF. assert (EL : sum_len ps + zlen ps = zlen (alpn_strings ps)) by (rewrite zlen_alpn; lia). rewrite EL.
  apply ext_item; [lia|lia|]. unfold sh_ext. cbn [Z.eqb Pos.eqb]. rewrite (sl_to_at _ (alpn_strings ps) rest _ eq_refl eq_refl). cbn [rbind]. rewrite Ha.
  rewrite (runs_wrun alpn_body [] (alpn_strings ps) ps); [reflexivity|]. exact (runs_list alpn_body _ short_name alpn_item ps HF []).
Qed.
Lemma y_ocsp a rest : ext_body sh_ext a ((b2 5 ++ [0; 0]) ++ rest) = Ok (set_sh_ocsp a true, rest).
Proof. apply (ext_item sh_ext a 5 [] rest); [lia|reflexivity|reflexivity]. Qed.
Lemma y_ticket a rest : ext_body sh_ext a ((b2 35 ++ [0; 0]) ++ rest) = Ok (set_sh_ticketOn a true, rest).
Proof. apply (ext_item sh_ext a 35 [] rest); [lia|reflexivity|reflexivity]. Qed.
Lemma y_reneg a r rest : zlen r <= 254 ->
  ext_body sh_ext a ((b2 0xff01 ++ [0; u8 (zlen r + 1)] ++ [u8 (zlen r)] ++ r) ++ rest) = Ok (set_sh_renegOn (set_sh_reneg a r) true, rest).
Proof.
  intros Hl. pose proof (zlen_nonneg r). rewrite <- b2_small by lia. rewrite u8_small by lia. set (body := [zlen r] ++ r).
  assert (EL : zlen r + 1 = zlen body) by (unfold body; lens; lia). rewrite EL. apply ext_item; [lia|lia|].
  unfold sh_ext. cbn [Z.eqb Pos.eqb]. rewrite fails_false by lia. rewrite (sl_to_at _ body rest _ eq_refl eq_refl). cbn [rbind]. unfold body. cbn [app].
  rewrite idx_hd. cbn [rbind]. rewrite tl_hd. cbn [rbind]. rewrite fails_false by lia. reflexivity.
Qed.
Lemma y_alpn a s rest : 1 <= zlen s <= 255 ->
  ext_body sh_ext a ((b2 16 ++ b2 (2 + 1 + zlen s) ++ b2 (1 + zlen s) ++ [u8 (zlen s)] ++ s) ++ rest) = Ok (set_sh_alpn a s, rest).
Proof.
  intros Hl. rewrite u8_small by lia. set (body := b2 (1 + zlen s) ++ [zlen s] ++ s).
  assert (EL : 2 + 1 + zlen s = zlen body) by (unfold body; lens; lia). rewrite EL. apply ext_item; [lia|lia|].
  unfold sh_ext. cbn [Z.eqb Pos.eqb]. rewrite (sl_to_at _ body rest _ eq_refl eq_refl). cbn [rbind]. rewrite fails_false by lia.
  rewrite <- EL. unfold body. rewrite be16_hd by lia. cbn [rbind]. rewrite fails_false by lia.
  rewrite (sl_from_at _ (b2 (1 + zlen s)) _ 2 eq_refl eq_refl). cbn [rbind app]. rewrite idx_hd. cbn [rbind]. rewrite fails_false by (lens; lia).
  rewrite tl_hd. cbn [rbind]. rewrite fails_false by lia. reflexivity.
Qed.
Lemma y_scts a ss rest : Forall sct_ok ss -> let n := zlen (concat (map (fun s => b2 (zlen s) ++ s) ss)) in 0 < n -> n + 2 < 65536 ->
  ext_body sh_ext a ((b2 18 ++ b2 (n + 2) ++ b2 n ++ concat (map (fun s => b2 (zlen s) ++ s) ss)) ++ rest) = Ok (set_sh_scts a ss, rest).
Proof.
  intros HF n Hn Hl. set (cc := concat (map (fun s => b2 (zlen s) ++ s) ss)) in *. set (body := b2 n ++ cc).
  assert (EL : n + 2 = zlen body) by (unfold body; rewrite zlen_app, zlen_b2; lia). rewrite EL. apply ext_item; [lia|lia|].
  unfold sh_ext. cbn [Z.eqb Pos.eqb]. rewrite (sl_to_at _ body rest _ eq_refl eq_refl). cbn [rbind]. rewrite fails_false by lia.
  unfold body. rewrite be16_hd by lia. cbn [rbind]. rewrite (sl_from_at _ (b2 n) cc 2 eq_refl eq_refl). cbn [rbind]. rewrite fails_false by (fold n; lia).
  rewrite (runs_wrun sct_body [] cc ss); [reflexivity|]. exact (runs_list sct_body _ sct_ok sct_item ss HF []).
Qed.
Lemma sct_len_pos m : (0 <? sh_sctLen m) = (0 <? zlen (sh_scts m)).
Proof.
  unfold sh_sctLen. rewrite <- zlen_scts. destruct (sh_scts m) as [|s ss]; [reflexivity|]. cbn [map concat]. rewrite !zlen_app, zlen_b2, zlen_cons.
  pose proof (zlen_nonneg s). pose proof (zlen_nonneg ss). pose proof (zlen_nonneg (concat (map (fun c => b2 (zlen c) ++ c) ss))). lia.
Qed.
Lemma sh_ext_len m : Forall short_name (sh_protos m) -> zlen (sh_extensions m) = sh_extLen m + 4 * sh_numExt m.
Proof.
  intros HF. unfold sh_extensions, sh_extLen, sh_numExt. rewrite sct_len_pos, proto_enc_short by exact HF.
  assert (G : forall (c : bool) (e : list Z) (n : Z), zlen e = n + 4 -> zlen (if c then e else []) = (if c then n else 0) + 4 * Z.b2z c).
  { intros [|] e n He; [rewrite He; cbn; lia|reflexivity]. }
  rewrite !zlen_app.
  rewrite (G (sh_npn m) _ (sh_protoLen m)) by (unfold sh_protoLen; lens; lia). rewrite (G (sh_ocsp m) _ 0) by (lens; lia).
  rewrite (G (sh_ticketOn m) _ 0) by (lens; lia). rewrite (G (sh_renegOn m) _ (1 + zlen (sh_reneg m))) by (lens; lia).
  rewrite (G (0 <? zlen (sh_alpn m)) _ (2 + 1 + zlen (sh_alpn m))) by (lens; lia).
  rewrite (G (0 <? zlen (sh_scts m)) _ (2 + sh_sctLen m)). 2: { unfold sh_sctLen. rewrite <- zlen_scts. rewrite !zlen_app, !zlen_b2. lia. }
  destruct (sh_ocsp m), (sh_ticketOn m); lia.
Qed.
Lemma sh_none m : sh_numExt m <= 0 -> sh_extensions m = [].
Proof.
  unfold sh_numExt, sh_extensions. intros H. rewrite sct_len_pos. do 5 none_step H. destruct (sh_npn m); [cbn [Z.b2z] in H; lia|reflexivity].
Qed.
Lemma sh_ext_runs m (HM : sh_ok m) :
  runs (ext_body sh_ext) (mkSH (sh_vers m) (sh_random m) (sh_sessionId m) (sh_suite m) (sh_comp m) false [] false [] false [] false []) (sh_extensions m) m.
Proof.
  destruct HM as (H1 & H2 & H3 & H4 & H5 & H6 & H7 & H8 & H9 & H10 & H11 & H15).
  assert (ES := sct_len_pos m). unfold sh_extensions in *. rewrite ES in *. clear ES.
  destruct m as [vers random sid suite comp npn protos ocsp scts tOn reneg rOn alpn]. unfold sh_protoLen, sh_sctLen in *.
  cbn [sh_vers sh_random sh_sessionId sh_suite sh_comp sh_npn sh_protos sh_ocsp sh_scts sh_ticketOn sh_reneg sh_renegOn sh_alpn] in *. rewrite <- zlen_scts in *.
  assert (H15' := H15). repeat rewrite zlen_app in H15'.
  repeat match type of H15' with context [zlen (if ?c then ?e else [])] =>
    let v := fresh "v" in let Ev := fresh "Ev" in
    pose proof (zlen_nonneg (if c then e else [])); remember (zlen (if c then e else [])) as v eqn:Ev in * end.
  clear H15. change (2 ^ 16) with 65536 in H15'.
  apply (runs_opt _ npn _ _ _ (mkSH vers random sid suite comp npn protos false [] false [] false [])); [discriminate| |intros E; rewrite (H6 E), E; reflexivity|].
  { intros E. rewrite E. apply y_npn; [assumption|reflexivity|]. match goal with Ev : _ = zlen (if npn then _ else _) |- _ => rewrite E in Ev; revert Ev end. rewrite proto_enc_short by assumption. lens. lia. }
  apply (runs_opt _ ocsp _ _ _ (mkSH vers random sid suite comp npn protos ocsp [] false [] false [])); [discriminate|intros ->; apply y_ocsp|intros ->; reflexivity|].
  apply (runs_opt _ tOn _ _ _ (mkSH vers random sid suite comp npn protos ocsp [] tOn [] false [])); [discriminate|intros ->; apply y_ticket|intros ->; reflexivity|].
  apply (runs_opt _ rOn _ _ _ (mkSH vers random sid suite comp npn protos ocsp [] tOn reneg rOn [])); [discriminate| |intros E; rewrite (H10 E), E; reflexivity|].
  { intros E. rewrite E. now apply y_reneg. }
  apply (runs_opt _ (0 <? zlen alpn) _ _ _ (mkSH vers random sid suite comp npn protos ocsp [] tOn reneg rOn alpn)); [discriminate| |intros E; rewrite (len_pos _ E); reflexivity|].
  { intros E. apply y_alpn. lia. }
  rewrite <- (app_nil_r (if 0 <? zlen scts then _ else _)).
  apply (runs_opt _ (0 <? zlen scts) _ _ _ (mkSH vers random sid suite comp npn protos ocsp scts tOn reneg rOn alpn)); [discriminate| |intros E; rewrite (len_pos _ E); reflexivity|apply runs_nil].
  intros E. apply y_scts; [assumption| |].
  - destruct scts as [|s ss]; [discriminate|]. cbn [map concat]. rewrite !zlen_app, zlen_b2. pose proof (zlen_nonneg s). pose proof (zlen_nonneg (concat (map (fun c => b2 (zlen c) ++ c) ss))). lia.
  - match goal with Ev : _ = zlen (if 0 <? zlen scts then _ else _) |- _ => rewrite E in Ev; revert Ev end. rewrite !zlen_app, !zlen_b2. lia.
Qed.
Theorem C63_serverHello : forall m, sh_ok m -> exists w, m_serverHello m = Ok w /\ framed 2 w /\ u_serverHello sh_empty w = Ok m.
Proof.
  intros m HM. pose proof (sh_ext_runs m HM) as HR. pose proof (sh_none m) as HNone.
  destruct HM as (H1 & H2 & H3 & H4 & H5 & _ & H7 & _ & _ & _ & H11 & H15). pose proof (sh_ext_len m H7) as EX.
  unfold m_serverHello. replace ((0 <? zlen (sh_alpn m)) && (256 <=? zlen (sh_alpn m))) with false by lia.
  cbv zeta. rewrite copy32_id by exact H2.
  set (X := sh_extensions m) in *. pose proof (zlen_nonneg X) as HXp.
  set (el := sh_extLen m + (if 0 <? sh_numExt m then 4 * sh_numExt m else 0)).
  set (tail := (if 0 <? sh_numExt m then b2 el else []) ++ X).
  assert (EE : 0 < sh_numExt m -> el = zlen X) by (intros Hp; unfold el; destruct (Z.ltb_spec 0 (sh_numExt m)); lia).
  assert (ET : (if 0 <? sh_numExt m then 2 + el else 0) = zlen tail).
  { unfold tail. destruct (Z.ltb_spec 0 (sh_numExt m)); lens; [rewrite EE; lia|]. rewrite HNone by lia. reflexivity. }
  rewrite ET. set (sid := sh_sessionId m) in *. set (random := sh_random m) in *.
  pose proof (zlen_nonneg sid) as Ps. pose proof (zlen_nonneg tail) as Pt. assert (Lr : zlen random = 32) by (unfold zlen; lia).
  set (n := 38 + zlen sid + zlen tail). change ((if 0 <? sh_numExt m then b2 el else []) ++ X) with tail.
  rewrite fill_exact by (unfold n; lens; lia). eexists. split; [reflexivity|]. split; [apply framed_intro; unfold n; lens; lia|].
  rewrite !u8_small by lia. unfold u_serverHello.
  rewrite fails_false by (lens; lia).
  rewrite (be16_at _ ([2] ++ b3 n) (sh_vers m) (random ++ [zlen sid] ++ sid ++ b2 (sh_suite m) ++ [sh_comp m] ++ tail) 4); [|now norm|reflexivity|lia]. cbn [rbind].
  rewrite (sl_at _ ([2] ++ b3 n ++ b2 (sh_vers m)) random ([zlen sid] ++ sid ++ b2 (sh_suite m) ++ [sh_comp m] ++ tail) 6 38); [|now norm|reflexivity|lia]. cbn [rbind].
  rewrite (idx_at _ ([2] ++ b3 n ++ b2 (sh_vers m) ++ random) (zlen sid) (sid ++ b2 (sh_suite m) ++ [sh_comp m] ++ tail) 38); [|now norm|lens; lia]. cbn [rbind].
  rewrite fails_false by (lens; lia).
  rewrite (sl_at _ ([2] ++ b3 n ++ b2 (sh_vers m) ++ random ++ [zlen sid]) sid (b2 (sh_suite m) ++ [sh_comp m] ++ tail) 39 (39 + zlen sid)); [|now norm|lens; lia|lia]. cbn [rbind].
  rewrite (sl_from_at _ ([2] ++ b3 n ++ b2 (sh_vers m) ++ random ++ [zlen sid] ++ sid) (b2 (sh_suite m) ++ [sh_comp m] ++ tail) (39 + zlen sid)); [|now norm|lens; lia]. cbn [rbind].
  rewrite fails_false by (lens; lia). rewrite be16_hd by lia. cbn [rbind].
  rewrite (idx_at (b2 (sh_suite m) ++ [sh_comp m] ++ tail) (b2 (sh_suite m)) (sh_comp m) tail 2 eq_refl eq_refl). cbn [rbind].
  rewrite (sl_from_at _ (b2 (sh_suite m) ++ [sh_comp m]) tail 3); [|now norm|reflexivity]. cbn [rbind].
  cbn [sh_empty sh_reneg sh_renegOn].
  unfold tail. destruct (Z.ltb_spec 0 (sh_numExt m)) as [Hp|Hp].
  - destruct (Z.eqb_spec (zlen (b2 el ++ X)) 0) as [E0|_]; [revert E0; lens; lia|]. rewrite fails_false by (lens; lia).
    rewrite (EE Hp), be16_hd by lia. cbn [rbind]. rewrite (sl_from_at _ (b2 (zlen X)) X 2 eq_refl eq_refl). cbn [rbind]. rewrite fails_false by lia.
    apply runs_wrun. exact HR.
  - rewrite HNone in * by lia. cbn [app]. destruct (Z.eqb_spec (zlen (@nil Z)) 0) as [_|E0]; [|exfalso; apply E0; reflexivity].
    destruct HR as (f & _ & Ef). destruct f; exact Ef.
Qed.

Example C63_serverHello_hyps : sh_ok (mkSH 0x0101 (zeros 32) (zeros 32) 0xe013 0 true [[104; 50]] true [[1; 2]; [3]] true [7] true [104]).
Proof.
  unfold sh_ok. cbn [sh_vers sh_random sh_sessionId sh_suite sh_comp sh_npn sh_protos sh_ocsp sh_scts sh_ticketOn sh_reneg sh_renegOn sh_alpn].
  split; [lia|]. split; [reflexivity|]. split; [apply Z.leb_le; reflexivity|]. split; [lia|]. split; [unfold is_byte; lia|]. split; [discriminate|].
  split. { apply Forall_cons; [split; [apply bytesb_spec; reflexivity|rewrite !zlen_cons, zlen_nil; lia]|constructor]. }
  split. { apply Forall_cons; [split; [apply bytesb_spec; reflexivity|rewrite !zlen_cons, zlen_nil; lia]|]. apply Forall_cons; [split; [apply bytesb_spec; reflexivity|rewrite !zlen_cons, zlen_nil; lia]|constructor]. }
  split; [apply Z.leb_le; reflexivity|]. split; [discriminate|]. split; [apply Z.leb_le; reflexivity|]. vm_compute. reflexivity.
Qed.
Example C63_small_hyps : cr_ok false (mkCR [64; 1] [] [[48; 0]; []]) /\ Forall cert_ok [[48]; [48; 1]] /\ 3 * zlen [[48]; [48; 1]] + sum_len [[48]; [48; 1]] < 2 ^ 24 - 3.
Proof.
  split; [|split; [|reflexivity]].
  - unfold cr_ok. cbn [cr_types cr_sigs cr_cas]. split; [apply bytesb_spec; reflexivity|]. split; [rewrite !zlen_cons, zlen_nil; lia|]. split; [constructor|].
    split; [reflexivity|]. split; [|split; [reflexivity|reflexivity]].
    apply Forall_cons; [split; [apply bytesb_spec; reflexivity|reflexivity]|]. apply Forall_cons; [split; [constructor|reflexivity]|constructor].
  - apply Forall_cons; [split; [apply bytesb_spec; reflexivity|rewrite !zlen_cons, zlen_nil; lia]|]. apply Forall_cons; [split; [apply bytesb_spec; reflexivity|rewrite !zlen_cons, zlen_nil; lia]|constructor].
Qed.

(** ** C75: these parsers are strict: what they accept is the unique encoding (after the 4-byte handshake header, which readHandshake checks) of the
    message they return.  In particular two different byte strings with the same header never give the same message. *)
Lemma list_split (d : list Z) i : 0 <= i <= zlen d -> exists p r, d = p ++ r /\ zlen p = i.
Proof. intros H. exists (firstn (Z.to_nat i) d), (skipn (Z.to_nat i) d). split; [now rewrite firstn_skipn|now apply zlen_firstn]. Qed.
Lemma idx_inv d i v : idx d i = Ok v -> exists p r, d = p ++ v :: r /\ zlen p = i.
Proof.
  unfold idx. destruct ((0 <=? i) && (i <? zlen d)) eqn:E; [|discriminate]. intros H. injection H as <-.
  assert (L : (Z.to_nat i < length d)%nat) by (unfold zlen in E; lia).
  destruct (nth_split d 0 L) as (p & r & Ed & Lp). exists p, r. split; [exact Ed|unfold zlen; lia].
Qed.
Transparent b2 b3.
Lemma be16_inv d v : bytes d -> be16 d 0 = Ok v -> exists r, d = b2 v ++ r /\ bytes r /\ 0 <= v < 65536.
Proof.
  intros Hb. unfold be16. destruct d as [|a [|b r]]; try (cbn; discriminate).
  rewrite idx_hd. cbn [rbind]. rewrite (idx_at (a :: b :: r) [a] b r (0 + 1) eq_refl eq_refl). cbn [rbind]. intros H. apply (f_equal (fun r => match r with Ok x => x | _ => 0 end)) in H. cbv beta iota in H. subst v.
  apply bytes_cons in Hb as [Ha Hb]. apply bytes_cons in Hb as [Hb1 Hr]. rewrite lor16 by assumption. unfold is_byte in *. exists r. split; [|split; [exact Hr|lia]].
  unfold b2, u8. rewrite Z.shiftr_div_pow2 by lia. cbn [app]. f_equal; [lia|f_equal; lia].
Qed.
Lemma be24_inv d v : bytes d -> be24 d 0 = Ok v -> exists r, d = b3 v ++ r /\ bytes r /\ 0 <= v < 16777216.
Proof.
  intros Hb. unfold be24. destruct d as [|a [|b [|c r]]]; try (cbn; discriminate).
  rewrite idx_hd. cbn [rbind]. rewrite (idx_at (a :: b :: c :: r) [a] b (c :: r) (0 + 1) eq_refl eq_refl). cbn [rbind].
  rewrite (idx_at (a :: b :: c :: r) [a; b] c r (0 + 2) eq_refl eq_refl). cbn [rbind]. intros H. apply (f_equal (fun r => match r with Ok x => x | _ => 0 end)) in H. cbv beta iota in H. subst v.
  apply bytes_cons in Hb as [Ha Hb]. apply bytes_cons in Hb as [Hb1 Hb]. apply bytes_cons in Hb as [Hc Hr]. rewrite lor24 by assumption. unfold is_byte in *.
  exists r. split; [|split; [exact Hr|lia]]. unfold b3, u8. rewrite !Z.shiftr_div_pow2 by lia. cbn [app]. f_equal; [lia|f_equal; [lia|f_equal; lia]].
Qed.
Opaque b2 b3.
Lemma fails_inv {A} (c : bool) (k : res A) x : fails c k = Ok x -> c = false /\ k = Ok x.
Proof. unfold fails. destruct c; [discriminate|auto]. Qed.
Lemma bind_inv {A B} (r : res A) (f : A -> res B) x : rbind r f = Ok x -> exists a, r = Ok a /\ f a = Ok x.
Proof. destruct r; cbn; try discriminate. intros E. eauto. Qed.
Lemma sl_from_inv d n r : sl_from d n = Ok r -> exists p, d = p ++ r /\ zlen p = n.
Proof.
  unfold sl_from. destruct ((0 <=? n) && (n <=? zlen d)) eqn:E; [|discriminate]. intros H. injection H as <-.
  exists (firstn (Z.to_nat n) d). split; [now rewrite firstn_skipn|apply zlen_firstn; lia].
Qed.
Lemma sl_to_inv d n p : sl_to d n = Ok p -> exists r, d = p ++ r /\ zlen p = n.
Proof.
  unfold sl_to. destruct ((0 <=? n) && (n <=? zlen d)) eqn:E; [|discriminate]. intros H. injection H as <-.
  exists (skipn (Z.to_nat n) d). split; [now rewrite firstn_skipn|apply zlen_firstn; lia].
Qed.
Lemma bytes_app_r a b : bytes (a ++ b) -> bytes b. Proof. intros H. now apply bytes_app in H. Qed.
Lemma bytes_app_l a b : bytes (a ++ b) -> bytes a. Proof. intros H. now apply bytes_app in H. Qed.
Lemma app_same_len {A} (a b c d : list A) : zlen a = zlen c -> a ++ b = c ++ d -> a = c /\ b = d.
Proof.
  intros L E. assert (L' : length a = length c) by (unfold zlen in L; lia).
  split; [apply (f_equal (firstn (length a))) in E; rewrite firstn_app_l in E by reflexivity; rewrite firstn_app_l in E by lia; exact E|].
  apply (f_equal (skipn (length a))) in E. rewrite skipn_app_l in E by reflexivity. rewrite skipn_app_l in E by lia. exact E.
Qed.
(** read a header of known length, then go on *)
Lemma read16 d v r n : bytes d -> be16 d 0 = Ok v -> sl_from d 2 = Ok r -> n = 2 -> d = b2 v ++ r /\ bytes r /\ 0 <= v < 65536.
Proof.
  intros Hb E1 E2 ->. destruct (be16_inv d v Hb E1) as (r' & -> & Br & Hv). rewrite (sl_from_at _ (b2 v) r' 2 eq_refl eq_refl) in E2. injection E2 as <-. auto.
Qed.
Lemma read_chunk d n s r : bytes d -> sl_to d n = Ok s -> sl_from d n = Ok r -> d = s ++ r /\ bytes s /\ bytes r /\ zlen s = n.
Proof.
  intros Hb E1 E2. destruct (sl_to_inv _ _ _ E1) as (r' & -> & L). rewrite (sl_from_at _ s r' n eq_refl L) in E2. injection E2 as <-.
  apply bytes_app in Hb as [B1 B2]. auto.
Qed.
Ltac inv_step :=
  match goal with
  | H : fails _ _ = Ok _ |- _ => apply fails_inv in H as [? H]
  | H : rbind _ _ = Ok _ |- _ => let a := fresh "v" in let E := fresh "E" in apply bind_inv in H as (a & E & H)
  end.

Lemma count_inv fuel : forall c n d k, bytes d -> c = u32 (zlen d) -> zlen d < 2 ^ 32 -> count_certs fuel c n d = Ok k ->
  exists cs, d = concat (map cert_wire cs) /\ k = (n + length cs)%nat /\ Forall (fun x => zlen x < 2 ^ 24) cs.
Proof.
  induction fuel as [|fuel IH]; intros c n d k Hb Ec Hl E; cbn [count_certs] in E; rewrite u32_small in Ec by (pose proof (zlen_nonneg d); lia).
  - destruct (Z.ltb_spec 0 c); [discriminate|]. injection E as <-. exists []. destruct d; [split; [reflexivity|split; [cbn; lia|constructor]]|].
    rewrite zlen_cons in *. pose proof (zlen_nonneg d). lia.
  - destruct (Z.ltb_spec 0 c).
    + apply fails_inv in E as [H4 E]. apply bind_inv in E as (cl & E24 & E). apply fails_inv in E as [Hle E].
      destruct (be24_inv d cl Hb E24) as (r & Ed & Br & Hcl).
      rewrite (u32_small (3 + cl)) in Hle, E by lia. rewrite (u32_small (zlen d)) in Hle by lia.
      apply bind_inv in E as (d' & Es & E). destruct (sl_from_inv _ _ _ Es) as (p & Ep & Lp).
      assert (Ls : exists x, p = b3 cl ++ x /\ zlen x = cl).
      { exists (skipn 3 p). rewrite Ed in Ep. assert (E3 : firstn 3 (b3 cl ++ r) = firstn 3 (p ++ d')) by now rewrite Ep.
        rewrite firstn_app_l in E3 by reflexivity. rewrite firstn_app in E3. replace (3 - length p)%nat with 0%nat in E3 by (unfold zlen in Lp; lia).
        rewrite firstn_O, app_nil_r in E3. split; [rewrite E3, firstn_skipn; reflexivity|]. unfold zlen in *. rewrite skipn_length. lia. }
      destruct Ls as (x & -> & Lx). rewrite Ep in Hb. apply bytes_app in Hb as [_ Bd'].
      assert (L : zlen d = 3 + cl + zlen d') by (rewrite Ep; lens; lia).
      destruct (IH (u32 (c - (3 + cl))) (n + 1)%nat d' k Bd' ltac:(rewrite Ec, L; apply (f_equal u32); lia) ltac:(pose proof (zlen_nonneg d'); lia) E) as (cs & Ec' & Ek & HF).
      exists (x :: cs). cbn [map concat length]. split; [|split; [lia|constructor; [lia|exact HF]]].
      rewrite Ep, Ec'. unfold cert_wire at 2. rewrite Lx. reflexivity.
    + injection E as <-. exists []. destruct d; [split; [reflexivity|split; [cbn; lia|constructor]]|].
      rewrite zlen_cons in *. pose proof (zlen_nonneg d). lia.
Qed.
Lemma take_gen cs : Forall (fun x => zlen x < 2 ^ 24) cs -> take_certs (length cs) (concat (map cert_wire cs)) = Ok cs.
Proof.
  induction 1 as [|c cs Lc _ IH]; [reflexivity|]. pose proof (zlen_nonneg c). cbn [length map concat take_certs]. unfold cert_wire at 1 2 3. rewrite <- !app_assoc. set (R := concat (map cert_wire cs)) in *.
  rewrite (be24_at _ [] (zlen c) (c ++ R) 0) by (reflexivity || lia). cbn [rbind]. rewrite u32_small by lia.
  rewrite (sl_at _ (b3 (zlen c)) c R 3 (3 + zlen c) eq_refl eq_refl eq_refl). cbn [rbind].
  rewrite (sl_from_at _ (b3 (zlen c) ++ c) R (3 + zlen c)); [|now rewrite <- app_assoc|lens; lia]. cbn [rbind]. rewrite IH. reflexivity.
Qed.
Lemma idx_shift h r k : 0 <= k -> idx (h ++ r) (zlen h + k) = idx r k.
Proof.
  intros Hk. unfold idx. rewrite zlen_app. pose proof (zlen_nonneg h).
  replace ((0 <=? zlen h + k) && (zlen h + k <? zlen h + zlen r)) with ((0 <=? k) && (k <? zlen r)) by lia.
  destruct ((0 <=? k) && (k <? zlen r)); [|reflexivity]. rewrite app_nth2 by (unfold zlen; lia). do 2 f_equal. unfold zlen. lia.
Qed.
Lemma be24_shift h r k : 0 <= k -> be24 (h ++ r) (zlen h + k) = be24 r k.
Proof. intros Hk. unfold be24. rewrite <- !Z.add_assoc, !idx_shift by lia. reflexivity. Qed.
Lemma be16_shift h r k : 0 <= k -> be16 (h ++ r) (zlen h + k) = be16 r k.
Proof. intros Hk. unfold be16. rewrite <- !Z.add_assoc, !idx_shift by lia. reflexivity. Qed.
Theorem C75_certificate : forall d certs, bytes d -> zlen d < 2 ^ 32 -> u_certificate d = Ok certs ->
  exists hdr, length hdr = 4%nat /\ d = hdr ++ be_bytes 3 (3 * zlen certs + sum_len certs) ++ concat (map (fun c => be_bytes 3 (zlen c) ++ c) certs).
Proof.
  intros d certs Hb Hl E. unfold u_certificate in E. inv_step. inv_step. inv_step. inv_step. inv_step.
  destruct (list_split d 4 ltac:(lia)) as (hdr & r & -> & Lh). exists hdr. split; [unfold zlen in Lh; lia|].
  assert (E24 : be24 r 0 = Ok v).
  { rewrite <- (Z.add_0_r 4), <- Lh, be24_shift in E0 by lia. exact E0. }
  apply bytes_app in Hb as [_ Br]. destruct (be24_inv r v Br E24) as (r' & -> & Br' & Hv). clear E24 E0.
  rewrite (sl_from_at _ (hdr ++ b3 v) r' 7) in E1; [|now rewrite <- app_assoc|lens; lia]. injection E1 as <-.
  assert (Ev : v = zlen r').
  { match goal with H : negb _ = false |- _ => apply negb_false_iff, Z.eqb_eq in H; revert H end. revert Hl. lens. intros. pose proof (zlen_nonneg r'). rewrite !u32_small in H0 by lia. lia. }
  destruct (count_inv _ _ _ _ _ Br' ltac:(rewrite u32_small by (pose proof (zlen_nonneg r'); lia); exact Ev) ltac:(lia) E2) as (cs & Er & Ek & HF).
  subst v1. rewrite Nat.add_0_l, Er in E. rewrite (take_gen cs HF) in E. injection E as <-.
  rewrite Ev, Er, zlen_certs, b3_be. do 2 f_equal. f_equal. apply map_ext. intros c. unfold cert_wire. now rewrite b3_be.
Qed.
Theorem C75_clientKeyExchange : forall d ct, bytes d -> u_clientKeyExchange d = Ok ct -> exists t, d = t :: be_bytes 3 (zlen ct) ++ ct.
Proof.
  intros d ct Hb E. unfold u_clientKeyExchange in E. do 3 inv_step. destruct d as [|t d]; [discriminate|]. exists t. apply bytes_cons in Hb as [_ Bd].
  change (t :: d) with ([t] ++ d) in *. change 1 with (zlen [t] + 0) in E0. rewrite be24_shift in E0 by lia. destruct (be24_inv d v Bd E0) as (r & -> & Br & Hv).
  rewrite (sl_from_at _ ([t] ++ b3 v) r 4) in E; [|now rewrite <- app_assoc|reflexivity]. injection E as <-. rewrite <- b3_be.
  replace (zlen r) with v; [reflexivity|]. revert H0. lens. lia.
Qed.
Theorem C75_certificateVerify : forall hasSig alg0 d alg sig, bytes d -> zlen d < 2 ^ 32 -> u_certificateVerify hasSig alg0 d = Ok (alg, sig) ->
  exists t, d = t :: be_bytes 3 (zlen sig + (if hasSig then 4 else 2)) ++ (if hasSig then be_bytes 2 alg else []) ++ be_bytes 2 (zlen sig) ++ sig /\ (hasSig = false -> alg = alg0).
Proof.
  intros hasSig alg0 d alg sig Hb HL E. unfold u_certificateVerify in E. do 5 inv_step. destruct d as [|t d]; [discriminate|]. exists t. apply bytes_cons in Hb as [_ Bd].
  change (t :: d) with ([t] ++ d) in *. change 1 with (zlen [t] + 0) in E0. rewrite be24_shift in E0 by lia. destruct (be24_inv d v Bd E0) as (r & -> & Br & Hv).
  rewrite (sl_from_at _ ([t] ++ b3 v) r 4) in E1; [|now rewrite <- app_assoc|reflexivity]. injection E1 as <-.
  assert (Ev : v = zlen r).
  { match goal with X : negb (u32 _ =? v) = false |- _ => apply negb_false_iff, Z.eqb_eq in X; revert X end. rewrite u32_sub. revert HL. lens. intros HL X. pose proof (zlen_nonneg r). rewrite u32_small in X by lia. lia. }
  destruct v1 as [a data]. cbn [fst snd] in E.
  apply fails_inv in E as [_ E]. apply bind_inv in E as (v1 & E3 & E). apply bind_inv in E as (v2 & E4 & E). apply fails_inv in E as [Hend E]. injection E as <- <-.
  assert (EA : exists pre, r = pre ++ data /\ pre = (if hasSig then b2 a else []) /\ bytes data /\ (hasSig = false -> a = alg0)).
  { destruct hasSig; [|injection E2 as <- <-; exists []; auto]. apply bind_inv in E2 as (w1 & Ea & E2). apply bind_inv in E2 as (w2 & Eb & E2). injection E2 as <- <-.
    destruct (read16 r _ _ 2 Br Ea Eb eq_refl) as (-> & B1 & _). exists (b2 w1). split; [reflexivity|]. split; [reflexivity|]. split; [exact B1|discriminate]. }
  destruct EA as (pre & -> & -> & Bdd & Ha).
  destruct (read16 data _ _ 2 Bdd E3 E4 eq_refl) as (-> & B1 & Hv1).
  apply negb_false_iff, Z.eqb_eq in Hend. subst v1.
  split; [|exact Ha]. rewrite Ev, <- b3_be, <- !b2_be.
  replace (zlen v2 + (if hasSig then 4 else 2)) with (zlen ((if hasSig then b2 a else []) ++ b2 (zlen v2) ++ v2)) by (destruct hasSig; lens; lia).
  reflexivity.
Qed.
(** GM and TLS CertificateRequest *)
Lemma rd_u16s_inv n : forall d l, bytes d -> rd_u16s n d = Ok l -> exists r, d = concat (map b2 l) ++ r /\ length l = n /\ bytes r.
Proof.
  induction n as [|n IH]; intros d l Hb E; cbn [rd_u16s] in E; [injection E as <-; exists d; auto|].
  do 3 inv_step. injection E as <-. destruct (read16 d _ _ 2 Hb E0 E1 eq_refl) as (-> & B1 & Hv).
  destruct (IH _ _ B1 E2) as (r & -> & Ln & Br). exists r. cbn [map concat length]. rewrite <- app_assoc. auto.
Qed.
Lemma ca_loop_inv fuel : forall acc d r, bytes d -> wloop ca_body fuel acc d = Ok r -> exists cs, r = acc ++ cs /\ d = concat (map (fun c => b2 (zlen c) ++ c) cs).
Proof.
  induction fuel as [|fuel IH]; intros acc d r Hb E; destruct d as [|x d]; try (injection E as <-; exists []; rewrite app_nil_r; auto; fail); [discriminate|].
  cbn [wloop] in E. set (D := x :: d) in *. clearbody D. apply bind_inv in E as ([acc' d'] & EB & E). unfold ca_body in EB. do 6 inv_step. injection EB as <- <-. cbn [fst snd] in E.
  destruct (read16 D _ _ 2 Hb E0 E1 eq_refl) as (-> & B1 & Hv). destruct (read_chunk _ _ _ _ B1 E2 E3) as (-> & B3 & B4 & L).
  destruct (IH _ _ _ B4 E) as (cs & -> & ->). exists (v1 :: cs). split; [rewrite <- app_assoc; reflexivity|]. cbn [map concat]. rewrite <- app_assoc, L. reflexivity.
Qed.
Theorem C75_certificateRequest : forall hasSig d m, bytes d -> zlen d < 2 ^ 32 -> u_certificateRequest hasSig d = Ok m ->
  exists t body, d = t :: be_bytes 3 (zlen body) ++ body /\
    body = be_bytes 1 (zlen (cr_types m)) ++ cr_types m ++ (if hasSig then be_bytes 2 (2 * zlen (cr_sigs m)) ++ concat (map (be_bytes 2) (cr_sigs m)) else []) ++
           be_bytes 2 (cas_len (cr_cas m)) ++ concat (map (fun c => be_bytes 2 (zlen c) ++ c) (cr_cas m)) /\ (hasSig = false -> cr_sigs m = []).
Proof.
  intros hasSig d m Hb HL E. unfold u_certificateRequest in E. do 9 inv_step. destruct d as [|t d]; [discriminate|]. exists t. apply bytes_cons in Hb as [_ Bd].
  change (t :: d) with ([t] ++ d) in *. change 1 with (zlen [t] + 0) in E0. rewrite be24_shift in E0 by lia. destruct (be24_inv d v Bd E0) as (r & -> & Br & Hv).
  assert (Ev : v = zlen r).
  { match goal with X : negb (u32 _ =? v) = false |- _ => apply negb_false_iff, Z.eqb_eq in X; revert X end. rewrite u32_sub. revert HL. lens. intros HL' X. pose proof (zlen_nonneg r). rewrite u32_small in X by lia. lia. }
  exists r. split; [rewrite <- b3_be, Ev; reflexivity|].
  destruct r as [|k r]. { exfalso. match goal with X : (zlen _ <? 5) = false |- _ => revert X end. lens. lia. }
  rewrite (idx_at ([t] ++ b3 v ++ k :: r) ([t] ++ b3 v) k r 4) in E1; [|now rewrite <- app_assoc|reflexivity]. injection E1 as <-.
  rewrite (sl_from_at ([t] ++ b3 v ++ k :: r) ([t] ++ b3 v ++ [k]) r 5) in E2; [|now rewrite <- !app_assoc|reflexivity]. injection E2 as <-.
  apply bytes_cons in Br as [Bk Br]. destruct (read_chunk _ _ _ _ Br E3 E4) as (-> & Bt & B3 & Lt).
  destruct v4 as [sigs data]. cbn [fst snd] in E. 
  apply fails_inv in E as [_ E]. apply bind_inv in E as (cl & Ea & E). apply bind_inv in E as (d1 & Eb & E). apply fails_inv in E as [_ E].
  apply bind_inv in E as (cas & Ec & E). apply bind_inv in E as (d2 & Ed & E). apply bind_inv in E as (auth & Ee & E). apply fails_inv in E as [Hend E].
  injection E as <-. cbn [cr_types cr_sigs cr_cas].
  assert (ES : exists pre, v3 = pre ++ data /\ pre = (if hasSig then b2 (2 * zlen sigs) ++ concat (map b2 sigs) else []) /\ bytes data /\ (hasSig = false -> sigs = [])).
  { destruct hasSig; [|injection E5 as <- <-; exists []; auto]. apply fails_inv in E5 as [_ E5]. apply bind_inv in E5 as (n & Ef & E5). apply bind_inv in E5 as (d3 & Eg & E5).
    apply fails_inv in E5 as [Hland E5]. apply fails_inv in E5 as [_ E5]. apply bind_inv in E5 as (ss & E11 & E5). apply bind_inv in E5 as (d4 & E12 & E5). injection E5 as <- <-.
    destruct (read16 v3 _ _ 2 B3 Ef Eg eq_refl) as (-> & B5 & Hn). destruct (rd_u16s_inv _ _ _ B5 E11) as (r' & Er & Ln & Br').
    assert (Hev : n = 2 * (n / 2)).
    { apply negb_false_iff, Z.eqb_eq in Hland. revert Hland. change 1 with (Z.ones 1). rewrite Z.land_ones by lia. change (2 ^ 1) with 2. lia. }
    assert (Lz : zlen ss = n / 2) by (unfold zlen; lia).
    rewrite Er in E12. rewrite (sl_from_at _ (concat (map b2 ss)) r' (2 * (n / 2)) eq_refl) in E12 by (rewrite zlen_u16s; lia). injection E12 as <-.
    exists (b2 n ++ concat (map b2 ss)). rewrite Lz, <- Hev. split; [rewrite Er, <- app_assoc; reflexivity|]. split; [reflexivity|]. split; [exact Br'|discriminate]. }
  destruct ES as (pre & -> & -> & Bd' & Hs).
  destruct (read16 data _ _ 2 Bd' Ea Eb eq_refl) as (-> & B6 & Hc). destruct (read_chunk _ _ _ _ B6 Ec Ed) as (-> & B7 & B8 & Lc).
  destruct (ca_loop_inv _ _ _ _ B7 Ee) as (cs & Ecs & Ecc). cbn [app] in Ecs. subst auth.
  split; [|exact Hs].
  assert (d2 = []) as -> by (destruct d2 as [|z d2]; [reflexivity|revert Hend; rewrite zlen_cons; pose proof (zlen_nonneg d2); lia]).
  rewrite app_nil_r. replace (be_bytes 1 (zlen v2)) with [k].
  2: { Transparent be_bytes. cbn [be_bytes app]. rewrite Lt. unfold is_byte in Bk. rewrite Z.mod_small by lia. reflexivity. Opaque be_bytes. }
  assert (EM : map (be_bytes 2) sigs = map b2 sigs) by (apply map_ext; intros; now rewrite b2_be).
  assert (EC : map (fun c : list Z => be_bytes 2 (zlen c) ++ c) cs = map (fun c : list Z => b2 (zlen c) ++ c) cs) by (apply map_ext; intros; now rewrite b2_be).
  rewrite EM, EC, <- !b2_be, <- Ecc. replace (cas_len cs) with cl by (rewrite <- zlen_cas, <- Ecc; lia). rewrite <- ?app_assoc. reflexivity.
Qed.

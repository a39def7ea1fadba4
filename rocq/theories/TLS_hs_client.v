(** Inversion of the client's handshake: a completed call exchanged these messages and computed these values. *)
From Verif Require Import GoBase GoLemmas BigBytes Asn1_model X509_spec SM2_model SM3_spec TLS_record_model TLS_prf_model TLS_prf_spec TLS_prf_proofs
  TLS_gmka_model TLS_ticket_model TLS_msg_model TLS_neg_model TLS_hs_model TLS_hs_proofs TLS_hs_bytes TLS_hs_server.
From Verif Require X509_model.
Open Scope Z_scope.
#[local] Opaque sm3 fh_Write discardHandshakeBuffer clientSum serverSum.

Section ClientInv.
Context {T : Type} (E : env T) {C : chan} (Hs : hashes) (HL : std_impl (e_std E) Hs) (HG : good_hashes Hs).
Implicit Types s : hst C.

(** certificates: parsed, SM2 keys, key usages *)
Definition ku_sign (ku : Z) : bool := negb ((ku =? 0) || (Z.land ku (Z.lor KeyUsageDigitalSignature (Z.land ku KeyUsageContentCommitment)) =? 0)).
Definition ku_enc (ku : Z) : bool := negb ((ku =? 0) || (Z.land ku (Z.lor (Z.lor KeyUsageDataEncipherment KeyUsageKeyEncipherment) KeyUsageKeyAgreement) =? 0)).
Lemma check_certs_inv ders : forall i s certs s', check_certs E (C := C) i ders s = (HOk certs, s') ->
  s' = s /\ Forall2 (fun d c => e_parse E d = Some c) ders certs /\ Forall (fun c => exists p, g_pub c = PkSM2 p) certs /\
  (forall j c, nth_error certs j = Some c -> ((i + j)%nat = 0%nat -> ku_sign (keyUsage (g_cert c)) = true) /\ ((i + j)%nat = 1%nat -> ku_enc (keyUsage (g_cert c)) = true)).
Proof.
  induction ders as [|d ders IH]; intros i s certs s' H; cbn [check_certs] in H.
  - prim H. subst. repeat split; try constructor; intros; destruct j; discriminate.
  - destruct (e_parse E d) as [c|] eqn:Ed; [|now apply fail_with_ok in H].
    destruct (g_pub c) as [p| | |] eqn:Ep; try now apply fail_with_ok in H.
    cbv zeta in H.
    destruct ((i =? 0)%nat && _) eqn:E0; [now apply fail_with_ok in H|].
    destruct ((i =? 1)%nat && _) eqn:E1; [now apply fail_with_ok in H|].
    bnd H. prim H. subst. apply IH in E2 as (-> & F1 & F2 & F3). split; [reflexivity|]. split; [constructor; auto|]. split; [constructor; eauto|].
    intros [|j] x Hx; cbn [nth_error] in Hx.
    + injection Hx as <-. rewrite Nat.add_0_r. split; intros ->; cbn [Nat.eqb andb] in *; unfold ku_sign, ku_enc; [rewrite E0|rewrite E1]; reflexivity.
    + replace (i + Datatypes.S j)%nat with (i + 1 + j)%nat by lia. apply F3. exact Hx.
Qed.
(** verification: certificate j is verified against the roots, the certificates 2..j-1 as intermediates *)
Definition server_verify_opts (cfg : config T) (roots : X509_model.pool) (inter : X509_model.pool) : X509_model.options :=
  X509_model.mkOpts (cf_serverName cfg) (cf_time cfg) (Some inter) roots [].
Definition inter_for (certs : list (gcert T)) (j : nat) : X509_model.pool :=
  fold_left X509_model.AddCert (map g_cert (skipn 2 (firstn j certs))) X509_model.NewCertPool.
Lemma verify_certs_inv cfg roots : forall cs i inter chains s r s', verify_certs E (C := C) cfg roots i inter cs chains s = (HOk r, s') ->
  s' = s /\ forall pre, length pre = i -> inter = inter_for (pre ++ cs) i ->
  (forall j c, nth_error cs j = Some c -> exists ch, x509_verify E (server_verify_opts cfg roots (inter_for (pre ++ cs) (i + j))) c = Some ch /\ (Datatypes.S j = length cs -> r = ch)) /\
  (cs = [] -> r = chains).
Proof.
  induction cs as [|c cs IH]; intros i inter chains s r s' H; cbn [verify_certs] in H.
  - prim H. subst. split; [reflexivity|]. intros pre _ _. split; [intros [|]; discriminate|reflexivity].
  - match type of H with (match ?v with _ => _ end) _ = _ => destruct v as [ch|] eqn:EV end; [|now apply fail_with_ok in H].
    apply IH in H as [-> H]. split; [reflexivity|]. intros pre Lp Ei. split; [|discriminate].
    assert (EP : (pre ++ [c]) ++ cs = pre ++ c :: cs) by (rewrite <- app_assoc; reflexivity).
    assert (FI : forall (a b : list (gcert T)), firstn (length a) (a ++ b) = a) by (intros a b; rewrite firstn_app, Nat.sub_diag, firstn_all; cbn [firstn]; apply app_nil_r).
    destruct (H (pre ++ [c])) as [HA HB].
    { rewrite app_length. cbn [length]. lia. }
    { rewrite EP. unfold inter_for in *. subst inter.
      replace (firstn (i + 1) (pre ++ c :: cs)) with (pre ++ [c]) by (rewrite <- EP; replace (i + 1)%nat with (length (pre ++ [c])) by (rewrite app_length; cbn [length]; lia); now rewrite FI).
      replace (firstn i (pre ++ c :: cs)) with pre by (rewrite <- Lp; now rewrite FI).
      destruct (Nat.ltb_spec i 2) as [Hi|Hi].
      - rewrite !skipn_all2 by (rewrite ?app_length; cbn [length]; lia). reflexivity.
      - rewrite skipn_app. replace (2 - length pre)%nat with 0%nat by lia. cbn [skipn]. rewrite map_app, fold_left_app. reflexivity. }
    rewrite EP in HA. intros [|j] x Hx; cbn [nth_error] in Hx.
    + injection Hx as <-. rewrite Nat.add_0_r, <- Ei. exists ch. split; [exact EV|]. cbn [length]. intros Hl. apply HB. destruct cs; [reflexivity|cbn in Hl; lia].
    + replace (i + Datatypes.S j)%nat with (i + 1 + j)%nat by lia. destruct (HA j x Hx) as (ch' & E1 & E2). exists ch'. split; [exact E1|]. cbn [length]. intros Hl. apply E2. lia.
Qed.

(** what doFullHandshake did *)
Record cfull_run (cfg : config T) (rn : rnds) (hello : clientHello) (sh : serverHello) (su : suite) (h0 : finishedHash) (f : cfull (T := T)) (l : list event)
   (m_cert : list Z) (ders : list (list Z)) (l_skx l_req l_cc l_cv : list event) (m_done m_ckx pms ct : list Z) (curveid : Z) (chain : option (certificate T)) : Prop := mkCFR {
  cr_flow : l = [EvRecv m_cert] ++ l_skx ++ l_req ++ [EvRecv m_done] ++ l_cc ++ [EvSend m_ckx] ++ l_cv;
  cr_cert : parse_msg VersionGMSSL m_cert = Ok (MCertificate ders) /\ (2 <= length ders)%nat;
  cr_parsed : Forall2 (fun d c => e_parse E d = Some c) ders (cf_peer f) /\ Forall (fun c => exists p, g_pub c = PkSM2 p) (cf_peer f) /\
    (forall c, nth_error (cf_peer f) 0 = Some c -> ku_sign (keyUsage (g_cert c)) = true) /\ (forall c, nth_error (cf_peer f) 1 = Some c -> ku_enc (keyUsage (g_cert c)) = true);
  cr_verified : if cf_skip cfg then cf_chains f = [] else
    forall j c, nth_error (cf_peer f) j = Some c -> exists ch, x509_verify E (server_verify_opts cfg (client_roots cfg) (inter_for (cf_peer f) j)) c = Some ch /\
      (Datatypes.S j = length (cf_peer f) -> cf_chains f = ch);
  cr_callback : forall g, cf_verifyPeer cfg = Some g -> g ders (cf_chains f) = None;
  cr_skx : (l_skx = [] /\ curveid = 0) \/
    (exists m key, l_skx = [EvRecv m] /\ parse_msg VersionGMSSL m = Ok (MServerKeyExchange key) /\
       ka_processSKX E su (ch_random hello) (sh_random sh) (cf_peer f) key = Ok curveid);
  cr_req : (l_req = [] /\ l_cc = [] /\ chain = None) \/
    (exists m cr c mc, l_req = [EvRecv m] /\ parse_msg VersionGMSSL m = Ok (MCertificateRequest cr) /\ chain = Some c /\
       match cf_getClientCert cfg with Some g => g (cr_cas cr) = Ok (Some c) | None => find_chain E (cr_cas cr) (cf_certs cfg) = Ok c end /\
       l_cc = [EvSend mc] /\ m_certificate (ce_chain c) = Ok mc);
  cr_done : parse_msg VersionGMSSL m_done = Ok MServerHelloDone;
  cr_ckx : ka_generateCKX E su curveid (ch_vers hello) rn (cf_peer f) = HOk (pms, ct) /\ m_clientKeyExchange ct = Ok m_ckx;
  cr_cv : match chain with
    | Some c => match ce_chain c with
        | [] => l_cv = []
        | _ => exists key digest sig m, ce_key c = Some key /\ PrivSign (e_cv E) (r_sign rn) key digest = Ok sig /\ m_certificateVerify false (0, sig) = Ok m /\ l_cv = [EvSend m] /\
            (forall d l0, gmh Hs d (transcript l0) h0 -> wire_ok (l0 ++ l) ->
               digest = sm3 (transcript (l0 ++ [EvRecv m_cert] ++ l_skx ++ l_req ++ [EvRecv m_done] ++ l_cc ++ [EvSend m_ckx])))
        end
    | None => l_cv = []
    end;
  cr_master : masterFromPreMasterSecret (e_std E) VersionGMSSL false pms (ch_random hello) (sh_random sh) = Ok (cf_master f);
  cr_keylog : cf_keylog cfg (ch_random hello) (cf_master f) = None;
  cr_hash : forall d l0, gmh Hs d (transcript l0) h0 -> wire_ok (l0 ++ l) -> gmh Hs true (transcript (l0 ++ l)) (cf_h f) }.
Lemma gmh_osum d t h digest oc : gmh Hs d t h -> zlen t < 2 ^ 59 -> o_sum (fh_client h) [] = Ok (digest, oc) ->
  digest = sm3 t /\ gmh Hs d t (mkFH oc (fh_server h) (fh_clientMD5 h) (fh_serverMD5 h) (fh_buffer h) (fh_version h) (fh_prf h)).
Proof.
  intros [Ev Eb Ep Bt Hc Hsv] Hl Eo. destruct Hc as [(m & Hm & Em) HM]. specialize (Em eq_refl). subst m.
  destruct (o_sum_rel _ _ _ [] Hm) as (o' & E' & R'); [lia|]. rewrite Eo in E'. injection E' as -> ->. split; [reflexivity|].
  constructor; cbn; auto. split; [exists t; auto|exact HM].
Qed.

Lemma client_full_inv cfg rn hello sh su h0 f s s' : client_full E (C := C) cfg rn hello sh su h0 s = (HOk f, s') ->
  exists l m_cert ders l_skx l_req l_cc l_cv m_done m_ckx pms ct curveid chain, snd s' = snd s ++ l /\
    cfull_run cfg rn hello sh su h0 f l m_cert ders l_skx l_req l_cc l_cv m_done m_ckx pms ct curveid chain.
Proof.
  unfold client_full. intros H.
  apply bind_ok in H as ([mm1 m_cert] & s1 & H1 & H). apply readHandshake_ok in H1 as [P1 L1]. cbv beta in H. cbn [fst snd] in H.
  destruct mm1 as [| | | |ders| | | | | | | | ]; try now apply unexpected_ok in H.
  destruct (Z.eqb_spec (zlen ders) 0) as [|N0]; [now apply unexpected_ok in H|].
  destruct (Z.ltb_spec (zlen ders) 2) as [|N2]; [now apply fail_with_ok in H|].
  apply bind_ok in H as (h1 & s2 & H2 & H). prim H2. subst s2. cbv beta in H.
  apply bind_ok in H as (certs & s3 & H3 & H). apply check_certs_inv in H3 as (-> & F1 & F2 & F3). cbv beta in H.
  apply bind_ok in H as (chains & s4 & H4 & H). cbv beta in H.
  assert (X4 : s4 = s1 /\ if cf_skip cfg then chains = [] else
    forall j c, nth_error certs j = Some c -> exists ch, x509_verify E (server_verify_opts cfg (client_roots cfg) (inter_for certs j)) c = Some ch /\ (Datatypes.S j = length certs -> chains = ch)).
  { destruct (cf_skip cfg).
    - prim H4. auto.
    - apply verify_certs_inv in H4 as [-> H4]. split; [reflexivity|]. destruct (H4 [] eq_refl eq_refl) as [X _]. exact X. }
  destruct X4 as [-> X4]. clear H4.
  match type of H with (match ?v with _ => _ end) _ = _ => destruct v as [e|] eqn:EV end; [now apply fail_with_ok in H|].
  assert (XV : forall g, cf_verifyPeer cfg = Some g -> g ders chains = None) by (intros g Eg; rewrite Eg in EV; exact EV).
  apply bind_ok in H as ([mm5 raw5] & s5 & H5 & H). apply readHandshake_ok in H5 as [P5 L5]. cbv beta in H. cbn [fst snd] in H.
  apply bind_ok in H as ([[h6 curveid] mr6] & s6 & H6 & H). cbv beta iota in H.
  assert (X6 : exists l_skx mm raw, mr6 = (mm, raw) /\ parse_msg VersionGMSSL raw = Ok mm /\ snd s6 = snd s1 ++ l_skx ++ [EvRecv raw] /\
     ((l_skx = [] /\ curveid = 0 /\ h6 = h1) \/
      (exists m key, l_skx = [EvRecv m] /\ parse_msg VersionGMSSL m = Ok (MServerKeyExchange key) /\
       ka_processSKX E su (ch_random hello) (sh_random sh) certs key = Ok curveid /\ fh_Write h1 m = Ok h6))).
  { destruct mm5 as [| | | | | | |key| | | | | ];
      try (apply ret_ok in H6 as [H6 ->]; injection H6 as -> -> ->; eexists [], _, raw5; split; [reflexivity|]; split; [exact P5|]; split; [exact L5|]; left; auto; fail).
    apply bind_ok in H6 as (hx & sx & Hx & H6). prim Hx. subst sx. cbv beta in H6.
    apply bind_ok in H6 as (cid & sx & Hy & H6). apply orfail_ok in Hy as [Hy ->]. apply of_res_ok in Hy. cbv beta in H6.
    apply bind_ok in H6 as ([mm raw] & sz & Hz & H6). apply readHandshake_ok in Hz as [Pz Lz]. cbv beta in H6. prim H6. subst s6. injection H6 as -> -> ->.
    exists [EvRecv raw5], mm, raw. split; [reflexivity|]. split; [exact Pz|]. split; [now rewrite Lz, L5, <- app_assoc|]. right. exists raw5, key. auto. }
  destruct X6 as (l_skx & mm6 & raw6 & -> & P6 & L6 & X6). clear H6 L5 P5 s5 mm5 raw5. cbn [fst snd] in H.
  apply bind_ok in H as ([[[h7 requested] chain] mr7] & s7 & H7 & H). cbv beta iota in H.
  assert (X7 : exists l_req mm raw, mr7 = (mm, raw) /\ parse_msg VersionGMSSL raw = Ok mm /\ snd s7 = snd s1 ++ l_skx ++ l_req ++ [EvRecv raw] /\
     ((l_req = [] /\ requested = false /\ chain = None /\ h7 = h6) \/
      (exists m cr, l_req = [EvRecv m] /\ parse_msg VersionGMSSL m = Ok (MCertificateRequest cr) /\ requested = true /\ fh_Write h6 m = Ok h7 /\
       match cf_getClientCert cfg with Some g => g (cr_cas cr) = Ok chain | None => exists c, chain = Some c /\ find_chain E (cr_cas cr) (cf_certs cfg) = Ok c end))).
  { destruct mm6 as [| | | | |cr| | | | | | | ];
      try (apply ret_ok in H7 as [H7 ->]; injection H7 as -> -> -> ->; eexists [], _, raw6; split; [reflexivity|]; split; [exact P6|]; split; [exact L6|]; left; auto; fail).
    apply bind_ok in H7 as (hx & sx & Hx & H7). prim Hx. subst sx. cbv beta in H7.
    apply bind_ok in H7 as (ch & sx & Hy & H7). cbv beta in H7.
    assert (Y : sx = s6 /\ match cf_getClientCert cfg with Some g => g (cr_cas cr) = Ok ch | None => exists c, ch = Some c /\ find_chain E (cr_cas cr) (cf_certs cfg) = Ok c end).
    { unfold client_getCertificate in Hy. destruct (cf_getClientCert cfg) as [g|].
      - apply orfail_ok in Hy as [Hy ->]. apply of_res_ok in Hy. auto.
      - destruct (find_chain E (cr_cas cr) (cf_certs cfg)) as [c| |]; [prim Hy; subst; eauto| |discriminate].
        bnd Hy. now apply fail_with_ok in Hy. }
    destruct Y as [-> Y].
    apply bind_ok in H7 as ([mm raw] & sz & Hz & H7). apply readHandshake_ok in Hz as [Pz Lz]. cbv beta in H7. prim H7. subst s7. injection H7 as -> -> -> ->.
    exists [EvRecv raw6], mm, raw. split; [reflexivity|]. split; [exact Pz|]. split; [rewrite Lz, L6, <- !app_assoc; reflexivity|]. right. exists raw6, cr. auto. }
  destruct X7 as (l_req & mm7 & m_done & -> & P7 & L7 & X7). clear H7 L6 P6. cbn [fst snd] in H.
  destruct mm7; try now apply unexpected_ok in H.
  apply bind_ok in H as (h8 & s8 & H8 & H). prim H8. subst s8. cbv beta in H.
  apply bind_ok in H as (h9 & s9 & H9 & H). cbv beta in H.
  assert (X9 : exists l_cc, snd s9 = snd s7 ++ l_cc /\ (if requested then exists c mc, chain = Some c /\ l_cc = [EvSend mc] /\ m_certificate (ce_chain c) = Ok mc /\ fh_Write h8 mc = Ok h9 else l_cc = [] /\ h9 = h8)).
  { destruct requested.
    - destruct chain as [c|]; [|now apply panic_ok in H9]. apply emit_ok in H9 as (mc & Em & W & Lg). exists [EvSend mc]. split; [exact Lg|]. exists c, mc. auto.
    - prim H9. subst. exists []. split; [now rewrite app_nil_r|auto]. }
  destruct X9 as (l_cc & L9 & X9). clear H9.
  apply bind_ok in H as ([pms ct] & s10 & H10 & H). apply orfail_ok in H10 as [Eckx ->]. cbv beta iota in H.
  apply bind_ok in H as (h11 & s11 & H11 & H). apply emit_ok in H11 as (m_ckx & Em_ckx & W11 & L11). cbv beta in H.
  apply bind_ok in H as (h12 & s12 & H12 & H). cbv beta in H.
  assert (X12 : exists l_cv, snd s12 = snd s11 ++ l_cv /\
    match chain with
    | Some c => match ce_chain c with
        | [] => l_cv = [] /\ h12 = h11
        | _ => exists key digest oc sig m, ce_key c = Some key /\ o_sum (fh_client h11) [] = Ok (digest, oc) /\ PrivSign (e_cv E) (r_sign rn) key digest = Ok sig /\ m_certificateVerify false (0, sig) = Ok m /\ l_cv = [EvSend m] /\
            fh_Write (mkFH oc (fh_server h11) (fh_clientMD5 h11) (fh_serverMD5 h11) (fh_buffer h11) (fh_version h11) (fh_prf h11)) m = Ok h12
        end
    | None => l_cv = [] /\ h12 = h11
    end).
  { destruct chain as [c|]; [|prim H12; subst; exists []; split; [now rewrite app_nil_r|auto]].
    destruct (ce_chain c); [prim H12; subst; exists []; split; [now rewrite app_nil_r|auto]|].
    destruct (ce_key c) as [key|]; [|now apply fail_with_ok in H12].
    apply bind_ok in H12 as ([digest oc] & sx & Hx & H12). prim Hx. apply of_res_ok in Hx. subst sx. cbv beta iota zeta in H12.
    apply bind_ok in H12 as (sig & sx & Hy & H12). apply orfail_ok in Hy as [Hy ->]. apply of_res_ok in Hy. cbv beta in H12.
    apply emit_ok in H12 as (m & Em & W & Lg). exists [EvSend m]. split; [exact Lg|]. exists key, digest, oc, sig, m. repeat split; auto. }
  destruct X12 as (l_cv & L12 & X12). clear H12.
  apply bind_ok in H as (master & s13 & H13 & H). prim H13. apply of_res_ok in H13. subst s13. cbv beta in H.
  destruct (cf_keylog cfg (ch_random hello) master) eqn:EK; [now apply fail_with_ok in H|].
  prim H. subst s' f.
  set (lk := [EvRecv m_cert] ++ l_skx ++ l_req ++ [EvRecv m_done] ++ l_cc ++ [EvSend m_ckx]).
  set (l := [EvRecv m_cert] ++ l_skx ++ l_req ++ [EvRecv m_done] ++ l_cc ++ [EvSend m_ckx] ++ l_cv).
  assert (ELK : l = lk ++ l_cv) by (unfold l, lk; rewrite <- !app_assoc; reflexivity).
  assert (HK : forall d l0, gmh Hs d (transcript l0) h0 -> wire_ok (l0 ++ l) -> gmh Hs d (transcript (l0 ++ lk)) h11).
  { intros d l0 G0 WO.
    assert (BIN : forall m, In (EvSend m) lk -> bytes m).
    { intros m Hin. apply wire_ok_send. eapply wire_ok_in; [exact WO|]. rewrite ELK. rewrite !in_app_iff. auto. }
    assert (BIR : forall m, In (EvRecv m) lk -> bytes m).
    { intros m Hin. apply wire_ok_recv. eapply wire_ok_in; [exact WO|]. rewrite ELK. rewrite !in_app_iff. auto. }
    eapply (gmh_recv Hs d _ _ m_cert _ G0) in H2; [|apply BIR; unfold lk; cbn; tauto].
    assert (G6 : gmh Hs d (transcript ((l0 ++ [EvRecv m_cert]) ++ l_skx)) h6).
    { destruct X6 as [(-> & _ & ->)|(m & key & -> & _ & _ & W)]; [now apply gmh_same|]. eapply gmh_recv; [exact H2| |exact W]. apply BIR. unfold lk. cbn. tauto. }
    assert (G7 : gmh Hs d (transcript (((l0 ++ [EvRecv m_cert]) ++ l_skx) ++ l_req)) h7).
    { destruct X7 as [(-> & _ & _ & ->)|(m & cr & -> & _ & _ & W & _)]; [now apply gmh_same|]. eapply gmh_recv; [exact G6| |exact W]. apply BIR. unfold lk. rewrite !in_app_iff. cbn. tauto. }
    eapply (gmh_recv Hs d _ _ m_done _ G7) in H8; [|apply BIR; unfold lk; rewrite !in_app_iff; cbn; tauto].
    assert (G9 : gmh Hs d (transcript (((((l0 ++ [EvRecv m_cert]) ++ l_skx) ++ l_req) ++ [EvRecv m_done]) ++ l_cc)) h9).
    { destruct requested.
      - destruct X9 as (c & mc & _ & -> & _ & W). eapply gmh_send; [exact H8| |exact W]. apply BIN. unfold lk. rewrite !in_app_iff. cbn. tauto.
      - destruct X9 as [-> ->]. now apply gmh_same. }
    eapply (gmh_send Hs d _ _ m_ckx _ G9) in W11; [|apply BIN; unfold lk; rewrite !in_app_iff; cbn; tauto].
    unfold lk. rewrite <- !app_assoc in W11. exact W11. }
  exists l, m_cert, ders, l_skx, l_req, l_cc, l_cv, m_done, m_ckx, pms, ct, curveid, chain.
  split. { unfold l. rewrite L12, L11, L9, L7, L1, <- !app_assoc. reflexivity. }
  constructor; cbn [cf_h cf_master cf_peer cf_chains]; auto.
  - split; [exact P1|]. unfold zlen in N2. lia.
  - split; [exact F1|]. split; [exact F2|]. split; intros c Hc; apply (F3 _ c Hc); reflexivity.
  - destruct X6 as [(? & ? & _)|(m & key & ? & ? & ? & _)]; [auto|right; eauto].
  - destruct X7 as [(-> & -> & -> & _)|(m & cr & -> & P & -> & _ & HC)].
    + left. destruct X9 as [-> _]. auto.
    + right. destruct X9 as (c & mc & -> & -> & Em & _). exists m, cr, c, mc. repeat split; auto.
      destruct (cf_getClientCert cfg); [exact HC|]. destruct HC as (c' & [= <-] & HC). exact HC.
  - destruct chain as [c|]; [|tauto]. destruct (ce_chain c) as [|dd0 dds]; [tauto|].
    destruct X12 as (key & digest & oc & sig & m & Hk & Ho & Hsg & Hm & -> & W). exists key, digest, sig, m. repeat split; auto.
    intros d l0 G0 WO. pose proof (HK d l0 G0 WO) as G. fold lk.
    rewrite ELK, app_assoc in WO. apply wire_ok_app in WO as [[_ WO] _]. eapply gmh_osum; eauto.
  - intros d l0 G0 WO. pose proof (HK d l0 G0 WO) as G. eapply gmh_discard.
    assert (Q : forall h, gmh Hs d (transcript (l0 ++ lk)) h -> h12 = h -> l_cv = [] -> gmh Hs d (transcript (l0 ++ l)) h12).
    { intros h Gh -> ->. rewrite ELK, app_nil_r. exact Gh. }
    destruct chain as [c|]; [|destruct X12; eapply Q; eauto].
    destruct (ce_chain c) as [|dd0 dds]; [destruct X12; eapply Q; eauto|].
    destruct X12 as (key & digest & oc & sig & m & Hk & Ho & Hsg & Hm & -> & W).
    rewrite ELK, app_assoc. eapply gmh_send; [| |exact W].
    + rewrite ELK, app_assoc in WO. apply wire_ok_app in WO as [[_ WO] _]. eapply gmh_osum; eauto.
    + apply wire_ok_send. eapply wire_ok_in; [exact WO|]. rewrite ELK, !in_app_iff. cbn. tauto.
Qed.
End ClientInv.

Section ClientTail.
Context {T : Type} (E : env T) {C : chan} (Hs : hashes) (HL : std_impl (e_std E) Hs) (HG : good_hashes Hs).
Implicit Types s : hst C.
Lemma client_keys_inv master cr sr s u s' : client_keys E C master cr sr s = (HOk u, s') ->
  exists k, snd s' = snd s ++ [EvKeys k] /\ gm_keys (e_std E) VersionGMSSL master cr sr = HOk k.
Proof. unfold client_keys. intros H. bnd H. prim E0. subst. prim H. eauto. Qed.
Lemma client_sendFinished_inv (cfg : config T) sh h master s s' h' vd proto : client_sendFinished C cfg sh h master s = (HOk (h', vd, proto), s') ->
  exists l_np m, snd s' = snd s ++ [EvSendCCS] ++ l_np ++ [EvSend m] /\ m_finished vd = Ok m /\
    (if sh_npn sh then exists np fb mp, mutualProtocol (cf_protos cfg) (sh_protos sh) = Ok (np, fb) /\ m_nextProto np = Ok mp /\ l_np = [EvSend mp] /\ proto = Some np
     else l_np = [] /\ proto = None) /\
    (forall d l, gmh Hs d (transcript l) h -> wire_ok (l ++ [EvSendCCS] ++ l_np ++ [EvSend m]) -> small master ->
       vd = client_finished Hs GMSSL master (transcript (l ++ [EvSendCCS] ++ l_np)) /\
       gmh Hs d (transcript (l ++ [EvSendCCS] ++ l_np ++ [EvSend m])) h').
Proof.
  unfold client_sendFinished. intros H. bnd H. prim E0. rename E0 into L0.
  apply bind_ok in H as ([h1 proto1] & s1 & H1 & H). cbv beta iota in H.
  assert (X1 : exists l_np, snd s1 = snd s0 ++ l_np /\ (if sh_npn sh then exists np fb mp, mutualProtocol (cf_protos cfg) (sh_protos sh) = Ok (np, fb) /\ m_nextProto np = Ok mp /\ l_np = [EvSend mp] /\ proto1 = Some np /\ fh_Write h mp = Ok h1
                                   else l_np = [] /\ proto1 = None /\ h1 = h)).
  { destruct (sh_npn sh).
    - apply bind_ok in H1 as ([np fb] & sx & Hx & H1). prim Hx. apply of_res_ok in Hx. subst sx. cbv beta in H1. cbn [fst] in H1.
      apply bind_ok in H1 as (hx & sx & Hy & H1). apply emit_ok in Hy as (mp & Em & W & Lg). cbv beta in H1. prim H1. subst. injection H1 as -> ->.
      exists [EvSend mp]. split; [exact Lg|]. exists np, fb, mp. auto.
    - prim H1. subst. injection H1 as -> ->. exists []. split; [now rewrite app_nil_r|auto]. }
  destruct X1 as (l_np & L1 & X1). clear H1.
  apply bind_ok in H as ([v h2] & s3 & H3 & H). prim H3. apply of_res_ok in H3. subst s3. cbv beta iota in H.
  apply bind_ok in H as (h4 & s4 & H4 & H). apply emit_ok in H4 as (m & Em & W & Lg). cbv beta in H. prim H. subst s4. injection H as -> -> ->.
  exists l_np, m. split; [rewrite Lg, L1, L0, <- !app_assoc; reflexivity|]. split; [exact Em|].
  split. { destruct (sh_npn sh); [destruct X1 as (np & fb & mp & ? & ? & ? & ? & _); exists np, fb, mp; auto|tauto]. }
  intros d l G WO Sm.
  assert (WO2 : wire_ok (l ++ [EvSendCCS] ++ l_np)) by (rewrite !app_assoc in WO; apply wire_ok_app in WO as [WO _]; rewrite <- app_assoc in WO; exact WO).
  assert (G1 : gmh Hs d (transcript (l ++ [EvSendCCS] ++ l_np)) h1).
  { apply (gmh_same Hs d l [EvSendCCS]) in G; [|reflexivity]. rewrite app_assoc. destruct (sh_npn sh).
    - destruct X1 as (np & fb & mp & _ & _ & -> & _ & W1). eapply gmh_send; [exact G| |exact W1].
      apply wire_ok_send. eapply wire_ok_in; [exact WO2|]. rewrite !in_app_iff. cbn. tauto.
    - destruct X1 as (-> & _ & ->). apply gmh_same; auto. }
  eapply (gmh_client Hs HG) in H3; [|exact G1|exact (proj2 WO2)|exact Sm]. destruct H3 as [-> G2]. split; [reflexivity|].
  replace (l ++ [EvSendCCS] ++ l_np ++ [EvSend m]) with ((l ++ [EvSendCCS] ++ l_np) ++ [EvSend m]) by (now rewrite <- !app_assoc).
  eapply gmh_send; [exact G2| |exact W]. apply wire_ok_send. eapply wire_ok_in; [exact WO|]. rewrite !in_app_iff. cbn. tauto.
Qed.
Lemma readSessionTicket_inv sh su master peer chains h s s' h' ns : readSessionTicket C (T := T) sh su master peer chains h s = (HOk (h', ns), s') ->
  exists l_t, snd s' = snd s ++ l_t /\
    (if sh_ticketOn sh then exists m t, l_t = [EvRecv m] /\ parse_msg VersionGMSSL m = Ok (MNewSessionTicket t) /\ ns = Some (mkCSess t VersionGMSSL (su_id su) master peer chains)
     else l_t = [] /\ ns = None) /\
    (forall d l, gmh Hs d (transcript l) h -> wire_ok (l ++ l_t) -> gmh Hs d (transcript (l ++ l_t)) h').
Proof.
  unfold readSessionTicket. intros H. destruct (sh_ticketOn sh); cbn [negb] in H.
  - apply bind_ok in H as ([mm raw] & s1 & H1 & H). apply readHandshake_ok in H1 as [P1 L1]. cbv beta in H. cbn [fst snd] in H.
    destruct mm as [| | |t| | | | | | | | | ]; try now apply unexpected_ok in H.
    bnd H. prim E0. prim H. subst. injection H as -> ->. exists [EvRecv raw]. split; [exact L1|]. split; [exists raw, t; auto|].
    intros d l G WO. eapply gmh_recv; [exact G| |exact E0]. apply wire_ok_app in WO as [_ WO]. now apply wire_ok_recv.
  - prim H. subst. injection H as -> ->. exists []. split; [now rewrite app_nil_r|]. split; [auto|]. intros d l G _. now apply gmh_same.
Qed.
Lemma client_readFinished_inv h master s s' h' verify : client_readFinished C h master s = (HOk (h', verify), s') ->
  exists m_fin, snd s' = snd s ++ [EvRecvCCS; EvRecv m_fin] /\ parse_msg VersionGMSSL m_fin = Ok (MFinished verify) /\
    (forall d l, gmh Hs d (transcript l) h -> wire_ok (l ++ [EvRecvCCS; EvRecv m_fin]) -> small master ->
       verify = server_finished Hs GMSSL master (transcript l) /\ gmh Hs d (transcript (l ++ [EvRecvCCS; EvRecv m_fin])) h').
Proof.
  unfold client_readFinished. intros H. bnd H. prim E0. rename E0 into L0.
  apply bind_ok in H as ([mm raw] & s2 & H2 & H). apply readHandshake_ok in H2 as [P2 L2]. cbv beta in H. cbn [fst snd] in H.
  destruct mm as [| | | | | | | | | | | |vd]; try now apply unexpected_ok in H.
  apply bind_ok in H as ([v h2] & s3 & H3 & H). prim H3. apply of_res_ok in H3. subst s3. cbv beta iota in H.
  destruct (beqb v vd) eqn:EB; [|now apply fail_with_ok in H]. apply beqb_eq in EB. subst vd.
  bnd H. prim E0. prim H. subst. injection H as -> ->. rename E0 into W.
  exists raw. split; [rewrite L2, L0, <- app_assoc; reflexivity|]. split; [exact P2|].
  intros d l G WO Sm. pose proof (wire_ok_app _ _ WO) as [[_ WL] WR].
  eapply (gmh_server Hs HG) in H3; [|exact G|exact WL|exact Sm]. destruct H3 as [-> G2]. split; [reflexivity|].
  apply (gmh_same Hs d l [EvRecvCCS]) in G2; [|reflexivity].
  replace (l ++ [EvRecvCCS; EvRecv raw]) with ((l ++ [EvRecvCCS]) ++ [EvRecv raw]) by (rewrite <- app_assoc; reflexivity).
  eapply gmh_recv; [exact G2| |exact W]. apply wire_ok_recv. eapply wire_ok_in; [exact WR|]. cbn. tauto.
Qed.
Lemma processServerHello_inv hello sh su session s r s' : processServerHello (C := C) (T := T) hello sh su session s = (HOk r, s') ->
  s' = s /\ sh_comp sh = 0 /\ (sh_renegOn sh = true -> sh_reneg sh = []) /\ (sh_npn sh = true -> ch_npn hello = true) /\ (sh_alpn sh <> [] -> ch_alpn hello <> []) /\
  match r with Some x => session = Some x /\ sh_sessionId sh = ch_sessionId hello /\ cs_vers x = VersionGMSSL /\ cs_suite x = su_id su | None => True end.
Proof.
  unfold processServerHello. intros H.
  destruct (Z.eqb_spec (sh_comp sh) 0) as [E0|]; cbn [negb] in H; [|now apply fail_with_ok in H].
  destruct (sh_renegOn sh && negb (zlen (sh_reneg sh) =? 0)) eqn:E1; [now apply fail_with_ok in H|].
  destruct (negb (ch_npn hello) && sh_npn sh) eqn:E2; [now apply fail_with_ok in H|].
  destruct (negb (0 <? zlen (ch_alpn hello)) && (0 <? zlen (sh_alpn sh))) eqn:E3; [now apply fail_with_ok in H|].
  destruct (sh_npn sh && (0 <? zlen (sh_alpn sh))) eqn:E4; [now apply fail_with_ok in H|].
  assert (X : s' = s /\ match r with Some x => session = Some x /\ sh_sessionId sh = ch_sessionId hello /\ cs_vers x = VersionGMSSL /\ cs_suite x = su_id su | None => True end).
  { destruct session as [x|]; [|prim H; subst; auto].
    destruct (beqb (sh_sessionId sh) (ch_sessionId hello)) eqn:E5; cbn [negb] in H; [|prim H; subst; auto].
    destruct (Z.eqb_spec (cs_vers x) VersionGMSSL); cbn [negb] in H; [|now apply fail_with_ok in H].
    destruct (Z.eqb_spec (cs_suite x) (su_id su)); cbn [negb] in H; [|now apply fail_with_ok in H].
    prim H. subst. apply beqb_eq in E5. auto. }
  destruct X as [-> X]. split; [reflexivity|]. split; [exact E0|].
  split. { intros HR. rewrite HR in E1. cbn [andb] in E1. apply negb_false_iff, Z.eqb_eq in E1. destruct (sh_reneg sh); [reflexivity|unfold zlen in E1; cbn [length] in E1; lia]. }
  split. { intros HN. rewrite HN in E2. destruct (ch_npn hello); [reflexivity|discriminate]. }
  split; [|exact X]. intros HN HC. rewrite HC in E3. cbn in E3. destruct (sh_alpn sh); [congruence|]. unfold zlen in E3. cbn [length] in E3. apply Z.ltb_ge in E3. lia.
Qed.

(** ** The whole handshake *)
Definition cfull0 (h : finishedHash) : Prop := gmh Hs false [] h.
Record client_run (cfg : config T) (rn : rnds) (hello : clientHello) (chraw : list Z) (m_sh : list Z) (sh : serverHello) (su : suite) (r : hresult T) (ns : option (csession T))
   (log : list event) (f : cfull (T := T)) (h0 : finishedHash) (lf : list event) (k : keyblock) (l_np l_t : list event) (m_fin m_sfin : list Z) : Prop := mkCR {
  cl_log : log = [EvSend chraw; EvRecv m_sh] ++ lf ++ [EvKeys k; EvSendCCS] ++ l_np ++ [EvSend m_fin] ++ l_t ++ [EvRecvCCS; EvRecv m_sfin];
  cl_full : exists m_cert ders l_skx l_req l_cc l_cv m_done m_ckx pms ct curveid chain,
     cfull_run E Hs cfg rn hello sh su h0 f lf m_cert ders l_skx l_req l_cc l_cv m_done m_ckx pms ct curveid chain;
  cl_h0 : wire_ok log -> exists d, gmh Hs d (transcript [EvSend chraw; EvRecv m_sh]) h0;
  cl_keys : gm_keys (e_std E) VersionGMSSL (cf_master f) (ch_random hello) (sh_random sh) = HOk k;
  cl_fin : m_finished (hr_clientFinished r) = Ok m_fin;
  cl_sfin : parse_msg VersionGMSSL m_sfin = Ok (MFinished (hr_serverFinished r));
  cl_np : if sh_npn sh then exists np fb mp, mutualProtocol (cf_protos cfg) (sh_protos sh) = Ok (np, fb) /\ m_nextProto np = Ok mp /\ l_np = [EvSend mp] /\ hr_proto r = np
     else l_np = [] /\ hr_proto r = sh_alpn sh;
  cl_t : if sh_ticketOn sh then exists m t, l_t = [EvRecv m] /\ parse_msg VersionGMSSL m = Ok (MNewSessionTicket t) /\
        (forall x, ns = Some x -> x = mkCSess t VersionGMSSL (su_id su) (cf_master f) (cf_peer f) (cf_chains f)) else l_t = [] /\ ns = None;
  cl_val : wire_ok log -> small (cf_master f) ->
     hr_clientFinished r = client_finished Hs GMSSL (cf_master f) (transcript ([EvSend chraw; EvRecv m_sh] ++ lf ++ [EvKeys k; EvSendCCS] ++ l_np)) /\
     hr_serverFinished r = server_finished Hs GMSSL (cf_master f) (transcript ([EvSend chraw; EvRecv m_sh] ++ lf ++ [EvKeys k; EvSendCCS] ++ l_np ++ [EvSend m_fin] ++ l_t));
  cl_res : hr_vers r = VersionGMSSL /\ hr_suite r = su_id su /\ hr_master r = cf_master f /\ hr_clientRandom r = ch_random hello /\ hr_serverRandom r = sh_random sh /\
     hr_peer r = cf_peer f /\ hr_chains r = cf_chains f }.
(** the client resumed the session it offered *)
Record client_resumed (cfg : config T) (hello : clientHello) (chraw m_sh : list Z) (sh : serverHello) (su : suite) (r : hresult T) (log : list event) (x : csession T)
   (k : keyblock) (l_np l_t : list event) (m_fin m_sfin : list Z) : Prop := mkCRS {
  cz_log : log = [EvSend chraw; EvRecv m_sh; EvKeys k] ++ l_t ++ [EvRecvCCS; EvRecv m_sfin; EvSendCCS] ++ l_np ++ [EvSend m_fin];
  cz_keys : gm_keys (e_std E) VersionGMSSL (cs_master x) (ch_random hello) (sh_random sh) = HOk k;
  cz_sess : sh_sessionId sh = ch_sessionId hello /\ cs_vers x = VersionGMSSL /\ cs_suite x = su_id su;
  cz_sfin : parse_msg VersionGMSSL m_sfin = Ok (MFinished (hr_serverFinished r));
  cz_val : wire_ok log -> small (cs_master x) ->
     hr_serverFinished r = server_finished Hs GMSSL (cs_master x) (transcript ([EvSend chraw; EvRecv m_sh; EvKeys k] ++ l_t)) /\
     hr_clientFinished r = client_finished Hs GMSSL (cs_master x) (transcript ([EvSend chraw; EvRecv m_sh; EvKeys k] ++ l_t ++ [EvRecvCCS; EvRecv m_sfin; EvSendCCS] ++ l_np));
  cz_fin : m_finished (hr_clientFinished r) = Ok m_fin;
  cz_np : sh_npn sh = false -> l_np = [];
  cz_t : if sh_ticketOn sh then exists m t, l_t = [EvRecv m] /\ parse_msg VersionGMSSL m = Ok (MNewSessionTicket t) else l_t = [];
  cz_res : hr_vers r = VersionGMSSL /\ hr_suite r = su_id su /\ hr_master r = cs_master x /\ hr_clientRandom r = ch_random hello /\ hr_serverRandom r = sh_random sh /\
     hr_peer r = cs_certs x /\ hr_chains r = cs_chains x }.

Lemma clientHandshake_inv cfg cache rn c r ns c' log : clientHandshakeGM E C cfg cache rn (c, []) = (HOk (r, ns), (c', log)) ->
  exists hello0 hello session chraw m_sh sh su,
    makeClientHelloGM cfg rn = Ok hello0 /\ complete_hello cfg cache rn hello0 = Ok (hello, session) /\ m_clientHello hello = Ok chraw /\
    parse_msg VersionGMSSL m_sh = Ok (MServerHello sh) /\ sh_vers sh = VersionGMSSL /\ mutualCipherSuiteGM (ch_suites hello) (sh_suite sh) = Some su /\
    sh_comp sh = 0 /\ (sh_renegOn sh = true -> sh_reneg sh = []) /\ (sh_npn sh = true -> ch_npn hello = true) /\ (sh_alpn sh <> [] -> ch_alpn hello <> []) /\
    ((hr_resumed r = false /\ exists f h0 lf k l_np l_t m_fin m_sfin, client_run cfg rn hello chraw m_sh sh su r ns log f h0 lf k l_np l_t m_fin m_sfin) \/
     (hr_resumed r = true /\ exists x k l_np l_t m_fin m_sfin, session = Some x /\ client_resumed cfg hello chraw m_sh sh su r log x k l_np l_t m_fin m_sfin)).
Proof.
  unfold clientHandshakeGM. intros H. bnd H. apply setvers_ok in E0 as L0. cbn [snd] in L0. clear E0 a.
  apply bind_ok in H as (hello0 & s1 & H1 & H). prim H1. apply of_res_ok in H1. subst s1. cbv beta in H.
  apply bind_ok in H as ([hello session] & s1 & H2 & H). prim H2. apply of_res_ok in H2. subst s1. cbv beta iota in H.
  apply bind_ok in H as (chraw & s1 & H3 & H). prim H3. subst s1. cbv beta in H.
  bnd H. apply send_ok in E0 as L1. clear E0 a. rewrite L0 in L1. cbn [app] in L1.
  apply bind_ok in H as ([mm m_sh] & s2 & H4 & H). apply readHandshake_ok in H4 as [P4 L4]. cbv beta in H. cbn [fst snd] in H.
  destruct mm as [| |sh| | | | | | | | | | ]; try now apply unexpected_ok in H.
  destruct (Z.eqb_spec (sh_vers sh) VersionGMSSL) as [EV|]; cbn [negb] in H; [|now apply fail_with_ok in H].
  destruct (mutualCipherSuiteGM (ch_suites hello) (sh_suite sh)) as [su|] eqn:ES; [|now apply fail_with_ok in H].
  apply bind_ok in H as (resumed & s3 & H5 & H). cbv beta in H. apply processServerHello_inv in H5 as (-> & X1 & X2 & X3 & X4 & X5).
  apply bind_ok in H as (h0 & s3 & H6 & H). prim H6. apply of_res_ok in H6. subst s3. cbv beta zeta in H.
  match type of H with bind (wr ?x _) _ _ = _ => set (h1 := x) in H end.
  apply bind_ok in H as (h2 & s3 & H7 & H). prim H7. subst s3. cbv beta in H.
  apply bind_ok in H as (h3 & s3 & H8 & H). prim H8. subst s3. cbv beta in H.
  rewrite L1 in L4. cbn [app] in L4.
  assert (G1 : exists d, gmh Hs d [] h1).
  { pose proof (gmh_new (e_std E) Hs HL HG _ H6) as G. unfold h1. match goal with |- context [if ?b then _ else _] => destruct b end; [exists true; eapply gmh_discard; exact G|eauto]. }
  assert (G3 : wire_ok [EvSend chraw; EvRecv m_sh] -> exists d, gmh Hs d (transcript [EvSend chraw; EvRecv m_sh]) h3).
  { intros WO. destruct G1 as [d G1]. exists d. change [EvSend chraw; EvRecv m_sh] with ([EvSend chraw] ++ [EvRecv m_sh]).
    eapply gmh_recv; [|apply wire_ok_recv; eapply wire_ok_in; [exact WO|cbn; tauto]|exact H8].
    change [EvSend chraw] with ([] ++ [EvSend chraw]). eapply gmh_send; [exact G1| |exact H7]. apply wire_ok_send; eapply wire_ok_in; [exact WO|cbn; tauto]. }
  exists hello0, hello, session, chraw, m_sh, sh, su. do 10 (split; [assumption|]).
  destruct resumed as [x|].
  - right. destruct X5 as (-> & Y1 & Y2 & Y3).
    apply bind_ok in H as (u & s4 & H9 & H). apply client_keys_inv in H9 as (k & L9 & EK). cbv beta in H.
    apply bind_ok in H as ([h5 ns'] & s5 & H10 & H). cbv beta iota in H. apply readSessionTicket_inv in H10 as (l_t & L10 & T10 & V10).
    apply bind_ok in H as ([h6 sfin] & s6 & H11 & H). cbv beta iota in H. apply client_readFinished_inv in H11 as (m_sfin & L11 & P11 & V11).
    apply bind_ok in H as ([[h7 cfin] proto] & s7 & H12 & H). cbv beta iota in H. apply client_sendFinished_inv in H12 as (l_np & m_fin & L12 & M12 & N12 & V12).
    prim H. injection H as -> ->. subst s7. cbn [snd] in L12. split; [reflexivity|]. exists x, k, l_np, l_t, m_fin, m_sfin. split; [reflexivity|].
    assert (EL : log = [EvSend chraw; EvRecv m_sh; EvKeys k] ++ l_t ++ [EvRecvCCS; EvRecv m_sfin; EvSendCCS] ++ l_np ++ [EvSend m_fin]).
    { rewrite L12, L11, L10, L9, L4, <- !app_assoc. reflexivity. }
    constructor; cbn [hr_clientFinished hr_serverFinished hr_proto hr_vers hr_suite hr_master hr_clientRandom hr_serverRandom hr_peer hr_chains hr_serverName]; auto 10.
    + intros WO Sm. rewrite EL in WO.
      assert (WO2 : wire_ok (([EvSend chraw; EvRecv m_sh; EvKeys k] ++ l_t) ++ [EvRecvCCS; EvRecv m_sfin])).
      { apply (fun H => proj1 (wire_ok_app _ ([EvSendCCS] ++ l_np ++ [EvSend m_fin]) H)). rewrite <- !app_assoc. exact WO. }
      pose proof (wire_ok_app _ _ WO2) as [WO3 _]. pose proof (wire_ok_app _ _ WO3) as [WO4 _].
      destruct (G3 (proj1 (wire_ok_app [EvSend chraw; EvRecv m_sh] [EvKeys k] WO4))) as [d G]. apply (gmh_same Hs d _ [EvKeys k]) in G; [|reflexivity].
      pose proof (V10 d _ G WO3) as G5. destruct (V11 d _ G5 WO2 Sm) as [-> G6]. split; [reflexivity|].
      destruct (V12 d _ G6) as [-> _]; [|exact Sm|].
      { rewrite <- !app_assoc. exact WO. }
      apply f_equal. apply f_equal. rewrite <- !app_assoc. reflexivity.
    + intros EN. rewrite EN in N12. tauto.
    + destruct (sh_ticketOn sh); [destruct T10 as (m & t & ? & ? & _); eauto|tauto].
  - left.
    apply bind_ok in H as (f & s4 & H9 & H). cbv beta in H.
    apply (client_full_inv E Hs) in H9 as (lf & m_cert & ders & l_skx & l_req & l_cc & l_cv & m_done & m_ckx & pms & ct & curveid & chain & L9 & HF).
    apply bind_ok in H as (u & s5 & H10 & H). apply client_keys_inv in H10 as (k & L10 & EK). cbv beta in H.
    apply bind_ok in H as ([[h7 cfin] proto] & s7 & H12 & H). cbv beta iota in H. apply client_sendFinished_inv in H12 as (l_np & m_fin & L12 & M12 & N12 & V12).
    apply bind_ok in H as ([h5 ns'] & s8 & H13 & H). cbv beta iota in H. apply readSessionTicket_inv in H13 as (l_t & L13 & T13 & V13).
    apply bind_ok in H as ([h6 sfin] & s6 & H11 & H). cbv beta iota in H. apply client_readFinished_inv in H11 as (m_sfin & L11 & P11 & V11).
    prim H. injection H as -> ->. subst s6. cbn [snd] in L11. split; [reflexivity|]. exists f, h3, lf, k, l_np, l_t, m_fin, m_sfin.
    assert (EL : log = [EvSend chraw; EvRecv m_sh] ++ lf ++ [EvKeys k; EvSendCCS] ++ l_np ++ [EvSend m_fin] ++ l_t ++ [EvRecvCCS; EvRecv m_sfin]).
    { rewrite L11, L13, L12, L10, L9, L4, <- !app_assoc. reflexivity. }
    assert (W0 : wire_ok log -> wire_ok [EvSend chraw; EvRecv m_sh]) by (rewrite EL; intros WO; apply wire_ok_app in WO; tauto).
    constructor; cbn [hr_clientFinished hr_serverFinished hr_proto hr_vers hr_suite hr_master hr_clientRandom hr_serverRandom hr_peer hr_chains hr_serverName]; auto.
    + eauto 20.
    + destruct (sh_npn sh).
      * destruct N12 as (np & fb & mp & ? & ? & ? & ->). exists np, fb, mp. auto.
      * destruct N12 as [-> ->]. auto.
    + destruct (sh_ticketOn sh).
      * destruct T13 as (m & t & ? & ? & ->). exists m, t. split; [assumption|]. split; [assumption|]. destruct cache; [congruence|discriminate].
      * destruct T13 as [-> ->]. split; [reflexivity|]. destruct cache; reflexivity.
    + intros WO Sm. destruct (G3 (W0 WO)) as [d G].
      set (l1 := [EvSend chraw; EvRecv m_sh] ++ lf). set (l2 := [EvSendCCS] ++ l_np ++ [EvSend m_fin]).
      assert (EL1 : log = (((l1 ++ [EvKeys k]) ++ l2) ++ l_t) ++ [EvRecvCCS; EvRecv m_sfin]) by (rewrite EL; unfold l1, l2; rewrite <- !app_assoc; reflexivity).
      rewrite EL1 in WO.
      pose proof (wire_ok_app _ _ WO) as [W1 _]. pose proof (wire_ok_app _ _ W1) as [W2 _]. pose proof (wire_ok_app _ _ W2) as [W3 _]. pose proof (wire_ok_app _ _ W3) as [W4 _].
      pose proof (cr_hash _ _ _ _ _ _ _ _ _ _ _ _ _ _ _ _ _ _ _ _ _ _ HF d [EvSend chraw; EvRecv m_sh] G W4) as G4. fold l1 in G4.
      apply (gmh_same Hs true l1 [EvKeys k]) in G4; [|reflexivity].
      destruct (V12 true (l1 ++ [EvKeys k]) G4 W2 Sm) as [-> G5].
      pose proof (V13 true _ G5 W1) as G6. destruct (V11 true _ G6 WO Sm) as [-> _].
      unfold l1. split; (apply f_equal; apply f_equal; rewrite <- !app_assoc; reflexivity).
    + repeat split.
Qed.
End ClientTail.

(** C77, the part that holds: no client can crash a server that speaks GMSSL only and does not enable the ECDHE suite, unless it sends a ClientKeyExchange whose
    ciphertext is malformed (the crash of C74). *)
From Verif Require Import GoBase GoLemmas BigBytes HMAC Asn1_model X509_spec Prime_cert SM2_curve_spec SM2_group SM2_jac SM2_spec SM2_model SM2_proofs SM3_spec SM3_model TLS_record_model TLS_prf_model TLS_prf_spec TLS_prf_proofs
  TLS_gmka_model TLS_ticket_model TLS_msg_model TLS_msg_proofs TLS_neg_model TLS_hs_model TLS_hs_proofs TLS_hs_bytes TLS_hs_server TLS_hs_client TLS_hs_spec TLS_hs_run P_TLS_hs_server P_TLS_hs_client P_TLS_hs_agree P_TLS_hs_run TLS_hs_safe.
From Verif Require Import TLS_std_safe.
From Verif Require X509_model P_SM2 P_TLS_msg P_TLS_gmka P_TLS_prf P_TLS_neg P_TLS_ticket P_TLS_hs_safe P_TLS_std_safe2.
Open Scope Z_scope.
#[local] Opaque sm3 PRF smul padd sm2_n sm2_p be_bytes SumSM3 parse_msg getCipherSuites gm_keys masterFromPreMasterSecret serverSum clientSum newFinishedHash newFinishedHashGM fh_Write discardHandshakeBuffer
  PrivSign PubVerify generateServerKeyExchange processClientKeyExchange m_certificate m_certificateRequest m_certificateStatus m_serverKeyExchange m_newSessionTicket m_finished m_serverHello fh_Sum o_sum decryptTicket encryptTicket.

(** a ClientKeyExchange message (its body, after the four bytes of header) whose ciphertext is not one of those that crash the server: it is not one byte long, and if its
    length byte fits, an uncompressed point and a hash can be there *)
Definition proper_ckx (m : list Z) : Prop := nth 0 m 0 = 16 -> let ct := skipn 4 m in
  (length ct <> 1)%nat /\ ((99 <= length ct)%nat /\ nth 2 ct 0 = 4 \/ nth 1 ct 0 <> zlen ct - 2).
(** what the server's own side must provide, for every configuration it may use *)
Definition gm_chain {T} (cfg : config T) : list (list Z) := concat (map ce_chain (cf_certs cfg)).
Record gm_server_sane {T} (E : env T) (cfg : config T) (getcfg : option (clientHello -> res (option (config T)))) (rn : rnds) : Prop := {
  ga_hello : forall b, r_hello rn = Some b -> bytes b /\ length b = 32%nat;
  ga_iv : forall b, r_iv rn = Some b -> bytes b /\ zlen b < 2 ^ 20;
  ga_sign : exists b, r_sign rn = Some b;
  ga_aes : forall k, P_TLS_ticket.block_ok (e_aes E k);
  ga_sha256 : good_hash (e_sha256 E) 32;
  ga_getcfg : forall f ch, getcfg = Some f -> f ch <> Panic;
  ga_versions : forall ch cfg', cfg_for cfg getcfg ch cfg' -> cf_min cfg' = 0x0101 /\ cf_max cfg' = 0x0101;
  ga_suites : forall ch cfg', cfg_for cfg getcfg ch cfg' -> ~ In 0xe011 (getCipherSuites (cf_suites cfg'));
  ga_protos : forall ch cfg', cfg_for cfg getcfg ch cfg' -> Forall bytes (cf_protos cfg') /\ Forall short_name (cf_protos cfg') /\ zlen (cf_protos cfg') + sum_len (cf_protos cfg') < 2 ^ 40;
  ga_cas : forall ch cfg' p, cfg_for cfg getcfg ch cfg' -> cf_clientCAs cfg' = Some p -> Forall bytes (X509_model.Subjects p) /\ 2 * zlen (X509_model.Subjects p) + sum_len (X509_model.Subjects p) < 2 ^ 40;
  ga_tickets : forall ch cfg', cfg_for cfg getcfg ch cfg' -> cf_noTickets cfg' = false ->
    cf_keys cfg' <> [] /\ Forall (fun k => bytes (k_name k) /\ bytes (k_hmac k) /\ zlen (k_name k) < 2 ^ 20) (cf_keys cfg');
  ga_chain : forall ch cfg', cfg_for cfg getcfg ch cfg' -> P_TLS_hs_safe.chain_fine (gm_chain cfg');
  ga_certs : forall ch cfg' ce, cfg_for cfg getcfg ch cfg' -> In ce (cf_certs cfg') -> ce_chain ce <> [] /\ Forall bytes (ce_chain ce) /\ (bytes (ce_ocsp ce) /\ zlen (ce_ocsp ce) < 2 ^ 24 - 4) /\
    (Forall bytes (ce_scts ce) /\ 2 * zlen (ce_scts ce) + sum_len (ce_scts ce) < 2 ^ 40) }.

(** ** The transcript: objects for the hash [H] under GMSSL (SM3 in a full handshake; SHA-1 in a resumed one, where the code calls newFinishedHash) *)
Section Hash.
Context (C : chan) (Q : list Z -> Prop) (HC : chan_ok C Q) (Hs : hashes) (HG : good_hashes Hs) (L : stdlib) (HL : std_impl L Hs).
Notation safe := (safe C).
Definition short_hash (H : list Z -> list Z) : Prop := forall m, bytes m -> bytes (H m) /\ zlen (H m) <= 48.
Definition th (H : list Z -> list Z) (n : Z) (h : finishedHash) : Prop := exists t, bytes t /\ zlen t <= n * 2 ^ 50 /\ fh_version h = VersionGMSSL /\ prf_ok Hs GMSSL (fh_prf h) /\
  o_rel (fh_client h) H t /\ o_rel (fh_server h) H t /\ exists a b, fh_clientMD5 h = Some a /\ fh_serverMD5 h = Some b.
Lemma th_mono H n n' h : th H n h -> n <= n' -> th H n' h.
Proof. intros (t & B & Ln & X) Hn. exists t. split; [exact B|]. split; [|exact X]. change (2 ^ 50) with 1125899906842624 in *. lia. Qed.
Lemma th_discard H n h : th H n h -> th H n (discardHandshakeBuffer h).
Proof. intros (t & B & Ln & X). exists t. split; [exact B|]. split; [exact Ln|]. exact X. Qed.
Lemma th_new : match newFinishedHashGM with Ok h => th sm3 0 h | _ => False end.
Proof.
  destruct (newFinishedHashGM_ok L Hs HL HG) as (h & -> & [F1 F2 F3 F4 [(m & F5 & E5) (a & F5')] [(m' & F6 & E6) (b & F6')]]). specialize (E5 eq_refl). specialize (E6 eq_refl). subst m m'.
  exists []. split; [constructor|]. split; [cbn; lia|]. split; [exact F1|]. split; [exact F3|]. split; [exact F5|]. split; [exact F6|]. eauto.
Qed.
Lemma th_new_resume : match newFinishedHash L VersionGMSSL false with Ok h => th (SHA1 Hs) 0 h | _ => False end.
Proof.
  pose proof HL as (I1 & I2 & _). destruct (o_new_rel _ _ I1) as (m & Em & _). destruct (o_new_rel _ _ I2) as (s & Es & Rs).
  pose proof (prf_ok_version L Hs HL HG GMSSL false _ eq_refl) as HP.
  with_strategy transparent [newFinishedHash] unfold newFinishedHash. change (prfAndHashForVersion L VersionGMSSL false) with (Ok (prf12 sm3I, H_none)). cbn [rbind]. rewrite Es, Em. cbn [rbind].
  exists []. cbn [fh_version fh_prf fh_client fh_server fh_clientMD5 fh_serverMD5]. split; [constructor|]. split; [cbn; lia|]. split; [reflexivity|]. split; [exact HP|]. split; [exact Rs|]. split; [exact Rs|]. eauto.
Qed.
Context (H : list Z -> list Z) (GH : short_hash H).
Lemma safe_wrG n h m : th H n h -> bytes m -> zlen m < 2 ^ 50 -> safe (wr h m) (th H (n + 1)).
Proof.
  intros (t & B & Ln & V & P & R1 & R2 & a & b & M1 & M2) Bm Lm. unfold wr. apply safe_res. with_strategy transparent [fh_Write] unfold fh_Write. rewrite V. change (VersionGMSSL <? VersionTLS12) with true. cbv iota zeta. rewrite M1, M2. cbn [rbind fst snd].
  exists (t ++ m). cbn [fh_version fh_prf fh_client fh_server fh_clientMD5 fh_serverMD5]. split; [apply bytes_app; auto|]. split; [rewrite zlen_app; change (2 ^ 50) with 1125899906842624 in *; lia|]. split; [first [exact V|reflexivity]|]. split; [exact P|].
  split; [now apply o_write_rel|]. split; [now apply o_write_rel|]. eauto.
Qed.
Lemma safe_wr_readG n h v mr : th H n h -> got Q v mr -> safe (wr h (snd mr)) (th H (n + 1)).
Proof. intros G (_ & B & Lm & _). apply safe_wrG; [exact G|exact B|]. change (2 ^ 25) with 33554432 in Lm. change (2 ^ 50) with 1125899906842624. lia. Qed.
Lemma safe_emitG n n' h r : th H n h -> n + 1 <= n' -> fineB r -> safe (emit h r) (th H n').
Proof.
  intros G Hn F. unfold emit. eapply safe_bind; [unfold enc; apply safe_res with (P := fun m => bytes m /\ zlen m < 2 ^ 50); destruct r; exact F|]. intros m [B Lm].
  eapply safe_bind; [apply safe_wrG; eauto|]. intros h' G'. eapply safe_bind; [eapply safe_send, HC|]. intros _ _. apply safe_ret. eapply th_mono; [exact G'|exact Hn].
Qed.
Lemma th_sum n h : th H n h -> n < 64 -> exists o h', fh_Sum h = Ok (o, h') /\ bytes o /\ zlen o <= 48 /\ th H n h'.
Proof.
  intros (t & B & Ln & V & P & R1 & R2 & M) Hn. destruct (o_sum_rel _ _ _ [] R1) as (o' & E' & R'). { change (2 ^ 50) with 1125899906842624 in Ln. change (2 ^ 61) with 2305843009213693952. lia. }
  with_strategy transparent [fh_Sum] unfold fh_Sum. rewrite V. change ((VersionTLS12 <=? VersionGMSSL) || (VersionGMSSL =? VersionGMSSL)) with true. cbv iota. rewrite E'. cbn [rbind fst snd app].
  eexists. eexists. split; [reflexivity|]. destruct (GH t B) as [X1 X2]. split; [exact X1|]. split; [exact X2|]. exists t. cbn [fh_version fh_prf fh_client fh_server fh_clientMD5 fh_serverMD5]. split; [exact B|]. split; [exact Ln|]. split; [first [exact V|reflexivity]|]. split; [exact P|]. split; [exact R'|]. split; [exact R2|exact M].
Qed.
Lemma verify_prf n h' o master label : th H n h' -> small master -> bytes label -> zlen label <= 20 -> bytes o -> zlen o <= 48 ->
  exists v, fh_prf h' 12%nat master label o = Ok v /\ is_vd v.
Proof.
  intros (t & _ & _ & _ & P & _) SM Bl Ll Bo Lo. exists (PRF Hs GMSSL 12 master label o). split; [apply P; auto; [change (2 ^ 59) with 576460752303423488; lia|discriminate]|]. split.
  - apply PRF_bytes; auto; [apply SM|lia].
  - unfold zlen. rewrite PRF_length. reflexivity.
Qed.
Lemma safe_clientSumG n h master : th H n h -> n < 64 -> small master -> safe (lift (of_res (clientSum h master))) (fun vh => is_vd (fst vh) /\ th H n (snd vh)).
Proof.
  intros G Hn SM. apply safe_res. destruct (th_sum n h G Hn) as (o & h' & E & Bo & Lo & G'). with_strategy transparent [clientSum] unfold clientSum. rewrite E.
  assert (V : fh_version h = VersionGMSSL) by (destruct G as (? & ? & ? & V & _); exact V). rewrite V. change (VersionGMSSL =? VersionSSL30) with false. cbv iota. cbn [rbind].
  destruct (verify_prf n h' o master clientFinishedLabel G' SM ltac:(apply bytesb_spec; reflexivity) ltac:(cbn; lia) Bo Lo) as (v & -> & VD). cbn [rbind fst snd]. split; [exact VD|exact G'].
Qed.
Lemma safe_serverSumG n h master : th H n h -> n < 64 -> small master -> safe (lift (of_res (serverSum h master))) (fun vh => is_vd (fst vh) /\ th H n (snd vh)).
Proof.
  intros G Hn SM. apply safe_res. destruct (th_sum n h G Hn) as (o & h' & E & Bo & Lo & G'). with_strategy transparent [serverSum] unfold serverSum. rewrite E.
  assert (V : fh_version h = VersionGMSSL) by (destruct G as (? & ? & ? & V & _); exact V). rewrite V. change (VersionGMSSL =? VersionSSL30) with false. cbv iota. cbn [rbind].
  destruct (verify_prf n h' o master serverFinishedLabel G' SM ltac:(apply bytesb_spec; reflexivity) ltac:(cbn; lia) Bo Lo) as (v & -> & VD). cbn [rbind fst snd]. split; [exact VD|exact G'].
Qed.
(** the digest a client signs in its CertificateVerify *)
Lemma hash_ccG n h sigType I secret : th H n h -> n < 64 -> match hashForClientCertificate L h sigType I secret with Ok r => bytes (fst r) /\ th H n (snd r) | Err _ => True | Panic => False end.
Proof.
  intros G Hn. pose proof G as (t & B & Ln & V & P & R1 & R2 & M). unfold hashForClientCertificate. rewrite V. change (((VersionGMSSL =? VersionSSL30) || (VersionTLS12 <=? VersionGMSSL))) with false. cbn [andb].
  change (VersionGMSSL =? VersionSSL30) with false. change (VersionTLS12 <=? VersionGMSSL) with false. cbv iota. destruct (sigType =? signatureECDSA).
  - destruct (o_sum_rel _ _ _ [] R2) as (o' & -> & R'). { change (2 ^ 50) with 1125899906842624 in Ln. change (2 ^ 61) with 2305843009213693952. lia. }
    cbn [rbind fst snd app]. split; [apply GH, B|]. exists t. cbn [fh_version fh_prf fh_client fh_server fh_clientMD5 fh_serverMD5]. split; [exact B|]. split; [exact Ln|]. split; [first [exact V|reflexivity]|]. split; [exact P|]. split; [exact R1|]. split; [exact R'|exact M].
  - destruct (th_sum n h G Hn) as (o & h' & -> & Bo & _ & G'). cbn [fst snd]. split; assumption.
Qed.
End Hash.

(** ** The server *)
Section Server.
Context {T : Type} (E : env T) (C : chan) (HC : chan_ok C proper_ckx) (Hs : hashes) (HW : world_ok E Hs).
Context (cfg : config T) (getcfg : option (clientHello -> res (option (config T)))) (rn : rnds) (SA : gm_server_sane E cfg getcfg rn).
Notation safe := (safe C).
Notation got := (got proper_ckx).
Notation th := (th Hs).
Let HL : std_impl (e_std E) Hs := proj1 HW.
Let HG : good_hashes Hs := proj1 (proj2 HW).
Let HM : mult_range (e_cv E) := proj2 (proj2 HW).
Lemma sm3_short : short_hash sm3.
Proof. intros m B. destruct (sm3_good m B) as [X1 X2]. split; [exact X1|]. unfold zlen. rewrite X2. cbn. lia. Qed.
Lemma sha1_short : short_hash (SHA1 Hs).
Proof. intros m B. destruct HG as (_ & G2 & _). destruct (G2 m B) as [X1 X2]. split; [exact X1|]. unfold zlen. rewrite X2. cbn. lia. Qed.

Lemma processCertsGM_safe c ders : safe (processCertsFromClient E (C := C) c ders) (fun _ => True).
Proof.
  unfold processCertsFromClient. destruct (parse_all E ders) as [certs|]; [|apply safe_fail]. eapply safe_bind with (P := fun _ => True).
  - destruct certs as [|c0 rest]; [now apply safe_ret|]. destruct (VerifyClientCertIfGiven <=? _); [|now apply safe_ret]. destruct (match cf_clientCAs c with Some p => Some p | None => e_sysroots E end); [|apply safe_fail]. cbv zeta. destruct (x509_verify _ _ _); [now apply safe_ret|apply safe_fail].
  - intros chains _. destruct (match cf_verifyPeer c with Some f => f ders chains | None => None end); [apply safe_fail|]. destruct certs as [|c0 rest]; [now apply safe_ret|]. destruct (g_pub c0); first [now apply safe_ret|apply safe_fail].
Qed.

Record hello_goodG (hs : shs (T := T)) : Prop := {
  gg_cfg : cfg_for cfg getcfg (ss_ch hs) (ss_cfg hs);
  gg_vers : ss_v hs = VersionGMSSL;
  gg_certs : In (ss_c0 hs) (cf_certs (ss_cfg hs)) /\ In (ss_c1 hs) (cf_certs (ss_cfg hs));
  gg_raw : bytes (ss_chraw hs) /\ zlen (ss_chraw hs) < 2 ^ 25;
  gg_cr : bytes (ch_random (ss_ch hs)) /\ length (ch_random (ss_ch hs)) = 32%nat;
  gg_ch : hello_fine (2 ^ 25) (ss_ch hs);
  gg_sr : bytes (sh_random (ss_sh hs)) /\ length (sh_random (ss_sh hs)) = 32%nat;
  gg_sh : forall m, sh_random m = sh_random (ss_sh hs) -> sh_comp m = sh_comp (ss_sh hs) -> sh_protos m = sh_protos (ss_sh hs) -> sh_reneg m = sh_reneg (ss_sh hs) -> sh_alpn m = sh_alpn (ss_sh hs) -> sh_scts m = sh_scts (ss_sh hs) ->
            bytes (sh_sessionId m) -> zlen (sh_sessionId m) <= 32 -> fineB (m_serverHello m);
  gg_sid : sh_sessionId (ss_sh hs) = [] }.
Lemma server_helloG : safe (server_hello (C := C) cfg getcfg rn) hello_goodG.
Proof.
  unfold server_hello. eapply safe_bind; [apply safe_read, HC|]. intros [msg raw] (P & B & L & _). cbn [fst snd] in P, B, L. destruct msg as [|ch| | | | | | | | | | | ]; try apply safe_unexpected.
  apply up_clientHello in P. pose proof (ch_random_ok _ _ _ P B) as [R1 R2]. pose proof (ch_fine _ _ P B) as HF.
  eapply safe_bind with (P := fun cfg' => cfg_for cfg getcfg ch cfg').
  { unfold cfg_for. destruct getcfg as [f|] eqn:EG; [|now apply safe_ret]. eapply safe_bind with (P := fun r => f ch = Ok r); [|intros r Er; apply safe_ret; eauto].
    apply safe_orfail. pose proof (ga_getcfg _ _ _ _ SA f ch eq_refl) as NP. destruct (f ch); cbn; auto. }
  intros cfg' Cf. destruct (mutualVersion _ _ (ch_vers ch)) as [v|] eqn:EV; [|apply safe_fail].
  assert (VR : v = VersionGMSSL).
  { destruct (ga_versions _ _ _ _ SA ch cfg' Cf) as [V1 V2]. rewrite V1, V2 in EV. revert EV. unfold mutualVersion. cbv zeta. change (minVersion 0x0101) with 0x0101. change (maxVersion 0x0101) with 0x0101.
    destruct (Z.ltb_spec (ch_vers ch) 0x0101); [discriminate|]. destruct (Z.ltb_spec 0x0101 (ch_vers ch)); intros X; injection X as <-; unfold VersionGMSSL; lia. }
  eapply safe_bind; [apply safe_setvers|]. intros _ _. cbv zeta. destruct (negb (existsb _ _)); [apply safe_fail|]. destruct (r_hello rn) as [random|] eqn:ER; [|apply safe_fail]. destruct (0 <? zlen (ch_reneg ch)); [apply safe_fail|].
  destruct (ga_protos _ _ _ _ SA ch cfg' Cf) as (PB & PS & PL).
  eapply safe_bind with (P := fun alpn => bytes alpn /\ zlen alpn <= 255).
  { destruct (Z.ltb_spec 0 (zlen (ch_alpn ch))) as [NA|]; [|apply safe_ret; split; [constructor|cbn; lia]].
    eapply safe_bind with (P := fun sf => snd sf = false -> In (fst sf) (cf_protos cfg')).
    - apply safe_res. unfold mutualProtocol. destruct (mutual_proto _ _) as [s|] eqn:EM; [intros _; now apply P_TLS_std_safe2.mutual_proto_pref in EM|]. destruct (ch_alpn ch); [cbn in NA; lia|]. discriminate.
    - intros [s f] Hs0. cbn [fst snd] in *. apply safe_ret. destruct f; [split; [constructor|cbn; lia]|]. specialize (Hs0 eq_refl). rewrite Forall_forall in PS. destruct (PS _ Hs0) as [X1 X2]. split; [exact X1|lia]. }
  intros alpn [BA LA]. destruct (cf_certs cfg') as [|c0 [|c1 more]] eqn:EC; try apply safe_fail. apply safe_ret. destruct (ga_hello _ _ _ _ SA _ ER) as [Br Lr].
  destruct (ga_certs _ _ _ _ SA ch cfg' c0 Cf ltac:(rewrite EC; now left)) as (_ & _ & _ & SB & SL).
  set (npn := negb _ && _ && _). clearbody npn.
  split; cbn [ss_cfg ss_v ss_ch ss_chraw ss_sh ss_proto ss_c0 ss_c1 sh_random sh_comp sh_protos sh_reneg sh_alpn sh_scts sh_sessionId]; auto.
  - rewrite EC. split; [now left|right; now left].
  - destruct HF as (H1 & H2 & H3 & H4). split; [exact H1|]. split; [exact H2|]. split; [exact H3|]. change (2 ^ 25) with 33554432 in *. lia.
  - intros m E1 E2 E3 E4 E5 E6 Bs Ls. apply P_TLS_std_safe2.sh_fineB; rewrite ?E1, ?E2, ?E3, ?E4, ?E5, ?E6; auto.
    + unfold is_byte. lia.
    + destruct npn; [exact PB|constructor].
    + destruct npn; [exact PS|constructor].
    + constructor.
    + reflexivity.
    + destruct (ch_scts ch); [exact SB|constructor].
    + destruct npn; [exact PL|reflexivity].
    + destruct (ch_scts ch); [exact SL|reflexivity].
Qed.
Lemma resumption_factsG hs st su : hello_goodG hs -> checkForResumption E hs = Some (st, su) -> cf_noTickets (ss_cfg hs) = false /\ small (ss_masterSecret st) /\ zlen (ss_masterSecret st) < 2 ^ 40 /\ ders_fine (ss_certificates st).
Proof.
  intros G. unfold checkForResumption. cbv zeta. destruct (cf_noTickets _) eqn:NT; [discriminate|]. destruct (decryptTicket _ _ _ _ _) as [st0|] eqn:ED; [|discriminate].
  destruct (negb _); [discriminate|]. destruct (negb _); [discriminate|]. destruct (set_suite _ _ _ _) as [su0|] eqn:ES; [|discriminate]. destruct (_ && _); [discriminate|]. destruct (_ && _); [discriminate|]. intros X. injection X as <- <-.
  split; [reflexivity|]. destruct (gg_ch _ G) as (_ & _ & T1 & T2). eapply decrypt_fine; [..|exact ED]; first [exact (ga_aes _ _ _ _ SA)|exact (ga_sha256 _ _ _ _ SA)|exact T1|exact T2].
Qed.
Lemma server_suiteG hs : hello_goodG hs -> safe (server_suite (T := T) (C := C) hs) (fun su => su_id su = ECC).
Proof.
  intros G. unfold server_suite. destruct (negotiate_suite _ _ _ _ _) as [su|] eqn:EN; [|apply safe_fail]. apply (P_TLS_neg.C66_server_selection true) in EN as (before & id & after & EP & (I1 & I2 & I3 & _) & _). destruct (bad_fallback _ _ _); [apply safe_fail|]. apply safe_ret.
  assert (IS : In id (getCipherSuites (cf_suites (ss_cfg hs)))). { destruct (cf_prefer (ss_cfg hs)); [rewrite EP; apply in_or_app; right; now left|exact I1]. }
  destruct I2 as [<-|[<-|[]]]; [reflexivity|]. exfalso. apply (ga_suites _ _ _ _ SA _ _ (gg_cfg _ G)). cbn [su_id] in I3. rewrite I3. exact IS.
Qed.
Lemma server_keysG master cr sr : small master -> bytes cr -> bytes sr -> length cr = 32%nat -> length sr = 32%nat -> safe (server_keys E C VersionGMSSL master cr sr) (fun _ => True).
Proof.
  intros. unfold server_keys. destruct (keys_safe Hs HG (e_std E) HL VersionGMSSL master cr sr eq_refl) as [kb EK]; auto. rewrite EK. eapply safe_bind; [apply safe_lift with (P := fun _ => True); exact I|]. intros k _. apply safe_setkeys.
Qed.
Section Transcript.
Context (H : list Z -> list Z) (GH : short_hash H).
Lemma server_readFinishedG vers n npn h master : th H n h -> n < 60 -> small master -> safe (server_readFinished C vers npn h master) (fun r => th H (n + 2) (fst (fst r))).
Proof.
  intros G Hn SM. unfold server_readFinished. eapply safe_bind; [eapply safe_ccs, HC|]. intros _ _.
  eapply safe_bind with (P := fun hp => th H (n + 1) (fst hp)).
  { destruct npn; [|apply safe_ret; eapply th_mono; [exact G|lia]]. eapply safe_bind; [apply safe_read, HC|]. intros mr GM. destruct (fst mr); try apply safe_unexpected. eapply safe_bind; [eapply safe_wr_readG; [exact G|exact GM]|]. intros h1 G1. apply safe_ret. exact G1. }
  intros [h1 proto] G1. cbn [fst] in G1. eapply safe_bind; [apply safe_read, HC|]. intros mr GM. destruct (fst mr); try apply safe_unexpected.
  eapply safe_bind; [eapply (safe_clientSumG C Hs HG H GH); [exact G1|lia|exact SM]|]. intros [verify h2] [_ G2]. cbn [fst snd] in G2. destruct (beqb _ _); [|apply safe_fail].
  eapply safe_bind; [eapply safe_wr_readG; [exact G2|exact GM]|]. intros h3 G3. apply safe_ret. cbn [fst]. eapply th_mono; [exact G3|lia].
Qed.
Lemma server_ticketG hs n on vers id master ders h : hello_goodG hs -> (on = true -> cf_noTickets (ss_cfg hs) = false) -> th H n h -> small master -> zlen master < 2 ^ 40 -> ders_fine ders ->
  safe (sendSessionTicket E C (ss_cfg hs) rn on vers id master ders h) (th H (n + 1)).
Proof.
  intros G HO Gh SM LM DF. unfold sendSessionTicket. destruct on; cbn [negb]; [|apply safe_ret; eapply th_mono; [exact Gh|lia]].
  destruct (ga_tickets _ _ _ _ SA _ _ (gg_cfg _ G) (HO eq_refl)) as [K1 K2].
  eapply safe_bind with (P := fun t => bytes t /\ zlen t < 2 ^ 42). { apply safe_res. apply encrypt_fine; auto. all: first [exact (ga_aes _ _ _ _ SA)|exact (ga_sha256 _ _ _ _ SA)|exact (ga_iv _ _ _ _ SA)]. }
  intros t [Bt Lt]. eapply (safe_emitG C _ HC); [exact Gh|lia|apply fineB_ticket; auto].
Qed.
Lemma fineB_vd v : is_vd v -> fineB (m_finished v). Proof. intros [B L]. apply fineB_fin; [exact B|lia]. Qed.
Lemma server_sendFinishedG n h master : th H n h -> n < 60 -> small master -> safe (server_sendFinished C h master) (fun r => th H (n + 1) (fst r)).
Proof.
  intros G Hn SM. unfold server_sendFinished. eapply safe_bind; [eapply safe_sendccs, HC|]. intros _ _. eapply safe_bind; [eapply (safe_serverSumG C Hs HG H GH); [exact G|lia|exact SM]|].
  intros [vd h1] [VD G1]. cbn [fst snd] in *. eapply safe_bind; [eapply (safe_emitG C _ HC); [exact G1|apply Z.le_refl|now apply fineB_vd]|]. intros h2 G2. apply safe_ret. exact G2.
Qed.
End Transcript.
Lemma raw_smallG (m : list Z) : zlen m < 2 ^ 25 -> zlen m < 2 ^ 50.
Proof. change (2 ^ 25) with 33554432. change (2 ^ 50) with 1125899906842624. lia. Qed.
Lemma server_resumeG hs st su : hello_goodG hs -> safe (server_resume E C hs st su) (fun r => let '(sh, h, _, _) := r in sh_random sh = sh_random (ss_sh hs) /\ th (SHA1 Hs) 2 h).
Proof.
  intros G. unfold server_resume. cbv zeta. set (sh := set_sh_suite _ _). assert (RS : sh_random sh = sh_random (ss_sh hs)) by reflexivity.
  assert (FS : fineB (m_serverHello sh)). { destruct (gg_ch _ G) as (S1 & S2 & _). apply (gg_sh _ G); try reflexivity; [exact S1|exact S2]. } clearbody sh. rewrite (gg_vers _ G).
  eapply safe_bind with (P := th (SHA1 Hs) 0). { apply safe_res. pose proof (th_new_resume Hs HG (e_std E) HL) as X. destruct (newFinishedHash _ _ _); [exact X|exact I|exact X]. }
  intros h0 G0. apply th_discard in G0. destruct (gg_raw _ G) as [Br Lr].
  eapply safe_bind; [eapply safe_wrG; [exact G0|exact Br|apply raw_smallG, Lr]|]. intros h1 G1. eapply safe_bind; [eapply (safe_emitG C _ HC) with (n' := 2); [exact G1|lia|exact FS]|]. intros h2 G2.
  destruct (0 <? _); [|apply safe_ret; split; [exact RS|exact G2]]. eapply safe_bind; [eapply processCertsGM_safe|]. intros [[pub certs] chains] _. apply safe_ret. split; [exact RS|exact G2].
Qed.
(** the server's signature *)
Lemma generateSKXG draw key chain cr sr : (exists b, draw = Some b) -> chain <> [] -> Forall bytes chain -> bytes cr -> bytes sr ->
  match generateServerKeyExchange (e_cv E) draw key chain cr sr with Ok k => bytes k /\ zlen k < 2 ^ 20 | Err _ => True | Panic => False end.
Proof.
  intros [b ->] NC HF B1 B2. with_strategy transparent [generateServerKeyExchange] unfold generateServerKeyExchange. destruct chain as [|c0 chain]; [congruence|]. inversion_clear HF as [|? ? B3 _]. cbv zeta. destruct key as [priv|]; [|exact I].
  destruct (PrivSign_out (e_cv E) b priv _ (hash_slices_bytes cr sr c0 B1 B2 B3)) as [NP HO]. destruct (PrivSign _ _ _ _) as [sig| |]; [|exact I|congruence]. cbn [rbind]. destruct (HO sig eq_refl) as [Bs Ls].
  split; [apply bytes_app; split; [|exact Bs]; apply bytes_cons; split; [apply u8_byte|apply bytes_cons; split; [apply u8_byte|constructor]]|]. rewrite zlen_app. change (zlen [_; _]) with 2. change (2 ^ 20) with 1048576. lia.
Qed.
(** the client's key exchange *)
Lemma ckx_facts v m ct : got v (MClientKeyExchange ct, m) -> bytes ct /\ zlen ct < 2 ^ 57 /\ (length ct <> 1)%nat /\ ((99 <= length ct)%nat /\ nth 2 ct 0 = 4 \/ nth 1 ct 0 <> zlen ct - 2).
Proof.
  intros (P & B & L & Q). cbn [fst snd] in *. pose proof P as P'. apply up_ckx in P. assert (CT : ct = skipn 4 m).
  { revert P. unfold u_clientKeyExchange. intros U. apply fails_ok in U as [_ U]. apply rbind_ok in U as (? & _ & U). apply fails_ok in U as [_ U]. now apply sl_from_ok in U as [_ ->]. }
  assert (N0 : nth 0 m 0 = 16). { with_strategy transparent [parse_msg] unfold parse_msg in P'. destruct m as [|t m]; [discriminate|]. cbn [nth]. clear -P'.
    repeat match type of P' with (if ?x =? ?y then _ else _) = _ => destruct (Z.eqb_spec x y) as [->|]; [|] | (if ?b then _ else _) = _ => destruct b end; try reflexivity; exfalso; revert P'; unfold rmap, rbind;
    try match goal with |- context [match ?r with _ => _ end] => destruct r; discriminate end; discriminate. }
  destruct (Q N0) as [Q1 Q2]. rewrite <- CT in Q1, Q2. split; [rewrite CT; now apply bytes_skipn|]. split; [|split; assumption]. rewrite CT. unfold zlen in *. rewrite skipn_length. change (2 ^ 25) with 33554432 in L. change (2 ^ 57) with 144115188075855872. lia.
Qed.
Lemma processCKXG key ct : bytes ct -> zlen ct < 2 ^ 57 -> (length ct <> 1)%nat -> ((99 <= length ct)%nat /\ nth 2 ct 0 = 4 \/ nth 1 ct 0 <> zlen ct - 2) ->
  match processClientKeyExchange (e_cv E) key ct with Ok pms => small pms | Err _ => True | Panic => False end.
Proof.
  intros B L Q1 Q2. pose proof (P_TLS_gmka.C74_wellformed_messages_partial T (e_cv E) key ct B HM Q1 Q2) as NP. destruct (processClientKeyExchange _ _ _) as [pms| |] eqn:EP; [|exact I|congruence].
  destruct (processCKX_small (e_cv E) key ct pms HM B L EP) as [X1 X2]. split; [exact X1|]. unfold zlen. rewrite X2. reflexivity.
Qed.
Lemma verify_np st pub digest sig : bytes digest -> verifyHandshakeSignature E st pub digest sig <> Panic.
Proof.
  intros B. unfold verifyHandshakeSignature. destruct (st =? signatureECDSA); [discriminate|]. destruct (_ || _); [discriminate|]. destruct (st =? signatureSM2); [|discriminate]. destruct pub; try discriminate. now apply PubVerify_np.
Qed.
Lemma masterG pms cr sr : small pms -> bytes cr -> bytes sr -> length cr = 32%nat -> length sr = 32%nat ->
  match masterFromPreMasterSecret (e_std E) VersionGMSSL false pms cr sr with Ok m => small m /\ zlen m = 48 | _ => False end.
Proof.
  intros Sp B1 B2 L1 L2. pose proof (master_safe Hs HG (e_std E) HL pms cr sr Sp B1 B2 L1 L2) as X. destruct (P_TLS_prf.C55_master_secret _ Hs HL HG GMSSL false pms cr sr Sp B1 B2 L1 L2) as [Mc Lm].
  change (vers_of GMSSL) with VersionGMSSL in Mc. change (sha384_of GMSSL false) with false in Mc. rewrite Mc in X |- *. split; [exact X|]. unfold zlen. rewrite Lm. reflexivity.
Qed.
Lemma server_fullG hs su : hello_goodG hs -> su_id su = ECC ->
  safe (server_full E (C := C) hs su rn) (fun f => sh_random (sf_sh f) = sh_random (ss_sh hs) /\ (sh_ticketOn (sf_sh f) = true -> cf_noTickets (ss_cfg hs) = false) /\ th sm3 12 (sf_h f) /\ small (sf_master f) /\ zlen (sf_master f) < 2 ^ 40 /\ ders_fine (sf_ders f)).
Proof.
  intros G SU. destruct (gg_certs _ G) as [I0 I1]. destruct (ga_certs _ _ _ _ SA _ _ _ (gg_cfg _ G) I0) as (_ & _ & [OB OL] & _). destruct (ga_certs _ _ _ _ SA _ _ _ (gg_cfg _ G) I1) as (NC & BC & _). destruct (gg_cr _ G) as [R1 R2]. destruct (gg_sr _ G) as [R3 R4].
  pose proof sm3_short as GS. unfold server_full. cbv zeta. rewrite (gg_vers _ G). set (ocsp := ch_ocsp _ && _). clearbody ocsp. set (sh := set_sh_suite _ _). assert (RS : sh_random sh = sh_random (ss_sh hs)) by reflexivity.
  assert (TO : sh_ticketOn sh = true -> cf_noTickets (ss_cfg hs) = false). { change (sh_ticketOn sh) with (ch_ticketOn (ss_ch hs) && negb (cf_noTickets (ss_cfg hs))). intros X. apply andb_prop in X as [_ X]. now apply negb_true_iff in X. }
  assert (FS : fineB (m_serverHello sh)). { apply (gg_sh _ G); try reflexivity; change (sh_sessionId sh) with (sh_sessionId (ss_sh hs)); rewrite (gg_sid _ G); [constructor|cbn; lia]. } clearbody sh.
  eapply safe_bind with (P := th sm3 0). { apply safe_res. pose proof (th_new Hs HG (e_std E) HL) as X. destruct newFinishedHashGM; [exact X|exact I|exact X]. } intros h0 G0. set (h0' := if _ =? NoClientCert then _ else _).
  assert (G0' : th sm3 0 h0') by (unfold h0'; destruct (_ =? _); [apply th_discard; exact G0|exact G0]). clearbody h0'. clear G0 h0. destruct (gg_raw _ G) as [Br Lr].
  eapply safe_bind; [eapply safe_wrG; [exact G0'|exact Br|apply raw_smallG, Lr]|]. intros h1 G1. eapply safe_bind; [eapply (safe_emitG C _ HC) with (n' := 2); [exact G1|lia|exact FS]|]. intros h2 G2.
  eapply safe_bind; [eapply (safe_emitG C _ HC) with (n' := 3); [exact G2|lia|]|]. { destruct (ga_chain _ _ _ _ SA _ _ (gg_cfg _ G)) as [P1 P2]. apply fineB_cert; [exact P1|exact P2]. } intros h3 G3.
  eapply safe_bind with (P := th sm3 4). { destruct ocsp; [|apply safe_ret; eapply th_mono; [exact G3|lia]]. eapply (safe_emitG C _ HC); [exact G3|lia|apply fineB_status; [exact OB|exact OL]]. } intros h4 G4.
  eapply safe_bind with (P := fun key => bytes key /\ zlen key < 2 ^ 20).
  { apply safe_orfail. unfold ka_generateSKX. rewrite SU. change (ECC =? ECC) with true. cbv iota. pose proof (generateSKXG (r_sign rn) (ce_key (ss_c0 hs)) (ce_chain (ss_c1 hs)) (ch_random (ss_ch hs)) (sh_random sh) (ga_sign _ _ _ _ SA) NC BC R1 ltac:(now rewrite RS)) as X.
    destruct (generateServerKeyExchange _ _ _ _ _ _); [exact X|exact I|exact X]. }
  intros key [Bk Lk]. eapply safe_bind; [eapply (safe_emitG C _ HC) with (n' := 5); [exact G4|lia|apply P_TLS_std_safe2.fineB_skx; [exact Bk|exact Lk]]|]. intros h5 G5.
  eapply safe_bind with (P := th sm3 6).
  { destruct (RequestClientCert <=? _); [|apply safe_ret; eapply th_mono; [exact G5|lia]]. eapply (safe_emitG C _ HC); [exact G5|lia|]. unfold m_certificateRequestGM. destruct (cf_clientCAs (ss_cfg hs)) as [p|] eqn:EP.
    - destruct (ga_cas _ _ _ _ SA _ _ p (gg_cfg _ G) EP) as [C1 C2]. apply fineB_creq; [apply bytesb_spec; reflexivity|reflexivity|reflexivity|exact C1|exact C2].
    - apply fineB_creq; [apply bytesb_spec; reflexivity|reflexivity|reflexivity|constructor|reflexivity]. }
  intros h6 G6. eapply safe_bind; [eapply (safe_emitG C _ HC) with (n' := 7); [exact G6|lia|split; [apply bytesb_spec; reflexivity|reflexivity]]|]. intros h7 G7.
  eapply safe_bind; [apply safe_read, HC|]. intros mr GM.
  eapply safe_bind with (P := fun r => let '(h, mr, ders, _) := r in th sm3 8 h /\ got VersionGMSSL mr /\ ders_fine ders).
  { destruct (RequestClientCert <=? cf_auth (ss_cfg hs)).
    - destruct (fst mr) as [| | | |ders| | | | | | | | ] eqn:EM; try apply safe_unexpected. eapply safe_bind; [eapply safe_wr_readG; [exact G7|exact GM]|]. intros h8 G8. destruct (_ && _); [apply safe_fail|].
      eapply safe_bind; [eapply processCertsGM_safe|]. intros p _. eapply safe_bind; [apply safe_read, HC|]. intros mr2 GM2. apply safe_ret.
      split; [exact G8|]. split; [exact GM2|]. destruct GM as (PM & BM & LM & _). rewrite EM in PM. apply up_certificate in PM. eapply cert_msg_fine; eauto.
    - apply safe_ret. split; [eapply th_mono; [exact G7|lia]|]. split; [exact GM|]. split; [constructor|cbn; lia]. }
  intros [[[h8 mr2] ders] [[pub certs] chains]] (G8 & GM2 & DF). destruct (fst mr2) as [| | | | | | | | |ct| | | ] eqn:EM2; try apply safe_unexpected.
  eapply safe_bind; [eapply safe_wr_readG; [exact G8|exact GM2]|]. intros h9 G9.
  assert (CF : bytes ct /\ zlen ct < 2 ^ 57 /\ (length ct <> 1)%nat /\ ((99 <= length ct)%nat /\ nth 2 ct 0 = 4 \/ nth 1 ct 0 <> zlen ct - 2)). { apply (ckx_facts VersionGMSSL (snd mr2)). rewrite <- EM2. destruct mr2; exact GM2. }
  destruct CF as (F1 & F2 & F3 & F4).
  eapply safe_bind with (P := small). { apply safe_orfail. unfold ka_processCKX. rewrite SU. change (ECC =? ECC) with true. cbv iota. pose proof (processCKXG (ce_key (ss_c1 hs)) ct F1 F2 F3 F4) as X. destruct (processClientKeyExchange _ _ _); [exact X|exact I|exact X]. }
  intros pms SP. eapply safe_bind with (P := fun m => small m /\ zlen m = 48). { apply safe_res. pose proof (masterG pms (ch_random (ss_ch hs)) (sh_random sh) SP R1 ltac:(now rewrite RS) R2 ltac:(now rewrite RS)) as X. destruct (masterFromPreMasterSecret _ _ _ _ _ _); [exact X|exact I|exact X]. }
  intros master [SM LM]. destruct (cf_keylog _ _ _); [apply safe_fail|].
  eapply safe_bind with (P := th sm3 12).
  { destruct certs as [|c0 certs]; [apply safe_ret; eapply th_mono; [exact G9|lia]|].
    eapply safe_bind; [apply safe_read, HC|]. intros mr3 GM3. destruct (fst mr3) as [| | | | | | | | | |alg sig| | ]; try apply safe_unexpected. set (pb := match pub with Some p => p | None => PkOther end). clearbody pb.
    destruct (pickSignatureType pb alg VersionGMSSL) as [st|]; [|apply safe_fail].
    pose proof (hash_ccG Hs (e_std E) sm3 GS _ h9 st (std_sha1 (e_std E)) master G9 ltac:(lia)) as X. destruct (hashForClientCertificate _ _ _ _ _) as [[dg h10]|e|]; [|apply safe_fail|destruct X]. cbn [fst snd] in X. destruct X as [BD G10].
    eapply safe_bind with (P := fun _ => True). { apply safe_res. pose proof (verify_np st pb dg sig BD) as NV. destruct (verifyHandshakeSignature _ _ _ _ _); [exact I|exact I|congruence]. }
    intros ok _. destruct ok; [|apply safe_fail]. eapply safe_weak; [eapply safe_wr_readG; [exact G10|exact GM3]|]. intros h Gh. eapply th_mono; [exact Gh|lia]. }
  intros h10 G10. apply safe_ret. cbn [sf_sh sf_h sf_master sf_ders]. split; [exact RS|]. split; [exact TO|]. split; [apply th_discard; exact G10|]. split; [exact SM|]. split; [rewrite LM; reflexivity|exact DF].
Qed.
Lemma gm_server_safe : safe (serverHandshakeGM E C cfg getcfg rn) (fun _ => True).
Proof.
  unfold serverHandshakeGM. eapply safe_bind; [apply server_helloG|]. intros hs G. cbv zeta. destruct (gg_cr _ G) as [R1 R2]. destruct (gg_sr _ G) as [R3 R4]. pose proof sha1_short as GH1. pose proof sm3_short as GH2.
  destruct (checkForResumption E hs) as [[st su]|] eqn:ER.
  - destruct (resumption_factsG _ _ _ G ER) as (NT & SM & LM & DF). rewrite (gg_vers _ G).
    eapply safe_bind; [apply server_resumeG; exact G|]. intros [[[sh h] certs] chains] [RS Gh].
    eapply safe_bind; [eapply server_keysG; [exact SM|exact R1|now rewrite RS|exact R2|now rewrite RS]|]. intros _ _.
    eapply safe_bind; [eapply server_ticketG; [exact G|intros _; exact NT|exact Gh|exact SM|exact LM|exact DF]|]. intros h1 G1.
    eapply safe_bind; [eapply (server_sendFinishedG _ GH1); [exact G1|lia|exact SM]|]. intros [h2 sfin] G2. cbn [fst] in G2.
    eapply safe_bind; [eapply (server_readFinishedG _ GH1); [exact G2|lia|exact SM]|]. intros [[h3 v] proto] _. now apply safe_ret.
  - eapply safe_bind; [apply server_suiteG; exact G|]. intros su SU. eapply safe_bind; [apply server_fullG; [exact G|exact SU]|]. intros f (RS & TO & Gh & SM & LM & DF). rewrite (gg_vers _ G).
    eapply safe_bind; [eapply server_keysG; [exact SM|exact R1|now rewrite RS|exact R2|now rewrite RS]|]. intros _ _.
    eapply safe_bind; [eapply (server_readFinishedG _ GH2); [exact Gh|lia|exact SM]|]. intros [[h1 cfin] proto] G1. cbn [fst] in G1.
    eapply safe_bind; [eapply server_ticketG; [exact G|exact TO|exact G1|exact SM|exact LM|exact DF]|]. intros h2 G2.
    eapply safe_bind; [eapply (server_sendFinishedG _ GH2); [exact G2|lia|exact SM]|]. intros [h3 sfin] _. now apply safe_ret.
Qed.
End Server.
Theorem C77_no_other_crash_partial {T} (E : env T) C Hs cfg getcfg rn c :
  world_ok E Hs -> chan_ok C proper_ckx -> gm_server_sane E cfg getcfg rn -> fst (serverHandshakeGM E C cfg getcfg rn (c, [])) <> HPanic.
Proof.
  intros HW HC SA HX. pose proof (gm_server_safe E C HC Hs HW cfg getcfg rn SA (c, [])) as X. rewrite HX in X. exact X.
Qed.

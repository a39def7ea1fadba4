(** Property theorems for the server's side of the ordinary TLS handshake: negotiation (C122), client authentication (C123), secrets (C124), resumption (C125). *)
From Verif Require Import GoBase GoLemmas BigBytes Asn1_model X509_spec SM2_model TLS_record_model TLS_prf_model TLS_prf_spec TLS_prf_proofs
  TLS_gmka_model TLS_ticket_model TLS_msg_model TLS_msg_proofs TLS_neg_model TLS_hs_model TLS_hs_proofs TLS_hs_bytes TLS_hs_server TLS_hs_spec TLS_std_model TLS_std_spec
  TLS_std_proofs TLS_std_server.
From Verif Require X509_model P_TLS_neg P_TLS_prf P_TLS_msg.
From Verif Require Import P_TLS_hs_server P_TLS_std_server.
Open Scope Z_scope.
#[local] Opaque fh_Write discardHandshakeBuffer clientSum serverSum PRF newFinishedHash hashForClientCertificate.

Definition kind_of (st : Z) : sig_kind := if st =? signatureECDSA then KEcdsa else if st =? signatureRSAPSS then KPss else KPkcs1.
(** the code's numbers for the three kinds *)
Definition kind_code (k : sig_kind) : Z := match k with KEcdsa => signatureECDSA | KPss => signatureRSAPSS | KPkcs1 => signaturePKCS1v15 end.
Lemma kind_code_of st : st = signatureECDSA \/ st = signatureRSAPSS \/ st = signaturePKCS1v15 -> kind_code (kind_of st) = st.
Proof. intros [-> | [-> | ->]]; reflexivity. Qed.
Lemma scheme_facts a h : lookupTLSHash a = Some h -> signatureFromScheme a <> 0 -> In (a, (kind_of (signatureFromScheme a), h)) scheme_table.
Proof.
  unfold lookupTLSHash, signatureFromScheme. cbn [existsb].
  repeat match goal with |- context [a =? ?n] => destruct (Z.eqb_spec a n) as [->|]; [cbn; intros [= <-] _; unfold kind_of; cbn; tauto|] end.
  cbn. discriminate.
Qed.
Lemma pick_loop_ok {T} (pub : pubk T) our peer sch st h : pick_loop pub peer our = Ok (sch, st, h) -> is_rsa pub = true \/ is_ecdsa pub = true ->
  In sch peer /\ In sch our /\ In (sch, (kind_of st, h)) scheme_table /\ (st = signatureECDSA \/ st = signatureRSAPSS \/ st = signaturePKCS1v15) /\ (is_rsa pub = true <-> st <> signatureECDSA).
Proof.
  intros H HP. induction peer as [|a peer IH]; cbn [pick_loop] in H; [discriminate|].
  destruct (existsb (Z.eqb a) our) eqn:EO; cbn [negb] in H; [|destruct (IH H) as (? & ? & ?); cbn; tauto].
  apply existsb_exists in EO as (x & Hx & Ex). apply Z.eqb_eq in Ex. subst x.
  destruct (lookupTLSHash a) as [h'|] eqn:EL; [|discriminate]. pose proof (scheme_facts _ _ EL) as SF.
  destruct pub; cbn in HP; try (destruct HP; discriminate); cbn [is_rsa].
  - destruct (Z.eqb_spec (signatureFromScheme a) signatureECDSA) as [ES|]; [|destruct (IH H) as (? & ? & ?); cbn; tauto].
    injection H as <- <- <-. rewrite ES in *. split; [now left|]. split; [exact Hx|]. split; [apply SF; discriminate|]. split; [auto|]. split; [discriminate|congruence].
  - destruct (_ || _) eqn:ES in H; [|destruct (IH H) as (? & ? & ?); cbn; tauto].
    injection H as <- <- <-. apply orb_true_iff in ES as [ES|ES]; apply Z.eqb_eq in ES; rewrite ES in *; (split; [now left|]; split; [exact Hx|]; split; [apply SF; discriminate|]; split; [auto|]; split; [discriminate|auto]).
Qed.
Lemma pick_ok {T} (pub : pubk T) our peer vers sch st h : pickSignatureAlgorithm pub peer our vers = Ok (sch, st, h) -> is_rsa pub = true \/ is_ecdsa pub = true ->
  kind_code (kind_of st) = st /\ scheme_ok vers (is_rsa pub) peer sch (kind_of st) h /\ (0x0303 <= vers -> peer <> [] -> In sch our) /\ is_rsa_sig st = is_rsa pub.
Proof.
  unfold pickSignatureAlgorithm. change VersionTLS12 with 0x0303. intros H HP.
  destruct ((vers <? 771) || (zlen peer =? 0)) eqn:EQ.
  - assert (X : vers < 771 \/ peer = []). { apply orb_true_iff in EQ as [EQ|EQ]; [left; now apply Z.ltb_lt|right]. apply Z.eqb_eq in EQ. destruct peer; [reflexivity|]. unfold zlen in EQ. cbn [length] in EQ. lia. }
    destruct pub; cbn in HP; try (destruct HP; discriminate).
    + injection H as <- <- <-. split; [reflexivity|]. split; [|split; [intros; destruct X; [lia|congruence]|reflexivity]]. split; [reflexivity|]. split; [discriminate|]. intros HV. destruct X as [X | ->]; [lia|]. split; [reflexivity|discriminate].
    + destruct (Z.ltb_spec vers 771) as [HV|HV]; injection H as <- <- <-; (split; [reflexivity|]; split; [|split; [intros; destruct X; [lia|congruence]|reflexivity]]; split; [reflexivity|]; split; [discriminate|]; intros HV'; destruct X as [X | ->]; [lia|]).
      * lia.
      * split; [reflexivity|discriminate].
  - apply orb_false_iff in EQ as [E1 E2]. apply Z.ltb_ge in E1. destruct (pick_loop_ok _ _ _ _ _ _ H HP) as (I1 & I2 & I3 & I4 & I5).
    split; [now apply kind_code_of|]. split.
    + split. { destruct (is_rsa pub); destruct I4 as [-> | [-> | ->]]; cbn; try reflexivity; exfalso; [apply (proj1 I5 eq_refl); reflexivity|..]; assert (X : false = true) by (apply I5; discriminate); discriminate X. }
      split; [lia|]. intros _. destruct peer; [destruct I1|]. split; [exact I1|exact I3].
    + split; [auto|]. destruct (is_rsa pub).
      * destruct I4 as [-> | [-> | ->]]; [exfalso; apply (proj1 I5 eq_refl); reflexivity|reflexivity|reflexivity].
      * destruct I4 as [-> | [-> | ->]]; [reflexivity|..]; assert (X : false = true) by (apply I5; discriminate); discriminate X.
Qed.
Lemma std_verify_ok {T} (E : senv T) st h pub digest sig : std_verify E st h pub digest sig = Ok true -> is_rsa pub = true \/ is_ecdsa pub = true -> se_verify E st h pub digest sig = true.
Proof.
  unfold std_verify. intros H HP. destruct (st =? signatureECDSA); [destruct pub; congruence|]. destruct (_ || _) in H; [destruct pub; congruence|]. destruct (st =? signatureSM2); [|discriminate].
  destruct pub; cbn in HP; try discriminate. destruct HP; discriminate.
Qed.
(** the keys *)
Lemma std_keys_ok L Hs vers su ms cr sr kb ver : std_impl L Hs -> good_hashes Hs -> std_keys L vers su ms cr sr = HOk kb -> In su cipherSuites -> version_of vers (sha384_suite (su_id su)) = Some ver ->
  small ms -> bytes cr -> bytes sr -> length cr = 32%nat -> length sr = 32%nat ->
  exists lens, In (su_id su, lens) suite_table /\ cut_into kb lens (PRF Hs ver (block_len lens) ms ascii_key_expansion (sr ++ cr)).
Proof.
  intros HL HG HK SI Ev Sm B1 B2 L1 L2. destruct (suite_facts _ SI) as (ES & ST & _). rewrite <- ES in Ev. apply version_of_inv in Ev as (-> & NG & F).
  exists (suite_lens (su_id su)). split; [exact ST|]. unfold std_keys in HK.
  assert (TB : forall id m k i, In (id, (m, k, i)) suite_table -> (2 * m + 2 * k + 2 * i <= 176)%nat).
  { intros id m k i HI. repeat (destruct HI as [HI|HI]; [injection HI as _ <- <- <-; lia|]). destruct HI. }
  destruct (suite_lens (su_id su)) as [[m k] i]. specialize (TB _ _ _ _ ST).
  destruct (P_TLS_prf.C55_key_block L Hs HL HG ver (su_sha384 su) ms cr sr m k i Sm B1 B2 L1 L2 (fun _ => TB)) as (ks & EK & (C0 & C1 & C2 & C3 & C4 & C5 & C6) & _).
  rewrite F in EK. rewrite EK in HK. injection HK as <-. unfold cut_into, block_len. cbn. auto 10.
Qed.

Section Server.
Context {T : Type} (E : senv T) (C : chan) (Hs : hashes) (H512 : list Z -> list Z) (HW : std_world_ok E Hs H512).
Definition lo (cfg : sconfig T) : Z := if Z.eq_dec (cf_min (s_cfg cfg)) 0 then 0x0101 else cf_min (s_cfg cfg).
Definition hi (cfg : sconfig T) : Z := if Z.eq_dec (cf_max (s_cfg cfg)) 0 then 0x0303 else cf_max (s_cfg cfg).
(** the server can do this suite: it is a registered one, old enough for the version, and the certificate's key can play its part in it *)
Definition usable (ch : clientHello) (cfg : sconfig T) (ce : scertificate T) (vers id : Z) : Prop :=
  In id (map fst suite_table) /\ (tls12_suite id = true -> 0x0303 <= vers) /\
  (ecdhe_suite id = true -> (exists sign, k_sign (sc_key ce) = Some sign) /\ (if ecdsa_suite id then is_ecdsa (k_pub (sc_key ce)) else is_rsa (k_pub (sc_key ce))) = true /\
     (exists curve, In curve (ch_curves ch) /\ In curve (curvePreferences (s_curves cfg))) /\ In 0 (ch_points ch)) /\
  (ecdhe_suite id = false -> (exists dec, k_dec (sc_key ce) = Some dec) /\ is_rsa (k_pub (sc_key ce)) = true).
Definition key_choice (ch : clientHello) (cfg : sconfig T) (ce : scertificate T) (ell ec rs rd : bool) : Prop :=
  ell = existsb (fun c => existsb (Z.eqb c) (curvePreferences (s_curves cfg))) (ch_curves ch) && existsb (Z.eqb 0) (ch_points ch) /\
  ec = signer ce && is_ecdsa (k_pub (sc_key ce)) /\ rs = signer ce && is_rsa (k_pub (sc_key ce)) /\ rd = decrypter ce && is_rsa (k_pub (sc_key ce)).
Lemma existsb_eqb x l : existsb (Z.eqb x) l = true <-> In x l.
Proof. rewrite existsb_exists. split; [intros (y & Hy & Ey); apply Z.eqb_eq in Ey; now subst|]. intros H. exists x. split; [exact H|apply Z.eqb_refl]. Qed.
Lemma usable_iff ch cfg ce ell ec rs rd vers su : key_choice ch cfg ce ell ec rs rd -> In su cipherSuites ->
  std_suite_ok ell ec rs rd vers su = true <-> usable ch cfg ce vers (su_id su).
Proof.
  intros (E1 & E2 & E3 & E4) SI. destruct (suite_facts _ SI) as (_ & ST & F1 & F2 & F3).
  assert (IT : In (su_id su) (map fst suite_table)) by (apply in_map_iff; eexists; split; [|exact ST]; reflexivity).
  unfold std_suite_ok, usable. rewrite F1, F2, F3. change VersionTLS12 with 0x0303.
  assert (EL : ell = true <-> (exists curve, In curve (ch_curves ch) /\ In curve (curvePreferences (s_curves cfg))) /\ In 0 (ch_points ch)).
  { rewrite E1, andb_true_iff, existsb_eqb, existsb_exists. split; intros [(c & A & B) D]; (split; [|exact D]); exists c; (split; [exact A|]); now apply existsb_eqb. }
  assert (SG : signer ce = true <-> exists sign, k_sign (sc_key ce) = Some sign) by (unfold signer; destruct (k_sign (sc_key ce)); split; intros X; eauto; [discriminate|destruct X; discriminate]).
  assert (DC : decrypter ce = true <-> exists dec, k_dec (sc_key ce) = Some dec) by (unfold decrypter; destruct (k_dec (sc_key ce)); split; intros X; eauto; [discriminate|destruct X; discriminate]).
  assert (TV : negb ((vers <? 771) && tls12_suite (su_id su)) = true <-> (tls12_suite (su_id su) = true -> 771 <= vers)).
  { destruct (Z.ltb_spec vers 771), (tls12_suite (su_id su)); cbn; split; intros; try lia; auto; try discriminate. }
  rewrite andb_true_iff, TV, <- EL, <- SG, <- DC. rewrite E2, E3, E4. clear -IT. set (tv := tls12_suite (su_id su) = true -> 771 <= vers). clearbody tv.
  destruct (ecdhe_suite (su_id su)); [destruct (ecdsa_suite (su_id su))|]; rewrite ?andb_true_iff.
  - split; [intros ((A & B & D) & F)|intros (_ & F & A & _); destruct (A eq_refl) as (B & D & G)]; [split; [exact IT|]; split; [exact F|]; split; [intros _; tauto|discriminate]|tauto].
  - split; [intros ((A & B & D) & F)|intros (_ & F & A & _); destruct (A eq_refl) as (B & D & G)]; [split; [exact IT|]; split; [exact F|]; split; [intros _; tauto|discriminate]|tauto].
  - split; [intros ((A & B) & F)|intros (_ & F & _ & A); destruct (A eq_refl) as (B & D)]; [split; [exact IT|]; split; [exact F|]; split; [discriminate|tauto]|tauto].
Qed.

(** what every completed call went through *)
Lemma std_both cfg getcfg rn c r log : std_server_completes E C cfg getcfg rn c r log ->
  exists hs su random rest, log = EvRecv (st_chraw hs) :: rest /\ parse_msg 0 (st_chraw hs) = Ok (MClientHello (st_ch hs)) /\ scfg_for cfg getcfg (st_ch hs) (st_cfg hs) /\
    certificate_for E (st_cfg hs) (st_ch hs) (st_cert hs) /\ mutualVersion (cf_min (s_cfg (st_cfg hs))) (cf_max (s_cfg (st_cfg hs))) (ch_vers (st_ch hs)) = Some (st_v hs) /\
    In 0 (ch_comp (st_ch hs)) /\ ch_reneg (st_ch hs) = [] /\ r_hello rn = Some random /\
    key_choice (st_ch hs) (st_cfg hs) (st_cert hs) (st_ell hs) (st_ecdsa hs) (st_rsaSign hs) (st_rsaDec hs) /\
    (let npn := negb (0 <? zlen (ch_alpn (st_ch hs))) && ch_npn (st_ch hs) && (0 <? zlen (cf_protos (s_cfg (st_cfg hs)))) in
     st_sh hs = mkSH (st_v hs) random [] 0 0 npn (if npn then cf_protos (s_cfg (st_cfg hs)) else []) false (if ch_scts (st_ch hs) then sc_scts (st_cert hs) else [])
                     false [] (ch_renegOn (st_ch hs)) (st_proto hs)) /\
    (if 0 <? zlen (ch_alpn (st_ch hs)) then exists p b, mutualProtocol (ch_alpn (st_ch hs)) (cf_protos (s_cfg (st_cfg hs))) = Ok (p, b) /\ st_proto hs = if b then [] else p else st_proto hs = []) /\
    In su cipherSuites /\ hr_vers r = st_v hs /\ hr_suite r = su_id su /\ hr_clientRandom r = ch_random (st_ch hs) /\ hr_serverRandom r = random /\ hr_serverName r = ch_sni (st_ch hs) /\
    (st_v hs = 0x0101 \/ exists ver, version_of (st_v hs) (su_sha384 su) = Some ver) /\
   ((exists st k l_np l_t m_sh m_fin m_sfin cfin sfin, std_checkForResumption E hs = Some (st, su) /\ hr_resumed r = true /\
       std_server_rrun E Hs hs st su rn r log k l_np l_t m_sh m_fin m_sfin cfin sfin) \/
    (hr_resumed r = false /\ std_checkForResumption E hs = None /\
     exists f lf k l_np l_t m_fin m_sfin cfin sfin,
       negotiate_suite cipherSuites (st_ok hs (st_v hs)) (cf_prefer (s_cfg (st_cfg hs))) (cfg_cipherSuites (cf_suites (s_cfg (st_cfg hs)))) (ch_suites (st_ch hs)) = Some su /\
       bad_fallback (ch_suites (st_ch hs)) (ch_vers (st_ch hs)) (maxVersion (cf_max (s_cfg (st_cfg hs)))) = false /\
       std_server_run E Hs hs su rn r log f lf k l_np l_t m_fin m_sfin cfin sfin)).
Proof.
  intros [c' H]. destruct HW as (HL & HG & _).
  apply (std_serverHandshake_inv E Hs HL HG) in H as (hs & (s0 & HH) & HB). exists hs.
  apply std_server_hello_inv in HH as (random & _ & P & Cf & V & Cm & Rg & Rn & Ce & K1 & K2 & K3 & K4 & _ & SH & AL).
  assert (SR32 : sh_random (st_sh hs) = random) by (cbv zeta in SH; rewrite SH; reflexivity).
  destruct HB as [(st & su & k & l_np & l_t & m_sh & m_fin & m_sfin & cfin & sfin & X1 & HR & SR)|(HR & X0 & su & f & lf & k & l_np & l_t & m_fin & m_sfin & cfin & sfin & X1 & X2 & VV & SR)].
  - destruct (srr_res _ _ _ _ _ _ _ _ _ _ _ _ _ _ _ _ SR) as (R1 & R2 & R3 & R4 & R5 & R6).
    assert (SI : In su cipherSuites).
    { unfold std_checkForResumption in X1. cbv zeta in X1. destruct (cf_noTickets _); [discriminate|]. destruct (decryptTicket _ _ _ _ _) as [st'|]; [|discriminate].
      repeat match type of X1 with (if ?b then _ else _) = _ => destruct b; [discriminate|] end. destruct (set_suite _ _ _ _) as [su'|] eqn:ES; [|discriminate].
      repeat match type of X1 with (if ?b then _ else _) = _ => destruct b; [discriminate|] end. injection X1 as _ ->. apply P_TLS_neg.set_suite_iff in ES as (_ & ES & _).
      clear -ES. revert ES. generalize (ss_cipherSuite st'). generalize cipherSuites. induction l as [|x l IH]; intros id H; cbn in H; [discriminate|]. destruct (_ =? _) in H; [injection H as ->; now left|right; eauto]. }
    exists su, random. eexists. split; [rewrite (srr_log _ _ _ _ _ _ _ _ _ _ _ _ _ _ _ _ SR); reflexivity|]. rewrite SR32 in R5.
    split; [exact P|]. split; [exact Cf|]. split; [exact Ce|]. split; [exact V|]. split; [exact Cm|]. split; [exact Rg|]. split; [exact Rn|].
    split; [split; [exact K1|split; [exact K2|split; [exact K3|exact K4]]]|]. split; [exact SH|]. split; [exact AL|]. split; [exact SI|].
    split; [exact R1|]. split; [exact R2|]. split; [exact R4|]. split; [exact R5|]. split; [exact R6|]. split; [exact (srr_vers _ _ _ _ _ _ _ _ _ _ _ _ _ _ _ _ SR)|]. left. exists st, k, l_np, l_t, m_sh, m_fin, m_sfin, cfin, sfin. auto.
  - destruct (ssr_res _ _ _ _ _ _ _ _ _ _ _ _ _ _ _ _ SR) as (R1 & R2 & R3 & R4 & R5 & R6 & R7 & R8).
    pose proof (tr_sh _ _ _ _ _ _ _ _ (ssr_full _ _ _ _ _ _ _ _ _ _ _ _ _ _ _ _ SR)) as ESH.
    assert (SRR : sh_random (sf_sh f) = random) by (rewrite ESH; cbn [std_full_sh set_sh_suite set_sh_ticketOn set_sh_ocsp sh_random]; exact SR32). rewrite SRR in R5.
    destruct (selected _ _ _ _ _ X1) as (SI & _).
    exists su, random. eexists. split; [rewrite (ssr_log _ _ _ _ _ _ _ _ _ _ _ _ _ _ _ _ SR); reflexivity|].
    split; [exact P|]. split; [exact Cf|]. split; [exact Ce|]. split; [exact V|]. split; [exact Cm|]. split; [exact Rg|]. split; [exact Rn|].
    split; [split; [exact K1|split; [exact K2|split; [exact K3|exact K4]]]|]. split; [exact SH|]. split; [exact AL|]. split; [exact SI|].
    split; [exact R1|]. split; [exact R2|]. split; [exact R4|]. split; [exact R5|]. split; [exact R8|]. split; [exact VV|]. right. split; [exact HR|]. split; [exact X0|]. exists f, lf, k, l_np, l_t, m_fin, m_sfin, cfin, sfin. auto.
Qed.

(** ** C122.  Negotiation *)
(** Whatever the client sends: the version is the highest one both sides allow; the suite was offered by the client, is enabled in the configuration and fits version, curves
    and key; in a full handshake it is the first such one in the order of the preferring side, and a client that marked its hello as a fallback from a higher version the server
    supports is refused; compression none; no renegotiation. *)
Theorem C122_server_negotiation cfg getcfg rn c r log : std_server_completes E C cfg getcfg rn c r log ->
  exists ch cfg' ce, hello_read log ch /\ scfg_for cfg getcfg ch cfg' /\ certificate_for E cfg' ch ce /\
    lo cfg' <= ch_vers ch /\ hr_vers r = Z.min (ch_vers ch) (hi cfg') /\ In (hr_vers r) [0x0101; 0x0300; 0x0301; 0x0302; 0x0303] /\
    In 0 (ch_comp ch) /\ ch_reneg ch = [] /\
    In (hr_suite r) (ch_suites ch) /\ In (hr_suite r) (cfg_cipherSuites (cf_suites (s_cfg cfg'))) /\ usable ch cfg' ce (hr_vers r) (hr_suite r) /\
    (hr_resumed r = false -> ~ (In 0x5600 (ch_suites ch) /\ ch_vers ch < hi cfg') /\
       let prefer := cf_prefer (s_cfg cfg') in let ours := cfg_cipherSuites (cf_suites (s_cfg cfg')) in
       exists before after, (if prefer then ours else ch_suites ch) = before ++ hr_suite r :: after /\
         forall id, In id before -> ~ (In id (if prefer then ch_suites ch else ours) /\ usable ch cfg' ce (hr_vers r) id)) /\
    hr_clientRandom r = ch_random ch /\ r_hello rn = Some (hr_serverRandom r) /\ hr_serverName r = ch_sni ch /\
    (ch_alpn ch <> [] -> (hr_proto r = [] /\ forall q, In q (cf_protos (s_cfg cfg')) -> ~ In q (ch_alpn ch)) \/
       exists before after, cf_protos (s_cfg cfg') = before ++ hr_proto r :: after /\ In (hr_proto r) (ch_alpn ch) /\ forall q, In q before -> ~ In q (ch_alpn ch)).
Proof.
  intros H. destruct (std_both _ _ _ _ _ _ H) as (hs & su & random & rest & EL & P & Cf & Ce & V & Cm & Rg & Rn & KC & SH & AL & SI & R1 & R2 & R4 & R5 & R6 & VV & HB). cbv zeta in SH.
  destruct (hello_of _ _ P) as [Ht Hu].
  exists (st_ch hs), (st_cfg hs), (st_cert hs). split; [exists (st_chraw hs), rest; auto|]. split; [exact Cf|]. split; [exact Ce|].
  destruct (P_TLS_neg.C65_mutual_version (cf_min (s_cfg (st_cfg hs))) (cf_max (s_cfg (st_cfg hs))) (ch_vers (st_ch hs))) as [M1 M2]. cbv zeta in M1, M2. fold (lo (st_cfg hs)) in M1, M2. fold (hi (st_cfg hs)) in M2.
  assert (LO : lo (st_cfg hs) <= ch_vers (st_ch hs)). { destruct (Z_lt_le_dec (ch_vers (st_ch hs)) (lo (st_cfg hs))) as [X|X]; [|exact X]. apply M1 in X. rewrite X in V. discriminate. }
  rewrite (M2 LO) in V. injection V as V.
  split; [exact LO|]. split; [rewrite R1, V; reflexivity|].
  split. { rewrite R1. destruct VV as [-> |(ver & Ev)]; [cbn; auto|]. revert Ev. unfold version_of. repeat match goal with |- (if ?a =? ?b then _ else _) = _ -> _ => destruct (Z.eqb_spec a b) as [->|]; [cbn; auto 10|] end. discriminate. }
  split; [exact Cm|]. split; [exact Rg|]. rewrite R1, R2.
  assert (HI : maxVersion (cf_max (s_cfg (st_cfg hs))) = hi (st_cfg hs)). { unfold maxVersion, hi, maxVersionConst, VersionTLS12. destruct (Z.eqb_spec (cf_max (s_cfg (st_cfg hs))) 0), (Z.eq_dec (cf_max (s_cfg (st_cfg hs))) 0); congruence. }
  assert (HP : ch_alpn (st_ch hs) <> [] -> hr_proto r = st_proto hs).
  { intros NA. assert (N0 : sh_npn (st_sh hs) = false). { rewrite SH. cbn [sh_npn]. destruct (ch_alpn (st_ch hs)); [congruence|]. reflexivity. }
    destruct HB as [(st & k & l_np & l_t & m_sh & m_fin & m_sfin & cfin & sfin & X1 & HR & SR)|(HR & X0 & f & lf & k & l_np & l_t & m_fin & m_sfin & cfin & sfin & X1 & X2 & SR)].
    - pose proof (srr_np _ _ _ _ _ _ _ _ _ _ _ _ _ _ _ _ SR) as N. rewrite N0 in N. tauto.
    - pose proof (ssr_np _ _ _ _ _ _ _ _ _ _ _ _ _ _ _ _ SR) as N. pose proof (tr_sh _ _ _ _ _ _ _ _ (ssr_full _ _ _ _ _ _ _ _ _ _ _ _ _ _ _ _ SR)) as ESH.
      rewrite ESH in N. cbn [std_full_sh set_sh_suite set_sh_ticketOn set_sh_ocsp sh_npn] in N. rewrite N0 in N. tauto. }
  assert (ALP : ch_alpn (st_ch hs) <> [] -> (hr_proto r = [] /\ forall q, In q (cf_protos (s_cfg (st_cfg hs))) -> ~ In q (ch_alpn (st_ch hs))) \/
       exists before after, cf_protos (s_cfg (st_cfg hs)) = before ++ hr_proto r :: after /\ In (hr_proto r) (ch_alpn (st_ch hs)) /\ forall q, In q before -> ~ In q (ch_alpn (st_ch hs))).
  { intros NA. rewrite (HP NA). rewrite nonempty_zlen in AL. destruct (P_TLS_neg.C66_protocol (ch_alpn (st_ch hs)) (cf_protos (s_cfg (st_cfg hs)))) as (A1 & A2 & _).
    destruct (ch_alpn (st_ch hs)) as [|a0 al]; [congruence|]. cbn [nonempty] in AL. destruct AL as (p & b & AL & ->). destruct b.
    - left. split; [reflexivity|]. apply A2 in AL. tauto.
    - right. apply A1 in AL. exact AL. }
  destruct HB as [(st & k & l_np & l_t & m_sh & m_fin & m_sfin & cfin & sfin & X1 & HR & SR)|(HR & X0 & f & lf & k & l_np & l_t & m_fin & m_sfin & cfin & sfin & X1 & X2 & SR)].
  - unfold std_checkForResumption in X1. cbv zeta in X1. destruct (cf_noTickets _); [discriminate|]. destruct (decryptTicket _ _ _ _ _) as [st'|]; [|discriminate].
    destruct (Z.eqb_spec (st_v hs) (ss_vers st')) as [EV|]; cbn [negb] in X1; [|discriminate]. destruct (existsb (Z.eqb (ss_cipherSuite st')) (ch_suites (st_ch hs))) eqn:EO; cbn [negb] in X1; [|discriminate].
    apply existsb_eqb in EO. destruct (set_suite _ _ _ _) as [su'|] eqn:ES; [|discriminate]. apply P_TLS_neg.set_suite_iff in ES as (S1 & S2 & S3).
    repeat match type of X1 with (if ?b then _ else _) = _ => destruct b; [discriminate|] end. injection X1 as -> ->.
    assert (ID : su_id su = ss_cipherSuite st). { clear -S2. revert S2. generalize cipherSuites. induction l as [|x l IH]; cbn; [discriminate|]. destruct (Z.eqb_spec (su_id x) (ss_cipherSuite st)); [intros [= ->]; assumption|exact IH]. }
    rewrite ID. split; [exact EO|]. split; [exact S1|]. split. { rewrite <- ID. rewrite EV. eapply usable_iff; eauto. }
    split; [congruence|]. split; [exact R4|]. split; [rewrite R5; exact Rn|]. split; [exact R6|exact ALP].
  - pose proof X1 as X1'. apply selected in X1' as (_ & OK & I1 & I2). split; [exact I2|]. split; [exact I1|].
    split; [eapply usable_iff; eauto|]. split.
    { intros _. split. { intros HX. rewrite <- HI in HX. apply (P_TLS_neg.C66_fallback (ch_suites (st_ch hs)) (ch_vers (st_ch hs))) in HX. congruence. }
      cbv zeta. destruct (P_TLS_neg.C66_server_selection false (st_ok hs (st_v hs)) (cf_prefer (s_cfg (st_cfg hs))) (cfg_cipherSuites (cf_suites (s_cfg (st_cfg hs)))) (ch_suites (st_ch hs))) as [X _]. apply X in X1 as (b & id & a & Ep & (_ & _ & <- & _) & NB).
      exists b, a. split; [exact Ep|]. intros id' Hb [Ho Hus].
      assert (exists su', In su' cipherSuites /\ su_id su' = id') as (su' & Hsu & <-).
      { destruct Hus as [Hus _]. clear -Hus. assert (X : incl (map fst suite_table) (map su_id cipherSuites)). { intros x Hx. vm_compute in Hx |- *. tauto. } apply X in Hus. apply in_map_iff in Hus as (s & ? & ?). eauto. }
      apply (NB (su_id su') su' Hb). split; [exact Ho|]. split; [exact Hsu|]. split; [reflexivity|]. eapply usable_iff; eauto. }
    split; [exact R4|]. split; [rewrite R5; exact Rn|]. split; [exact R6|exact ALP].
Qed.
(** the ServerHello the client gets says exactly that *)
Theorem C122_server_hello cfg getcfg rn c r log : std_server_completes E C cfg getcfg rn c r log ->
  exists ch cfg' ce m0 m rest st, hello_read log ch /\ scfg_for cfg getcfg ch cfg' /\ certificate_for E cfg' ch ce /\ log = EvRecv m0 :: EvSend m :: rest /\
    (hr_resumed r = true -> decryptTicket (e_aes (se E)) (e_sha256 (se E)) false (cf_keys (s_cfg cfg')) (ch_ticket ch) = Some st) /\
    let npn := ch_npn ch && negb (nonempty (ch_alpn ch)) && nonempty (cf_protos (s_cfg cfg')) in
    m_serverHello {| sh_vers := hr_vers r; sh_random := hr_serverRandom r; sh_sessionId := if hr_resumed r then ch_sessionId ch else []; sh_suite := hr_suite r; sh_comp := 0;
        sh_npn := npn; sh_protos := if npn then cf_protos (s_cfg cfg') else []; sh_ocsp := negb (hr_resumed r) && ch_ocsp ch && nonempty (sc_ocsp ce); sh_scts := if ch_scts ch then sc_scts ce else [];
        sh_ticketOn := if hr_resumed r then ss_usedOldKey st else ch_ticketOn ch && negb (cf_noTickets (s_cfg cfg')); sh_reneg := []; sh_renegOn := ch_renegOn ch;
        sh_alpn := if nonempty (ch_alpn ch) then hr_proto r else [] |} = Ok m.
Proof.
  intros H. destruct (std_both _ _ _ _ _ _ H) as (hs & su & random & rest & EL & P & Cf & Ce & V & Cm & Rg & Rn & KC & SH & AL & SI & R1 & R2 & R4 & R5 & R6 & VV & HB). cbv zeta in SH.
  destruct (hello_of _ _ P) as [Ht Hu].
  assert (EN : negb (nonempty (ch_alpn (st_ch hs))) && ch_npn (st_ch hs) && nonempty (cf_protos (s_cfg (st_cfg hs))) = ch_npn (st_ch hs) && negb (nonempty (ch_alpn (st_ch hs))) && nonempty (cf_protos (s_cfg (st_cfg hs))))
    by (rewrite (andb_comm (ch_npn (st_ch hs))); reflexivity).
  rewrite !nonempty_zlen, EN in SH. rewrite nonempty_zlen in AL.
  destruct HB as [(st & k & l_np & l_t & m_sh & m_fin & m_sfin & cfin & sfin & X1 & HR & SR)|(HR & X0 & f & lf & k & l_np & l_t & m_fin & m_sfin & cfin & sfin & X1 & X2 & SR)].
  - pose proof (srr_log _ _ _ _ _ _ _ _ _ _ _ _ _ _ _ _ SR) as EL'. pose proof (srr_sh _ _ _ _ _ _ _ _ _ _ _ _ _ _ _ _ SR) as M.
    pose proof (srr_np _ _ _ _ _ _ _ _ _ _ _ _ _ _ _ _ SR) as N.
    exists (st_ch hs), (st_cfg hs), (st_cert hs), (st_chraw hs), m_sh. eexists. exists st. split; [exists (st_chraw hs), rest; auto|]. split; [exact Cf|]. split; [exact Ce|].
    split; [rewrite EL'; reflexivity|]. split.
    { intros _. unfold std_checkForResumption in X1. cbv zeta in X1. destruct (cf_noTickets (s_cfg (st_cfg hs))); [discriminate|]. destruct (decryptTicket _ _ _ _ _) as [st'|]; [|discriminate].
      repeat match type of X1 with (if ?b then _ else _) = _ => destruct b; [discriminate|] end. destruct (set_suite _ _ _ _); [|discriminate].
      repeat match type of X1 with (if ?b then _ else _) = _ => destruct b; [discriminate|] end. injection X1 as -> _. reflexivity. }
    cbv zeta. rewrite HR, R1, R2, R5. cbn [negb andb]. unfold std_resume_sh in M. rewrite SH in M. rewrite SH in N. cbn [sh_npn] in N. cbn [set_sh_suite set_sh_ticketOn set_sh_sessionId sh_vers sh_random sh_sessionId sh_suite sh_comp sh_npn sh_protos sh_ocsp sh_scts sh_ticketOn sh_reneg sh_renegOn sh_alpn] in M.
    replace (if nonempty (ch_alpn (st_ch hs)) then hr_proto r else []) with (st_proto hs); [exact M|].
    destruct (nonempty (ch_alpn (st_ch hs))) eqn:NA; [|exact AL]. rewrite andb_false_r in N. cbn [andb] in N. symmetry. tauto.
  - pose proof (ssr_log _ _ _ _ _ _ _ _ _ _ _ _ _ _ _ _ SR) as EL'. pose proof (ssr_np _ _ _ _ _ _ _ _ _ _ _ _ _ _ _ _ SR) as N.
    pose proof (ssr_full _ _ _ _ _ _ _ _ _ _ _ _ _ _ _ _ SR) as HF. pose proof (tr_sh _ _ _ _ _ _ _ _ HF) as ESH.
    destruct (tr_flow _ _ _ _ _ _ _ _ HF) as (m_sh & m_cert & l_st & skx & ka & l_skx & l_req & l_cc & m_ckx & l_cv & ct & pms & El & M & _).
    exists (st_ch hs), (st_cfg hs), (st_cert hs), (st_chraw hs), m_sh. eexists. exists (mkSS 0 0 [] [] false). split; [exists (st_chraw hs), rest; auto|]. split; [exact Cf|]. split; [exact Ce|].
    split; [rewrite EL', El; reflexivity|]. split; [congruence|].
    cbv zeta. rewrite HR, R1, R2, R5. cbn [negb andb]. rewrite ESH in M, N. unfold std_full_sh, sto_stapled in M. rewrite SH in M. cbn [std_full_sh set_sh_suite set_sh_ticketOn set_sh_ocsp sh_npn] in N. rewrite SH in N. cbn [sh_npn] in N.
    cbn [set_sh_suite set_sh_ticketOn set_sh_ocsp sh_vers sh_random sh_sessionId sh_suite sh_comp sh_npn sh_protos sh_ocsp sh_scts sh_ticketOn sh_reneg sh_renegOn sh_alpn] in M. rewrite nonempty_zlen in M.
    replace (if nonempty (ch_alpn (st_ch hs)) then hr_proto r else []) with (st_proto hs); [exact M|].
    destruct (nonempty (ch_alpn (st_ch hs))) eqn:NA; [|exact AL]. rewrite andb_false_r in N. cbn [andb] in N. symmetry. tauto.
Qed.

(** ** C123.  Client authentication *)
(** When the configuration requires a client certificate a completed full handshake means there is one; the certificates of ConnectionState are those of the client's Certificate
    message; with RequireAndVerify or VerifyIfGiven the first one chains to ClientCAs for client authentication; and the client signed everything it and the server had sent so
    far with the private key of that certificate, in the form its protocol version and key prescribe. *)
Theorem C123_client_authenticated cfg getcfg rn c r log ch cfg' : std_server_completes E C cfg getcfg rn c r log -> hr_resumed r = false -> wire_ok log ->
  hello_random_ok rn -> groups_ok E -> server_keys_ok E cfg getcfg -> hr_vers r <> 0x0101 -> hello_read log ch -> scfg_for cfg getcfg ch cfg' ->
  (cf_auth (s_cfg cfg') = RequireAndVerifyClientCert \/ cf_auth (s_cfg cfg') = RequireAnyClientCert -> hr_peer r <> []) /\ (cf_auth (s_cfg cfg') = NoClientCert -> hr_peer r = []) /\
  forall leaf rest, hr_peer r = leaf :: rest ->
    (exists m ders, In (EvRecv m) log /\ mtype m = tCertificate /\ u_certificate m = Ok ders /\ Forall2 (fun d x => e_parse (se E) d = Some x) ders (leaf :: rest) /\
       (forall g, cf_verifyPeer (s_cfg cfg') = Some g -> g ders (hr_chains r) = None)) /\
    (cf_auth (s_cfg cfg') = RequireAndVerifyClientCert \/ cf_auth (s_cfg cfg') = VerifyClientCertIfGiven ->
       exists roots inters, (match cf_clientCAs (s_cfg cfg') with Some p => Some p | None => e_sysroots (se E) end) = Some roots /\ (forall x, In x inters -> In x (map g_cert rest)) /\
         trusted (se E) (X509_model.certs roots) inters (cf_time (s_cfg cfg')) [] 2 (g_cert leaf) (hr_chains r)) /\
    (is_rsa (g_pub leaf) = true \/ is_ecdsa (g_pub leaf) = true) /\
    (exists pre m post alg sig kind hash ver, log = pre ++ EvRecv m :: post /\ mtype m = tCertificateVerify /\ u_certificateVerify (0x0303 <=? hr_vers r) 0 m = Ok (alg, sig) /\
       version_of (hr_vers r) (sha384_suite (hr_suite r)) = Some ver /\ scheme_ok (hr_vers r) (is_rsa (g_pub leaf)) [alg] alg kind hash /\
       se_verify E (kind_code kind) hash (g_pub leaf)
         (signed_transcript Hs ver (is_rsa (g_pub leaf)) (hash_fn Hs H512 hash) (hr_master r) (transcript pre)) sig = true).
Proof.
  intros H HR WO RO GO KO NV HH HC. pose proof HW as (HL & HG & _).
  destruct (std_both _ _ _ _ _ _ H) as (hs & su & random & rest & EL & P & Cf & Ce & V & Cm & Rg & Rn & KC & SH & AL & SI & R1 & R2 & R4 & R5 & R6 & VV & HB). cbv zeta in SH.
  destruct (hello_of _ _ P) as [Ht Hu].
  assert (ECH : ch = st_ch hs) by (destruct HH as (m & rs & Hl & Hm & Hx); rewrite EL in Hl; injection Hl as <- _; congruence). subst ch.
  assert (ECF : cfg' = st_cfg hs). { unfold scfg_for in *. destruct getcfg; [|congruence]. destruct Cf as (x & X1 & ->), HC as (y & X2 & ->). rewrite X1 in X2. injection X2 as ->. reflexivity. }
  subst cfg'. clear HC HH.
  destruct HB as [(st & k & l_np & l_t & m_sh & m_fin & m_sfin & cfin & sfin & X1 & HR' & SR)|(_ & X0 & f & lf & k & l_np & l_t & m_fin & m_sfin & cfin & sfin & X1 & X2 & SR)]; [congruence|].
  pose proof (ssr_log _ _ _ _ _ _ _ _ _ _ _ _ _ _ _ _ SR) as EL'. pose proof (ssr_full _ _ _ _ _ _ _ _ _ _ _ _ _ _ _ _ SR) as HF. pose proof (tr_sh _ _ _ _ _ _ _ _ HF) as ESH.
  destruct (ssr_res _ _ _ _ _ _ _ _ _ _ _ _ _ _ _ _ SR) as (_ & _ & R3 & _ & R5' & -> & -> & _). rewrite R3.
  destruct (tr_flow _ _ _ _ _ _ _ _ HF) as (m_sh & m_cert & l_st & skx & ka & l_skx & l_req & l_cc & m_ckx & l_cv & ct & pms & El & Q1 & Q2 & Q3 & Q4 & Q5 & Q6 & Q7 & Q8 & Q9 & Q10 & Q11 & Q12).
  assert (AS : sasks hs = true -> sf_ders f <> [] -> sf_certs f <> []).
  { intros HA HN HE. rewrite HA in Q7. destruct Q7 as (m & _ & _ & (F2 & _) & _). rewrite HE in F2. apply HN. inversion F2; reflexivity. }
  split.
  { intros HA. assert (AT : sasks hs = true) by (unfold sasks; destruct HA as [-> | ->]; reflexivity).
    apply AS; [exact AT|]. rewrite AT in Q7. destruct Q7 as (m & _ & _ & _ & Q7). apply Q7. tauto. }
  split. { intros HA. unfold sasks in Q7. rewrite HA in Q7. cbn in Q7. tauto. }
  intros leaf rs EP. rewrite EP in Q12.
  assert (AT : sasks hs = true). { destruct (sasks hs); [reflexivity|]. destruct Q7 as (_ & _ & X & _). congruence. }
  rewrite AT in Q7, Q6. destruct Q7 as (mc & Elc & P7 & (F1 & F2 & F3) & _).
  destruct Q12 as (m & alg & sig & sch & st & hash & dg & Elv & P12 & NPO & Pk & Vf & Dg).
  split.
  { exists mc, (sf_ders f). split; [rewrite EL', El, Elc, !in_app_iff; cbn; tauto|]. pose proof (parse_type _ _ _ P7) as Htc. split; [exact Htc|]. split; [|split; [rewrite <- EP; exact F1|exact F3]].
    destruct mc as [|t mm]; [discriminate|]. cbn [mtype type_of] in Htc. subst t. cbn in P7. apply rmap_ok in P7 as (a & P7 & [= <-]). exact P7. }
  split.
  { intros HA. destruct (F2 leaf rs EP) as (roots & ER & HV).
    { destruct HA as [-> | ->]; unfold VerifyClientCertIfGiven, RequireAndVerifyClientCert; lia. }
    apply (x509_verify_trusted (se E) _ _ _ 2) in HV as [HV _]; [|lia|reflexivity].
    exists roots. eexists. split; [exact ER|]. split; [|exact HV]. cbn [client_verify_opts X509_model.o_inter]. intros x Hx. now apply pool_certs in Hx. }
  split; [exact NPO|].
  destruct (suite_facts _ SI) as (ES & _). destruct VV as [V0|(ver & Ev)]; [congruence|].
  destruct (pick_ok _ _ _ _ _ _ _ Pk NPO) as (K1 & K2 & _ & K3).
  assert (SRR : sh_random (sf_sh f) = random) by congruence.
  destruct (RO _ Rn) as [RS1 RS2].
  assert (Bh : bytes (st_chraw hs)). { apply wire_ok_recv. eapply wire_ok_in; [exact WO|]. rewrite EL'. now left. }
  destruct (hello_random _ _ Bh P) as [RC1 RC2].
  assert (SMM : small (sf_master f)).
  { pose proof (pms_small _ _ _ _ _ _ _ _ _ _ _ _ GO (KO _ _ _ Cf Ce) Q4 Q9) as SP. rewrite SRR in Q10.
    destruct (master_std _ Hs HL HG _ _ _ _ _ _ SP RC1 RS1 RC2 RS2 Q10 ver Ev) as (_ & _ & _ & X). exact X. }
  assert (WL : wire_ok ([EvRecv (st_chraw hs)] ++ lf)) by (eapply wire_ok_sub; [exact WO|]; exists []; eexists; rewrite EL'; cbn [app]; reflexivity).
  specialize (Dg _ (hash_ctor_ok E Hs H512 hash HW) SMM (pick_old _ _ _ _ _ _ _ Pk NPO) ver Ev WL).
  match type of Dg with dg = signed_transcript _ _ _ _ _ (transcript ?x) => exists x end.
  exists m, ([EvKeys k; EvRecvCCS] ++ l_np ++ [EvRecv m_fin] ++ l_t ++ [EvSendCCS; EvSend m_sfin]), alg, sig, (kind_of st), hash, ver.
  split. { rewrite EL', El, Elv. rewrite <- !app_assoc. reflexivity. }
  pose proof (parse_type _ _ _ P12) as Htv. split; [exact Htv|]. split.
  { destruct m as [|t mm]; [discriminate|]. cbn [mtype type_of] in Htv. subst t. cbn in P12. apply rmap_ok in P12 as ([a b] & P12 & [= <- <-]). rewrite R1. exact P12. }
  rewrite R1, R2, <- ES. split; [exact Ev|].
  assert (ALG : 0x0303 <= st_v hs -> sch = alg). { intros HV. destruct K2 as (_ & _ & K2). destruct (K2 HV) as [[A|[]] _]. congruence. }
  split. { destruct K2 as (A & B & D). split; [exact A|]. split; [exact B|]. intros HV. destruct (D HV) as [D1 D2]. rewrite (ALG HV) in D2. split; [left; reflexivity|exact D2]. }
  rewrite K1. apply std_verify_ok in Vf; [|exact NPO]. rewrite Dg in Vf.
  assert (ET : signed_transcript Hs ver (st =? signaturePKCS1v15) (hash_fn Hs H512 hash) (sf_master f) = signed_transcript Hs ver (is_rsa (g_pub leaf)) (hash_fn Hs H512 hash) (sf_master f)).
  { rewrite <- K3. unfold signed_transcript, is_rsa_sig. destruct ver; try reflexivity; (assert (LT : st_v hs < VersionTLS12) by (apply version_of_inv in Ev as (-> & _); reflexivity); destruct (pick_old _ _ _ _ _ _ _ Pk NPO LT) as [-> | ->]; reflexivity). }
  rewrite ET in Vf. exact Vf.
Qed.

(** ** C124.  Secrets *)
(** RSA key exchange: the pre-master secret is what the server's key decrypts from the client's message; ECDHE: a fresh key pair on the first curve of the server's preferences
    the client offers, announced in a ServerKeyExchange signed together with both randoms, combined with the point the client sent.  Master secret and connection keys follow
    from it by the PRF of the negotiated protocol, and the keys are installed exactly once. *)
Theorem C124_server_secrets cfg getcfg rn c r log : std_server_completes E C cfg getcfg rn c r log -> hr_resumed r = false -> wire_ok log ->
  hello_random_ok rn -> groups_ok E -> server_keys_ok E cfg getcfg -> hr_vers r <> 0x0101 ->
  exists ch cfg' ce ver lens kb mck ct pms, hello_read log ch /\ scfg_for cfg getcfg ch cfg' /\ certificate_for E cfg' ch ce /\
    version_of (hr_vers r) (sha384_suite (hr_suite r)) = Some ver /\ In (hr_suite r, lens) suite_table /\
    keys_of log = [kb] /\ cut_into kb lens (PRF Hs ver (block_len lens) (hr_master r) ascii_key_expansion (hr_serverRandom r ++ hr_clientRandom r)) /\
    hr_master r = PRF Hs ver 48 pms ascii_master_secret (hr_clientRandom r ++ hr_serverRandom r) /\
    In (EvRecv mck) log /\ mtype mck = tClientKeyExchange /\ parse_msg (hr_vers r) mck = Ok (MClientKeyExchange ct) /\
    (ecdhe_suite (hr_suite r) = false -> exists dec, k_dec (sc_key ce) = Some dec /\
       if hr_vers r =? 0x0300 then dec ct = Ok pms else exists b0 b1 enc, ct = b0 :: b1 :: enc /\ 256 * b0 + b1 = zlen enc /\ dec enc = Ok pms) /\
    (ecdhe_suite (hr_suite r) = true -> exists before curve after g priv pub point sign kind hash alg sig m params,
       curvePreferences (s_curves cfg') = before ++ curve :: after /\ In curve (ch_curves ch) /\ (forall x, In x before -> ~ In x (ch_curves ch)) /\ group E curve = Some g /\
       kx_gen g (r_pms rn) = Ok (priv, pub) /\ params = [3; 0; curve; zlen pub] ++ pub /\
       k_sign (sc_key ce) = Some sign /\ scheme_ok (hr_vers r) (negb (ecdsa_suite (hr_suite r))) (ch_sigalgs ch) alg kind hash /\
       sign (kind_code kind) hash (r_sign rn) (signed_params Hs (hr_vers r) (negb (ecdsa_suite (hr_suite r))) (hash_fn Hs H512 hash) (hr_clientRandom r) (hr_serverRandom r) params) = Ok sig /\
       In (EvSend m) log /\ m_serverKeyExchange (params ++ (if 0x0303 <=? hr_vers r then [u8 (Z.shiftr alg 8); u8 alg] else []) ++ [u8 (Z.shiftr (zlen sig) 8); u8 (zlen sig)] ++ sig) = Ok m /\
       ct = zlen point :: point /\ pms = kx_shared g priv point /\ (curve = 29 -> length point = 32%nat) /\ (curve <> 29 -> kx_point g point = true)).
Proof.
  intros H HR WO RO GO KO NV. pose proof HW as (HL & HG & _).
  destruct (std_both _ _ _ _ _ _ H) as (hs & su & random & rest & EL & P & Cf & Ce & V & Cm & Rg & Rn & KC & SH & AL & SI & R1 & R2 & R4 & R5 & R6 & VV & HB). cbv zeta in SH.
  destruct (hello_of _ _ P) as [Ht Hu].
  destruct HB as [(st & k & l_np & l_t & m_sh & m_fin & m_sfin & cfin & sfin & X1 & HR' & SR)|(_ & X0 & f & lf & k & l_np & l_t & m_fin & m_sfin & cfin & sfin & X1 & X2 & SR)]; [congruence|].
  pose proof (ssr_log _ _ _ _ _ _ _ _ _ _ _ _ _ _ _ _ SR) as EL'. pose proof (ssr_full _ _ _ _ _ _ _ _ _ _ _ _ _ _ _ _ SR) as HF.
  destruct (ssr_res _ _ _ _ _ _ _ _ _ _ _ _ _ _ _ _ SR) as (_ & _ & R3 & _ & R5' & _). rewrite R1, R2, R3, R4.
  destruct (std_full_steps _ _ _ _ _ _ _ HF Ht SI) as [_ KF].
  destruct (tr_flow _ _ _ _ _ _ _ _ HF) as (m_sh & m_cert & l_st & skx & ka & l_skx & l_req & l_cc & m_ckx & l_cv & ct & pms & El & Q1 & Q2 & Q3 & Q4 & Q5 & Q6 & Q7 & Q8 & Q9 & Q10 & Q11 & Q12).
  destruct (suite_facts _ SI) as (ES & _ & EE & EC & _). destruct VV as [V0|(ver & Ev)]; [congruence|].
  assert (SRR : sh_random (sf_sh f) = random) by congruence. rewrite SRR in *. rewrite R5.
  destruct (RO _ Rn) as [RS1 RS2].
  assert (Bh : bytes (st_chraw hs)). { apply wire_ok_recv. eapply wire_ok_in; [exact WO|]. rewrite EL'. now left. }
  destruct (hello_random _ _ Bh P) as [RC1 RC2].
  pose proof (pms_small _ _ _ _ _ _ _ _ _ _ _ _ GO (KO _ _ _ Cf Ce) Q4 Q9) as SP.
  destruct (master_std _ Hs HL HG _ _ _ _ _ _ SP RC1 RS1 RC2 RS2 Q10 ver Ev) as (EM & _ & _ & SMM).
  pose proof (ssr_keys _ _ _ _ _ _ _ _ _ _ _ _ _ _ _ _ SR) as HK. rewrite SRR in HK. rewrite ES in Ev.
  destruct (std_keys_ok _ Hs _ _ _ _ _ _ _ HL HG HK SI Ev SMM RC1 RS1 RC2 RS2) as (lens & IT & CUT).
  exists (st_ch hs), (st_cfg hs), (st_cert hs), ver, lens, k, m_ckx, ct, pms.
  split; [exists (st_chraw hs), rest; auto|]. split; [exact Cf|]. split; [exact Ce|]. split; [exact Ev|]. split; [exact IT|]. split.
  { rewrite EL', !keys_of_app, KF.
    assert (KN : keys_of l_np = []). { pose proof (ssr_np _ _ _ _ _ _ _ _ _ _ _ _ _ _ _ _ SR) as N. destruct (sh_npn (sf_sh f)); [destruct N as (m & p & -> & _)|destruct N as [-> _]]; reflexivity. }
    assert (KT : keys_of l_t = []). { pose proof (ssr_t _ _ _ _ _ _ _ _ _ _ _ _ _ _ _ _ SR) as N. destruct (sh_ticketOn (sf_sh f)); [destruct N as (m & p & -> & _)|rewrite N]; reflexivity. }
    rewrite KN, KT. reflexivity. }
  split; [exact CUT|]. split; [exact EM|]. split; [rewrite EL', El, !in_app_iff; cbn; tauto|]. split; [exact (parse_type _ _ _ Q8)|]. split; [exact Q8|].
  rewrite <- EE, <- EC. split.
  { intros EF. unfold std_processCKX in Q9. rewrite EF in Q9. cbn [negb] in Q9. destruct ct as [|b0 [|b1 enc]]; [discriminate..|]. change VersionSSL30 with 0x0300 in Q9.
    destruct (Z.eqb_spec (st_v hs) 768) as [V3|V3]; cbn [negb andb] in Q9.
    - destruct (k_dec (sc_key (st_cert hs))) as [dec|]; [|discriminate]. eauto.
    - destruct (Z.eqb_spec (256 * b0 + b1) (zlen (b0 :: b1 :: enc) - 2)) as [EQ|]; cbn [negb] in Q9; [|discriminate]. destruct (k_dec (sc_key (st_cert hs))) as [dec|]; [|discriminate].
      exists dec. split; [reflexivity|]. exists b0, b1, enc. split; [reflexivity|]. split; [|exact Q9]. rewrite EQ. unfold zlen. cbn [length]. lia. }
  intros EF. unfold std_generateSKX in Q4. cbv zeta in Q4. rewrite EF in Q4. cbn [negb] in Q4. unfold pick_curve in Q4.
  destruct (find _ _) as [curve|] eqn:FC in Q4; [|discriminate].
  assert (FS : exists before after, curvePreferences (s_curves (st_cfg hs)) = before ++ curve :: after /\ In curve (ch_curves (st_ch hs)) /\ (forall x, In x before -> ~ In x (ch_curves (st_ch hs)))).
  { clear -FC. revert FC. generalize (curvePreferences (s_curves (st_cfg hs))). induction l as [|x l IH]; cbn [find]; [discriminate|]. destruct (existsb (Z.eqb x) (ch_curves (st_ch hs))) eqn:EX.
    - intros [= ->]. exists [], l. split; [reflexivity|]. split; [now apply existsb_eqb|intros ? []].
    - intros F. destruct (IH F) as (b & a & -> & I & NB). exists (x :: b), a. split; [reflexivity|]. split; [exact I|]. intros y [<-|Hy]; [|auto]. rewrite <- existsb_eqb, EX. discriminate. }
  destruct FS as (before & after & FS1 & FS2 & FS3). clear FC.
  destruct (curve =? 0) eqn:C0; [discriminate|]. change X25519 with 29 in *.
  assert (GE : exists g priv pub, group E curve = Some g /\ kx_gen g (r_pms rn) = Ok (priv, pub) /\ In curve [29; 23; 24; 25] /\
    (match k_sign (sc_key (st_cert hs)) with
      | None => Err eKeyType
      | Some sign =>
          do p <- pickSignatureAlgorithm (k_pub (sc_key (st_cert hs))) (ch_sigalgs (st_ch hs)) supportedSignatureAlgorithms (st_v hs);
          let '(alg, st, h) := p in
          if negb (Bool.eqb (is_rsa_sig st) (negb (has_flag su suiteECDSA))) then Err eKeyType
          else
            do digest <- hashForServerKeyExchange E st h (st_v hs) [ch_random (st_ch hs); random; [3; u8 (Z.shiftr curve 8); u8 curve; u8 (zlen pub)] ++ pub];
            do sig <- sign st h (r_sign rn) digest;
            Ok (Some (([3; u8 (Z.shiftr curve 8); u8 curve; u8 (zlen pub)] ++ pub) ++ (if VersionTLS12 <=? st_v hs then [u8 (Z.shiftr alg 8); u8 alg] else []) ++ [u8 (Z.shiftr (zlen sig) 8); u8 (zlen sig)] ++ sig), (curve, priv))
      end) = Ok (skx, ka)).
  { unfold group, curveForCurveID in *. destruct (Z.eqb_spec curve 29) as [->|].
    - destruct (kx_gen (se_x25519 E) (r_pms rn)) as [[priv pub]| |] eqn:KG; [|discriminate..]. cbn [rbind] in Q4. exists (se_x25519 E), priv, pub. split; [reflexivity|]. split; [exact KG|]. split; [cbn; auto|exact Q4].
    - cbn [existsb]. destruct ((curve =? 23) || (curve =? 24) || (curve =? 25)) eqn:EX; [|discriminate].
      destruct (kx_gen (se_nist E curve) (r_pms rn)) as [[priv pub]| |] eqn:KG; [|discriminate..]. cbn [rbind] in Q4. exists (se_nist E curve), priv, pub.
      assert (IC : In curve [29; 23; 24; 25]). { rewrite !orb_true_iff, !Z.eqb_eq in EX. cbn. lia. }
      split. { rewrite orb_false_r, orb_assoc. rewrite EX. reflexivity. } split; [exact KG|]. split; [exact IC|exact Q4]. }
  clear Q4. destruct GE as (g & priv & pub & GE & KG & IC & Q4).
  destruct (k_sign (sc_key (st_cert hs))) as [sign|]; [|discriminate]. destruct (pickSignatureAlgorithm _ _ _ _) as [[[alg st] h]| |] eqn:PK; [|discriminate..]. cbn [rbind] in Q4.
  assert (KB : kex_bytes g). { destruct GO as [G1 G2]. unfold group in GE. destruct (curve =? 29); [injection GE as <-; exact G1|]. destruct (existsb _ _); [|discriminate]. injection GE as <-. apply G2. }
  destruct (proj2 KB _ _ _ KG) as [BP LP].
  assert (EPR : [3; u8 (Z.shiftr curve 8); u8 curve; u8 (zlen pub)] ++ pub = [3; 0; curve; zlen pub] ++ pub).
  { f_equal. assert (u8 (zlen pub) = zlen pub) as -> by (unfold u8, zlen; apply Z.mod_small; lia). repeat (destruct IC as [<- | IC]; [reflexivity|]). destruct IC. }
  rewrite EPR in Q4. set (params := [3; 0; curve; zlen pub] ++ pub) in *.
  destruct (Bool.eqb (is_rsa_sig st) (negb (has_flag su suiteECDSA))) eqn:EB; cbn [negb] in Q4; [|discriminate]. apply eqb_prop in EB.
  (* the key fits the suite, so it is RSA or ECDSA *)
  assert (NPO : is_rsa (k_pub (sc_key (st_cert hs))) = true \/ is_ecdsa (k_pub (sc_key (st_cert hs))) = true).
  { pose proof X1 as X1'. apply selected in X1' as (_ & OK & _). apply (usable_iff _ _ _ _ _ _ _ _ _ KC SI) in OK as (_ & _ & OK & _). rewrite <- EE in OK. destruct (OK EF) as (_ & OK' & _). destruct (ecdsa_suite (su_id su)); tauto. }
  destruct (pick_ok _ _ _ _ _ _ _ PK NPO) as (K1 & K2 & _ & K3).
  assert (BPR : bytes params). { unfold params. apply bytes_app. split; [|exact BP]. assert (0 <= zlen pub < 256) by (unfold zlen; lia). apply Forall_cons; [unfold is_byte; lia|]. apply Forall_cons; [unfold is_byte; lia|]. apply Forall_cons; [|apply Forall_cons; [exact H0|apply Forall_nil]].
    unfold is_byte. cbn in IC. lia. }
  rewrite (SKX_hash_ok E Hs H512 st h (st_v hs) _ _ params HW RC1 RS1 BPR) in Q4.
  2: { unfold zlen. rewrite !app_length, RC2, RS2. unfold params. rewrite app_length. cbn [length]. lia. }
  2: { exact (pick_old _ _ _ _ _ _ _ PK NPO). }
  cbn [rbind] in Q4. destruct (sign st h (r_sign rn) _) as [sig| |] eqn:SG; [|discriminate..]. cbn [rbind] in Q4. injection Q4 as <- <-.
  destruct Q5 as (m & ESK & MS).
  unfold std_processCKX in Q9. rewrite EF in Q9. cbn [negb fst snd] in Q9. destruct ct as [|b0 point]; [discriminate|].
  destruct (Z.eqb_spec b0 (zlen (b0 :: point) - 1)) as [EB0|]; cbn [negb] in Q9; [|discriminate].
  assert (EB1 : b0 = zlen point) by (rewrite EB0; unfold zlen; cbn [length]; lia).
  exists before, curve, after, g, priv, pub, point, sign, (kind_of st), h, alg, sig, m, params.
  split; [exact FS1|]. split; [exact FS2|]. split; [exact FS3|]. split; [exact GE|]. split; [exact KG|]. split; [reflexivity|]. split; [reflexivity|].
  split; [rewrite <- EB, K3; exact K2|]. split; [rewrite K1, <- EB; exact SG|]. split; [rewrite EL', El, ESK, !in_app_iff; cbn; tauto|].
  split; [exact MS|]. split; [rewrite EB1; reflexivity|].
  unfold group, curveForCurveID in *. change X25519 with 29 in Q9. destruct (Z.eqb_spec curve 29) as [->|N29].
  - injection GE as <-. destruct (Z.eqb_spec (zlen (b0 :: point)) 33) as [E33|]; cbn [negb] in Q9; [|discriminate]. injection Q9 as <-.
    split; [reflexivity|]. split; [intros _|congruence]. unfold zlen in E33. cbn [length] in E33. lia.
  - cbn [existsb] in GE. rewrite orb_false_r, orb_assoc in GE. destruct ((curve =? 23) || (curve =? 24) || (curve =? 25)); [|discriminate]. injection GE as <-.
    destruct (kx_point (se_nist E curve) point) eqn:KP; [|discriminate]. injection Q9 as <-. split; [reflexivity|]. split; [congruence|auto].
Qed.

(** ** C125.  Resumption *)
(** The server resumes only a session whose ticket decrypts under one of its keys, at the version it was made for and with a suite offered again and still enabled and usable; the
    client certificates stored in it are checked again as a full handshake would, and are required to be there or not by ClientAuth; the connection keys are derived from the
    session's master secret and the new randoms. *)
Theorem C125_server_resumes cfg getcfg rn c r log : std_server_completes E C cfg getcfg rn c r log -> hr_resumed r = true ->
  exists ch cfg' ce st, hello_read log ch /\ scfg_for cfg getcfg ch cfg' /\ certificate_for E cfg' ch ce /\
    cf_noTickets (s_cfg cfg') = false /\ decryptTicket (e_aes (se E)) (e_sha256 (se E)) false (cf_keys (s_cfg cfg')) (ch_ticket ch) = Some st /\
    ss_vers st = hr_vers r /\ ss_cipherSuite st = hr_suite r /\ In (hr_suite r) (ch_suites ch) /\ In (hr_suite r) (cfg_cipherSuites (cf_suites (s_cfg cfg'))) /\
    usable ch cfg' ce (hr_vers r) (hr_suite r) /\ hr_master r = ss_masterSecret st /\
    Forall2 (fun d x => e_parse (se E) d = Some x) (ss_certificates st) (hr_peer r) /\
    (cf_auth (s_cfg cfg') = RequireAnyClientCert \/ cf_auth (s_cfg cfg') = RequireAndVerifyClientCert -> hr_peer r <> []) /\ (cf_auth (s_cfg cfg') = NoClientCert -> hr_peer r = []) /\
    (forall g, hr_peer r <> [] -> cf_verifyPeer (s_cfg cfg') = Some g -> g (ss_certificates st) (hr_chains r) = None) /\
    (forall leaf rest, hr_peer r = leaf :: rest -> cf_auth (s_cfg cfg') = RequireAndVerifyClientCert \/ cf_auth (s_cfg cfg') = VerifyClientCertIfGiven ->
       exists roots inters, (match cf_clientCAs (s_cfg cfg') with Some p => Some p | None => e_sysroots (se E) end) = Some roots /\ (forall x, In x inters -> In x (map g_cert rest)) /\
         trusted (se E) (X509_model.certs roots) inters (cf_time (s_cfg cfg')) [] 2 (g_cert leaf) (hr_chains r)) /\
    (wire_ok log -> hello_random_ok rn -> small (hr_master r) -> hr_vers r <> 0x0101 ->
       exists ver lens kb, version_of (hr_vers r) (sha384_suite (hr_suite r)) = Some ver /\ In (hr_suite r, lens) suite_table /\ keys_of log = [kb] /\
         cut_into kb lens (PRF Hs ver (block_len lens) (hr_master r) ascii_key_expansion (hr_serverRandom r ++ hr_clientRandom r))).
Proof.
  intros H HR. pose proof HW as (HL & HG & _).
  destruct (std_both _ _ _ _ _ _ H) as (hs & su & random & rest & EL & P & Cf & Ce & V & Cm & Rg & Rn & KC & SH & AL & SI & R1 & R2 & R4 & R5 & R6 & VV & HB). cbv zeta in SH.
  destruct (hello_of _ _ P) as [Ht Hu].
  destruct HB as [(st & k & l_np & l_t & m_sh & m_fin & m_sfin & cfin & sfin & X1 & HR' & SR)|(X & _)]; [|congruence].
  destruct (srr_res _ _ _ _ _ _ _ _ _ _ _ _ _ _ _ _ SR) as (_ & _ & R3 & _).
  pose proof (srr_log _ _ _ _ _ _ _ _ _ _ _ _ _ _ _ _ SR) as EL'.
  exists (st_ch hs), (st_cfg hs), (st_cert hs), st. split; [exists (st_chraw hs), rest; auto|]. split; [exact Cf|]. split; [exact Ce|].
  unfold std_checkForResumption in X1. cbv zeta in X1. destruct (cf_noTickets (s_cfg (st_cfg hs))) eqn:NT; [discriminate|]. destruct (decryptTicket _ _ _ _ _) as [st'|] eqn:DT; [|discriminate].
  destruct (Z.eqb_spec (st_v hs) (ss_vers st')) as [EV|]; cbn [negb] in X1; [|discriminate]. destruct (existsb (Z.eqb (ss_cipherSuite st')) (ch_suites (st_ch hs))) eqn:EO; cbn [negb] in X1; [|discriminate].
  apply existsb_eqb in EO. destruct (set_suite _ _ _ _) as [su'|] eqn:ES; [|discriminate]. apply P_TLS_neg.set_suite_iff in ES as (S1 & S2 & S3).
  match type of X1 with (if ?b then _ else _) = _ => destruct b eqn:A1; [discriminate|] end. match type of X1 with (if ?b then _ else _) = _ => destruct b eqn:A2; [discriminate|] end.
  injection X1 as -> ->.
  assert (ID : su_id su = ss_cipherSuite st). { clear -S2. revert S2. generalize cipherSuites. induction l as [|x l IH]; cbn; [discriminate|]. destruct (Z.eqb_spec (su_id x) (ss_cipherSuite st)); [intros [= ->]; assumption|exact IH]. }
  assert (HP : Forall2 (fun d x => e_parse (se E) d = Some x) (ss_certificates st) (hr_peer r)).
  { destruct (srr_certs _ _ _ _ _ _ _ _ _ _ _ _ _ _ _ _ SR) as [(X & _)|(-> & -> & _)]; [exact X|constructor]. }
  assert (LP : length (ss_certificates st) = length (hr_peer r)) by (clear -HP; induction HP; cbn; congruence).
  split; [reflexivity|]. split; [reflexivity|]. split; [congruence|]. split; [congruence|]. rewrite R2, ID. split; [exact EO|]. split; [exact S1|].
  split. { rewrite <- ID, R1, EV. eapply usable_iff; eauto. } split; [exact R3|]. split; [exact HP|].
  assert (NE : (zlen (ss_certificates st) =? 0) = true <-> hr_peer r = []).
  { rewrite Z.eqb_eq. unfold zlen. rewrite LP. destruct (hr_peer r); cbn [length]; split; intros; try lia; congruence. }
  split. { intros HA HN. apply NE in HN. rewrite HN in A1. destruct HA as [HA|HA]; rewrite HA in A1; discriminate A1. }
  split. { intros HA. apply NE. rewrite HA in A2. destruct (zlen _ =? 0); [reflexivity|discriminate A2]. }
  split. { intros g NP HV. destruct (srr_certs _ _ _ _ _ _ _ _ _ _ _ _ _ _ _ _ SR) as [(_ & _ & X)|(_ & X & _)]; [exact (X g HV)|congruence]. }
  split. { intros leaf rs EP HA. destruct (srr_certs _ _ _ _ _ _ _ _ _ _ _ _ _ _ _ _ SR) as [(_ & X & _)|(_ & X & _)]; [|congruence]. destruct (X leaf rs EP) as (roots & ER & HV).
    { destruct HA as [-> | ->]; unfold VerifyClientCertIfGiven, RequireAndVerifyClientCert; lia. }
    apply (x509_verify_trusted (se E) _ _ _ 2) in HV as [HV _]; [|lia|reflexivity].
    exists roots. eexists. split; [exact ER|]. split; [|exact HV]. cbn [client_verify_opts X509_model.o_inter]. intros x Hx. now apply pool_certs in Hx. }
  intros WO RO SMM NV. destruct VV as [V0|(ver & Ev)]; [congruence|]. destruct (suite_facts _ SI) as (E384 & _). rewrite E384 in Ev.
  destruct (RO _ Rn) as [RS1 RS2].
  assert (Bh : bytes (st_chraw hs)). { apply wire_ok_recv. eapply wire_ok_in; [exact WO|]. rewrite EL'. now left. }
  destruct (hello_random _ _ Bh P) as [RC1 RC2].
  assert (SRR : sh_random (st_sh hs) = random) by (rewrite SH; reflexivity).
  pose proof (srr_keys _ _ _ _ _ _ _ _ _ _ _ _ _ _ _ _ SR) as HK. rewrite SRR in HK. rewrite R3 in *.
  destruct (std_keys_ok _ Hs _ _ _ _ _ _ _ HL HG HK SI Ev SMM RC1 RS1 RC2 RS2) as (lens & IT & CUT).
  exists ver, lens, k. rewrite R1, <- ID. split; [exact Ev|]. split; [exact IT|]. split; [|rewrite R4, R5; exact CUT].
  rewrite EL', !keys_of_app.
  assert (KN : keys_of l_np = []). { pose proof (srr_np _ _ _ _ _ _ _ _ _ _ _ _ _ _ _ _ SR) as N. destruct (sh_npn (st_sh hs)); [destruct N as (m & p & -> & _)|destruct N as [-> _]]; reflexivity. }
  assert (KT : keys_of l_t = []). { pose proof (srr_t _ _ _ _ _ _ _ _ _ _ _ _ _ _ _ _ SR) as N. destruct (ss_usedOldKey st); [destruct N as (m & p & -> & _)|rewrite N]; reflexivity. }
  rewrite KN, KT. reflexivity.
Qed.
End Server.
Print Assumptions C121_server_finished.
Print Assumptions C122_server_negotiation.
Print Assumptions C122_server_hello.
Print Assumptions C123_client_authenticated.
Print Assumptions C124_server_secrets.
Print Assumptions C125_server_resumes.

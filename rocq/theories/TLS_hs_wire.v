(** Two ends over the record layer: the records one end writes during its handshake are read back by the other as the same messages. *)
From Verif Require Import GoBase GoLemmas CBC SM3_spec SM4_spec HMAC TLS_record_model TLS_rec_proofs TLS_io_proofs P_TLS_record TLS_hs_model TLS_hs_run TLS_hs_conn TLS_hs_conn_proofs P_TLS_hs_conn.
Open Scope Z_scope.
#[local] Opaque sm3 sm4_enc sm4_dec.

(** ** Two halves that open records alike *)
Definition agrees (g h : half) : Prop := h_cipher g = h_cipher h /\ h_mac g = h_mac h /\ h_seq g = h_seq h /\ (h_cipher h = None \/ h_version g = h_version h).
Definition like (g h1 : half) : half := mkHalf (h_version g) (h_cipher h1) (h_mac h1) (h_seq h1) (h_nextCipher g) (h_nextMac g).
Lemma agrees_refl h : agrees h h. Proof. repeat split. now right. Qed.
Lemma decipher_agrees g h hd p n : agrees g h -> decipher g hd p n = decipher h hd p n.
Proof. intros (A1 & A2 & A3 & A4). unfold decipher. rewrite A1, A3. destruct A4 as [A4|A4]; rewrite A4; reflexivity. Qed.
Lemma DecOk_inj a b h a' b' h' : Ok (DecOk a b h) = Ok (DecOk a' b' h') -> a = a' /\ b = b' /\ h = h'. Proof. intros H. now injection H. Qed.
Lemma decrypt_agrees g h rec off d h1 : agrees g h -> decrypt h rec = Ok (DecOk off d h1) -> decrypt g rec = Ok (DecOk off d (like g h1)) /\ agrees (like g h1) h1.
Proof.
  intros A H. pose proof (decrypt_keeps _ _ _ H) as (K1 & K2 & _). unfold decrypt in *. destruct (_ <? 5)%nat; [discriminate|]. cbv zeta in *. rewrite (decipher_agrees g h _ _ _ A).
  pose proof A as (A1 & A2 & A3 & A4). rewrite A2. destruct (decipher h _ _ _) as [[[[[[eiv p] pl] gd] c']|]| |]; cbn [rbind] in *; try discriminate.
  assert (IS : forall h2, incSeq (set_cipher h c') = Ok h2 -> incSeq (set_cipher g c') = Ok (like g h2) /\ h_cipher h2 = c' /\ h_version h2 = h_version h).
  { intros h2. unfold incSeq. cbn [set_cipher h_seq]. rewrite A3. destruct (inc_from 8 (h_seq h)); [|discriminate]. intros [= <-]. split; [|split; reflexivity]. unfold like, set_seq, set_cipher. cbn. now rewrite A2. }
  assert (AG : forall h2, h_version h2 = h_version h -> same_cipher (h_cipher h) (h_cipher h2) -> agrees (like g h2) h2).
  { intros h2 V S2. repeat split. cbn. destruct A4 as [A4|A4]; [left|right; congruence]. rewrite A4 in S2. destruct (h_cipher h2); [contradiction|reflexivity]. }
  cbn [set_cipher h_mac] in *. destruct (h_mac h) as [m|]; rewrite ?A2.
  - destruct (_ <? _)%nat; [discriminate|]. destruct (_ || _); [discriminate|]. change (h_seq (set_cipher g c')) with (h_seq g). change (h_seq (set_cipher h c')) with (h_seq h) in H. rewrite A3.
    destruct (_ || _); [discriminate|]. destruct (incSeq _) as [h2| |] eqn:EQ; cbn [rbind] in H; try discriminate. destruct (IS _ eq_refl) as (I1 & I2 & I3). rewrite I1. cbn [rbind].
    destruct (DecOk_inj _ _ _ _ _ _ H) as (<- & <- & <-). split; [reflexivity|]. now apply AG.
  - destruct (incSeq _) as [h2| |] eqn:EQ; cbn [rbind] in H; try discriminate. destruct (IS _ eq_refl) as (I1 & I2 & I3). rewrite I1. cbn [rbind].
    destruct (DecOk_inj _ _ _ _ _ _ H) as (<- & <- & <-). split; [reflexivity|]. now apply AG.
Qed.

(** ** Reading one record that is there *)
Definition rd (v : Z) (l : link) : Prop := hdr_ok v (k_c l) /\ c_complete (k_c l) = false /\ sane (k_c l) /\ c_err (k_c l) = None /\ temps (k_t l) = 0%nat.
Lemma readRecord_there v c t want rec s c1 : wf_record v want rec -> 0 <= v < 65536 -> hs_want want -> hdr_ok v c -> c_complete c = false -> sane c -> temps t = 0%nat -> stream c t = rec ++ s ->
  process (view c) want rec = Ok (Ret c1 None) -> exists c' t', readRecord c t want = Ok (c', None, t') /\ view c' = c1 /\ stream c' t' = s.
Proof.
  intros HF HV HW HH HC HS HT ES HP. destruct (readRecord_pure c t want (proj1 HS)) as [(c2 & t2 & _ & L & _)|(E & _)]; [lia|].
  assert (EP : pure_readRecord (view c) (stream c t) want = Ok (c1, None, s)).
  { unfold pure_readRecord. replace (_ || _) with true by (destruct HW as [-> | ->]; reflexivity). change (c_complete (view c)) with (c_complete c). rewrite HC. change 8%nat with (Datatypes.S 7). cbn [pure_loop].
    rewrite ES, (pure_one_wf_want (view c) rec s want v want HF HH (or_intror eq_refl) HV); [|destruct HW as [-> | ->]; discriminate]. rewrite HP. reflexivity. }
  rewrite EP in E. destruct (readRecord c t want) as [[[c' e] t']| |]; cbn [res_view] in E; try discriminate. injection E as E1 -> E3. exists c', t'. auto.
Qed.
Lemma hdr_ok_calm v c c' : calm c c' -> hdr_ok v c -> hdr_ok v c'.
Proof. intros (H1 & H2 & _). unfold hdr_ok. now rewrite H1, H2. Qed.
Lemma rd_step v want l l' : step_ok want l l' -> rd v l -> rd v l'.
Proof. intros (_ & K & _ & _ & E & S' & T') (H1 & H2 & H3 & H4 & H5). split; [eapply hdr_ok_calm; eassumption|]. split; [destruct K as (_ & _ & -> & _); exact H2|]. split; [exact S'|]. split; [exact E|congruence]. Qed.
Lemma l_record_hand v l r rec off d r' s : rd v l -> 0 <= v < 65536 -> agrees (c_in (k_c l)) r -> wf_record v recordTypeHandshake rec -> decrypt r rec = Ok (DecOk off d r') -> skipn off d <> [] -> zlen (skipn off d) <= maxPlaintext ->
  stream (k_c l) (k_t l) = rec ++ s ->
  exists l', l_readRecord recordTypeHandshake l = (HOk tt, l') /\ rd v l' /\ agrees (c_in (k_c l')) r' /\ stream (k_c l') (k_t l') = s /\ c_hand (k_c l') = c_hand (k_c l) ++ skipn off d.
Proof.
  intros HR HV HA HF HD HN HM ES. pose proof HR as (H1 & H2 & H3 & H4 & H5). destruct (decrypt_agrees _ _ _ _ _ _ HA HD) as [HD' HA'].
  assert (EP : process (view (k_c l)) recordTypeHandshake rec = Ok (Ret (with_hand (with_warn (with_in (view (k_c l)) (like (c_in (k_c l)) r')) 0) (c_hand (k_c l) ++ skipn off d)) None)).
  { unfold process. change (c_in (view (k_c l))) with (c_in (k_c l)). rewrite HD'. cbn [rbind]. rewrite (wf_nth0 _ _ _ HF). unfold handle. replace (maxPlaintext <? zlen (skipn off d)) with false by (symmetry; apply Z.ltb_ge; exact HM).
    replace (0 <? length (skipn off d))%nat with true by (symmetry; apply Nat.ltb_lt; destruct (skipn off d); [congruence|cbn [length]; lia]).
    cbn [Z.eqb Pos.eqb recordTypeApplicationData recordTypeHandshake recordTypeAlert recordTypeChangeCipherSpec negb andb]. unfold TLS_record_model.ret. cbn [c_err with_hand with_warn with_in view with_raw c_hand]. rewrite H4. reflexivity. }
  destruct (readRecord_there v _ _ _ _ _ _ HF HV (or_introl eq_refl) H1 H2 H3 H5 ES EP) as (c' & t' & ER & EV & EST).
  assert (AL : c_alerts c' = c_alerts (k_c l)) by exact (f_equal c_alerts EV).
  exists (with_ct l c' t'). assert (EL : l_readRecord recordTypeHandshake l = (HOk tt, with_ct l c' t')). { unfold l_readRecord. rewrite ER, AL, skipn_all. reflexivity. }
  split; [exact EL|]. split; [eapply rd_step; [eapply l_readRecord_ok; [now left| | |exact EL]; assumption|exact HR]|]. cbn [with_ct k_c k_t].
  split; [rewrite (f_equal c_in EV : c_in c' = _); exact HA'|]. split; [exact EST|]. exact (f_equal c_hand EV).
Qed.
Lemma l_record_ccs v l r rec off d r' s : rd v l -> 0 <= v < 65536 -> agrees (c_in (k_c l)) r -> wf_record v recordTypeChangeCipherSpec rec -> decrypt r rec = Ok (DecOk off d r') -> skipn off d = [1] ->
  c_hand (k_c l) = [] -> h_nextCipher (c_in (k_c l)) <> None -> stream (k_c l) (k_t l) = rec ++ s ->
  exists l', l_ccs l = (HOk tt, l') /\ rd v l' /\ stream (k_c l') (k_t l') = s /\ c_hand (k_c l') = [] /\
    c_in (k_c l') = mkHalf (h_version (c_in (k_c l))) (h_nextCipher (c_in (k_c l))) (h_nextMac (c_in (k_c l))) (map (fun _ => 0) (h_seq r')) None None.
Proof.
  intros HR HV HA HF HD HN HH HX ES. pose proof HR as (H1 & H2 & H3 & H4 & H5). destruct (decrypt_agrees _ _ _ _ _ _ HA HD) as [HD' HA'].
  set (h2 := mkHalf (h_version (c_in (k_c l))) (h_nextCipher (c_in (k_c l))) (h_nextMac (c_in (k_c l))) (map (fun _ => 0) (h_seq r')) None None).
  assert (EC : changeCipherSpec (like (c_in (k_c l)) r') = Ok h2). { unfold changeCipherSpec, h2. cbn [like h_nextCipher h_version h_nextMac h_seq]. destruct (h_nextCipher (c_in (k_c l))); [reflexivity|congruence]. }
  assert (EP : process (view (k_c l)) recordTypeChangeCipherSpec rec = Ok (Ret (with_in (with_warn (with_in (view (k_c l)) (like (c_in (k_c l)) r')) 0) h2) None)).
  { unfold process. change (c_in (view (k_c l))) with (c_in (k_c l)). rewrite HD'. cbn [rbind]. rewrite (wf_nth0 _ _ _ HF), HN. unfold handle.
    change (maxPlaintext <? zlen [1]) with false. change (0 <? length [1%Z])%nat with true.
    cbn [Z.eqb Pos.eqb recordTypeApplicationData recordTypeHandshake recordTypeAlert recordTypeChangeCipherSpec negb andb orb]. cbv iota. change (negb (length [1%Z] =? 1)%nat) with false. change (negb (nth 0 [1] 0 =? 1)) with false. cbn [orb]. cbv iota. change (c_hand (with_warn (with_in (view (k_c l)) (like (c_in (k_c l)) r')) 0)) with (c_hand (k_c l)). rewrite HH. change (c_in (with_warn (with_in (view (k_c l)) (like (c_in (k_c l)) r')) 0)) with (like (c_in (k_c l)) r'). cbn [length Nat.ltb Nat.leb].
    rewrite EC. unfold TLS_record_model.ret. cbn [c_err with_in with_warn view with_raw]. rewrite H4. reflexivity. }
  destruct (readRecord_there v _ _ _ _ _ _ HF HV (or_intror eq_refl) H1 H2 H3 H5 ES EP) as (c' & t' & ER & EV & EST).
  assert (AL : c_alerts c' = c_alerts (k_c l)) by exact (f_equal c_alerts EV). assert (CE : c_err c' = None) by (rewrite <- H4; exact (f_equal c_err EV)).
  exists (with_ct l c' t'). assert (EL : l_readRecord recordTypeChangeCipherSpec l = (HOk tt, with_ct l c' t')). { unfold l_readRecord. rewrite ER, AL, skipn_all. reflexivity. }
  split; [unfold l_ccs; rewrite EL; cbn [with_ct k_c]; rewrite CE; reflexivity|]. split; [eapply rd_step; [eapply l_readRecord_ok; [now right| | |exact EL]; assumption|exact HR]|]. cbn [with_ct k_c k_t].
  split; [exact EST|]. split; [rewrite (f_equal c_hand EV : c_hand c' = _); exact HH|]. exact (f_equal c_in EV).
Qed.

(** ** Reading one message that is there *)
(** [chunked v r recs ms r']: the half [r] opens the records one after the other and finds the non-empty chunks of handshake data [ms] *)
Inductive chunked (v : Z) : half -> list (list Z) -> list (list Z) -> half -> Prop :=
| ck_nil r : chunked v r [] [] r
| ck_cons r (rec : list Z) off d r' recs m ms r'' : wf_record v recordTypeHandshake rec -> decrypt r rec = Ok (DecOk off d r') -> skipn off d = m ->
    m <> [] -> zlen m <= maxPlaintext -> chunked v r' recs ms r'' -> chunked v r (rec :: recs) (m :: ms) r''.
Lemma need_there v : 0 <= v < 65536 -> forall recs ms f n l r r1 s, chunked v r recs ms r1 -> rd v l -> agrees (c_in (k_c l)) r -> stream (k_c l) (k_t l) = concat recs ++ s ->
  (n <= length (c_hand (k_c l) ++ concat ms))%nat -> (length recs < f)%nat ->
  exists recs2 ms2 r2 l', need f n l = (HOk tt, l') /\ chunked v r2 recs2 ms2 r1 /\ rd v l' /\ agrees (c_in (k_c l')) r2 /\ stream (k_c l') (k_t l') = concat recs2 ++ s /\
    c_hand (k_c l') ++ concat ms2 = c_hand (k_c l) ++ concat ms /\ (n <= length (c_hand (k_c l')))%nat.
Proof.
  intros HV. induction recs as [|rec recs IH]; intros ms f n l r r1 s HC HR HA ES HN HF; (destruct f as [|f]; [lia|]); cbn [need]; destruct (Nat.leb_spec n (length (c_hand (k_c l)))) as [HL|HL].
  - exists [], ms, r, l. auto 10.
  - inversion HC; subst. cbn [concat] in HN. rewrite app_nil_r in HN. lia.
  - exists (rec :: recs), ms, r, l. auto 10.
  - inversion HC as [|? ? off d r' ? m ms' ? HF1 HD Hm Hne Hmax HC']; subst. cbn [concat] in ES. rewrite <- app_assoc in ES. destruct (l_record_hand v l r rec off d r' _ HR HV HA HF1 HD Hne Hmax ES) as (l1 & E1 & R1 & A1 & S1 & H1).
    replace (c_err (k_c l)) with (@None terr) by (symmetry; apply HR). rewrite E1. cbn [concat] in HN. rewrite app_assoc, <- H1 in HN.
    destruct (IH _ f n _ _ _ _ HC' R1 A1 S1 HN ltac:(cbn in HF; lia)) as (recs2 & ms2 & r2 & l2 & E2 & C2 & R2 & A2 & S2 & H2 & N2).
    exists recs2, ms2, r2, l2. repeat (split; [assumption|]). split; [|exact N2]. rewrite H2, H1. cbn [concat]. now rewrite app_assoc.
Qed.
(** a message a reader takes: its length field is right and within the limit *)
Definition msg_ok (m : list Z) : Prop := (4 <= length m)%nat /\ zlen m = 4 + msg_len m /\ 0 <= msg_len m <= maxHandshake.
Lemma chunked_len v r recs ms r' : chunked v r recs ms r' -> (length recs <= length (concat recs))%nat.
Proof. induction 1 as [|r rec off d r' recs m ms r'' HF]; [cbn; lia|]. cbn [length concat]. rewrite app_length. destruct HF as (b & -> & _). cbn [app length]. lia. Qed.
Lemma chunked_empty v r recs ms r' : chunked v r recs ms r' -> concat ms = [] -> recs = [] /\ r' = r.
Proof. destruct 1 as [|r rec off d r' recs m ms r'']; [auto|]. cbn [concat]. intros HX. apply app_eq_nil in HX as [-> _]. congruence. Qed.
Lemma l_read_there v l r recs ms r1 s m : 0 <= v < 65536 -> chunked v r recs ms r1 -> concat ms = m -> msg_ok m -> rd v l -> agrees (c_in (k_c l)) r -> c_hand (k_c l) = [] -> stream (k_c l) (k_t l) = concat recs ++ s ->
  exists l', l_read l = (HOk m, l') /\ rd v l' /\ agrees (c_in (k_c l')) r1 /\ c_hand (k_c l') = [] /\ stream (k_c l') (k_t l') = s.
Proof.
  intros HV HC EM (M1 & M2 & M3) HR HA HH ES.
  assert (FU : forall l2 recs2 r2 ms2, chunked v r2 recs2 ms2 r1 -> stream (k_c l2) (k_t l2) = concat recs2 ++ s -> (length recs2 < l_fuel l2)%nat).
  { intros l2 recs2 r2 ms2 HC2 ES2. apply chunked_len in HC2. apply (f_equal (@length Z)) in ES2. unfold stream in ES2. rewrite !app_length in ES2. unfold l_fuel. lia. }
  destruct (need_there v HV _ _ (l_fuel l) 4 _ _ _ _ HC HR HA ES) as (recs2 & ms2 & r2 & l2 & E2 & C2 & R2 & A2 & S2 & H2 & N2); [rewrite HH, EM; exact M1|eapply FU; eassumption|].
  rewrite HH, EM in H2. cbn [app] in H2. assert (ML : msg_len (c_hand (k_c l2)) = msg_len m). { rewrite <- H2. unfold msg_len. rewrite !app_nth1 by lia. reflexivity. }
  unfold l_read. rewrite E2, ML. cbv zeta. destruct (Z.ltb_spec maxHandshake (msg_len m)); [lia|]. assert (En : (4 + Z.to_nat (msg_len m))%nat = length m) by (unfold zlen in M2; lia). rewrite En.
  destruct (need_there v HV _ _ (l_fuel l2) (length m) _ _ _ _ C2 R2 A2 S2) as (recs3 & ms3 & r3 & l3 & E3 & C3 & R3 & A3 & S3 & H3 & N3); [rewrite H2; lia|eapply FU; eassumption|].
  rewrite H2 in H3. assert (Z3 : concat ms3 = []). { apply (f_equal (@length Z)) in H3. rewrite app_length in H3. destruct (concat ms3); [reflexivity|cbn [length] in H3; lia]. }
  destruct (chunked_empty _ _ _ _ _ C3 Z3) as [-> ->]. rewrite Z3, app_nil_r in H3. rewrite E3, H3, firstn_all. eexists. split; [reflexivity|]. cbn [with_c k_c k_t with_hand c_hand c_in].
  rewrite skipn_all. split; [|auto]. exact R3.
Qed.

(** ** What the writer's records are to the reader *)
(** the reading half after ChangeCipherSpec *)
Definition Kof (ks : list Z * list Z * list Z) : half := let '(mk, key, iv) := ks in mkHalf VersionGMSSL (Some (Cbc false 16 (sm4_dec key) iv)) (Some (gm_mac mk)) (zeros 8) None None.
(** [arrive K r items s r']: the bytes [s] are the messages and ChangeCipherSpecs [items] for the half [r]; each ChangeCipherSpec switches to [K] *)
Inductive arrive (K : half) : half -> list item -> list Z -> half -> Prop :=
| ar_nil r : arrive K r [] [] r
| ar_msg r m recs ms r1 items s r2 : chunked VersionGMSSL r recs ms r1 -> concat ms = m -> msg_ok m -> arrive K r1 items s r2 -> arrive K r (IMsg m :: items) (concat recs ++ s) r2
| ar_ccs r (rec : list Z) off d r1 items s r2 : wf_record VersionGMSSL recordTypeChangeCipherSpec rec -> decrypt r rec = Ok (DecOk off d r1) -> skipn off d = [1] -> length (h_seq r1) = 8%nat ->
    arrive K K items s r2 -> arrive K r (ICCS :: items) (rec ++ s) r2.
Lemma agrees_sym g h : agrees g h -> agrees h g.
Proof. intros (A1 & A2 & A3 & A4). split; [congruence|]. split; [congruence|]. split; [congruence|]. destruct A4 as [A4|A4]; [left; congruence|right; congruence]. Qed.
Lemma agrees_trans a b c : agrees a b -> agrees b c -> agrees a c.
Proof.
  intros (A1 & A2 & A3 & A4) (B1 & B2 & B3 & B4). split; [congruence|]. split; [congruence|]. split; [congruence|]. destruct A4 as [A4|A4]; [left; congruence|]. destruct B4 as [B4|B4]; [left; congruence|right; congruence].
Qed.
Lemma chunked_agrees v r recs ms r1 : chunked v r recs ms r1 -> forall g, agrees g r -> exists g1, chunked v g recs ms g1 /\ agrees g1 r1.
Proof.
  induction 1 as [|r rec off d r' recs m ms r'' HF HD Hm Hne Hmax HC IH]; intros g HA; [exists g; split; [constructor|exact HA]|].
  destruct (decrypt_agrees _ _ _ _ _ _ HA HD) as [HD' HA']. destruct (IH _ HA') as (g1 & C1 & A1). exists g1. split; [econstructor; eassumption|exact A1].
Qed.
Lemma arrive_agrees K r items s r1 : arrive K r items s r1 -> forall g, agrees g r -> exists g1, arrive K g items s g1 /\ agrees g1 r1.
Proof.
  induction 1 as [r|r m recs ms r1 items s r2 HC EM HM HR IH|r rec off d r1 items s r2 HF HD HN HL HR IH]; intros g HA.
  - exists g. split; [constructor|exact HA].
  - destruct (chunked_agrees _ _ _ _ _ HC _ HA) as (g1 & C1 & A1). destruct (IH _ A1) as (g2 & R2 & A2). exists g2. split; [econstructor; eassumption|exact A2].
  - destruct (decrypt_agrees _ _ _ _ _ _ HA HD) as [HD' HA']. destruct (IH _ (agrees_refl K)) as (g2 & R2 & A2). exists g2. split; [|exact A2]. econstructor; try eassumption. 
Qed.
Lemma write_one_spec_iv k w r typ data rnd : can_write k w r -> k < 2 ^ 64 - 1 -> data <> [] -> bytes data -> 0 <= typ < 256 ->
  (exists iv, rnd = Some iv /\ bytes iv /\ (fst (explicit_iv_len (w_out w)) = 0%nat \/ length iv = fst (explicit_iv_len (w_out w)))) ->
  exists w' m rec off d r', write_one w typ data rnd = Ok (w', m) /\ (1 <= m <= length data)%nat /\ Z.of_nat m <= maxPlaintext /\
    w_log w' = w_log w ++ [rec] /\ wf_record (w_vers w) typ rec /\ decrypt r rec = Ok (DecOk off d r') /\ skipn off d = firstn m data /\
    can_write (k + 1) w' r' /\ w_vers w' = w_vers w /\ fst (explicit_iv_len (w_out w')) = fst (explicit_iv_len (w_out w)).
Proof.
  intros HW Hk Hne Bd Ht (iv & -> & Bi & Li).
  assert (HX : exists iv2, write_one w typ data (Some iv) = write_one w typ data (Some iv2) /\ length iv2 = fst (explicit_iv_len (w_out w)) /\ bytes iv2).
  { destruct Li as [Z0|L0]; [|exists iv; auto]. exists []. rewrite Z0. split; [|split; [reflexivity|apply Forall_nil]]. unfold write_one. destruct (explicit_iv_len (w_out w)) as [e q]. cbn [fst] in Z0. subst e. reflexivity. }
  destruct HX as (iv2 & EW & L2 & B2). rewrite EW. destruct (write_one_spec k w r typ data (Some iv2) HW Hk Hne Bd Ht) as (w' & m & rec & off & d & r' & E1 & E2 & E3 & _ & E4 & E5 & E6 & E7 & E8 & E9 & _ & E10 & _); [exists iv2; auto|].
  exists w', m, rec, off, d, r'. auto 12.
Qed.
Lemma write_chunked : forall fuel k w r data rnds n, can_write k w r -> k + zlen data < 2 ^ 64 -> bytes data -> (length data <= fuel)%nat ->
  (forall i, exists iv, rnds i = Some iv /\ bytes iv /\ (fst (explicit_iv_len (w_out w)) = 0%nat \/ length iv = fst (explicit_iv_len (w_out w)))) ->
  exists w' recs ms k' r', write_loop fuel w recordTypeHandshake data rnds n = Ok (w', n + zlen data) /\ w_log w' = w_log w ++ recs /\
    chunked (w_vers w) r recs ms r' /\ concat ms = data /\ can_write k' w' r' /\ k <= k' <= k + zlen data /\ w_vers w' = w_vers w.
Proof.
  induction fuel as [|f IH]; intros k w r data rnds n HW Hk Bd Hf HI.
  - destruct data; [|cbn in Hf; lia]. exists w, [], [], k, r. cbn [write_loop]. unfold zlen. cbn [length Z.of_nat]. rewrite Z.add_0_r, app_nil_r.
    split; [reflexivity|]. split; [reflexivity|]. split; [constructor|]. split; [reflexivity|]. split; [exact HW|]. split; [lia|reflexivity].
  - destruct data as [|x l] eqn:ED.
    { exists w, [], [], k, r. cbn [write_loop]. unfold zlen. cbn [length Z.of_nat]. rewrite Z.add_0_r, app_nil_r.
      split; [reflexivity|]. split; [reflexivity|]. split; [constructor|]. split; [reflexivity|]. split; [exact HW|]. split; [lia|reflexivity]. }
    rewrite <- ED in *. assert (Hne : data <> []) by (rewrite ED; discriminate). assert (Hz : 1 <= zlen data) by (unfold zlen; rewrite ED; cbn [length]; lia).
    destruct (write_one_spec_iv k w r recordTypeHandshake data (rnds 0%nat) HW ltac:(lia) Hne Bd ltac:(unfold recordTypeHandshake; lia) (HI 0%nat)) as (w1 & m & rec & off & d & r1 & E1 & E2 & E3 & E4 & E5 & E6 & E7 & E8 & E9 & E10).
    assert (Hs : zlen (skipn m data) = zlen data - Z.of_nat m) by (unfold zlen; rewrite skipn_length; lia).
    destruct (IH (k + 1) w1 r1 (skipn m data) (fun i => rnds (Datatypes.S i)) (n + Z.of_nat m) E8 ltac:(lia) ltac:(now apply bytes_skipn) ltac:(rewrite skipn_length; lia)) as (w2 & recs & ms & k2 & r2 & F1 & F2 & F3 & F4 & F5 & F6 & F7).
    { intros i. rewrite E10. apply HI. }
    exists w2, (rec :: recs), (firstn m data :: ms), k2, r2. split.
    { subst data. cbn [write_loop]. rewrite E1. cbn [rbind]. rewrite F1. f_equal. f_equal. lia. }
    split; [rewrite F2, E4, <- app_assoc; reflexivity|]. split.
    { econstructor; [exact E5|exact E6|exact E7| | |]. { apply firstn_ne; [lia|exact Hne]. } { unfold zlen. rewrite firstn_length. lia. } rewrite <- E9. exact F3. }
    split; [cbn [concat]; rewrite F4; apply firstn_skipn|]. split; [exact F5|]. split; [lia|congruence].
Qed.
(** ** A run of the writer *)
Section Writer.
Context (isC : bool) (iv : nat -> option (list Z)).
Definition wstep (w : wconn) (e : event) : option wconn :=
  let rnds i := iv (length (w_log w) + i)%nat in
  match e with
  | EvSend m => match writeRecordLocked w recordTypeHandshake m rnds with Ok (w, _) => Some w | _ => None end
  | EvSendCCS => match writeRecordLocked w recordTypeChangeCipherSpec [1] rnds with
                 | Ok (w, _) => match changeCipherSpec (w_out w) with Ok h => Some (with_out w h) | _ => None end
                 | _ => None end
  | EvKeys k => Some (with_out w (prep (w_out w) false VersionGMSSL (out_keys isC k)))
  | _ => Some w
  end.
Fixpoint wrun (w : wconn) (l : list event) : option wconn := match l with [] => Some w | e :: l => match wstep w e with Some w => wrun w l | None => None end end.
Lemma wrun_app w l1 l2 : wrun w (l1 ++ l2) = match wrun w l1 with Some w1 => wrun w1 l2 | None => None end.
Proof. revert w. induction l1 as [|e l1 IH]; intros w; cbn [wrun app]; [reflexivity|]. destruct (wstep w e); [apply IH|reflexivity]. Qed.
Definition cost (e : event) : Z := match e with EvSend m => zlen m | EvSendCCS => 1 | _ => 0 end.
Definition size (l : list event) : Z := fold_right (fun e n => cost e + n) 0 l.
Lemma size_pos l : 0 <= size l. Proof. induction l as [|e l IH]; [cbn; lia|]. change (size (e :: l)) with (cost e + size l). destruct e; cbn [cost]; unfold zlen; lia. Qed.
Lemma gm_switch k w r kb o : can_write k w r -> w_vers w = VersionGMSSL -> holds VersionGMSSL false (out_keys isC) (Some kb, o) (w_out w) ->
  bytes (fst (fst (out_keys isC kb))) -> length (snd (out_keys isC kb)) = 16%nat -> bytes (snd (out_keys isC kb)) ->
  exists h, changeCipherSpec (w_out w) = Ok h /\ can_write 0 (with_out w h) (Kof (out_keys isC kb)).
Proof.
  intros HW HV (_ & H2 & H3 & H4) Bm Li Bi. cbn [fst snd] in *. destruct (out_keys isC kb) as [[mk key] kiv]. cbn [fst snd cphs Kof] in *.
  assert (L8 : length (h_seq (w_out w)) = 8%nat). { destruct HW as ((_ & -> & _) & _). now rewrite be_bytes_length. }
  destruct (C47_gm_suite (w_out w) fresh_half mk key kiv L8 eq_refl Bm Li Bi) as (s & r2 & E1 & E2 & HS & He & Hm).
  assert (EC : changeCipherSpec (w_out w) = Ok s). { rewrite <- E1. unfold gm_half, changeCipherSpec, prepareCipherSpec. cbn [h_nextCipher h_nextMac h_version h_seq]. rewrite H2, H3, H4. reflexivity. }
  assert (ER : r2 = mkHalf VersionGMSSL (Some (Cbc false 16 (sm4_dec key) kiv)) (Some (gm_mac mk)) (zeros 8) None None). { unfold gm_half, changeCipherSpec, prepareCipherSpec in E2. cbn [h_nextCipher] in E2. injection E2 as <-. reflexivity. }
  exists s. split; [exact EC|]. subst r2. unfold can_write. cbn [with_out w_out w_packetsSent w_bytesSent w_vers]. split; [exact HS|].
  split; [|destruct HW as (_ & _ & HW); exact HW]. unfold gm_half, changeCipherSpec, prepareCipherSpec in E1. cbn [h_nextCipher] in E1. injection E1 as <-. unfold overhead. cbn. lia.
Qed.
Definition keyed (kb : keyblock) : Prop := bytes (fst (fst (out_keys isC kb))) /\ length (snd (out_keys isC kb)) = 16%nat /\ bytes (snd (out_keys isC kb)).
Lemma turn_none b l : fold_left (turn b) l None = None. Proof. induction l; [reflexivity|]. exact IHl. Qed.
Lemma holds_iv ph h : holds VersionGMSSL false (out_keys isC) ph h -> fst (explicit_iv_len h) = 0%nat \/ fst (explicit_iv_len h) = 16%nat.
Proof.
  intros (H & _). unfold explicit_iv_len. destruct (snd ph) as [k|].
  - destruct H as (V & S1 & _). destruct (out_keys isC k) as [[mk key] kiv]. cbn [cphs fst] in S1. destruct (h_cipher h) as [[| |en bs F i]|]; try contradiction. destruct S1 as (_ & <- & _). rewrite V. right. reflexivity.
  - destruct H as [-> _]. now left.
Qed.
Lemma writer_arrive kb : keyed kb -> (forall i, exists v, iv i = Some v /\ length v = 16%nat /\ bytes v) ->
  forall l k w r p o ph', can_write k w r -> w_vers w = VersionGMSSL -> holds VersionGMSSL false (out_keys isC) (p, o) (w_out w) -> (p = None \/ p = Some kb) ->
  fold_left (turn false) l (Some (p, o)) = Some ph' -> Forall (eq kb) (TLS_hs_spec.keys_of l) -> Forall (fun e => match e with EvSend m => msg_ok m /\ bytes m | _ => True end) l -> k + size l < 2 ^ 64 ->
  exists w' recs r2 r2' k', wrun w l = Some w' /\ w_log w' = w_log w ++ recs /\ arrive (Kof (out_keys isC kb)) r (outbox l) (concat recs) r2' /\ agrees r2' r2 /\ can_write k' w' r2 /\ w_vers w' = VersionGMSSL /\
    holds VersionGMSSL false (out_keys isC) ph' (w_out w') /\ k' <= k + size l.
Proof.
  intros (Bm & Li & Bi) HIV. induction l as [|e l IH]; intros k w r p o ph' HW HV HH HP HT HK HM Hk.
  - exists w, [], r, r, k. cbn. rewrite app_nil_r. cbn in HT. injection HT as <-. split; [reflexivity|]. split; [reflexivity|]. split; [constructor|]. split; [apply agrees_refl|]. repeat (split; [assumption|]). lia.
  - inversion HM as [|? ? HE HM']; subst. cbn [size fold_right] in Hk. change (fold_right (fun e n => cost e + n) 0 l) with (size l) in Hk. pose proof (size_pos l) as SP. cbn [fold_left] in HT.
    assert (HK' : Forall (eq kb) (TLS_hs_spec.keys_of l)). { destruct e; cbn in HK; try exact HK. now inversion HK. }
    assert (IVS : forall i, exists v, iv (length (w_log w) + i)%nat = Some v /\ bytes v /\ (fst (explicit_iv_len (w_out w)) = 0%nat \/ length v = fst (explicit_iv_len (w_out w)))).
    { intros i. destruct (HIV (length (w_log w) + i)%nat) as (x & X1 & X2 & X3). exists x. split; [exact X1|]. split; [exact X3|]. destruct (holds_iv _ _ HH); [now left|right; congruence]. }
    cbn [size fold_right]. change (fold_right (fun e n => cost e + n) 0 l) with (size l).
    destruct e as [m|m0| | |kx|al]; cbn [wrun wstep outbox flat_map app cost turn] in *; fold (outbox l).
    all: try (destruct (IH k w r p o ph' HW HV HH HP HT HK' HM' ltac:(lia)) as (w' & recs & r2 & r2' & k' & A1 & A2 & A3 & A4 & A5 & A6 & A7 & A8); exists w', recs, r2, r2', k'; repeat (split; [assumption|]); lia).
    + destruct HE as [MO BM].
      destruct (write_chunked (length m) k w r m (fun i => iv (length (w_log w) + i)%nat) 0 HW ltac:(lia) BM ltac:(lia) IVS) as (w1 & recs & ms & k1 & r1 & E1 & E2 & E3 & E4 & E5 & E6 & E7).
      unfold writeRecordLocked. rewrite E1. pose proof (write_loop_keeps _ _ _ _ _ _ _ _ E1) as (KK & _). pose proof (holds_same _ _ _ _ _ _ KK HH) as HH1.
      destruct (IH k1 w1 r1 p o ph' E5 ltac:(congruence) HH1 HP HT HK' HM' ltac:(lia)) as (w' & recs' & r2 & r2' & k' & A1 & A2 & A3 & A4 & A5 & A6 & A7 & A8).
      exists w', (recs ++ recs'), r2, r2', k'. split; [exact A1|]. split; [rewrite A2, E2, app_assoc; reflexivity|]. split; [|repeat (split; [assumption|]); lia].
      rewrite concat_app. econstructor; [rewrite <- HV; exact E3|exact E4|exact MO|exact A3].
    + destruct p as [k0|]; [|rewrite turn_none in HT; discriminate]. assert (k0 = kb) by (destruct HP; congruence). subst k0.
      destruct (write_one_spec_iv k w r recordTypeChangeCipherSpec [1] (iv (length (w_log w) + 0)%nat) HW ltac:(lia) ltac:(discriminate) ltac:(apply bytesb_spec; reflexivity) ltac:(unfold recordTypeChangeCipherSpec; lia) (IVS 0%nat)) as (w1 & m & rec & off & d & r1 & E1 & E2 & E3 & E4 & E5 & E6 & E7 & E8 & E9 & E10).
      cbn [length] in E2. assert (m = 1%nat) by lia. subst m. cbn [firstn] in E7.
      assert (EW : writeRecordLocked w recordTypeChangeCipherSpec [1] (fun i => iv (length (w_log w) + i)%nat) = Ok (w1, 1)). { unfold writeRecordLocked. cbn [length write_loop]. rewrite E1. reflexivity. }
      rewrite EW. unfold writeRecordLocked in EW. pose proof (write_loop_keeps _ _ _ _ _ _ _ _ EW) as (KK & _). pose proof (holds_same _ _ _ _ _ _ KK HH) as HH1.
      destruct (gm_switch _ _ _ kb o E8 ltac:(congruence) HH1 Bm Li Bi) as (h & EC & HW2). rewrite EC. destruct (holds_change _ _ _ _ _ _ _ HH1 EC) as (k0 & [= <-] & HH2).
      destruct (IH 0 (with_out w1 h) _ None (Some kb) ph' HW2 ltac:(cbn; congruence) HH2 (or_introl eq_refl) HT HK' HM' ltac:(destruct HW as ((_ & _ & _ & Hk0 & _) & _); lia)) as (w' & recs' & r2 & r2' & k' & A1 & A2 & A3 & A4 & A5 & A6 & A7 & A8).
      exists w', (rec :: recs'), r2, r2', k'. split; [exact A1|]. split; [rewrite A2; cbn [with_out w_log]; rewrite E4, <- app_assoc; reflexivity|]. split; [|repeat (split; [assumption|]); destruct HW as ((_ & _ & _ & Hk0 & _) & _); lia].
      cbn [concat]. econstructor; [rewrite <- HV; exact E5|exact E6|exact E7| |exact A3]. destruct E8 as ((_ & _ & -> & _) & _). now rewrite be_bytes_length.
    + cbn in HK. inversion HK as [|? ? HX _]. rewrite <- HX in *. clear HX HK.
      set (w1 := with_out w (prep (w_out w) false VersionGMSSL (out_keys isC kb))). set (r1 := mkHalf VersionGMSSL (h_cipher r) (h_mac r) (h_seq r) None None).
      pose proof (holds_prep VersionGMSSL false (out_keys isC) p o (w_out w) kb HH) as HH1.
      assert (HW1 : can_write k w1 r1). { destruct HW as ((V & S1 & S2 & S3 & S4 & S5 & S6 & S7) & W2 & W3). unfold w1, can_write, prep, prepareCipherSpec. destruct (out_keys isC kb) as [[mk key] kiv]. cbn [with_out w_out w_packetsSent w_bytesSent w_vers]. split; [|split; [|exact W3]].
        - unfold in_sync, r1. cbn [h_version h_seq h_mac h_cipher]. auto 10.
        - revert W2. unfold overhead, explicit_iv_len, mac_size. cbn [h_cipher h_mac h_version]. intros W2. clear -W2 HH. destruct HH as (HH & _). cbn [snd] in HH. destruct o as [k0|]; [destruct HH as (V & _); rewrite V in W2; exact W2|]. destruct HH as [HH _]. rewrite HH in *. exact W2. }
      assert (AG : agrees r r1). { split; [reflexivity|]. split; [reflexivity|]. split; [reflexivity|]. cbn [r1 h_cipher h_version]. destruct HW as ((V & S1 & S2 & S3 & S4 & S5 & S6 & S7) & _). destruct HH as (HH & _). cbn [snd] in HH.
        destruct o as [k0|]; [right; destruct HH as (V0 & _); congruence|]. left. destruct HH as [HH _]. rewrite HH in S6. unfold cipher_sync in S6. destruct (h_cipher r); [contradiction|reflexivity]. }
      destruct (IH k w1 r1 (Some kb) o ph' HW1 HV HH1 (or_intror eq_refl) HT HK' HM' ltac:(lia)) as (w' & recs' & r2 & r2' & k' & A1 & A2 & A3 & A4 & A5 & A6 & A7 & A8).
      destruct (arrive_agrees _ _ _ _ _ A3 _ AG) as (g & R3 & G3). exists w', recs', r2, g, k'. split; [exact A1|]. split; [exact A2|]. split; [exact R3|]. split; [eapply agrees_trans; eassumption|]. repeat (split; [assumption|]). lia.
Qed.
End Writer.

(** P256_model over words that carry a flag "every field operation this word depends on returned a word congruent to
    the exact result".  Dropping the flag gives the code's instance [W]; as long as the flag is true the word is the
    Montgomery form of the ideal instance's field element. *)
From Coq Require Import Field Ring ZArith Lia Znumtheory List Bool.
From Verif Require Import NT Prime_cert Fp EC_group SM2_curve_spec SM2_group Jacobian SM2_jac SM2_order.
From Verif Require Import GoBase P256_field_model P256_model P256_rel P256_abs P256_recode P256_ideal P256_group.
Import ListNotations.
Local Open Scope Z_scope.

(** ** The flagged instance *)
Definition cong (a b : Z) : bool := (a - b) mod wP =? 0.
Definition fl2 (op : Z -> Z -> Z) (good : Z -> Z -> Z -> bool) (a b : Z * bool) : Z * bool :=
  let r := op (fst a) (fst b) in (r, snd a && snd b && good r (fst a) (fst b)).
Definition fl1 (op : Z -> Z) (good : Z -> Z -> bool) (a : Z * bool) : Z * bool :=
  let r := op (fst a) in (r, snd a && good r (fst a)).
Definition gmul (r a b : Z) : bool := cong (r * 2 ^ 256) (a * b).
Definition Fl : fops (Z * bool) (bool * bool) (Z * bool) :=
  mkFops (Z * bool) (bool * bool) (Z * bool)
    (fl2 sm2p256Mul gmul) (fl1 sm2p256Sqr (fun r a => gmul r a a))
    (fl2 mulInternal gmul) (fl1 sqrInternal (fun r a => gmul r a a))
    (fl2 subInternal (fun r a b => cong r (a - b))) (fl2 addInline (fun r a b => cong r (a + b)))
    (fl1 mulBy2Inline (fun r a => cong r (a + a))) (fl1 halfInline (fun r a => cong (r + r) a))
    (fl1 negCond (fun r a => cong r (- a))) (fl1 negAffine (fun r a => cong r (- a)))
    (fun a => (isZero (fst a), snd a && Bool.eqb (isZero (fst a)) (fst a mod wP =? 0)))
    (fun a b => (fst a && fst b, snd a && snd b))
    (fun v a b => (fst (if fst v then a else b), snd v && snd (if fst v then a else b)))
    (0, true) (w_one, true) (o_bx W, true) (o_by W, true)
    (fun x => let r := sm2p256Mul x w_rr in (r, cong r (x * 2 ^ 256)))
    (fun a => let r := sm2p256FromMont (fst a) in (r, snd a && cong (r * 2 ^ 256) (fst a) && (0 <=? r) && (r <? wP))).
(** the run is exact: both results carry a true flag *)
Definition exact_run (r : (Z * bool) * (Z * bool)) : Prop := snd (fst r) = true /\ snd (snd r) = true.

(** ** Dropping the flag *)
Definition erase {A} (c : A * bool) (w : A) : Prop := fst c = w.
#[local] Opaque sm2p256Mul sm2p256Sqr mulInternal sqrInternal subInternal addInline mulBy2Inline halfInline negCond negAffine isZero sm2p256FromMont.
Lemma erase_ops : rel_ops Fl W erase erase erase.
Proof.
  constructor; unfold erase; intros; subst; try reflexivity.
  cbn [o_csel Fl W fst]. now destruct (fst v).
Qed.

(** ** Exact words are Montgomery forms *)
Section ABS.
Variable F : Type.
Variables (f0 f1 : F) (fadd fmul fsub : F -> F -> F) (fopp : F -> F) (fdiv : F -> F -> F) (finv : F -> F).
Hypothesis FT : field_theory f0 f1 fadd fmul fsub fopp fdiv finv eq.
Add Field Ffflag : FT.
Hypothesis two_ne_0 : fadd f1 f1 <> f0.
Lemma cancel_R R a b : R <> f0 -> fmul a R = fmul b R -> a = b.
Proof. intros HR E. transitivity (fdiv (fmul a R) R); [field; exact HR|]. rewrite E. field. exact HR. Qed.
Lemma m_mul R r a b x y : R <> f0 -> fmul r R = fmul a b -> a = fmul x R -> b = fmul y R -> r = fmul (fmul x y) R.
Proof. intros HR E -> ->. apply (cancel_R R); [exact HR|]. rewrite E. ring. Qed.
Lemma m_sub R r a b x y : r = fsub a b -> a = fmul x R -> b = fmul y R -> r = fmul (fsub x y) R.
Proof. intros -> -> ->. ring. Qed.
Lemma m_add R r a b x y : r = fadd a b -> a = fmul x R -> b = fmul y R -> r = fmul (fadd x y) R.
Proof. intros -> -> ->. ring. Qed.
Lemma m_half R r a x : fadd r r = a -> a = fmul x R -> r = fmul (fdiv x (fadd f1 f1)) R.
Proof. intros E Ea. transitivity (fdiv (fadd r r) (fadd f1 f1)); [field; exact two_ne_0|]. rewrite E, Ea. field. exact two_ne_0. Qed.
Lemma m_neg R r a x : r = fopp a -> a = fmul x R -> r = fmul (fopp x) R.
Proof. intros -> ->. ring. Qed.
Lemma m_zero R : f0 = fmul f0 R. Proof. ring. Qed.
Lemma m_one R : R = fmul f1 R. Proof. ring. Qed.
End ABS.

Local Notation p := sm2_p.
Local Notation n := sm2_n.
Local Notation F := (Fp p).
Local Notation mk := (mkf p p_gt3).
Local Notation f0 := (F0 p p_gt3). Local Notation f1 := (F1 p p_gt3).
Local Notation fadd := (Fadd p p_gt3). Local Notation fmul := (Fmul p p_gt3). Local Notation fsub := (Fsub p p_gt3).
Local Notation fopp := (Fopp p p_gt3). Local Notation fdiv := (Fdiv p p_gt3). Local Notation finv := (Finv p p_gt3).
Definition R256 : Z := 2 ^ 256.
Lemma R_inv : (R256 * 0xfffffffb00000005fffffffc00000002fffffffd00000006fffffff900000004) mod p = 1.
Proof. Transparent sm2_p. vm_compute. reflexivity. Qed.
Lemma wP_p' : wP = p. Proof. reflexivity. Qed.
Lemma one_R : w_one mod p = R256 mod p. Proof. vm_compute. reflexivity. Qed.
Lemma bx_R : (o_bx W) mod p = (sm2_gx * R256) mod p. Proof. vm_compute. reflexivity. Qed.
Lemma by_R : (o_by W) mod p = (sm2_gy * R256) mod p. Proof. vm_compute. reflexivity. Qed.
#[local] Opaque sm2_p sm2_n sm2_gx sm2_gy R256 wP.
Lemma fR_ne : mk R256 <> f0.
Proof.
  unfold F0. intros E. apply mkf_inj in E. pose proof R_inv as H. rewrite Zmod_0_l in E. pose proof p_gt3.
  apply Z.mod_divide in E; [|lia]. rewrite (proj2 (Z.mod_divide _ p ltac:(lia)) (Z.divide_mul_l _ _ _ E)) in H. discriminate.
Qed.
Lemma cong_mk a b : cong a b = true -> mk a = mk b.
Proof.
  unfold cong. intros H. apply Z.eqb_eq in H. rewrite wP_p' in H. apply mkf_eq.
  pose proof p_gt3. apply Z.mod_divide in H; [|lia]. destruct H as [q E]. replace a with (b + q * p) by lia. apply Z_mod_plus_full.
Qed.
Definition mont (c : Z * bool) (f : F) : Prop := snd c = true -> mk (fst c) = fmul f (mk R256).
Definition mflag (c : bool * bool) (v : bool) : Prop := snd c = true -> fst c = v.
Definition mout (c : Z * bool) (z : Z) : Prop := snd c = true -> fst c = z.
Lemma m2 op good a a' b b' (g : F -> F -> F) : mont a a' -> mont b b' ->
  (forall r, good r (fst a) (fst b) = true -> mk (fst a) = fmul a' (mk R256) -> mk (fst b) = fmul b' (mk R256) -> mk r = fmul (g a' b') (mk R256)) ->
  mont (fl2 op good a b) (g a' b').
Proof.
  intros Ha Hb G. unfold mont, fl2. cbn [fst snd]. intros E. apply andb_prop in E as [E E3]. apply andb_prop in E as [E1 E2]. exact (G _ E3 (Ha E1) (Hb E2)).
Qed.
Lemma m1 op good a a' (g : F -> F) : mont a a' ->
  (forall r, good r (fst a) = true -> mk (fst a) = fmul a' (mk R256) -> mk r = fmul (g a') (mk R256)) ->
  mont (fl1 op good a) (g a').
Proof.
  intros Ha G. unfold mont, fl1. cbn [fst snd]. intros E. apply andb_prop in E as [E1 E2]. exact (G _ E2 (Ha E1)).
Qed.
Lemma mmul r a b x y : gmul r a b = true -> mk a = fmul x (mk R256) -> mk b = fmul y (mk R256) -> mk r = fmul (fmul x y) (mk R256).
Proof.
  intros E Ha Hb. apply cong_mk in E. apply (m_mul F f0 f1 fadd fmul fsub fopp fdiv finv FT _ _ (mk a) (mk b)); [exact fR_ne| |exact Ha|exact Hb].
  rewrite !mkf_mul. exact E.
Qed.
Lemma mout_range r a x : gmul r a 1 = true -> 0 <= r < p -> mk a = fmul x (mk R256) -> r = fval p x.
Proof.
  intros E Hr Ha. apply cong_mk in E. rewrite Z.mul_1_r in E. assert (H : mk r = x).
  { apply (cancel_R F f0 f1 fadd fmul fsub fopp fdiv finv FT (mk R256)); [exact fR_ne|]. rewrite mkf_mul, <- Ha. exact E. }
  rewrite <- H, fval_mkf. symmetry. now apply Z.mod_small.
Qed.
Lemma mont_ops : rel_ops Fl I mont mflag mout.
Proof.
  constructor.
  - intros a a' b b' Ha Hb. apply (m2 sm2p256Mul gmul a a' b b' fmul Ha Hb). intros r G. exact (mmul r _ _ _ _ G).
  - intros a a' Ha. apply (m1 sm2p256Sqr _ a a' (fun x => fmul x x) Ha). intros r G E. exact (mmul r _ _ _ _ G E E).
  - intros a a' b b' Ha Hb. apply (m2 mulInternal gmul a a' b b' fmul Ha Hb). intros r G. exact (mmul r _ _ _ _ G).
  - intros a a' Ha. apply (m1 sqrInternal _ a a' (fun x => fmul x x) Ha). intros r G E. exact (mmul r _ _ _ _ G E E).
  - intros a a' b b' Ha Hb. apply (m2 subInternal _ a a' b b' fsub Ha Hb). intros r G Ea Eb. apply cong_mk in G. rewrite <- mkf_sub in G. exact (m_sub F f0 f1 fadd fmul fsub fopp fdiv finv FT _ _ _ _ _ _ G Ea Eb).
  - intros a a' b b' Ha Hb. apply (m2 addInline _ a a' b b' fadd Ha Hb). intros r G Ea Eb. apply cong_mk in G. rewrite <- mkf_add in G. exact (m_add F f0 f1 fadd fmul fsub fopp fdiv finv FT _ _ _ _ _ _ G Ea Eb).
  - intros a a' Ha. apply (m1 mulBy2Inline _ a a' (fun x => fadd x x) Ha). intros r G Ea. apply cong_mk in G. rewrite <- mkf_add in G. exact (m_add F f0 f1 fadd fmul fsub fopp fdiv finv FT _ _ _ _ _ _ G Ea Ea).
  - intros a a' Ha. apply (m1 halfInline _ a a' (fun x => fdiv x (fadd f1 f1)) Ha). intros r G Ea. apply cong_mk in G. rewrite <- mkf_add in G. exact (m_half F f0 f1 fadd fmul fsub fopp fdiv finv FT Ftwo _ _ _ _ G Ea).
  - intros a a' Ha. apply (m1 negCond _ a a' fopp Ha). intros r G Ea. apply cong_mk in G. rewrite <- mkf_opp in G. exact (m_neg F f0 f1 fadd fmul fsub fopp fdiv finv FT _ _ _ _ G Ea).
  - intros a a' Ha. apply (m1 negAffine _ a a' fopp Ha). intros r G Ea. apply cong_mk in G. rewrite <- mkf_opp in G. exact (m_neg F f0 f1 fadd fmul fsub fopp fdiv finv FT _ _ _ _ G Ea).
  - intros a a' Ha E. cbn [o_isz Fl fst snd] in *. apply andb_prop in E as [E1 E2]. apply Bool.eqb_prop in E2. rewrite E2. specialize (Ha E1).
    change (o_isz I a') with (if F_dec p a' f0 then true else false).
    destruct (F_dec p a' f0) as [E0|N0].
    + apply Z.eqb_eq. rewrite wP_p'. assert (Hm : mk (fst a) = mk 0).
      { rewrite Ha, E0. symmetry. exact (m_zero F f0 f1 fadd fmul fsub fopp fdiv finv FT (mk R256)). }
      apply mkf_inj in Hm. rewrite Zmod_0_l in Hm. exact Hm.
    + apply Z.eqb_neq. rewrite wP_p'. intros Hz. apply N0. apply (cancel_R F f0 f1 fadd fmul fsub fopp fdiv finv FT (mk R256)); [exact fR_ne|].
      rewrite <- Ha. rewrite <- (m_zero F f0 f1 fadd fmul fsub fopp fdiv finv FT (mk R256)). unfold F0. apply mkf_eq. rewrite Zmod_0_l. exact Hz.
  - intros a a' b b' Ha Hb E. cbn [o_and Fl fst snd] in *. apply andb_prop in E as [E1 E2]. rewrite (Ha E1), (Hb E2). reflexivity.
  - intros v v' a a' b b' Hv Ha Hb E. cbn [o_csel Fl fst snd] in *. apply andb_prop in E as [E1 E2].
    change (o_csel I v' a' b') with (if v' then a' else b'). rewrite <- (Hv E1). destruct (fst v); [exact (Ha E2)|exact (Hb E2)].
  - intros _. exact (m_zero F f0 f1 fadd fmul fsub fopp fdiv finv FT (mk R256)).
  - intros _. transitivity (mk R256); [apply mkf_eq; exact one_R|]. exact (m_one F f0 f1 fadd fmul fsub fopp fdiv finv FT (mk R256)).
  - intros _. transitivity (mk (sm2_gx * R256)); [apply mkf_eq; exact bx_R|]. change (o_bx I) with (mk sm2_gx). now rewrite mkf_mul.
  - intros _. transitivity (mk (sm2_gy * R256)); [apply mkf_eq; exact by_R|]. change (o_by I) with (mk sm2_gy). now rewrite mkf_mul.
  - intros z E. cbn [o_to Fl fst snd] in *. apply cong_mk in E. change (o_to I z) with (mk z). rewrite mkf_mul. exact E.
  - intros a a' Ha E. cbn [o_from Fl fst snd] in *. apply andb_prop in E as [E E4]. apply andb_prop in E as [E E3]. apply andb_prop in E as [E1 E2].
    apply Z.leb_le in E3. apply Z.ltb_lt in E4. rewrite wP_p' in E4. change (o_from I a') with (fval p a').
    apply (mout_range _ (fst a)); [unfold gmul; rewrite Z.mul_1_r; exact E2|lia|exact (Ha E1)].
Qed.

(** ** The exported methods: an exact run of the code returns what the ideal instance returns *)
Lemma exact_W rf rw ri : RO2 erase rf rw -> RO2 mout rf ri -> exact_run rf -> rw = ri.
Proof.
  destruct rf as [[a ba] [b bb]], rw as [x y], ri as [u v]. intros [A1 A2] [B1 B2] [E1 E2]. unfold erase, mout in *. cbn [fst snd] in *.
  rewrite <- A1, <- A2, (B1 E1), (B2 E2). reflexivity.
Qed.
Lemma exact_ScalarMult x y s : exact_run (ScalarMult Fl x y s) -> ScalarMult W x y s = ScalarMult I x y s.
Proof. apply exact_W; [apply (rel_ScalarMult Fl W erase erase erase erase_ops)|apply (rel_ScalarMult Fl I mont mflag mout mont_ops)]. Qed.
Lemma exact_ScalarBaseMult s : exact_run (ScalarBaseMult Fl s) -> ScalarBaseMult W s = ScalarBaseMult I s.
Proof. apply exact_W; [apply (rel_ScalarBaseMult Fl W erase erase erase erase_ops)|apply (rel_ScalarBaseMult Fl I mont mflag mout mont_ops)]. Qed.
Lemma exact_PreScalarMult x y s : exact_run (PreScalarMult Fl (InitPubKeyTable Fl x y) s) ->
  PreScalarMult W (InitPubKeyTable W x y) s = PreScalarMult I (InitPubKeyTable I x y) s.
Proof. apply exact_W; [apply (rel_PreScalarMult Fl W erase erase erase erase_ops)|apply (rel_PreScalarMult Fl I mont mflag mout mont_ops)]. Qed.
Lemma exact_CombinedMult x y s t : exact_run (CombinedMult Fl (InitPubKeyTable Fl x y) s t) ->
  CombinedMult W (InitPubKeyTable W x y) s t = CombinedMult I (InitPubKeyTable I x y) s t.
Proof. apply exact_W; [apply (rel_CombinedMult Fl W erase erase erase erase_ops)|apply (rel_CombinedMult Fl I mont mflag mout mont_ops)]. Qed.
Lemma exact_inverse w f : snd (p256Inverse Fl (w, true)) = true -> mk w = fmul f (mk R256) -> mk (p256Inverse W w) = fmul (finv f) (mk R256).
Proof.
  intros E Hw. pose proof (rel_inv Fl W erase erase erase erase_ops (w, true) w eq_refl) as H1.
  pose proof (rel_inv Fl I mont mflag mout mont_ops (w, true) f (fun _ => Hw)) as H2. unfold erase in H1. rewrite <- H1. rewrite (H2 E). now rewrite I_inverse.
Qed.

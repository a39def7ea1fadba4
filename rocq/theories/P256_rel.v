(** Relational reasoning for P256_model: two instances whose operations are related give related results. *)
From Coq Require Import ZArith Bool List.
From Verif Require Import GoBase P256_field_model P256_model.
Import ListNotations.
Local Open Scope Z_scope.

Section Rel.
Context {C1 B1 O1 C2 B2 O2 : Type} (o1 : fops C1 B1 O1) (o2 : fops C2 B2 O2).
Variables (RC : C1 -> C2 -> Prop) (RB : B1 -> B2 -> Prop) (RO : O1 -> O2 -> Prop).
Record rel_ops : Prop := {
  r_mulx : forall a a' b b', RC a a' -> RC b b' -> RC (o_mulx o1 a b) (o_mulx o2 a' b');
  r_sqrx : forall a a', RC a a' -> RC (o_sqrx o1 a) (o_sqrx o2 a');
  r_mul : forall a a' b b', RC a a' -> RC b b' -> RC (o_mul o1 a b) (o_mul o2 a' b');
  r_sqr : forall a a', RC a a' -> RC (o_sqr o1 a) (o_sqr o2 a');
  r_sub : forall a a' b b', RC a a' -> RC b b' -> RC (o_sub o1 a b) (o_sub o2 a' b');
  r_add : forall a a' b b', RC a a' -> RC b b' -> RC (o_add o1 a b) (o_add o2 a' b');
  r_dbl : forall a a', RC a a' -> RC (o_dbl o1 a) (o_dbl o2 a');
  r_half : forall a a', RC a a' -> RC (o_half o1 a) (o_half o2 a');
  r_neg : forall a a', RC a a' -> RC (o_neg o1 a) (o_neg o2 a');
  r_nega : forall a a', RC a a' -> RC (o_nega o1 a) (o_nega o2 a');
  r_isz : forall a a', RC a a' -> RB (o_isz o1 a) (o_isz o2 a');
  r_and : forall a a' b b', RB a a' -> RB b b' -> RB (o_and o1 a b) (o_and o2 a' b');
  r_csel : forall v v' a a' b b', RB v v' -> RC a a' -> RC b b' -> RC (o_csel o1 v a b) (o_csel o2 v' a' b');
  r_zero : RC (o_zero o1) (o_zero o2);
  r_one : RC (o_one o1) (o_one o2);
  r_bx : RC (o_bx o1) (o_bx o2);
  r_by : RC (o_by o1) (o_by o2);
  r_to : forall z, RC (o_to o1 z) (o_to o2 z);
  r_from : forall a a', RC a a' -> RO (o_from o1 a) (o_from o2 a') }.
Hypothesis H : rel_ops.
Definition RP (P : @pnt C1) (Q : @pnt C2) : Prop :=
  RC (fst (fst P)) (fst (fst Q)) /\ RC (snd (fst P)) (snd (fst Q)) /\ RC (snd P) (snd Q).
Definition RA (P : C1 * C1) (Q : C2 * C2) : Prop := RC (fst P) (fst Q) /\ RC (snd P) (snd Q).

Ltac rstep :=
  first [ assumption | apply (r_mulx H) | apply (r_sqrx H) | apply (r_mul H) | apply (r_sqr H) | apply (r_sub H)
        | apply (r_add H) | apply (r_dbl H) | apply (r_half H) | apply (r_neg H) | apply (r_nega H) | apply (r_isz H)
        | apply (r_and H) | apply (r_zero H) | apply (r_one H) | apply (r_to H) | apply (r_bx H) | apply (r_by H)
        | apply (r_from H) ].
Ltac gen t1 t2 :=
  let a := fresh "a" in let b := fresh "b" in let E := fresh "E" in
  assert (E : RC t1 t2) by (repeat rstep); set (a := t1) in *; set (b := t2) in *; clearbody a b.

Lemma rel_dbl P Q : RP P Q -> RP (pointDouble o1 P) (pointDouble o2 Q).
Proof.
  destruct P as [[x y] z], Q as [[x' y'] z']. intros (Hx & Hy & Hz). cbn [fst snd] in Hx, Hy, Hz.
  unfold pointDouble. repeat split; cbn [fst snd]; repeat rstep.
Qed.
Lemma rel_add P P' Q Q' : RP P P' -> RP Q Q' -> RP (fst (pointAdd o1 P Q)) (fst (pointAdd o2 P' Q')) /\ RB (snd (pointAdd o1 P Q)) (snd (pointAdd o2 P' Q')).
Proof.
  destruct P as [[x y] z], P' as [[x' y'] z'], Q as [[u v] w], Q' as [[u' v'] w'].
  intros (Hx & Hy & Hz) (Hu & Hv & Hw). cbn [fst snd] in *.
  unfold pointAdd. repeat split; cbn [fst snd]; repeat rstep.
Qed.
Lemma rel_adda P P' x x' y y' sign sel zero : RP P P' -> RC x x' -> RC y y' ->
  RP (pointAddAffine o1 P x y sign sel zero) (pointAddAffine o2 P' x' y' sign sel zero).
Proof.
  destruct P as [[x1 y1] z1], P' as [[x1' y1'] z1'].
  intros (Hx & Hy & Hz) Hx2 Hy2. cbn [fst snd] in *.
  unfold pointAddAffine. cbv zeta.
  destruct (zero =? 0).
  - destruct (sign =? 0); repeat split; cbn [fst snd]; repeat rstep.
  - destruct (sel =? 0); [ repeat split; cbn [fst snd]; assumption | ].
    assert (Hy2' : RC (if sign =? 0 then y else o_nega o1 y) (if sign =? 0 then y' else o_nega o2 y'))
      by (destruct (sign =? 0); repeat rstep).
    set (v := if sign =? 0 then y else _) in *. set (v' := if sign =? 0 then y' else _) in *. clearbody v v'.
    repeat split; cbn [fst snd]; repeat rstep.
Qed.
Lemma rel_iter_sqr n x x' : RC x x' -> RC (iter_sqr o1 n x) (iter_sqr o2 n x').
Proof. intros Hx. induction n as [|n IH]; [exact Hx|]. cbn. now apply (r_sqrx H). Qed.
Lemma rel_inv x x' : RC x x' -> RC (p256Inverse o1 x) (p256Inverse o2 x').
Proof.
  intros Hx. unfold p256Inverse.
  repeat match goal with |- RC (let a := ?t1 in _) (let b := ?t2 in _) =>
    let a := fresh "a" in let b := fresh "b" in let E := fresh "E" in
    assert (E : RC t1 t2) by (repeat first [rstep | apply rel_iter_sqr]);
    revert E; generalize t1; generalize t2; intros b a E; cbv beta zeta end.
  repeat first [rstep | apply rel_iter_sqr].
Qed.
Lemma rel_norm P P' : RP P P' -> RP (normalize o1 P) (normalize o2 P').
Proof.
  destruct P as [[x y] z], P' as [[x' y'] z']. intros (Hx & Hy & Hz). cbn [fst snd] in *.
  unfold normalize. pose proof (rel_inv _ _ Hz) as Hi.
  set (i := p256Inverse o1 z) in *. set (i' := p256Inverse o2 z') in *. clearbody i i'.
  repeat split; cbn [fst snd]; repeat rstep.
Qed.
Lemma rel_aff P P' : RP P P' -> RO (fst (p256PointToAffine o1 P)) (fst (p256PointToAffine o2 P')) /\
  RO (snd (p256PointToAffine o1 P)) (snd (p256PointToAffine o2 P')).
Proof.
  destruct P as [[x y] z], P' as [[x' y'] z']. intros (Hx & Hy & Hz). cbn [fst snd] in *.
  unfold p256PointToAffine. pose proof (rel_inv _ _ Hz) as Hi.
  set (i := p256Inverse o1 z) in *. set (i' := p256Inverse o2 z') in *. clearbody i i'.
  split; cbn [fst snd]; repeat rstep.
Qed.
Lemma rel_iter_dbl n P P' : RP P P' -> RP (Nat.iter n (pointDouble o1) P) (Nat.iter n (pointDouble o2) P').
Proof. intros HP. induction n as [|n IH]; [exact HP|]. cbn [Nat.iter nat_rect]. now apply rel_dbl. Qed.
Lemma rel_col m : forall P P', RP P P' -> Forall2 RA (tabCol o1 m P) (tabCol o2 m P').
Proof.
  induction m as [|m IH]; intros P P' HP; cbn [tabCol]; constructor.
  - destruct (rel_norm _ _ HP) as (Hx & Hy & _). split; assumption.
  - apply IH, rel_iter_dbl, rel_norm, HP.
Qed.
Lemma rel_cols m : forall first base base' P P', RP base base' -> RP P P' ->
  Forall2 (Forall2 RA) (tabCols o1 m first base P) (tabCols o2 m first base' P').
Proof.
  induction m as [|m IH]; intros first base base' P P' Hb HP; cbn [tabCols]; constructor.
  - now apply rel_col.
  - apply IH; [exact Hb|]. destruct first; [now apply rel_dbl | now apply rel_add].
Qed.
Lemma rel_table P P' : RP P P' -> Forall2 (Forall2 RA) (mkTable o1 P) (mkTable o2 P').
Proof. intros HP. now apply rel_cols. Qed.
Lemma Forall2_nth {A A'} (R : A -> A' -> Prop) l l' d d' i : Forall2 R l l' -> R d d' -> R (nth i l d) (nth i l' d').
Proof. intros HF Hd. revert i. induction HF; intros [|i]; cbn; auto. Qed.
Lemma rel_selb T T' i sel : Forall2 (Forall2 RA) T T' -> RA (selectBase o1 T i sel) (selectBase o2 T' i sel).
Proof.
  intros HT. unfold selectBase. assert (Hz : RA (o_zero o1, o_zero o1) (o_zero o2, o_zero o2)) by (split; cbn; rstep).
  destruct (sel =? 0); [exact Hz|]. apply Forall2_nth; [|exact Hz]. apply Forall2_nth; [exact HT|constructor].
Qed.
Lemma rel_preloop T T' s : Forall2 (Forall2 RA) T T' -> forall m i index p p' zero, RP p p' ->
  RP (preMult_loop o1 T s m i index p zero) (preMult_loop o2 T' s m i index p' zero).
Proof.
  intros HT. induction m as [|m IH]; intros i index p p' zero HP; cbn [preMult_loop]; [exact HP|].
  destruct (booth 7 (wvalue s index 255)) as [sel sign].
  pose proof (rel_selb T T' i sel HT) as HS.
  destruct (selectBase o1 T i sel) as [tx ty], (selectBase o2 T' i sel) as [tx' ty']. destruct HS as [Hx Hy]. cbn [fst snd] in *.
  apply IH. now apply rel_adda.
Qed.
Lemma rel_premult T T' s : Forall2 (Forall2 RA) T T' -> RP (p256PreMult o1 T s) (p256PreMult o2 T' s).
Proof.
  intros HT. unfold p256PreMult. destruct (booth 7 (wvalue0 s 255)) as [sel sign].
  pose proof (rel_selb T T' 0 sel HT) as HS.
  destruct (selectBase o1 T 0 sel) as [tx ty], (selectBase o2 T' 0 sel) as [tx' ty']. destruct HS as [Hx Hy]. cbn [fst snd] in *.
  apply rel_preloop; [exact HT|]. destruct (sign =? 0); repeat split; cbn [fst snd]; repeat rstep.
Qed.
Lemma rel_precomp P P' : RP P P' -> Forall2 RP (precomp o1 P) (precomp o2 P').
Proof.
  intros HP. unfold precomp. cbv zeta.
  repeat (apply Forall2_cons || apply Forall2_nil);
    repeat first [exact HP | apply rel_dbl | apply rel_add].
Qed.
Lemma rel_select T T' sel : Forall2 RP T T' -> RP (select o1 T sel) (select o2 T' sel).
Proof.
  intros HT. unfold select. assert (Hz : RP (pzero o1) (pzero o2)) by (unfold pzero; repeat split; cbn; repeat rstep).
  destruct (sel =? 0); [exact Hz|]. now apply Forall2_nth.
Qed.
Lemma rel_step T T' w p p' zero : Forall2 RP T T' -> RP p p' ->
  RP (fst (smStep o1 T w p zero)) (fst (smStep o2 T' w p' zero)) /\ snd (smStep o1 T w p zero) = snd (smStep o2 T' w p' zero).
Proof.
  intros HT HP. unfold smStep. destruct (booth 5 w) as [sel sign].
  pose proof (rel_select T T' sel HT) as HS.
  destruct (select o1 T sel) as [[x y] z], (select o2 T' sel) as [[x' y'] z']. destruct HS as (Hx & Hy & Hz). cbn [fst snd] in *.
  split; [|reflexivity].
  assert (Ht : RP (x, (if sign =? 0 then y else o_neg o1 y), z) (x', (if sign =? 0 then y' else o_neg o2 y'), z'))
    by (destruct (sign =? 0); repeat split; cbn [fst snd]; repeat rstep).
  destruct (zero =? 0); [exact Ht|]. destruct (sel =? 0); [now apply rel_iter_dbl|].
  apply rel_add; [now apply rel_iter_dbl | exact Ht].
Qed.
Lemma rel_loop T T' s : Forall2 RP T T' -> forall m index p p' zero, RP p p' ->
  RP (fst (smLoop o1 T s m index p zero)) (fst (smLoop o2 T' s m index p' zero)) /\
  snd (smLoop o1 T s m index p zero) = snd (smLoop o2 T' s m index p' zero).
Proof.
  intros HT. induction m as [|m IH]; intros index p p' zero HP; cbn [smLoop]; [split; [exact HP|reflexivity]|].
  destruct (rel_step T T' (wvalue s (index - 5) 63) p p' zero HT HP) as [H1 H2].
  destruct (smStep o1 T _ p zero) as [q z], (smStep o2 T' _ p' zero) as [q' z']. cbn [fst snd] in *. subst z'. now apply IH.
Qed.
Lemma rel_smult P P' s : RP P P' -> RP (p256ScalarMult o1 P s) (p256ScalarMult o2 P' s).
Proof.
  intros HP. unfold p256ScalarMult. cbv zeta. pose proof (rel_precomp _ _ HP) as HT.
  set (T := precomp o1 P) in *. set (T' := precomp o2 P') in *. clearbody T T'.
  destruct (booth 5 _) as [sel sg].
  destruct (rel_loop T T' s HT 50 254 _ _ sel (rel_select T T' sel HT)) as [H1 H2].
  destruct (smLoop o1 T s 50 254 _ sel) as [q z], (smLoop o2 T' s 50 254 _ sel) as [q' z']. cbn [fst snd] in *. subst z'.
  now apply rel_step.
Qed.
Definition RO2 (a : O1 * O1) (b : O2 * O2) : Prop := RO (fst a) (fst b) /\ RO (snd a) (snd b).
Theorem rel_ScalarMult x y s : RO2 (ScalarMult o1 x y s) (ScalarMult o2 x y s).
Proof. apply rel_aff, rel_smult. repeat split; cbn [fst snd]; rstep. Qed.
Lemma rel_initTable : Forall2 (Forall2 RA) (initTable o1) (initTable o2).
Proof. apply rel_table. repeat split; cbn [fst snd]; rstep. Qed.
Lemma rel_InitPubKeyTable x y : Forall2 (Forall2 RA) (InitPubKeyTable o1 x y) (InitPubKeyTable o2 x y).
Proof. apply rel_table. repeat split; cbn [fst snd]; rstep. Qed.
Theorem rel_ScalarBaseMult s : RO2 (ScalarBaseMult o1 s) (ScalarBaseMult o2 s).
Proof. apply rel_aff, rel_premult, rel_initTable. Qed.
Theorem rel_PreScalarMult x y s : RO2 (PreScalarMult o1 (InitPubKeyTable o1 x y) s) (PreScalarMult o2 (InitPubKeyTable o2 x y) s).
Proof. apply rel_aff, rel_premult, rel_InitPubKeyTable. Qed.
Theorem rel_CombinedMult x y s t :
  RO2 (CombinedMult o1 (InitPubKeyTable o1 x y) s t) (CombinedMult o2 (InitPubKeyTable o2 x y) s t).
Proof.
  unfold CombinedMult. cbv zeta.
  pose proof (rel_premult _ _ (p256GetScalar s) rel_initTable) as H1.
  pose proof (rel_premult _ _ (p256GetScalar t) (rel_InitPubKeyTable x y)) as H2.
  unfold p256BaseMult.
  set (r1 := p256PreMult o1 (initTable o1) _) in *. set (r1' := p256PreMult o2 (initTable o2) _) in *.
  set (r2 := p256PreMult o1 (InitPubKeyTable o1 x y) _) in *. set (r2' := p256PreMult o2 (InitPubKeyTable o2 x y) _) in *.
  clearbody r1 r2 r1' r2'.
  destruct (rel_add _ _ _ _ H1 H2) as [H3 H4].
  destruct (pointAdd o1 r1 r2) as [sm e], (pointAdd o2 r1' r2') as [sm' e']. cbn [fst snd] in *.
  apply rel_aff.
  destruct (scalarIsZero (p256GetScalar s) =? 1); [exact H2|].
  destruct (scalarIsZero (p256GetScalar t) =? 1); [exact H1|].
  pose proof (rel_dbl _ _ H1) as H5.
  destruct (pointDouble o1 r1) as [[x1 y1] z1], (pointDouble o2 r1') as [[x1' y1'] z1'].
  destruct sm as [[x3 y3] z3], sm' as [[x3' y3'] z3'].
  destruct H5 as (? & ? & ?), H3 as (? & ? & ?). unfold copyCond. cbn [fst snd] in *.
  repeat split; cbn [fst snd]; apply (r_csel H); assumption.
Qed.
End Rel.

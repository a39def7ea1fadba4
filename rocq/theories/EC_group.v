(** The group law of a short Weierstrass curve y^2 = x^3 + a x + b over an arbitrary field (2 <> 0,
    4 a^3 + 27 b^2 <> 0), proved from the chord-and-tangent formulas. Pure mathematics: no code is modelled
    here. The field is a Section parameter, discharged at the end of the Section. *)
From Coq Require Import Field Ring List.

Section EC.
Variable F : Type.
Variables (f0 f1 : F) (fadd fmul fsub : F -> F -> F) (fopp : F -> F) (fdiv : F -> F -> F) (finv : F -> F).
Hypothesis FT : field_theory f0 f1 fadd fmul fsub fopp fdiv finv eq.
Hypothesis F_dec : forall x y : F, {x = y} + {x <> y}.
Add Field Ff : FT.
Local Notation "0" := f0. Local Notation "1" := f1.
Local Infix "+" := fadd. Local Infix "*" := fmul. Local Infix "-" := fsub. Local Notation "- x" := (fopp x).
Local Infix "/" := fdiv.
Local Notation "2" := (1 + 1). Local Notation "3" := (1 + 1 + 1).
Variables a b : F.
Hypothesis two_ne_0 : 2 <> 0.
Local Notation "4" := (2 + 2).
Local Notation "27" := (3 * 3 * 3).
Hypothesis nonsingular : 4 * (a * a * a) + 27 * (b * b) <> 0.

Lemma fmul_eq0 x y : x * y = 0 -> x = 0 \/ y = 0.
Proof.
  intros H. destruct (F_dec x 0) as [|Hx]; [now left|right].
  assert (E : y = (x * y) / x) by (field; exact Hx). rewrite E, H. field. exact Hx.
Qed.
Lemma fsub_eq0 x y : x - y = 0 -> x = y.
Proof. intros H. assert (E : x = (x - y) + y) by ring. rewrite E, H. ring. Qed.
Lemma fsub_ne0 x y : x <> y -> x - y <> 0.
Proof. intros H E. apply H. now apply fsub_eq0. Qed.
Lemma fmul_ne0 x y : x <> 0 -> y <> 0 -> x * y <> 0.
Proof. intros Hx Hy E. apply fmul_eq0 in E. tauto. Qed.
Lemma fopp_eq0 x : - x = 0 -> x = 0.
Proof. intros H. assert (E : x = - - x) by ring. rewrite E, H. ring. Qed.
Lemma self_opp y : y = - y -> y = 0.
Proof. intros H. assert (E : 2 * y = 0). { replace (2 * y) with (y - (- y)) by ring. rewrite <- H. ring. }
  apply fmul_eq0 in E as [E|E]; [now elim two_ne_0|exact E]. Qed.
Lemma sq_eq y z : y * y = z * z -> y = z \/ y = - z.
Proof.
  intros H. assert (E : (y - z) * (y + z) = 0). { replace ((y - z) * (y + z)) with (y * y - z * z) by ring. rewrite H. ring. }
  apply fmul_eq0 in E as [E|E]; [left; now apply fsub_eq0|right].
  assert (E' : y = (y + z) - z) by ring. rewrite E', E. ring.
Qed.

Inductive point := Inf | Aff (x y : F).
Definition on (P : point) : Prop := match P with Inf => True | Aff x y => y * y = x * x * x + a * x + b end.
Definition opp (P : point) : point := match P with Inf => Inf | Aff x y => Aff x (- y) end.
(** third point of the line of slope l through (x1,y1) and the abscissa x2, reflected *)
Definition chord (l x1 y1 x2 : F) : point :=
  let x3 := l * l - x1 - x2 in Aff x3 (l * (x1 - x3) - y1).
Definition add (P Q : point) : point :=
  match P, Q with
  | Inf, _ => Q
  | _, Inf => P
  | Aff x1 y1, Aff x2 y2 =>
      if F_dec x1 x2 then
        if F_dec y1 (- y2) then Inf
        else chord ((3 * (x1 * x1) + a) / (2 * y1)) x1 y1 x2
      else chord ((y2 - y1) / (x2 - x1)) x1 y1 x2
  end.

Lemma point_dec (P Q : point) : {P = Q} + {P <> Q}.
Proof. decide equality. Qed.
Lemma add_inf_l P : add Inf P = P. Proof. reflexivity. Qed.
Lemma add_inf_r P : add P Inf = P. Proof. destruct P; reflexivity. Qed.
Lemma opp_opp P : opp (opp P) = P.
Proof. destruct P; cbn; [reflexivity|]. f_equal. ring. Qed.
Lemma on_opp P : on P -> on (opp P).
Proof. destruct P; cbn; [auto|]. intros H. rewrite <- H. ring. Qed.
Lemma add_opp_r P : add P (opp P) = Inf.
Proof.
  destruct P as [|x y]; [reflexivity|]. cbn. destruct (F_dec x x) as [_|N]; [|now elim N].
  destruct (F_dec y (- - y)) as [|N]; [reflexivity|]. elim N. ring.
Qed.
(** when abscissae agree, the points are equal or opposite *)
Lemma same_x x y y' : on (Aff x y) -> on (Aff x y') -> y = y' \/ y = - y'.
Proof. cbn. intros H H'. apply sq_eq. congruence. Qed.
Lemma add_eq x1 y1 x2 y2 l : on (Aff x1 y1) -> on (Aff x2 y2) ->
  Aff x1 y1 <> opp (Aff x2 y2) ->
  (x1 <> x2 -> l * (x2 - x1) = y2 - y1) ->
  (x1 = x2 -> y1 = y2 -> l * (2 * y1) = 3 * (x1 * x1) + a) ->
  add (Aff x1 y1) (Aff x2 y2) = chord l x1 y1 x2.
Proof.
  intros H1 H2 Hn Hc Ht. unfold add.
  destruct (F_dec x1 x2) as [->|Hx].
  - destruct (F_dec y1 (- y2)) as [->|Hy]; [now elim Hn|].
    assert (Ey : y1 = y2) by (destruct (same_x _ _ _ H1 H2); [assumption|contradiction]). subst y2.
    assert (y1 <> 0). { intros ->. apply Hy. ring. }
    f_equal. rewrite <- (Ht eq_refl eq_refl). field. split; auto.
  - f_equal. rewrite <- (Hc Hx). field. apply fsub_ne0. auto.
Qed.
(** existence of the slope for a non-opposite pair *)
Lemma slope x1 y1 x2 y2 : on (Aff x1 y1) -> on (Aff x2 y2) -> Aff x1 y1 <> opp (Aff x2 y2) ->
  exists l, add (Aff x1 y1) (Aff x2 y2) = chord l x1 y1 x2 /\ y2 = y1 + l * (x2 - x1) /\
    a = l * (y1 + y2) - (x1 * x1 + x1 * x2 + x2 * x2) /\
    (x1 = x2 -> y1 = y2 /\ y1 <> 0).
Proof.
  intros H1 H2 Hn. cbn in H1, H2.
  destruct (F_dec x1 x2) as [->|Hx].
  - destruct (F_dec y1 (- y2)) as [->|Hy]; [now elim Hn|].
    assert (Ey : y1 = y2) by (destruct (same_x _ _ _ H1 H2); [assumption|contradiction]). subst y2.
    assert (Hy0 : y1 <> 0). { intros ->. apply Hy. ring. }
    exists ((3 * (x2 * x2) + a) / (2 * y1)). repeat split; auto.
    + unfold add. destruct (F_dec x2 x2) as [_|N]; [|now elim N]. destruct (F_dec y1 (- y1)); [contradiction|reflexivity].
    + ring.
    + field. auto.
  - assert (Hd : x2 - x1 <> 0) by (apply fsub_ne0; auto).
    exists ((y2 - y1) / (x2 - x1)). split; [|split; [|split]].
    + unfold add. destruct (F_dec x1 x2); [contradiction|reflexivity].
    + field. auto.
    + assert (E : a * (x2 - x1) = (y2 - y1) * (y2 + y1) - (x2 * x2 * x2 - x1 * x1 * x1)).
      { replace ((y2 - y1) * (y2 + y1)) with (y2 * y2 - y1 * y1) by ring. rewrite H1, H2. ring. }
      replace a with ((a * (x2 - x1)) / (x2 - x1)) by (field; auto). rewrite E. field. auto.
    + intros E; contradiction.
Qed.
Lemma on_chord x1 y1 x2 y2 l : on (Aff x1 y1) -> y2 = y1 + l * (x2 - x1) ->
  a = l * (y1 + y2) - (x1 * x1 + x1 * x2 + x2 * x2) -> on (chord l x1 y1 x2).
Proof.
  cbn. intros H1 Hy Ha. assert (Eb : b = y1 * y1 - x1 * x1 * x1 - a * x1) by (rewrite H1; ring).
  rewrite Eb, Ha, Hy. ring.
Qed.
Lemma on_add P Q : on P -> on Q -> on (add P Q).
Proof.
  destruct P as [|x1 y1], Q as [|x2 y2]; try (cbn; auto; fail). intros H1 H2.
  destruct (point_dec (Aff x1 y1) (opp (Aff x2 y2))) as [E|N].
  - rewrite E. replace (Aff x2 y2) with (opp (opp (Aff x2 y2))) at 2 by apply opp_opp. now rewrite add_opp_r.
  - destruct (slope _ _ _ _ H1 H2 N) as (l & -> & Hy & Ha & _). eapply on_chord; eauto.
Qed.
Lemma add_comm P Q : on P -> on Q -> add P Q = add Q P.
Proof.
  destruct P as [|x1 y1], Q as [|x2 y2]; try (reflexivity). intros H1 H2.
  destruct (point_dec (Aff x1 y1) (opp (Aff x2 y2))) as [E|N].
  - rewrite E. assert (E2 : Aff x2 y2 = opp (opp (Aff x2 y2))) by (symmetry; apply opp_opp).
    rewrite E2 at 2. rewrite add_opp_r. now rewrite add_opp_r.
  - destruct (slope _ _ _ _ H1 H2 N) as (l & E & Hy & Ha & Hs).
    rewrite E. rewrite (add_eq x2 y2 x1 y1 l); auto.
    + unfold chord. subst y2. f_equal; ring.
    + intros E'. apply N. rewrite E'. symmetry. apply opp_opp.
    + intros. subst y2. ring.
    + intros -> ->. rewrite Ha. ring.
Qed.
Lemma opp_chord l x1 y1 x2 : opp (chord l x1 y1 x2) = chord (- l) x1 (- y1) x2.
Proof. unfold chord, opp. f_equal; ring. Qed.
Lemma opp_add P Q : on P -> on Q -> opp (add P Q) = add (opp P) (opp Q).
Proof.
  destruct P as [|x1 y1], Q as [|x2 y2]; try (reflexivity). intros H1 H2.
  destruct (point_dec (Aff x1 y1) (opp (Aff x2 y2))) as [E|N].
  - rewrite E. rewrite (add_comm (opp (Aff x2 y2))), add_opp_r by (auto using on_opp).
    rewrite opp_opp, add_opp_r. reflexivity.
  - destruct (slope _ _ _ _ H1 H2 N) as (l & E & Hy & Ha & Hs). rewrite E.
    rewrite opp_chord. symmetry. apply add_eq.
    + now apply (on_opp (Aff x1 y1)).
    + now apply (on_opp (Aff x2 y2)).
    + intros E'. apply N. cbn [opp] in *. injection E' as -> Ey. f_equal. replace y1 with (- - y1) by ring. rewrite Ey. ring.
    + intros. subst y2. ring.
    + intros Ex _. destruct (Hs Ex) as [Ey _]. subst x2. rewrite <- Ey in Ha. rewrite Ha. ring.
Qed.

(** (P+Q) + (-Q) = P *)
Lemma add_sub P Q : on P -> on Q -> add (add P Q) (opp Q) = P.
Proof.
  destruct P as [|x1 y1]; [intros; apply add_opp_r|].
  destruct Q as [|x2 y2]; [intros; cbn; reflexivity|]. intros H1 H2.
  destruct (point_dec (Aff x1 y1) (opp (Aff x2 y2))) as [E|N].
  { rewrite E. rewrite (add_comm (opp (Aff x2 y2)) (Aff x2 y2)), add_opp_r by (auto using on_opp). reflexivity. }
  destruct (slope _ _ _ _ H1 H2 N) as (l & E & Hy & Ha & Hs).
  pose proof (on_add _ _ H1 H2) as H3. rewrite E in *.
  set (x3 := l * l - x1 - x2). set (y3 := l * (x1 - x3) - y1).
  assert (E3 : chord l x1 y1 x2 = Aff x3 y3) by reflexivity. rewrite E3 in *.
  assert (NQ : Aff x3 y3 <> opp (opp (Aff x2 y2))).
  { rewrite opp_opp. intros EQ. injection EQ as Ex Ey.
    assert (Ey2 : y2 = - y2) by (rewrite <- Ey at 1; unfold y3; rewrite Ex; subst y2; ring).
    apply self_opp in Ey2.
    (* Q is a 2-torsion point on its own tangent: singular *)
    assert (El : l * l = x1 + 2 * x2) by (unfold x3 in Ex; transitivity (l * l - x1 - x2 + (x1 + x2)); [ring|rewrite Ex; ring]).
    assert (Ea : a = - (3 * (x2 * x2))).
    { assert (Ey1 : y1 = - (l * (x2 - x1))). { replace y1 with (y2 - l * (x2 - x1)) by (rewrite Hy; ring). rewrite Ey2. ring. }
      rewrite Ha, Ey2, Ey1. transitivity (l * l * (x1 - x2) - (x1 * x1 + x1 * x2 + x2 * x2)); [ring|]. rewrite El. ring. }
    assert (Eb : b = 2 * (x2 * x2 * x2)).
    { cbn in H2. rewrite Ey2 in H2. transitivity (x2 * x2 * x2 + a * x2 + b - x2 * x2 * x2 - a * x2); [ring|].
      rewrite <- H2, Ea. ring. }
    apply nonsingular. rewrite Ea, Eb. ring. }
  assert (Hop : on (opp (Aff x2 y2))) by now apply on_opp.
  cbn [opp] in *.
  rewrite (add_eq x3 y3 x2 (- y2) (- l)); auto.
  - unfold chord. f_equal; unfold y3, x3; ring.
  - intros _. unfold y3, x3. subst y2. ring.
  - intros Ex Ey.
    assert (El : l * l = x1 + 2 * x2) by (unfold x3 in Ex; transitivity (l * l - x1 - x2 + (x1 + x2)); [ring|rewrite Ex; ring]).
    rewrite Ey, Ex, Ha. subst y2.
    transitivity (2 * l * y1 + 2 * (l * l) * (x2 - x1)); [ring|].
    symmetry. transitivity (2 * l * y1 + (l * l) * (x2 - x1) + (2 * (x2 * x2) - x1 * x1 - x1 * x2)); [ring|].
    rewrite El. ring.
Qed.
Lemma add_cancel_r P P' Q : on P -> on P' -> on Q -> add P Q = add P' Q -> P = P'.
Proof. intros H H' HQ E. rewrite <- (add_sub P Q), <- (add_sub P' Q) by auto. now rewrite E. Qed.
Lemma sub_add P Q : on P -> on Q -> add (add P (opp Q)) Q = P.
Proof. intros H HQ. rewrite <- (opp_opp Q) at 2. apply add_sub; auto using on_opp. Qed.
Lemma add_self_inf P Q : on P -> on Q -> add P Q = P -> Q = Inf.
Proof. intros H HQ E. apply (add_cancel_r Q Inf P); cbn; auto. rewrite add_comm by auto. exact E. Qed.
Lemma add_inf_opp P Q : on P -> on Q -> add P Q = Inf -> P = opp Q.
Proof. intros H HQ E. rewrite <- (add_sub P Q) by auto. rewrite E. reflexivity. Qed.

Lemma chord_inj_x x1 y1 x2 l x y : chord l x1 y1 x2 = Aff x y -> x = l * l - x1 - x2 /\ y = l * (x1 - x) - y1.
Proof. unfold chord. intros E. injection E as <- <-. auto. Qed.

(** generic associativity, all four additions with distinct abscissae *)
Lemma assoc_generic x1 y1 x2 y2 x3 y3 :
  let P := Aff x1 y1 in let Q := Aff x2 y2 in let R := Aff x3 y3 in
  on P -> on Q -> on R ->
  x1 <> x2 -> x2 <> x3 ->
  (forall x y, add P Q = Aff x y -> x <> x3) ->
  (forall x y, add Q R = Aff x y -> x1 <> x) ->
  P <> R ->
  add (add P Q) R = add P (add Q R).
Proof.
  intros P Q R HP HQ HR H12 H23 HPQ HQR HPR.
  assert (N1 : P <> opp Q) by (intros E; injection E; auto).
  assert (N2 : Q <> opp R) by (intros E; injection E; auto).
  pose proof (on_add P Q HP HQ) as HonPQ. pose proof (on_add Q R HQ HR) as HonQR.
  destruct (slope _ _ _ _ HP HQ N1) as (l & E1 & Hy1 & Ha1 & _).
  destruct (slope _ _ _ _ HQ HR N2) as (m & E2 & Hy3 & Ha2 & _).
  fold P Q in E1. fold Q R in E2. rewrite E1, E2 in *.
  set (x4 := l * l - x1 - x2) in *. set (y4 := l * (x1 - x4) - y1).
  set (x5 := m * m - x2 - x3) in *. set (y5 := m * (x2 - x5) - y2).
  change (chord l x1 y1 x2) with (Aff x4 y4) in *. change (chord m x2 y2 x3) with (Aff x5 y5) in *.
  specialize (HPQ x4 y4 eq_refl). specialize (HQR x5 y5 eq_refl).
  (* y1 in terms of y2 *)
  assert (Hy1' : y1 = y2 + l * (x1 - x2)) by (rewrite Hy1; ring).
  (* the two expressions of a *)
  assert (Hrel : 2 * y2 * (l - m) = (x1 - x3) * (x1 + x2 + x3) - l * l * (x1 - x2) + m * m * (x3 - x2)).
  { assert (E : l * (y1 + y2) - (x1 * x1 + x1 * x2 + x2 * x2) = m * (y2 + y3) - (x2 * x2 + x2 * x3 + x3 * x3)) by congruence.
    rewrite Hy1', Hy3 in E.
    assert (E0 : 2 * y2 * (l - m) - ((x1 - x3) * (x1 + x2 + x3) - l * l * (x1 - x2) + m * m * (x3 - x2))
      = (l * (y2 + l * (x1 - x2) + y2) - (x1 * x1 + x1 * x2 + x2 * x2)) -
        (m * (y2 + (y2 + m * (x3 - x2))) - (x2 * x2 + x2 * x3 + x3 * x3))) by ring.
    apply fsub_eq0. rewrite E0, E. ring. }
  assert (Hlm : l <> m).
  { intros <-.
    assert (E0 : (x1 - x3) * (x1 + x2 + x3 - l * l) = 0).
    { replace ((x1 - x3) * (x1 + x2 + x3 - l * l)) with ((x1 - x3) * (x1 + x2 + x3) - l * l * (x1 - x2) + l * l * (x3 - x2)) by ring.
      rewrite <- Hrel. ring. }
    apply fmul_eq0 in E0 as [E0|E0].
    - apply fsub_eq0 in E0. apply HPR. unfold P, R. rewrite E0. f_equal. rewrite Hy3, Hy1', E0. reflexivity.
    - apply HPQ. unfold x4. symmetry. apply fsub_eq0. rewrite <- E0. ring. }
  assert (Hlm' : l - m <> 0) by now apply fsub_ne0.
  assert (Ey2 : y2 = ((x1 - x3) * (x1 + x2 + x3) - l * l * (x1 - x2) + m * m * (x3 - x2)) / (2 * (l - m))).
  { rewrite <- Hrel. field. auto. }
  assert (H43 : x3 - x4 <> 0) by (apply fsub_ne0; auto).
  assert (H15 : x5 - x1 <> 0) by (apply fsub_ne0; auto).
  unfold add at 1 2, P, R.
  destruct (F_dec x4 x3) as [E|_]; [contradiction|]. destruct (F_dec x1 x5) as [E|_]; [contradiction|].
  unfold chord. unfold y5, y4, x4, x5 in *. rewrite Hy3, Hy1', Ey2.
  f_equal; field; repeat split; auto.
Qed.
(** (P+P)+R = P+(P+R) when the three other additions have distinct abscissae *)
Lemma assoc_double_generic x1 y1 x2 y2 :
  let P := Aff x1 y1 in let R := Aff x2 y2 in
  on P -> on R -> P <> opp P -> x1 <> x2 ->
  (forall x y, add P P = Aff x y -> x <> x2) ->
  (forall x y, add P R = Aff x y -> x1 <> x) ->
  add (add P P) R = add P (add P R).
Proof.
  intros P R HP HR N1 H12 HPP HPR.
  assert (N2 : P <> opp R) by (intros E; injection E; auto).
  pose proof (on_add P P HP HP) as HonPP. pose proof (on_add P R HP HR) as HonPR.
  destruct (slope _ _ _ _ HP HP N1) as (l & E1 & _ & Ha1 & Hnz). destruct (Hnz eq_refl) as [_ Hy0].
  destruct (slope _ _ _ _ HP HR N2) as (m & E2 & Hy2 & Ha2 & _).
  fold P in E1. fold P R in E2. rewrite E1, E2 in *.
  set (x4 := l * l - x1 - x1) in *. set (y4 := l * (x1 - x4) - y1).
  set (x5 := m * m - x1 - x2) in *. set (y5 := m * (x1 - x5) - y1).
  change (chord l x1 y1 x1) with (Aff x4 y4) in *. change (chord m x1 y1 x2) with (Aff x5 y5) in *.
  specialize (HPP x4 y4 eq_refl). specialize (HPR x5 y5 eq_refl).
  assert (Hrel : 2 * y1 * (l - m) = (x2 - x1) * (m * m - x2 - 2 * x1)).
  { assert (E : l * (y1 + y1) - (x1 * x1 + x1 * x1 + x1 * x1) = m * (y1 + y2) - (x1 * x1 + x1 * x2 + x2 * x2)) by congruence.
    rewrite Hy2 in E.
    assert (E0 : 2 * y1 * (l - m) - ((x2 - x1) * (m * m - x2 - 2 * x1))
      = (l * (y1 + y1) - (x1 * x1 + x1 * x1 + x1 * x1)) -
        (m * (y1 + (y1 + m * (x2 - x1))) - (x1 * x1 + x1 * x2 + x2 * x2))) by ring.
    apply fsub_eq0. rewrite E0, E. ring. }
  assert (Hlm : l <> m).
  { intros <-.
    assert (E0 : (x2 - x1) * (l * l - x2 - 2 * x1) = 0) by (rewrite <- Hrel; ring).
    apply fmul_eq0 in E0 as [E0|E0].
    - apply fsub_eq0 in E0. auto.
    - apply HPR. unfold x5. symmetry. apply fsub_eq0. rewrite <- E0. ring. }
  assert (Hlm' : l - m <> 0) by now apply fsub_ne0.
  assert (Ey1 : y1 = ((x2 - x1) * (m * m - x2 - 2 * x1)) / (2 * (l - m))).
  { rewrite <- Hrel. field. auto. }
  assert (H43 : x2 - x4 <> 0) by (apply fsub_ne0; auto).
  assert (H15 : x5 - x1 <> 0) by (apply fsub_ne0; auto).
  unfold add at 1 2, P, R.
  destruct (F_dec x4 x2) as [E|_]; [contradiction|]. destruct (F_dec x1 x5) as [E|_]; [contradiction|].
  unfold chord. unfold y5, y4, x4, x5 in *. rewrite Hy2, Ey1.
  f_equal; field; repeat split; auto.
Qed.

Lemma eq_abscissa P Q x y y' : on P -> on Q -> P = Aff x y -> Q = Aff x y' -> P = Q \/ P = opp Q.
Proof. intros HP HQ -> ->. destruct (same_x x y y' HP HQ) as [ -> | -> ]; [left|right]; reflexivity. Qed.
Lemma abscissa_ne P Q x y x' y' : on P -> on Q -> P = Aff x y -> Q = Aff x' y' -> P <> Q -> P <> opp Q -> x <> x'.
Proof. intros HP HQ E E' N N' ->. destruct (eq_abscissa P Q x' y y' HP HQ E E'); auto. Qed.

(** associativity when some pair is opposite *)
Lemma assoc_opp12 P Q R : on P -> on Q -> on R -> P = opp Q -> add (add P Q) R = add P (add Q R).
Proof.
  intros HP HQ HR ->. rewrite (add_comm (opp Q) Q), add_opp_r by auto. cbn [add].
  rewrite (add_comm (opp Q)) by auto using on_add. rewrite (add_comm Q R) by auto. symmetry. now apply add_sub.
Qed.
Lemma assoc_opp_sum P Q R : on P -> on Q -> on R -> add P Q = opp R -> add (add P Q) R = add P (add Q R).
Proof.
  intros HP HQ HR E. assert (ER : R = opp (add P Q)) by (rewrite E; symmetry; apply opp_opp).
  rewrite E, (add_comm (opp R)), add_opp_r by auto using on_opp.
  assert (E2 : add Q R = opp P).
  { rewrite ER. rewrite <- (opp_opp Q) at 1. rewrite <- opp_add by auto using on_opp, on_add. f_equal.
    rewrite add_comm by auto using on_opp, on_add. now apply add_sub. }
  rewrite E2. symmetry. apply add_opp_r.
Qed.
Lemma assoc_sym P Q R : on P -> on Q -> on R ->
  add (add R Q) P = add R (add Q P) -> add (add P Q) R = add P (add Q R).
Proof.
  intros HP HQ HR E. rewrite (add_comm (add P Q)), (add_comm P (add Q R)) by auto using on_add.
  rewrite (add_comm P Q), (add_comm Q R) by auto. now symmetry.
Qed.

Lemma assoc_double P R : on P -> on R -> add (add P P) R = add P (add P R).
Proof.
  intros HP HR.
  destruct (point_dec P (opp P)) as [E|N1]; [now apply assoc_opp12|].
  destruct (point_dec P (opp R)) as [E|N2].
  { apply assoc_sym; auto. apply assoc_opp12; auto. rewrite E. symmetry. apply opp_opp. }
  destruct (point_dec (add P P) (opp R)) as [E|N3]; [now apply assoc_opp_sum|].
  destruct (point_dec P (opp (add P R))) as [E|N4].
  { apply assoc_sym; auto. apply assoc_opp_sum; auto. rewrite add_comm by auto. rewrite E at 2. symmetry. apply opp_opp. }
  destruct P as [|x1 y1]; [reflexivity|]. destruct R as [|x2 y2]; [now rewrite !add_inf_r|].
  set (P := Aff x1 y1) in *. set (R := Aff x2 y2) in *.
  destruct (point_dec P R) as [E|N5]; [rewrite <- E; apply add_comm; auto using on_add|].
  assert (H12 : x1 <> x2) by (eapply (abscissa_ne P R); eauto; reflexivity).
  assert (N6 : P <> add P R). { intros E. assert (R = Inf) by (apply (add_self_inf P R); auto). discriminate. }
  destruct (point_dec (add P P) R) as [E|N7].
  - (* R = 2P *)
    set (S := add P P) in *. assert (HS : on S) by (apply on_add; auto). rewrite <- E.
    assert (ESP : add S (opp P) = P) by (apply add_sub; auto).
    destruct (point_dec (add S S) (opp P)) as [E40|N80].
    + (* 4P = -P *)
      rewrite E40.
      assert (EP : P = add (opp S) (opp S)) by (rewrite <- opp_add by auto; rewrite E40; symmetry; apply opp_opp).
      assert (E3 : add P S = opp S). { rewrite EP at 1. rewrite <- (opp_opp S) at 3. apply add_sub; auto using on_opp. }
      rewrite E3. rewrite <- (opp_opp P) at 2. rewrite <- opp_add by auto using on_opp. f_equal.
      rewrite add_comm by auto using on_opp. now symmetry.
    + (* (S+S)+(-P) = S+(S+(-P)) = S+P *)
      assert (HoP : on (opp P)) by now apply on_opp.
      assert (K : add (add S S) (opp P) = add S (add S (opp P))).
      { destruct (point_dec S (opp S)) as [Es|Ns]; [now apply assoc_opp12|].
        destruct (point_dec (add S S) P) as [E5|N9].
        { apply assoc_opp_sum; auto. rewrite E5. symmetry; apply opp_opp. }
        destruct S as [|xs ys] eqn:ES; [reflexivity|].
        apply (assoc_double_generic xs ys x1 (- y1)); auto.
        - change (xs <> x1). eapply (abscissa_ne (Aff xs ys) P); eauto; try reflexivity.
          + intros E5. apply N1. assert (P = Inf); [|discriminate]. apply (add_self_inf P P); auto. unfold S in ES. congruence.
          + intros E5. assert (Epr : add P R = Inf). { rewrite <- E. rewrite E5. apply add_opp_r. }
            apply N2. apply add_inf_opp; auto.
        - intros x y Exy. eapply (abscissa_ne (add (Aff xs ys) (Aff xs ys)) (opp P)); eauto; try reflexivity; auto using on_add.
          rewrite opp_opp. exact N9.
        - intros x y Exy. change (Aff x1 (- y1)) with (opp P) in Exy. rewrite ESP in Exy.
          eapply (abscissa_ne (Aff xs ys) P); eauto; try reflexivity.
          + intros E5. assert (P = Inf); [|discriminate]. apply (add_self_inf P P); auto. unfold S in ES. congruence.
          + intros E5. assert (Epr : add P R = Inf). { rewrite <- E. rewrite E5. apply add_opp_r. }
            apply N2. apply add_inf_opp; auto. }
      rewrite ESP in K. rewrite <- (sub_add (add S S) P) by auto using on_add. rewrite K.
      rewrite (add_comm S P) by auto. apply add_comm; auto using on_add.
  - apply (assoc_double_generic x1 y1 x2 y2); auto.
    + intros x y Exy. eapply (abscissa_ne (add P P) R); eauto; try reflexivity. auto using on_add.
    + intros x y Exy. eapply (abscissa_ne P (add P R)); eauto; try reflexivity. auto using on_add.
Qed.

Theorem add_assoc P Q R : on P -> on Q -> on R -> add (add P Q) R = add P (add Q R).
Proof.
  intros HP HQ HR.
  destruct (point_dec P (opp Q)) as [E|N1]; [now apply assoc_opp12|].
  destruct (point_dec Q (opp R)) as [E|N2].
  { apply assoc_sym; auto. apply assoc_opp12; auto. rewrite E. symmetry. apply opp_opp. }
  destruct (point_dec (add P Q) (opp R)) as [E|N3]; [now apply assoc_opp_sum|].
  destruct (point_dec P (opp (add Q R))) as [E|N4].
  { apply assoc_sym; auto. apply assoc_opp_sum; auto. rewrite add_comm by auto. rewrite E. symmetry. apply opp_opp. }
  destruct (point_dec P Q) as [->|M1]; [now apply assoc_double|].
  destruct (point_dec Q R) as [->|M2]. { apply assoc_sym; auto. now apply assoc_double. }
  destruct (point_dec P R) as [->|M0]. { rewrite (add_comm R Q) by auto. apply add_comm; auto using on_add. }
  assert (L : forall P Q, on P -> on Q -> add (add P Q) (add P Q) = add P (add Q (add P Q))).
  { clear P Q R HP HQ HR N1 N2 N3 N4 M1 M2 M0. intros P Q HP HQ. set (S := add P Q). assert (HS : on S) by (now apply on_add).
    rewrite <- (sub_add (add S S) P) by auto using on_add.
    rewrite (assoc_double S (opp P)) by auto using on_opp.
    assert (E : add S (opp P) = Q) by (unfold S; rewrite (add_comm P Q) by auto; now apply add_sub).
    rewrite E. rewrite (add_comm S Q) by auto. apply add_comm; auto using on_add. }
  destruct (point_dec (add P Q) R) as [E|M3]. { rewrite <- E. now apply L. }
  destruct (point_dec P (add Q R)) as [E|M4].
  { apply assoc_sym; auto. rewrite E. rewrite (add_comm Q R) by auto. now apply L. }
  destruct P as [|x1 y1]; [reflexivity|]. destruct Q as [|x2 y2]; [reflexivity|].
  destruct R as [|x3 y3]; [now rewrite !add_inf_r|].
  apply assoc_generic; auto.
  - eapply (abscissa_ne (Aff x1 y1) (Aff x2 y2)); eauto.
  - eapply (abscissa_ne (Aff x2 y2) (Aff x3 y3)); eauto.
  - intros x y Exy. eapply (abscissa_ne (add (Aff x1 y1) (Aff x2 y2)) (Aff x3 y3)); eauto. auto using on_add.
  - intros x y Exy. eapply (abscissa_ne (Aff x1 y1) (add (Aff x2 y2) (Aff x3 y3))); eauto. auto using on_add.
Qed.
End EC.

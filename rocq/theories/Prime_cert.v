(** Machine-checked primality of the SM2 field prime p and group order n (GB/T 32918.5), by N-1 / N+1 certificates. *)
From Coq Require Import ZArith List Znumtheory Lia Bool.
From Verif Require Import NT FastZ.
Import ListNotations.
Local Open Scope Z_scope.

Definition sm2_p : Z := 0xFFFFFFFEFFFFFFFFFFFFFFFFFFFFFFFFFFFFFFFF00000000FFFFFFFFFFFFFFFF.
Definition sm2_n : Z := 0xFFFFFFFEFFFFFFFFFFFFFFFFFFFFFFFF7203DF6B21C6052B53BBF40939D54123.

Lemma pr_84163 : prime 84163. Proof. apply prime_trial_ok. vm_compute. reflexivity. Qed.
Lemma pr1 : prime 2566129871.
Proof.
  apply (pm1_fast 2566129871 1051192517 84163 32 1840267921057 [84163] [384878019]).
  - vm_compute. reflexivity.
  - constructor; [exact pr_84163|]. constructor.
Qed.
Lemma pr_4129 : prime 4129. Proof. apply prime_trial_ok. vm_compute. reflexivity. Qed.
Lemma pr_487 : prime 487. Proof. apply prime_trial_ok. vm_compute. reflexivity. Qed.
Lemma pr2 : prime 258817049977.
Proof.
  apply (pm1_fast 258817049977 176776100783 2010823 38 74735467062749 [4129; 487] [91479513283; 247376734570]).
  - vm_compute. reflexivity.
  - constructor; [exact pr_4129|]. constructor; [exact pr_487|]. constructor.
Qed.
Lemma pr_9061163 : prime 9061163. Proof. apply prime_trial_ok. vm_compute. reflexivity. Qed.
Lemma pr3a : prime 5636460199499.
Proof.
  apply (pm1_fast 5636460199499 4290277013535 9061163 43 3514092165562819 [9061163] [4160555433268]).
  - vm_compute. reflexivity.
  - constructor; [exact pr_9061163|]. constructor.
Qed.
Lemma pr3 : prime 101456283590983.
Proof.
  apply (pm1_fast 101456283590983 262144 5636460199499 47 49978199688004056 [5636460199499] [84854782560495]).
  - vm_compute. reflexivity.
  - constructor; [exact pr3a|]. constructor.
Qed.
Lemma pr_17029 : prime 17029. Proof. apply prime_trial_ok. vm_compute. reflexivity. Qed.
Lemma pr4 : prime 6096383.
Proof.
  apply (pm1_fast 6096383 4970603 17029 23 2954932212 [17029] [5307024]).
  - vm_compute. reflexivity.
  - constructor; [exact pr_17029|]. constructor.
Qed.
Lemma pr5 : prime 44479210368001.
Proof.
  apply (pm1_fast 44479210368001 4420873416418 12192766 46 28499844977917951 [2; 6096383] [22239605184000; 36891430014563]).
  - vm_compute. reflexivity.
  - constructor; [exact prime_2|]. constructor; [exact pr4|]. constructor.
Qed.
Lemma pr_65537 : prime 65537. Proof. apply prime_trial_ok. vm_compute. reflexivity. Qed.
Lemma pr6 : prime 4278255361.
Proof.
  apply (pm1_fast 4278255361 807430181 65537 32 1103806595070 [65537] [4169353188]).
  - vm_compute. reflexivity.
  - constructor; [exact pr_65537|]. constructor.
Qed.
Lemma prR : prime 18120927127286907576013935251791662753637.
Proof.
  apply (pm1_fast 18120927127286907576013935251791662753637 15935199829796520114741765651927957306840 260349999923468622553193 134 6700363889288857453644303232937023404392801 [101456283590983; 2566129871] [14688814756600105642635619564183951431117; 15475331517521606410906810706943351643563]).
  - vm_compute. reflexivity.
  - constructor; [exact pr3|]. constructor; [exact pr1|]. constructor.
Qed.
Lemma prQ : prime 125197554539772723432468576818475380947471091418362477724521.
Proof.
  apply (pm1_fast 125197554539772723432468576818475380947471091418362477724521 43705879977610153852046537724007259923016710225098337664489 18120927127286907576013935251791662753637 197 82501607561881895531201369359105234423959752810462409659233423 [18120927127286907576013935251791662753637] [113660731571207093131579154571942112473636592621561183211505]).
  - vm_compute. reflexivity.
  - constructor; [exact prR|]. constructor.
Qed.
Lemma prN : prime 115792089210356248756420345214020892766061623724957744567843809356293439045923.
Proof.
  apply (pm1_fast 115792089210356248756420345214020892766061623724957744567843809356293439045923 26557920684321106406491020282831445287915141300924165215768893342908498698298 125197554539772723432468576818475380947471091418362477724521 256 29642774851654692376831673994291994967548242000594633155845938821386225255555102 [125197554539772723432468576818475380947471091418362477724521] [59373569277660848476084151545954521777439633813469367869240062331103347591079]).
  - vm_compute. reflexivity.
  - constructor; [exact prQ|]. constructor.
Qed.
Theorem sm2_n_prime : prime sm2_n.
Proof. exact prN. Qed.

(** division-free reduction modulo p = 2^256 - 2^224 - 2^96 + 2^64 - 1 *)
Definition redp (z : Z) : Z :=
  let h := Z.shiftr z 256 in
  let h1 := Z.shiftr h 32 in let h2 := Z.shiftr h1 32 in let h3 := Z.shiftr h2 32 in let h4 := Z.shiftr h3 32 in
  let h5 := Z.shiftr h4 32 in let h6 := Z.shiftr h5 32 in let h7 := Z.shiftr h6 32 in
  let t := h5 + h6 + h7 in
  let q := h + h1 + h2 + h3 + h4 + t + t in
  let r := z - (Z.shiftl q 256 - Z.shiftl q 224 - Z.shiftl q 96 + Z.shiftl q 64 - q) in
  let q := Z.shiftr r 256 in
  r - (Z.shiftl q 256 - Z.shiftl q 224 - Z.shiftl q 96 + Z.shiftl q 64 - q).
Lemma sparse_p q : Z.shiftl q 256 - Z.shiftl q 224 - Z.shiftl q 96 + Z.shiftl q 64 - q = q * sm2_p.
Proof. rewrite !Z.shiftl_mul_pow2 by lia. unfold sm2_p. ring. Qed.
Lemma redp_ok z : redp z mod sm2_p = z mod sm2_p.
Proof.
  unfold redp. cbv zeta. rewrite !sparse_p, !sub_mul_mod. reflexivity.
Qed.
(** the N+1 certificate for p: u + v sqrt 13 has norm 1 and order exactly 2^64 q1 q2 *)
Definition pc_u := 52121526770589838321027042550168859497863661983753735132396214669639687393494.
Definition pc_v := 5041595966188906894961751558826602137826936057564387886744600488327396734412.
Definition pc_i1 := 75913735717265144371093501408407350941713136854650916099228060656166188423840.
Definition pc_i2 := 69533317049877203741537027239609318788024646523151904786812620305469221473890.
Definition pc_i0 := (sm2_p - 1) / 2.
Definition pc_q1 : positive := 44479210368001.
Definition pc_q2 : positive := 4278255361.
Definition pc_check : bool :=
  let A := Nat.iter 63 (tdbl redp) pc_u in
  let A1 := fst (clad redp A pc_q1) in
  let A12 := fst (clad redp A1 pc_q2) in
  let C1 := tdbl redp A1 in
  let C2 := fst (clad redp (tdbl redp A) pc_q2) in
  ((A12 + 1) mod sm2_p =? 0) && ((mulr redp (C2 - 1) pc_i1 - 1) mod sm2_p =? 0) && ((mulr redp (C1 - 1) pc_i2 - 1) mod sm2_p =? 0).
Lemma pc_check_ok : pc_check = true. Proof. vm_compute. reflexivity. Qed.
Lemma pc_norm : ((pc_u * pc_u - 13 * (pc_v * pc_v)) mod sm2_p =? 1) = true. Proof. vm_compute. reflexivity. Qed.
Lemma pc_13 : ((13 * 71256670283296153080874058593243626317692525533491810125797657805101344610461) mod sm2_p =? 1) = true. Proof. vm_compute. reflexivity. Qed.
Definition pc_M : Z := 2 ^ 64 * (Zpos pc_q1 * Zpos pc_q2).
Definition pc_fs : list Z := repeat 2 64 ++ [Zpos pc_q1; Zpos pc_q2].
Lemma pc_M_eq : pc_M = 2 ^ 64 * (Zpos pc_q1 * Zpos pc_q2). Proof. reflexivity. Qed.
Lemma pc_small : (2 <? sm2_p) && (4 * sm2_p <? pc_M * pc_M) && (pc_M =? fold_right Z.mul 1 pc_fs) && (0 <? pc_M) &&
  (pc_M / 2 =? 2 ^ 63 * (Zpos pc_q1 * Zpos pc_q2)) && (pc_M / Zpos pc_q1 =? 2 ^ 64 * Zpos pc_q2) && (pc_M / Zpos pc_q2 =? 2 ^ 64 * Zpos pc_q1)
  && (((-1 - 1) * pc_i0) mod sm2_p =? 1) = true.
Proof. vm_compute. reflexivity. Qed.
#[local] Opaque pc_M sm2_p pc_q1 pc_q2 pc_u pc_v pc_i1 pc_i2 pc_i0.
Theorem sm2_p_prime : prime sm2_p.
Proof.
  pose proof pc_small as S. rewrite !andb_true_iff, !Z.ltb_lt, !Z.eqb_eq in S.
  destruct S as [[[[[[[S1 S2] S3] S4] S5] S6] S7] S8].
  assert (SM : pc_M = 2 ^ 64 * (Zpos pc_q1 * Zpos pc_q2)) by exact pc_M_eq.
  assert (C : forall x y k, x mod sm2_p = y mod sm2_p -> cheb x k mod sm2_p = cheb y k mod sm2_p) by (intros; now apply cheb_cong).
  pose proof pc_check_ok as K. unfold pc_check in K. cbv zeta in K.
  set (A := Nat.iter 63 (tdbl redp) pc_u) in K. set (A1 := fst (clad redp A pc_q1)) in K.
  set (A12 := fst (clad redp A1 pc_q2)) in K. set (C1 := tdbl redp A1) in K. set (C2 := fst (clad redp (tdbl redp A) pc_q2)) in K.
  rewrite !andb_true_iff, !Z.eqb_eq in K. destruct K as [[K1 K2] K3].
  apply mod_one in K2; [|exact S1]. apply mod_one in K3; [|exact S1]. rewrite (mulr_ok sm2_p _ redp_ok) in K2, K3.
  set (k1 := Pos.to_nat pc_q1) in *. set (k2 := Pos.to_nat pc_q2) in *.
  assert (Hh : exists h, Z.of_nat h = 2 ^ 63 /\ A mod sm2_p = cheb pc_u h mod sm2_p).
  { exists (Nat.pow 2 63). split; [rewrite Nat2Z.inj_pow; reflexivity|]. exact (tdbl_iter sm2_p redp redp_ok pc_u 63). }
  destruct Hh as (h & Hh & EA). clearbody A.
  assert (EA' : tdbl redp A mod sm2_p = cheb pc_u (h + h) mod sm2_p) by exact (tdbl_ok sm2_p redp redp_ok pc_u A h EA).
  assert (EA1 : A1 mod sm2_p = cheb pc_u (k1 * h) mod sm2_p).
  { unfold A1. rewrite (proj1 (clad_ok sm2_p redp redp_ok A pc_q1)). rewrite <- cheb_comp. now apply C. }
  assert (EA12 : A12 mod sm2_p = cheb pc_u (k2 * (k1 * h)) mod sm2_p).
  { unfold A12. rewrite (proj1 (clad_ok sm2_p redp redp_ok A1 pc_q2)). rewrite <- cheb_comp. now apply C. }
  assert (EC1 : C1 mod sm2_p = cheb pc_u (k1 * h + k1 * h) mod sm2_p) by (unfold C1; apply (tdbl_ok sm2_p redp redp_ok); exact EA1).
  assert (EC2 : C2 mod sm2_p = cheb pc_u (k2 * (h + h)) mod sm2_p).
  { unfold C2. rewrite (proj1 (clad_ok sm2_p redp redp_ok (tdbl redp A) pc_q2)). rewrite <- cheb_comp. now apply C. }
  clearbody C1 C2 A12. clearbody A1.
  assert (Hk1 : Z.of_nat k1 = Zpos pc_q1) by apply positive_nat_Z.
  assert (Hk2 : Z.of_nat k2 = Zpos pc_q2) by apply positive_nat_Z. clearbody k1 k2.
  assert (P63 : 2 ^ 64 = 2 * 2 ^ 63) by reflexivity. rewrite P63 in *. rewrite <- Hh in *.
  assert (N2 : Z.to_nat (pc_M / 2) = (k2 * (k1 * h))%nat).
  { rewrite S5. apply Nat2Z.inj. rewrite Z2Nat.id by lia. rewrite !Nat2Z.inj_mul. rewrite ?Hk1, ?Hk2. ring. }
  assert (N1 : Z.to_nat (pc_M / Zpos pc_q1) = (k2 * (h + h))%nat).
  { rewrite S6. apply Nat2Z.inj. rewrite Z2Nat.id by lia. rewrite !Nat2Z.inj_mul, Nat2Z.inj_add. rewrite ?Hk1, ?Hk2. ring. }
  assert (N3 : Z.to_nat (pc_M / Zpos pc_q2) = (k1 * h + k1 * h)%nat).
  { rewrite S7. apply Nat2Z.inj. rewrite Z2Nat.id by lia. rewrite !Nat2Z.inj_add, !Nat2Z.inj_mul. rewrite ?Hk1, ?Hk2. ring. }
  assert (NM : Z.to_nat pc_M = (k2 * (k1 * h) + k2 * (k1 * h))%nat).
  { rewrite SM. apply Nat2Z.inj. rewrite Z2Nat.id by lia. rewrite !Nat2Z.inj_add, !Nat2Z.inj_mul. rewrite ?Hk1, ?Hk2. ring. }
  assert (EM1 : cheb pc_u (k2 * (k1 * h)) mod sm2_p = (-1) mod sm2_p).
  { rewrite <- EA12. apply Z.mod_divide in K1 as [c Hc]; [|lia]. replace A12 with (-1 + c * sm2_p) by lia. apply Z_mod_plus_full. }
  refine (pp1_prime sm2_p 13 (pc_u, pc_v) pc_M pc_fs S1 S2 S3 S4 _ _ _ _ _).
  - apply Forall_app. split; [apply Forall_forall; intros x Hx; apply repeat_spec in Hx; subst; exact prime_2|].
    constructor; [exact pr5|constructor; [exact pr6|constructor]].
  - cbn [fst snd]. apply Z.eqb_eq. exact pc_norm.
  - eexists. apply Z.eqb_eq. exact pc_13.
  - cbn [fst]. rewrite NM, cheb_double. rewrite Zminus_mod, (Zmult_mod 2), (Zmult_mod (cheb _ _) (cheb _ _)), EM1, <- (Zmult_mod (-1) (-1)), <- (Zmult_mod 2), <- Zminus_mod.
    apply Z.mod_small. lia.
  - cbn [fst]. intros l Hl. apply in_app_iff in Hl as [Hl|[<-|[<-|[]]]].
    + apply repeat_spec in Hl. subst l. exists pc_i0. rewrite N2. rewrite Zmult_mod, Zminus_mod, EM1, <- Zminus_mod, <- Zmult_mod. exact S8.
    + exists pc_i1. rewrite N1. rewrite Zmult_mod, Zminus_mod, <- EC2, <- Zminus_mod, <- Zmult_mod. exact K2.
    + exists pc_i2. rewrite N3. rewrite Zmult_mod, Zminus_mod, <- EC1, <- Zminus_mod, <- Zmult_mod. exact K3.
Qed.

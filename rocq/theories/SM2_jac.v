(** Fast (Jacobian) evaluation of scalar multiples inside Coq, and: the order of the SM2 base point is the prime n. *)
From Coq Require Import ZArith Lia Znumtheory List Field Zpow_facts Bool.
From Verif Require Import NT FastZ Prime_cert Fp EC_group SM2_curve_spec SM2_group Jacobian.
Import ListNotations.
Local Open Scope Z_scope.
Local Notation p := sm2_p.
Local Notation n := sm2_n.
Local Notation F := (Fp p).
Local Notation mk := (mkf p p_gt3).
Local Notation f0 := (F0 p p_gt3). Local Notation f1 := (F1 p p_gt3).
Local Notation fadd := (Fadd p p_gt3). Local Notation fmul := (Fmul p p_gt3). Local Notation fsub := (Fsub p p_gt3).
Local Notation fopp := (Fopp p p_gt3). Local Notation fdiv := (Fdiv p p_gt3). Local Notation finv := (Finv p p_gt3).
Local Notation eadd := (add F f1 fadd fmul fsub fopp fdiv (F_dec p) fa).

(** ** Fast scalar multiplication (for evaluation inside Coq only) *)
Definition jac : Type := Z * Z * Z.
Definition jdblZ (j : jac) : jac :=
  let '(X, Y, Z) := j in
  let ZZ := (Z * Z) mod p in
  let M := (3 * ((X - ZZ) * (X + ZZ))) mod p in
  let YY := (Y * Y) mod p in
  let S := (4 * (X * YY)) mod p in
  let X' := (M * M - 2 * S) mod p in
  (X', (M * (S - X') - 8 * (YY * YY)) mod p, (2 * (Y * Z)) mod p).
Definition jaddZ (j k : jac) : jac :=
  let '(X1, Y1, Z1) := j in let '(X2, Y2, Z2) := k in
  if Z1 mod p =? 0 then k else if Z2 mod p =? 0 then j else
  let ZZ1 := (Z1 * Z1) mod p in let ZZ2 := (Z2 * Z2) mod p in
  let U1 := (X1 * ZZ2) mod p in
  let S1 := (Y1 * ((ZZ2 * Z2) mod p)) mod p in
  let H := (X2 * ZZ1 - U1) mod p in
  let R := (Y2 * ((ZZ1 * Z1) mod p) - S1) mod p in
  if H =? 0 then if R =? 0 then jdblZ j else (1, 1, 0) else
  let HH := (H * H) mod p in let HHH := (HH * H) mod p in let V := (U1 * HH) mod p in
  let X3 := (R * R - HHH - 2 * V) mod p in
  (X3, (R * (V - X3) - S1 * HHH) mod p, (H * ((Z1 * Z2) mod p)) mod p).
Fixpoint jmul (m : positive) (j : jac) : jac :=
  match m with
  | xH => j
  | xO m' => jdblZ (jmul m' j)
  | xI m' => jaddZ (jdblZ (jmul m' j)) j
  end.
Definition jout (j : jac) : pt :=
  let '(X, Y, Z) := j in
  if Z mod p =? 0 then Oinf else
  let zi := zinv p Z in let zi2 := (zi * zi) mod p in Pt ((X * zi2) mod p) ((Y * ((zi2 * zi) mod p)) mod p).
Definition smul_fast (k : Z) (P : pt) : pt :=
  match P with
  | Oinf => Oinf
  | Pt x y => match k with Z0 => Oinf | Zpos m => jout (jmul m (x, y, 1)) | Zneg m => pneg (jout (jmul m (x, y, 1))) end
  end.

Definition jF (j : jac) : point F := let '(X, Y, Z) := j in
  jtoaff F f0 fmul fdiv (F_dec p) (mk X) (mk Y) (mk Z).
Lemma mk_zero z : mk z = f0 <-> z mod p = 0.
Proof. unfold F0. split; [intros E; apply mkf_inj in E; now rewrite Zmod_0_l in E|intros E; apply mkf_eq; now rewrite Zmod_0_l]. Qed.
Lemma mk_const2 : mk 2 = fadd f1 f1. Proof. unfold F1. now rewrite mkf_add. Qed.
Lemma mk_const3 : mk 3 = fadd (fadd f1 f1) f1. Proof. unfold F1. now rewrite !mkf_add. Qed.
Lemma mk_const4 : mk 4 = fmul (fadd f1 f1) (fadd f1 f1). Proof. unfold F1. now rewrite !mkf_add, mkf_mul. Qed.
Lemma mk_const8 : mk 8 = fmul (fmul (fadd f1 f1) (fadd f1 f1)) (fadd f1 f1). Proof. unfold F1. now rewrite !mkf_add, !mkf_mul. Qed.
Ltac mkpush := repeat rewrite ?mkf_mod, <- ?mkf_add, <- ?mkf_mul, <- ?mkf_sub; rewrite ?mk_const2, ?mk_const3, ?mk_const4, ?mk_const8.
Lemma fa_m3 : fa = fopp (fadd (fadd f1 f1) f1).
Proof.
  unfold fa, F1. rewrite !mkf_add, mkf_opp. apply mkf_eq. rewrite sm2_a_val.
  replace (p - 3) with (- (1 + 1 + 1) + 1 * p) by ring. apply Z_mod_plus_full.
Qed.
Add Field Fpf : FT.
Lemma jdblZ_ok j : jF (jdblZ j) = eadd (jF j) (jF j).
Proof.
  destruct j as [[X Y] Z]. unfold jdblZ, jF. cbv zeta.
  rewrite <- (jdbl_ok F f0 f1 fadd fmul fsub fopp fdiv finv FT (F_dec p) fa Ftwo fa_m3).
  mkpush. unfold jdX, jdY, jdZ. unfold jdX. f_equal.
Qed.
Local Definition same_xF := same_x F f0 f1 fadd fmul fsub fopp fdiv finv FT (F_dec p) fa fb.
Local Notation eon := (on F fadd fmul fa fb).
Lemma jaddZ_ok j k : eon (jF j) -> eon (jF k) -> jF (jaddZ j k) = eadd (jF j) (jF k).
Proof.
  destruct j as [[X1 Y1] Z1], k as [[X2 Y2] Z2]. intros O1 O2. unfold jaddZ.
  destruct (Z.eqb_spec (Z1 mod p) 0) as [E1|N1].
  { unfold jF at 2. unfold jtoaff. destruct (F_dec p (mk Z1) f0) as [|N]; [reflexivity|]. elim N. now apply mk_zero. }
  destruct (Z.eqb_spec (Z2 mod p) 0) as [E2|N2].
  { unfold jF at 3. unfold jtoaff. destruct (F_dec p (mk Z2) f0) as [|N]; [symmetry; apply add_inf_r|]. elim N. now apply mk_zero. }
  cbv zeta. rewrite <- mk_zero in N1, N2.
  set (H := (X2 * ((Z1 * Z1) mod p) - (X1 * ((Z2 * Z2) mod p)) mod p) mod p).
  set (R := (Y2 * (((Z1 * Z1) mod p * Z1) mod p) - (Y1 * (((Z2 * Z2) mod p * Z2) mod p)) mod p) mod p).
  assert (EH : mk H = jH F fmul fsub (mk X1) (mk Z1) (mk X2) (mk Z2)).
  { unfold H. mkpush. unfold jH. ring. }
  assert (ER : mk R = jR F fmul fsub (mk Y1) (mk Z1) (mk Y2) (mk Z2)).
  { unfold R. mkpush. unfold jR. ring. }
  assert (HH : H mod p = H) by (unfold H; apply Zmod_mod). assert (RR : R mod p = R) by (unfold R; apply Zmod_mod).
  destruct (Z.eqb_spec H 0) as [H0|HN].
  - assert (EH0 : jH F fmul fsub (mk X1) (mk Z1) (mk X2) (mk Z2) = f0) by (rewrite <- EH, H0; reflexivity).
    destruct (jHzero F f0 f1 fadd fmul fsub fopp fdiv finv FT (F_dec p) _ (mk Y1) _ _ (mk Y2) _ N1 N2 EH0) as (x & y1 & y2 & P1 & P2).
    destruct (Z.eqb_spec R 0) as [R0|RN].
    + rewrite jdblZ_ok. f_equal. unfold jF. apply (jeq F f0 f1 fadd fmul fsub fopp fdiv finv FT (F_dec p)); auto.
      split; auto. rewrite <- ER, R0. reflexivity.
    + unfold jF in O1, O2 |- *. rewrite P1 in O1 |- *. rewrite P2 in O2 |- *.
      destruct (same_xF x y1 y2 O1 O2) as [E|E].
      * exfalso. apply RN. rewrite <- RR. apply mk_zero. rewrite ER.
        assert (EE : jtoaff F f0 fmul fdiv (F_dec p) (mk X1) (mk Y1) (mk Z1) = jtoaff F f0 fmul fdiv (F_dec p) (mk X2) (mk Y2) (mk Z2)) by congruence.
        apply (jeq F f0 f1 fadd fmul fsub fopp fdiv finv FT (F_dec p)) in EE; tauto.
      * subst y1. transitivity (Inf F).
        -- unfold jtoaff. destruct (F_dec p (mk 0) f0) as [|N]; [reflexivity|elim N; reflexivity].
        -- symmetry. cbn [add]. destruct (F_dec p x x) as [_|N]; [|congruence]. destruct (F_dec p (fopp y2) (fopp y2)); congruence.
  - unfold jF. rewrite <- (jadd_ok F f0 f1 fadd fmul fsub fopp fdiv finv FT (F_dec p) fa); auto.
    2:{ rewrite <- EH, mk_zero. congruence. }
    mkpush. rewrite EH, ER. unfold jaX, jaY, jaZ, jaX. f_equal; ring.
Qed.
Lemma jmul_ok m j : eon (jF j) -> forall P, canon P -> on_curve P -> jF j = ptF P -> jF (jmul m j) = ptF (nmul (Pos.to_nat m) P).
Proof.
  intros Oj P cP oP E.
  induction m as [m IH|m IH|]; cbn [jmul].
  - assert (D : jF (jdblZ (jmul m j)) = ptF (nmul (Pos.to_nat m + Pos.to_nat m) P)).
    { rewrite jdblZ_ok, IH, nmul_add by auto. rewrite ptF_add; auto using on_curve_canon, on_nmul. }
    rewrite jaddZ_ok; auto.
    + rewrite D, E. rewrite <- ptF_add by auto using on_curve_canon, on_nmul. f_equal.
      rewrite padd_comm by auto using on_nmul. rewrite <- nmul_S. f_equal. lia.
    + rewrite D. apply on_curve_F. now apply on_nmul.
  - rewrite jdblZ_ok, IH. rewrite <- ptF_add by auto using on_curve_canon, on_nmul. rewrite <- nmul_add by auto. do 2 f_equal. lia.
  - rewrite E. change (nmul (Pos.to_nat 1) P) with (padd P Oinf). now rewrite padd_Oinf_r.
Qed.
Lemma mk_1 : mk 1 = f1. Proof. reflexivity. Qed.
Lemma jF_affine x y : jF (x, y, 1) = ptF (Pt x y).
Proof. unfold jF, ptF. rewrite mk_1. exact (jtoaff_one F f0 f1 fadd fmul fsub fopp fdiv finv FT (F_dec p) (mk x) (mk y)). Qed.
Lemma jout_ok j : ptF (jout j) = jF j.
Proof.
  destruct j as [[X Y] Z]. unfold jout, jF. destruct (Z.eqb_spec (Z mod p) 0) as [E|N]; rewrite <- mk_zero in *.
  - unfold jtoaff. destruct (F_dec p (mk Z) f0); [reflexivity|contradiction].
  - cbv zeta. cbn [ptF]. mkpush. rewrite <- !mkf_inv. exact (jtoaff_inv F f0 f1 fadd fmul fsub fopp fdiv finv FT (F_dec p) (mk X) (mk Y) (mk Z) N).
Qed.
Lemma jout_canon j : canon (jout j).
Proof. destruct j as [[X Y] Z]. unfold jout. destruct (_ =? _); cbn; auto. split; apply mod_range. Qed.
Theorem smul_fast_ok k P : on_curve P -> smul_fast k P = smul k P.
Proof.
  intros HP. destruct P as [|x y]; [symmetry; apply smul_inf|].
  assert (G : forall m, jout (jmul m (x, y, 1)) = nmul (Pos.to_nat m) (Pt x y)).
  { intros m. apply ptF_inj; [apply jout_canon|apply on_curve_canon, on_nmul; auto|].
    rewrite jout_ok. apply jmul_ok; auto using on_curve_canon; rewrite jF_affine; auto. apply on_curve_F; auto. }
  destruct k; cbn [smul smul_fast]; rewrite ?G; reflexivity.
Qed.

(** ** G has order n *)
Lemma G_on : on_curve pG.
Proof. Transparent sm2_p. unfold on_curve, pG. split; [|split]; [split; vm_compute; congruence|split; vm_compute; congruence|]. vm_compute. reflexivity. Qed.
#[global] Opaque sm2_p.
(** n G = O: an addition chain for (n+1) G with the slopes as certificates, ending at G itself. *)
Inductive step := Ds (l : Z) | As (l : Z) | Bs (l : Z).  (* double; add G; add -G *)
Definition kmulp (x y : Z) : Z := kmul kk x y.
Definition is0 (z : Z) : bool := let r := redp z in (r =? 0) || (r =? p).
Definition rng (z : Z) : bool := (0 <? z) && (z <? p).
Definition lstep (l x y x2 : Z) : Z * Z :=
  let x3 := redp (kmulp l l - x - x2) in (x3, redp (kmulp l (x - x3) - y)).
Definition sm2_gy' : Z := p - sm2_gy.
Definition cstep (s : step) (x y : Z) : option (Z * Z) :=
  match s with
  | Ds l => if rng y && is0 (kmulp l (2 * y) - 3 * kmulp x x + 3) then Some (lstep l x y x) else None
  | As l => if rng x && negb (x =? sm2_gx) && is0 (kmulp l (sm2_gx - x) - (sm2_gy - y)) then Some (lstep l x y sm2_gx) else None
  | Bs l => if rng x && negb (x =? sm2_gx) && is0 (kmulp l (sm2_gx - x) - (sm2_gy' - y)) then Some (lstep l x y sm2_gx) else None
  end.
Fixpoint cchain (l : list step) (x y : Z) : option (Z * Z) :=
  match l with
  | [] => Some (x, y)
  | s :: l => match cstep s x y with Some (x', y') => cchain l x' y' | None => None end
  end.
Definition sval (s : step) (k : Z) : Z := match s with Ds _ => 2 * k | As _ => k + 1 | Bs _ => k - 1 end.
Definition n_chain : list step :=
 [Ds 0xd6a6796a27dc312621ee1d7807d53f6f50deb90e13e36666ba6451403bb1c3b0;
 Ds 0x17e021789ef1ed9ec506f9ba33bba229384f476f5c75b6707bb4d0c32e74636b;
 Ds 0x65ea2030ab7144438852944b7c35697255cfc01dfe1aba9d4fcfe4fa492035ad;
 Ds 0x3cd69ab3144bad2d8d82e82f98a39c834463428456b2208fbde56366d461a775;
 Ds 0xe7898e699636224c4d62603458e31bea0b320c82b10ead86029143510cae635c;
 Ds 0x3763ac95cf9320c99a99ad110d56564ef1bf8c2d451dbda31a2a214ba88939be;
 Ds 0x6e6f70c3a8be8c5b61e72c47f3c7e5f0d4d0242497202f0584fa7b4953f79a36;
 Ds 0xbcb6587d806fcf667717f655cd067887f354d2b4c29deeef4581b0765d5fa542;
 Ds 0xd4a5aaa456573819ab27c90488592d393375b0f91b9fd5f062a874e174a6c46e;
 Ds 0x4dc1d69a151e7d3a101bf22c2133d0caf4da59b74d31a3ab2335edbb2a135e32;
 Ds 0x40ca369b9194350acf3a33ce561a4170b481768116730aa5f19b480eadba7957;
 Ds 0x6d6d126f8d46e23fd32f0760821bcef44aa695756a110963b9aa4ba0b5b16325;
 Ds 0x813c3539413a42fe03521182c718183f8bbb696ff749263fbfb71fa8960981c8;
 Ds 0xd13480efa48ba0b28efb8261087639fdf13d640c9dacb6efa113655b23892024;
 Ds 0x3f09977322a8149b84a8184a02b91a4083f6ae8c64103b895fffc0427b60dec4;
 Ds 0xac053077d7237b1b8cd074027756ac563b22d22bbc92c2518c129f03ec056983;
 Ds 0xb5894398730cca57f8011326a745450f06162af359540884cc633ccc800ef7c3;
 Ds 0xd602f967bb4d28bb66b07d0bcbd9faa25645ce6f28a49693cd4dbd2ce6d057cb;
 Ds 0x944cf398d62b2be63ef29bfff301d19c98378020a8bc9200f5b62c487f178a8c;
 Ds 0x670e68597c83922f43573d3d98a9fa0d8d29af8d4c002a51859ad70ceaf5fe31;
 Ds 0x537410f8908a7fd2fa20f4a73def0d78cf417de7dafc8558a850de73f2010c76;
 Ds 0x40f10156fd150187ee831f76c5a7f707489161150dfda3dfd0638ae1f3dbe63e;
 Ds 0x9bd9c37ef026903ec095dbf514cbbd29ceb6db21153ac9100e2a937794c51610;
 Ds 0x66e0882411e2c4ab488b64314f986984a8e0acfd62e0e0b411c97aa57d24538a;
 Ds 0x5bf1a07794ca7031159f0983307fd1c49d61d5ce4feb6d655ef89f8fcde46eb0;
 Ds 0xc43376cb81fe2d4e89d1d374c6b5a69f755c82356104d1c063ef265072f48d59;
 Ds 0x819d74ea3f702c34480a802136cba39096fd43569336664cb7c1aafa0d434137;
 Ds 0x798f9f73f5b4e06598a0fcbdaa3cd18fb335c4c948c97b8d1738fc429e2f19e1;
 Ds 0xe88cd74fdbec76a77403eee9a0999c54a4c7453845bca8a247237bd17548b6b;
 Ds 0x422a5ae31adee3511eea5b1294421782bd3c733f45aa977d5627b32f20fdd256;
 Ds 0xee97bec7a0811d36a0247119e85782a6f8f9f8d3396266057726c6c6ccabed16;
 Ds 0xdc584a5d3426080f079ad51cbd2a4ee1a562ed0b64a5c2d3f2baf51fb05c6450;
 Bs 0xc4e8ddd319ee8c6323e304700600a1f2f34bb522a5e26509de6867dd82bf2853;
 Ds 0x7e2fd54c389db33cd30375dcb5e99fade456543b5ed6f2243b3176f9d954491;
 Ds 0x2690ecf6b43af311735699c93f986fd4804cc09be0e4a9d9d5ba34a2e17b8d4;
 Ds 0x27d2c1151afb621c3525986ea46610787babe9b8accf9fe3b7dd2b2fa6792e5;
 Ds 0xe487ed7c8fb37bff10b51bd416d7c105efc73f59cce9bb43cf1fa3e679ce98e9;
 Ds 0x380dbb2fbc44e69528ebe954998df7846c55bea84c185014ead9993aebbe5b38;
 Ds 0x31052c606fe3d5b2446cc754164dae57e246b66d77853ae7a9b460fdb0322ad;
 Ds 0x30e391c6aad318e2f1c1ea43ca1bdf09de044dc8954318fecf29f996a5dec5a6;
 Ds 0xca28616940474cf176583ec2e50a0321a205d04660442aff578689bf626059ab;
 Ds 0xe694e2e165c8a995e883a65717cb04e43aba937577c5d6c3033ff8797d45694d;
 Ds 0x99fc93ef61a348aee9ef34cfce3b222b01d9f26b4c7ce0291e8c9a3350237509;
 Ds 0xac30ec9a9d39efcb2ee933287363ad81bcf3e46d34a756502bacea439226e4dd;
 Ds 0x7d54c15c172f09f8d6500a5bb635a2f08f02c29790e3d4f449316d41cbc174ab;
 Ds 0x145a8476a64f5ff75fd98783bfd45c54ca504c1b08f3be9765821ca3c245bbb6;
 Ds 0xab11738592ee1d3b92f3caec86518464ed7b9b0f455a6f0ecde86fc5e77f20c5;
 Ds 0x9f7fd070401e58f0e64396a5277e16321ccae184d023c8908603fb22acc6b977;
 Ds 0x490db4e497ea4f50836cc0a498f0cafd1f8978e2e944eeba0993ed20467026f7;
 Ds 0xd3ed42520e76dded4b672187b379fde035e8eb5589ff29f651359892546a514e;
 Ds 0x86976ce441bab36515d691fda92d118509cbed37468381b911c6e7e0bb01ae53;
 Ds 0xf83d8466fffe18e667040a2de851666ccc1c82633f5c9fdae794565145aa5398;
 Ds 0x63c041a1355b887bce0a14b1f89764b653c040bfd24892dceaa8c982c336d2a4;
 Ds 0xc92ba16f53e47ea6f1e304be39f45ef0c91c6938923beded1c07a0a50162edd8;
 Ds 0xaa3e7413ffd711f3c2e82fd155e0ba202d612f89c70f2b53297297fe4a75027e;
 Ds 0x141b9f6f9588b5793e87912a9f159d164ddfa13014fa039fd0841647b9326313;
 Ds 0x399d8d19cb23939ad04490c13a17237e2859a715ce52dae76f40aa4ade4dfd70;
 Ds 0x43ff17ec9d3a6f454a1c597f5390c62542ba25fe8394605dd52afce84b6742f9;
 Ds 0x21494906ffbdb2dfe07719867d793b70b13acc53b961aa99c5bf75450496cae8;
 Ds 0xc1370ec38f7118e68ee7f2c42f707405a78f0dadda1daa9194f338246348bc94;
 Ds 0xb4cc4cb690820d1ef619bed0b42efd1403db8cf265d8f09c5a91bb40934a8308;
 Ds 0x31b5213a0c05378af73ab37347781979aa815f7bf9160434b9fb2b5197a9d363;
 Ds 0xe5f502b67cb48a222866c5cccac3ab2f91bea360fe6138f4438d537c47f0830e;
 Ds 0xb0b8a02e88724bf50c77461c7185d1b40335f799ebfa4bcce70c3cc814221259;
 Ds 0x7961977c8add46557cdc45b50ba12b7fc721ae2b8e1a85e815654a4611ad8164;
 Ds 0xbc4f4a546da714aa452a9c59210f219d2ff012a0eb328275f8bdb131869747a3;
 Ds 0xb41f48593342e9ac901e1816c8952ba3505d404ebe33979bbfc0e4add10ea4c9;
 Ds 0xebe88ac074a6d6bd7ee172a0c89a718c3525f650d8cf38742516f4152628d2ed;
 Ds 0x89fa4690c9629e0283d37643a2a4ba50925e0f12a77b066acb2084fa55a7d48f;
 Ds 0xba70a7a1234a6ce963fafaee1070b0a359e837dbbb4534692bf688e175ab0de0;
 Ds 0x7605bcfa1a711cbb49ce4b84b3f4707bced0fb1a48216870bed98c92557cddb9;
 Ds 0x1a00a7759de7642e545d3feb4e00c75665e0571644c8f73f0ee98c8961f86fe9;
 Ds 0x7bc5f48f6bf5cf286329cdd6c8e0415e0043156799bc0d1482218d8705541131;
 Ds 0xf6f477fe4245cccfb6084957359e3ff15cdecff65774d9581cd6187d5454bd80;
 Ds 0xe09661460ac68a61be10440f9c7317efbc377eb3cedf18ebfccf8499506a17ae;
 Ds 0x6748fe9008d9cd9f2419c8833c500d4f3aeeed3869922d094769b37d1d5801fa;
 Ds 0xde5c4f1e65a5d6014c89d9381e85d4e63b3ddc21f5a0e57f96e23b274a26f40c;
 Ds 0x32cbf5742868f7e0ee845943d37e52fb4f2071b5a848240d1aa88d035562b85b;
 Ds 0xf30214aa9337b1f20c80c49a0ac0402971c4d0b9ae473ebc7eda03e55d8c8640;
 Ds 0x629417006e44c0ff6cf7818cdd7a816ce6230601c82e371e2107b015fd6d6b3e;
 Ds 0xa839e84eea5ec215d6d1940801eb7c2b9c9470130782146e95feaa57e1f04f2d;
 Ds 0x3f703be7156627a86d3cdc8a6840a6dfec8ff77ef2eb04b6a3f45be51aa095a2;
 Ds 0x29804a1e51b5f31e6536cb97ac18af985139ad2a72903bc9df3978190148ed6;
 Ds 0x5b31d0a3b224cdcadcd9c391d93eff9d6898e821bafbe8ece011515b204e47a;
 Ds 0xa266b80b2899cbfb8a1ca0537d6f24971d956ae33833e4f8a3bcdb3eb491736f;
 Ds 0x2e2777d8d37ad79eec9dce4280452b9d17b46b9bb21fd77fae6dbcf8be3d8afd;
 Ds 0x2f480d2c827137b90b0662e52fb0b516595084399883fcacec77df3b3a4321b1;
 Ds 0xad1880c7b16da70716904c5ecea9ffb5da3fbaa36e9bec69b373b7c170818c88;
 Ds 0x158187a1da3d023a3397dd123015c093af1b7208ec269adc565f4e7be38afdd5;
 Ds 0x7359447353eb88a142adfd9d86b417c893b9c1f2f9580b7ab76e013869440522;
 Ds 0x656bede9651809ec778be477080b27dc9a5f357eee8b900e32e4aa8d001ac07f;
 Ds 0xf79349525201f3ad82586751406d79e224f572d1cd41bf9e833feb233f9e1a3f;
 Ds 0x7940686220da21b77f6ea3b35a211d56d11a64c9ef8d3b33735cf9af2929803c;
 Ds 0x80200c3c248f9e2ae20f8f8c76e5d96523b37677c1c06d1d18c5df7a32ecc740;
 Ds 0xb5c6d1eaeaffa518428cba3b3171684669b894641f42f95b7b6c8ac81e91eb24;
 Ds 0xc2b4cc36d505c74446c3a36ea3cb7eb62b527934030f873daf0d3383ab0869aa;
 Ds 0xddd25a6943c6400952f3dece801f6cf379f69c76bfdbc4e54e50cddef064419a;
 Ds 0x648c7d8f8558101d93e6702765576d55da83554ad77ea0a5a60e7458dacef949;
 Ds 0x6197b6ff57a8a1f9297da6b1338b69b72d7594e132ab3c561287a213f86cdc7e;
 Ds 0x6aa1a56088a057311be92180c44da478fb2a97dcf3b181d7e972635bf1554ba7;
 Ds 0x9e3faed70fd9c532711b066149f59028fad1a172eda70511b6ee1b4377fd672b;
 Ds 0x4055913c1a5456fadbbda366b134bc95b70141a435fa2a7e0a91d8b21abdeeda;
 Ds 0x417277c3fa45acf1ff315301c02bc437b98c5b642b23793377e2e30720d0625c;
 Ds 0x985f4039ab54a11c21468c14a10cdcd8a1b26b2705ef51dc6b100112722e43db;
 Ds 0xd0efc6b5c667624934aab4e5b461491ece5cb667873e6e95d9d89fce7f70badd;
 Ds 0xf1556d6da980f978882f9def3fbff2fb69b5f9b215a73c11c184de645d61e744;
 Ds 0xb71ddb62e6565eb5fd1358b815626985359cef4b171e6c2e1a5b925c320e03eb;
 Ds 0x21c232b3cd4def6c383ab41b9c36fb5571e8d156eab89348392653f7497ff7b6;
 Ds 0xb45503d61762077022d70a26d6a7868f0b61744e10bbf37d468ae61b4b8f1e75;
 Ds 0x54afeb0483f9a96560d4d887e5f4026555a6a53cde20c860ce5f4a348a708eee;
 Ds 0xb673f6e9966aef5ac25d08fae40ac5cb20d3e6977633040d397b0ee4f1e9a996;
 Ds 0x2732db797836af30fd5c41f9b98bb3fe51da68df83fe2d8400a94291fac9c56d;
 Ds 0x2c65e98347a3e031feb8bfc9a93811539d0e138172d016ed906477756c1b859f;
 Ds 0x2e9569fe618ec45478601617c219c8b1e4ea7aee7ba1937d1067b5a828a5076c;
 Ds 0x5f378f560b23d52f7821c7dd1aab3b3ed9cbf9b2e27e1c33e13987494abc98cd;
 Ds 0x9e8b14e8a420f3a8ddd6af77f86d4b85e7980c3a92ec0905e78da60d7a4efa9e;
 Ds 0xd35bd5004c96cfb19985f1f766d1b948e7bf08f0ee752e959373590ac1361593;
 Ds 0xaf170ba2122e3b1eb4a4d88dc88600a26d780bddbfab37c031716f3640e80011;
 Ds 0x6313b805e61801b5820563a0bc315db746efa4bd1b588603b8633e714e05bd8e;
 Ds 0x461bc3e6a6fe4e1b09342fb2ac62dbb9c79306ab9c930c51d0e177ba3a9d09c5;
 Ds 0xdfcb46367a74d65b1fa650aaf9fc5ee375248ea2cd9466fc0e9fa6df2637c2fe;
 Ds 0xeeb360aaa02d2521a8270e2d8ac1192e3e5dc7a59c3baa9cf49e945df718f2f0;
 Ds 0xec6c07469493f58451dc57852deec8fcb2633ef0bcb28e68e49189c51b01dd77;
 Ds 0xbd93e0ebd0522795ca7a43eb70c0d6d4c2411f4b69898a0cdab2285894a24631;
 Ds 0xdf728dc5d0d8300661844d532ec0a5a1eff2f2297314df527c7ae4555476af63;
 Ds 0x38869318df4b256176146f8e2cc3282b192c2120347e9842af661e64d92776d5;
 Ds 0x7c46db8c33f11a2c6b3eb1fd13ac3e54a59c8220e92694cf2fe6a3adbdcb5f6b;
 Ds 0xb6521c661aeb640a031c01904ddf6357fbea26794c6060d47909a693b0f8da21;
 Ds 0x1d78debd10925350cf833d228e28f1357721daa23a52dae95c1f21379c8f6894;
 Ds 0xb3f24e0a09c656037f47c3d6ed3f9dfcd9aa74e1c1f3653af6e4cfe04ea58291;
 Bs 0x33c87d45b07ac492fc5d3787823749ed67bc414f5ed7bc4b4f4a7d8e5018bd54;
 Ds 0x2bfba2bf8b96db61ac66bee994fb06559293e04594dcb626b2300d53d7ba29b8;
 Ds 0x4b943ee0897a6d91486364c451e427b07a224da8161ac48d6b0933f93b2ecc2c;
 Ds 0x29286050f5284f245900c6cf9ee78c867667d3c57f44475d88d9b0bf271568f9;
 Bs 0x7bac945a687dd1ca055fe3dee13e38ae09738f8e79cdb629a3ebd4ca2a91a46;
 Ds 0x44ba76ef058b5d120fe082cb7e469acffbe17eef1707e6951b7ff0201b4b8d67;
 Ds 0xb9a67823abefec36f9e285c02d05b24d4980c782b8f045b63f5312f7e294968d;
 Ds 0x5ba70a4b4f9283144dca394758035e4deb211138ba4ecc858221999d1471e50d;
 As 0x6957ed981fb1fb73e9f47d46f2201b73bd5f962cf8dfa99916cb58421cb9517;
 Ds 0x26baeb3f6b739e218268ebb4bd340eeaa265c517bf18b97f5e6c0ecdc71108ae;
 Ds 0x7a8695dfee0bc24843064ecb84239558f7eb2be52cffcfd0b46bd850e36e7632;
 Ds 0x6fcdf22768ed0f5350c96154bd9074ba9116ea5a5f4067114132025bd9f064f8;
 Ds 0x4154f5e9cafb9ae398a7a2a4c0b0c9b6306e64e09794247ff13a0c45fc430c01;
 Ds 0xcd92fdefef7c613c2fbfc84f1cb13df20f9d09d1841c95a0e7bb73fe15a0be04;
 Ds 0x8883da8af0e7d4ae56e59ba4ab85b46ea4c925366eaae34b1331812d2301564f;
 Ds 0xafafa0235f5b716b5fca1a242efb763adb01f1502207919c1787e76a4891d109;
 As 0x4564ddf03def48db0249a32c2b52eb7a39e15f6078250b15a5122fc47f86d2ec;
 Ds 0xc1fc454b63fe639f132572fee79ab67e0c9a11f5c4e8ab4f471fb43e4eadeac2;
 Ds 0x62dfa434a38e4abfe6ba39168d371830b500b8ce80c800744e3b28d7a353af87;
 Ds 0x6d46aedaa5ed1f0ad80d8113d04b834960e3323d3188a19c8175dbe88e2e25f4;
 Ds 0x79d4afccc7dba26d54f5eb856d2ffdd760b6d99b8d2eed0a041fa736f800ec9a;
 Ds 0x3448039fa5953571d36657a0bd0b2372713bbb739b68ac41b381f4a0bc833418;
 Bs 0x5e4ce9b1b1ae2d7a41922772de964bf0da39eb6a3f8197c8c2ba4957048dad09;
 Ds 0x22784469fd82f466369084f4504d678b8ee7023acc006cf32e98fd0362179929;
 Ds 0xa2774b50fd6dbaccb7e24591af11daf0d09a374a6441b9bc4fd7330dceb73e20;
 Ds 0xe011bfd817968568f6632cce36cec71d5edf746f44694d68d29dd9f3529ff56b;
 Ds 0xe5c4db9ef26235d330e8f4ee1ad99f6626b23f2adb8439e15c76d6d5031d90b4;
 Ds 0xfb6fdd660e94fa72b45faa014e6d309bae8ed9c9d52d5f49cbfe406a9d69db1b;
 Ds 0x7e197da066c1f558b902fb5e4a3d56a721dae1b18abb27202e33cca648f006fa;
 Bs 0xc78527a9def18a8e84dae6e1b83f05d7c682ad7d6e458133a646bc4f8e19d293;
 Ds 0x36e19c9fa7f34e180eb76551eda0449b1015ec30adbfb3fc7f0c907cdf2a1d20;
 Ds 0xe07a00c8ebd9ad3e8755b0e62c10577297b9433a0f9f8807b2eabecdd664a53b;
 Ds 0xc6c837271e03a5845b71d03af11c50bd379b5377ccfd9715a27b8caacd0f2075;
 Bs 0x8ce9640cdffa62a6bfd89f16107aa9f65a604e49f52fb5179b0963aeb96946a3;
 Ds 0x7a8042a929f1a27a07c44f041a82540d24a1581bd40b74d714f2b045a66247b8;
 Ds 0xb00f39415a38a7382fe0e9e3106471fd720078ab746326523f542f4e4d5afbad;
 Bs 0x7a3a9491895231ee36f23893b61b77333bfcc55a20e2e34cb1b536499f4fd18c;
 Ds 0x80583caaa1dd2e403ac5acb31c055fbacb50684e80a7e790f2859aec3297d815;
 Ds 0x39bfc03faa86867c53a60a8b6704b27d7ca66c22401ac3752c6c11e38541e01a;
 Bs 0xd9edcbe3d3a8f051a98708eeb04a6d0c0c97ecd5e1c6427df91cc8ae01471d6f;
 Ds 0x6deaf43207adb916ad79a134299c7ee69763b80022af09241c30697ab31cc4a2;
 Ds 0x6a9fc7eef32cea5c2b543e9d65909336717f2c6df42883cffe54384d979c2bf9;
 Ds 0xdfdbc290b24a983457d398a442beaadef01fe82ce1dcf571d85045702a19ddec;
 As 0xe93f542f192bea8bea099bf788b943bb49207db5cf35da723ff3d8d3fc32e346;
 Ds 0x953fec8decd071c18c274d64d8cdd7dc5baed8645c689ea1353b4daee8ef072d;
 Ds 0x620ec41db83ff938c3657fc68eca09c0598a925b38dde52c4ebdfa84560aec35;
 Ds 0xb9c606ec617c8ad11e7a8cc5ea7311b0a5a5a0e620e014fb186c949b47b7e955;
 Ds 0xe3601681619d48d66cbcda8fcf2eb2e2900622b0d46ff1f9b8c2a248c8c32b33;
 As 0xcd332537e7aa80a07cdd14169634cb48b06bf4b0502573f9149fd3e80817563b;
 Ds 0xc5cd35a5daacaa4cb7f0e19d5b88cf7f3f95779cb5b69dafdc53020d1bea61cc;
 Ds 0xd76659e4cbc286ce18594d9cd541959ddee98c6830d0f6d9a802500058a0346;
 Ds 0xc1cdea24b81baa55cf76f3de52145dd32df318da59a02f32d557bb2fe1ec7883;
 Bs 0xa5b05144f48f6b27638903b9b530abc7cd294d5f7a052436bee89c9e9d8f3833;
 Ds 0x792592657bbf747137eaa93bd24228b8bb67847cef5a04d958e9c66665c4dede;
 Ds 0xbd57618d754bfcbe6ef2c36e6f4fcb37dc8c786334b5eaa414b58462620a647c;
 Ds 0x54d296efea383b5fc79dcee4100e1955387b96ff09cc7842467e88cca6a9b0a7;
 As 0x2b9ffa5d1cefcb98bed147f761ef9b184310685b185df70168a2500cd8ac00a5;
 Ds 0x23c7ab89126c37c9d6545408aa2fba78203f048124b8965f0c813a9f3f637a51;
 Ds 0xa46cec357d03635e986b8ce422d33539bdc7d59c863fd0f214ce1d67de2787cb;
 Bs 0x6be2a6c411d7ebd845c4aecb52fd2ff30e8a8ac0ecd3481bb6f1436ed7f646e3;
 Ds 0x327a7b9c9b8c87ea353ba9b2170da4c68e796f61406537841e00111e345b62eb;
 Ds 0x628a444203b3e00c6593ec46a0547d8e8230ad633f11c5994b64482289c9b7a0;
 Ds 0xd9a124866f722d825cfac10b967654a0d2790caf033adfe50b8d007e56fbacfd;
 Ds 0xe54fb8f614e696cdbddb49ace9bc84c976a049aedf1b7781234486bb9671e5e0;
 Ds 0x99a20e89b24f3bb4ddb56d1a91e622260d4901c5bb00a1e90e33114efb53a626;
 Ds 0x1631e4ac39265c6a2b32504f6d453c872aa9eadaa8fdca51ec8c39219f07bd0a;
 Ds 0x42c2b682bd9e8385d630f90a715c2f3b9c4818144f7d2efeb905b8212f6d4c97;
 As 0xbb2f6d96b87e1b4d69da2bfa04f62ebaf9b5c8c326829463eda37bc1a3fc1e49;
 Ds 0x2abb7a33b0fcfabaef244fcaeb255dec7f9f7c9d65ad9746c6dde9730c9b41ef;
 Ds 0x5ad50b3e91d5d69fdd168df516f3f3b10fd63605bc34e9b4b51dcc2135ab3357;
 As 0xff455fb7b8f808f0c816f655006631b5458c3347c6902127f131da4ce0b1e10d;
 Ds 0x8fad36a937daf0fb0b5ce79d0cc3e550147fc76cda00d27f863ad36608fa2445;
 Ds 0x9f69629fa988378c9442efcd51447474da11986635b7396028e3b9d6e1094fda;
 As 0x2176ef01004a02ea94b6e140505f25bbf3d0cd84722f305a20c00c2788ea604b;
 Ds 0x22b2fd47705e1a774b9680429eba0905b0de9f4a25badae39c049f8708659f68;
 Ds 0x4217eba1a0fc210b4f22aaac22f1d483605e2c7d3e765ea17558a98047ab1610;
 Bs 0x2c4391692b81cc42ea3c2ce1cab7180de8ec6daa3827731c118415494441dbf3;
 Ds 0x9fbf44e14ecb7f66c14cee67d9bfd01883b78873f9f02a110c4c9a0699cd30ee;
 Ds 0x1eb1f4d813cc07c85139626b2462bad70b8c82dba92e6db49f96769299048e16;
 Bs 0xd928b2d4cd529c1b0665f7f77a373505a7e5e2235a13d78117bf62066c0f9dde;
 Ds 0xaa04c4a0c32fc2778cb367cd966a563be1a425c360ab74223303fe61b00a35ad;
 Ds 0xdcfd4b44ed9d9dddfb351854ee7b2f418830abdbf9c6c24954dbb95190e3431c;
 Bs 0xfaf3743283f2a919d445d6158d4a4e29371c2f4979a7057c42cbe99244b3fa79;
 Ds 0xd6b3a70f5a9de6bb94e0677e86ec1f4c16776821bd7bb4a618fc4cbb46953bc5;
 Ds 0x72f038d6009495725f5b339744c67de87158d3fb2795165e08637d93db1c4891;
 As 0x94e8ffb6810c99065eae66ca93c45c2f0b5592b4963783888252189fd6cfc769;
 Ds 0xf4acf90b5da47e5d0db31ff48f40453ab82183bd838c06250cb4619ea9a8c0ea;
 Ds 0xeb16358f2d828955ec915f07d8bbc830d5d1abac8845639e58576ab6ce58673b;
 As 0xd72b8b8fc90a17e31f837c670f313da6aa4ad3e9b6e7cc1d49670e5661f049c8;
 Ds 0x3cffa60d7a2203606e485332028e32b9abdf705ee41a658eae12a9262619609b;
 Ds 0x160528fe894a13a0acfd5de399efe80708b4cd0d48f6704b97da543c3c6d20bf;
 As 0xcad8495b5ebf3e001e94dae9a3e1825b8eea3b02ded75660babdbede6bc6ae29;
 Ds 0x7606d7eb14c157837398700e6cba3170355dbeddf45b777ab834b218ad32e499;
 Ds 0xc68683c647306912d45a503c6952d3cb455fe77d8fe0ce03f1c502a706b7ddc5;
 Ds 0x7e87c7bbeb9f580110a62454ea728d4a96f60467d2774f895736f04cd1fd252e;
 Ds 0x21bd4ff4ab7d3020693192953a377dc541a1f11e589731433beaba63db89e7da;
 Bs 0xb20bd5ce0780d15200051c2a460c5901bd7f49f60a24eb7eb91ab5edc7ea7d46;
 Ds 0x1b1ca9d8ffe6bf797476cde0dccdf8dffb658237cd33536824bd80dc0b415977;
 Ds 0x8947a69f150a02bcd36040a5bfc420704139a59aa3c1b6ef0b8aff194e358def;
 Ds 0x6dc384865475048645327eb1bf4e51f5b55f0f28b7cf42d188fc81af8ad317c;
 Ds 0x12da50c4fa2722241d3d0ca9dc4ba5bffff09bb5d0c2a8f20c5063d4e2f627a3;
 Bs 0x1dea427986d9c5fef0e72a2b8a4c980e0445150720599e6fbfec60d128506af7;
 Ds 0x1b70a10cb046cceca55876fe52b5e0f00c304ca41e35565d6557109a32061165;
 Ds 0x29db2dcee8956f30370825cacdf265c88b0269c3cb795d785e497734f7a999cc;
 Ds 0x3d18a4a5994f188203d462917556c98cfbf898a68346988c1fa12d58e2380444;
 Ds 0x13e1c923d7d5c0ee7e87fcb51a26b6fa503acca6fb1b418d49e3fad6518e548a;
 Ds 0x5e2f6ad345ad8291625ac374522bd1b6832fecf07e0e86f9d100a02d47df4330;
 Ds 0xc40a78740f310e3d9d1bc008153e731d01ac5b3f3d8ba4d2a1c1744314ca3738;
 Bs 0x5727c8f8e57305ff3a430b49b24465518ba63b494a6a0435ac2e8262a6fe78e8;
 Ds 0x164c4e2138918f0e17cd2c4bc936853a99260341304918d9a13ecda1cfc698c6;
 Ds 0x83a9c58e1d3c64c96c1c546643c0efd4af88332cd7e50a977a141d88aa61c6c6;
 As 0x886a45c2d1331de9b69a836873914e8408ce05ab88677b290f0f1589ef5009e4;
 Ds 0x66e14be554df3d74b76543cf6c6c1bbc11f58ec63e8903e55cf2c027f82f563e;
 Ds 0xfc2e8d9ec4115477d039f310cbf9c88777a8121cc33882eabe4a2be1fbad348b;
 Ds 0x4f3abdb70c0535dd4c424f21f44fe1e143a5f7e70ab52fc946df58dfbb6a05a4;
 Ds 0xea63de98bc75ea03644a6f190b669510a3fdf624ddb3e589d803729b38cf7f4f;
 Ds 0x4063198b2347fc2d27c0498d925c601e399fadada238977d254e48f4eedf0639;
 Ds 0x454c9c27f689771274097bb6190552a0baa8ac3f5994994bc87e2adc3ac7f5bc;
 Ds 0xf1ec833fb1d2c0a1a6fdf074df9fd2721905d8049bb64510eb2ceb7c2671c84c;
 As 0x30aa69238336e32c1f5cd887bd7c0f46ae6385f339e3986080ede156ec40597;
 Ds 0x4acca879d266368644823ec8dcb0e232f509a9340156a34a0b40d4878a1918ce;
 Ds 0x9af9758c413b2c921b628ed606665ce34a5a0dcf3f72f4ab13afebec467c4f94;
 Ds 0x45c51137160590a97854eb8f5118432c1bfc30db0c289e8671e1524b00471acf;
 As 0xcdddae37950edcefad9fab9aab01e281ed1e8df351091aa00c58bf814bc75472;
 Ds 0xcd4a32c646a4aecead57a966b25a2732cfbc388b6d0fe8cd7660ae8bfda3d2fc;
 Ds 0x20c5876c324113d9a8b88fd03226a51c569253b5fed433973c20aa28685832ab;
 As 0x3bfa9155a8424d2587ecc6f75506ffb18442889fa12b603a8ada0ef700814f4a;
 Ds 0xc4c88ff218302abdaf970b605681ef282197565746e553f4cd662dc0cf3f100a;
 Ds 0x3dd0ae7045d38aa1bafeac88e6394c7b7284050915bd64cca3e295413f3a1f3d;
 Ds 0x7d1908e589744c8213d3c8a345265d27d5892be42d7c10f101c82c5969d97911;
 Bs 0x3bbe08768270f4b70a062964aad31bdd474cfe25c3a9eb57454ec4c9852950b7;
 Ds 0xbaa7ef5093258fd23adb9aed86641466acf9a9fa3efb6335b669306f7e7115f0;
 Ds 0xdff381ee8915a29af9e0e5063c9f6956bc3348360df20226d90ae755faffc1c6;
 As 0xbd7c6d3431e73d8e453ea56cf790a67a8d60c2f5e1c98710dd143a700d932d14;
 Ds 0xdf7f72590ba946ff26fa25135f5c7f981aa290a690fa35d3a17d382639c928f3;
 Ds 0x3b2a6668aac65c6d7ac1a7e6bbb5a9281879c8f9d448140d567b19b99f29a767;
 Ds 0xd009d804466411bbcc10e722f1c693b240ae1355756b3e6a60484943295d028a;
 Bs 0xb1637e73ebadbf231fcfc02ba56de473f43e19046bc1e8728c9980a9d000ddc2;
 Ds 0x76bda6b58a9c1b354b1f35cce67d20f391d6ac87a063f45fa25e014c7d02433b;
 Ds 0x8523176406f0d2244e7c8ef8812b578dba7244e323458476d178ad23a11d3ea;
 As 0x1ac8e6b122a9ac1983d399b7193d2043d45a931231d69f59a9fa66d4e215129f;
 Ds 0xe64dd6523cb66e63b0930317319acc92c945fd441116fbef854605a6108b6c0;
 Ds 0x66031db0661f07cbc92df77e886433f86c8914bc590d390d0d290536b297a5a1;
 As 0x5d567709c78054efb500cd962625cfe30bd259778bb7fb23b05ed86969189f27;
 Ds 0x7ba1baa33e2fb2a22c0ca4f4bd31ca69aed188bf13883d4d93fd8be0f008a9d1;
 Ds 0xa0c200f91850d0d2dec7b456fa830a4ecd272c35f3cf56e93ccb0adaa38158f6;
 As 0x3c40c2d549947d26a7f7c37e5ddc55a5543083f87001fef0709cd36767b746a6;
 Ds 0xbf8b9b1a956a751527bab05d3623ffdaeab95422990cf2c5b73dca7a78a9e905;
 Ds 0x92be443d87a5124f42ae27e2b902db993ea7f6285ccb589460a6cf109b704e4;
 As 0xbba8de4e796902ca65eaa20f975e27a9aee95db2b7c7298d54338b46b27e2bf5;
 Ds 0xad42fc23b8f519c20c20cbda4ff7876612b81f80d70ab88c1cb87f7b3abd3e49;
 Ds 0xf0b42effaebde30afbb7300502dc96f6b16af4d1440394d332328ecd408c3384;
 Ds 0x838adde20c23c9d61d0243b2424966b2bf6af5f337d592446ef34f80fb22b840;
 Ds 0xf11b8f18b05a16661fc6f221006bafeb8b431e3d899078422e2dc62ae4a831aa;
 Ds 0x685c8d6097ae4580f8f9025d2f7d2f36bb9ac019974de2df5bee923c4f10ef08;
 Ds 0xe8c41eca212fdd1246641fd0630207c06009b63c8a3622064400b21722655000;
 As 0xd2d181a49e522cd0dfb984336e63d39b22381ae60f8219932d88237b98c16d09;
 Ds 0x6fe470058196ca02ed3dd2df5f07cd8c7228409a12d5807a95844c18e78ece44;
 Ds 0x83094ced00add977d1e8920f7394d38d95fb6e7092ddf0a96ea90eb388089d1e;
 Ds 0x1587be06f9d90d1a0d8820a9039da2c55b162642f31b60a6cb61b050cb8951dd;
 As 0xb57822549baa19e59f7c4bb8162a84133ff313b7611c55da102d0490fe9bb791;
 Ds 0x8904e093cec0874bf904a7baca32b58652cec67048a4d065c253820cad7360ea;
 Ds 0xebc703409cad9c0a066a4f6227949620cf235ef7252a6a8e4e4a402c2f30110d;
 Ds 0x362ecb518ebd0f934a68d465ad0f3a6c8d079b642b379d5d6a3eec7f06a285d4;
 As 0x809c5e222d4a29ce61724816e50291596a5d0b1cdcec907582b5a1b53d28982b;
 Ds 0x30e04e8edf9b7bdbe6fbe1699381ec9fe48cb4a95b0628b2d3fe5c71e626ce34;
 Ds 0x154d2928051cabe7df8534bcd8548e38c9d0bd2735e7ad81abebd5391bc3381a].
Definition ends_at_G (o : option (Z * Z)) : bool :=
  match o with Some (x, y) => is0 (x - sm2_gx) && is0 (y - sm2_gy) | None => false end.
Definition n_chain_ok : bool := ends_at_G (cchain n_chain sm2_gx sm2_gy).
Lemma n_chain_eval : n_chain_ok = true.
Proof. Transparent sm2_p. vm_compute. reflexivity. Qed.
Lemma n_chain_val : (fold_left (fun k s => sval s k) n_chain 1 =? n + 1) = true.
Proof. Transparent sm2_n. vm_compute. reflexivity. Qed.
Lemma gxy_rng : (0 <=? sm2_gx) && (sm2_gx <? p) && (0 <=? sm2_gy') && (sm2_gy' <? p) && (0 <=? sm2_gy) && (sm2_gy <? p) = true.
Proof. vm_compute. reflexivity. Qed.
#[global] Opaque sm2_p sm2_n.
#[local] Opaque redp kmul kk sm2_gx sm2_gy.
Lemma Some_inj {A} (a b : A) : Some a = Some b -> a = b. Proof. congruence. Qed.
Lemma mk_redp z : mk (redp z) = mk z. Proof. apply mkf_eq. apply redp_ok. Qed.
Lemma is0_ok z : is0 z = true -> mk z = f0.
Proof.
  unfold is0. cbv zeta. rewrite orb_true_iff, !Z.eqb_eq. intros H. rewrite <- mk_redp. apply mk_zero.
  destruct H as [->| ->]; [apply Zmod_0_l|apply Z_mod_same_full].
Qed.
Lemma rng_ok z : rng z = true -> 0 < z < p.
Proof. unfold rng. rewrite andb_true_iff, !Z.ltb_lt. lia. Qed.
Lemma rng_nz z : 0 < z < p -> mk z <> f0.
Proof. intros H E. apply mk_zero in E. rewrite Z.mod_small in E by lia. lia. Qed.
Lemma lstep_ok l x y x2 : ptF (Pt (fst (lstep l x y x2)) (snd (lstep l x y x2))) = chord F fmul fsub (mk l) (mk x) (mk y) (mk x2).
Proof.
  unfold lstep, chord, kmulp. cbv zeta. cbn [fst snd ptF]. rewrite !kmul_ok. rewrite !mk_redp. repeat rewrite <- ?mkf_sub, <- ?mkf_mul, ?mk_redp. reflexivity.
Qed.
Lemma div_char (l a b : F) : b <> f0 -> fsub (fmul l b) a = f0 -> fdiv a b = l.
Proof.
  intros Hb E. apply (fsub_eq0 F f0 f1 fadd fmul fsub fopp fdiv finv FT) in E. rewrite <- E.
  exact (div_mul_cancel F f0 f1 fadd fmul fsub fopp fdiv finv FT l b Hb).
Qed.
Lemma cstep_dbl l x y x' y' : cstep (Ds l) x y = Some (x', y') -> ptF (Pt x' y') = eadd (ptF (Pt x y)) (ptF (Pt x y)).
Proof.
  cbn [cstep]. destruct (rng y && _) eqn:E; [|discriminate]. apply andb_true_iff in E as [Hy H0]. apply rng_ok in Hy. apply is0_ok in H0.
  intros HS. apply Some_inj in HS. pose proof (lstep_ok l x y x) as L. rewrite HS in L. cbn [fst snd] in L. rewrite L. clear L HS.
  cbn [ptF]. unfold add. destruct (F_dec p (mk x) (mk x)) as [_|N]; [|congruence].
  destruct (F_dec p (mk y) (fopp (mk y))) as [Ey|_].
  { apply (self_opp F f0 f1 fadd fmul fsub fopp fdiv finv FT (F_dec p) Ftwo) in Ey. now apply rng_nz in Hy. }
  f_equal. symmetry. apply div_char.
  - apply (fmul_ne0 F f0 f1 fadd fmul fsub fopp fdiv finv FT (F_dec p)); [exact Ftwo|now apply rng_nz].
  - rewrite <- H0. unfold kmulp. rewrite !kmul_ok. repeat rewrite <- ?mkf_sub, <- ?mkf_mul, <- ?mkf_add. rewrite mk_const2, mk_const3, fa_m3. ring.
Qed.
Lemma cstep_add gy l x y x' y' :
  (if rng x && negb (x =? sm2_gx) && is0 (kmulp l (sm2_gx - x) - (gy - y)) then Some (lstep l x y sm2_gx) else None) = Some (x', y') ->
  ptF (Pt x' y') = eadd (ptF (Pt x y)) (ptF (Pt sm2_gx gy)).
Proof.
  destruct (rng x && _ && _) eqn:E; [|discriminate]. rewrite !andb_true_iff in E. destruct E as [[Hx Hg] H0].
  apply rng_ok in Hx. apply is0_ok in H0. apply negb_true_iff, Z.eqb_neq in Hg.
  intros HS. apply Some_inj in HS. pose proof (lstep_ok l x y sm2_gx) as L. rewrite HS in L. cbn [fst snd] in L. rewrite L. clear L HS.
  pose proof gxy_rng as R. rewrite !andb_true_iff, !Z.leb_le, !Z.ltb_lt in R.
  cbn [ptF]. unfold add. destruct (F_dec p (mk x) (mk sm2_gx)) as [Ex|N].
  { exfalso. apply Hg. apply mk_inj in Ex; auto; lia. }
  f_equal. symmetry. apply div_char.
  - intros E. apply N. apply (fsub_eq0 F f0 f1 fadd fmul fsub fopp fdiv finv FT) in E. symmetry. exact E.
  - rewrite <- H0. unfold kmulp. rewrite !kmul_ok. repeat rewrite <- ?mkf_sub, <- ?mkf_mul, <- ?mkf_add. reflexivity.
Qed.
Lemma ptF_smul_dbl k : eadd (ptF (smul k pG)) (ptF (smul k pG)) = ptF (smul (2 * k) pG).
Proof.
  rewrite <- ptF_add by (apply on_curve_canon, on_smul, G_on). rewrite <- smul_add by apply G_on. do 2 f_equal. ring.
Qed.
Lemma gy'_eq : Pt sm2_gx sm2_gy' = pneg pG.
Proof. Transparent sm2_p sm2_gx sm2_gy. vm_compute. reflexivity. Qed.
#[global] Opaque sm2_p. #[local] Opaque sm2_gx sm2_gy.
Lemma cchain_ok l : forall x y x' y' k, ptF (Pt x y) = ptF (smul k pG) -> cchain l x y = Some (x', y') ->
  ptF (Pt x' y') = ptF (smul (fold_left (fun k s => sval s k) l k) pG).
Proof.
  induction l as [|s l IH]; intros x y x' y' k E H.
  - cbn [cchain] in H. injection H as -> ->. exact E.
  - cbn [cchain] in H. destruct (cstep s x y) as [[x1 y1]|] eqn:ES; [|discriminate]. cbn [fold_left].
    refine (IH x1 y1 x' y' _ _ H). destruct s as [l0|l0|l0]; cbn [sval].
    + apply cstep_dbl in ES. rewrite ES, E. apply ptF_smul_dbl.
    + apply cstep_add in ES. rewrite ES, E. change (Pt sm2_gx sm2_gy) with pG.
      rewrite <- ptF_add by (apply on_curve_canon; auto using on_smul, G_on). rewrite smul_add, smul_1 by apply G_on. reflexivity.
    + apply cstep_add in ES. rewrite ES, E, gy'_eq.
      rewrite <- ptF_add by (apply on_curve_canon; auto using on_smul, on_pneg, G_on).
      unfold Z.sub. rewrite smul_add, (smul_opp 1), smul_1 by apply G_on. reflexivity.
Qed.
Theorem nG : smul n pG = Oinf.
Proof.
  pose proof n_chain_eval as H. unfold n_chain_ok, ends_at_G in H. destruct (cchain n_chain sm2_gx sm2_gy) as [[x y]|] eqn:E; [|discriminate].
  apply andb_true_iff in H as [H1 H2]. apply is0_ok in H1, H2.
  apply (cchain_ok _ _ _ _ _ 1) in E; [|rewrite smul_1; reflexivity].
  pose proof n_chain_val as V. apply Z.eqb_eq in V. rewrite V in E.
  rewrite <- mkf_sub in H1, H2. apply (fsub_eq0 F f0 f1 fadd fmul fsub fopp fdiv finv FT) in H1, H2.
  assert (EG : ptF (Pt x y) = ptF pG) by (unfold pG; cbn [ptF]; rewrite H1, H2; reflexivity).
  rewrite EG in E.
  assert (E' : pG = smul (n + 1) pG).
  { refine (ptF_inj _ _ _ _ E); apply on_curve_canon; [exact G_on|apply on_smul; exact G_on]. }
  rewrite (smul_add n 1 pG G_on), (smul_1 pG) in E'.
  symmetry. apply (padd_cancel Oinf (smul n pG) pG I (on_smul n pG G_on) G_on). rewrite padd_Oinf_l. exact E'.
Qed.
Lemma n_gt3 : 3 < n. Proof. Transparent sm2_n. reflexivity. Qed.
#[global] Opaque sm2_n.
Lemma n_lt_p : n < p. Proof. Transparent sm2_p sm2_n. reflexivity. Qed.
#[global] Opaque sm2_p sm2_n.
Lemma p_lt_3n : 2 * p + 1 < 3 * n. Proof. Transparent sm2_p sm2_n. reflexivity. Qed.
#[global] Opaque sm2_p sm2_n.

Lemma smul_mod_gen P k : on_curve P -> smul n P = Oinf -> smul (k mod n) P = smul k P.
Proof.
  intros HP Hn. pose proof n_gt3. rewrite (Z.div_mod k n) at 2 by lia. rewrite smul_add by auto.
  rewrite Z.mul_comm, smul_mul, Hn, smul_inf by auto. reflexivity.
Qed.
Lemma smul_zero_gen P k : on_curve P -> P <> Oinf -> smul n P = Oinf -> smul k P = Oinf <-> (n | k).
Proof.
  intros HP HO Hn. split.
  - intros Hk. destruct (Zdivide_dec n k) as [|Nd]; auto. exfalso.
    assert (rel_prime n k) as Hr by (apply prime_rel_prime; auto; exact sm2_n_prime).
    apply rel_prime_bezout in Hr as [u v E]. apply HO. rewrite <- (smul_1 P), <- E, smul_add, !smul_mul, Hn, Hk, !smul_inf by auto. reflexivity.
  - intros [c ->]. rewrite smul_mul, Hn by auto. apply smul_inf.
Qed.
Theorem kG_zero k : smul k pG = Oinf <-> (n | k).
Proof. apply smul_zero_gen; [exact G_on|discriminate|exact nG]. Qed.
Theorem kG_inj j k : smul j pG = smul k pG <-> (j - k) mod n = 0.
Proof.
  pose proof n_gt3. rewrite Z.mod_divide, <- kG_zero by lia. unfold Z.sub. rewrite smul_add, smul_opp by apply G_on. split; intros E.
  - rewrite E. apply padd_neg, on_smul, G_on.
  - apply (padd_cancel _ _ (pneg (smul k pG))); auto using on_smul, on_pneg, G_on. rewrite E. symmetry. apply padd_neg, on_smul, G_on.
Qed.


(** Model of /repo/sm2/{sm2,sm2enc,external}.go on top of an arbitrary implementation of the elliptic.Curve interface
    (record [curve]; the amd64 implementation is modelled in P256_model.v, the arm64 one is the generic
    crypto/elliptic.CurveParams of the Go standard library, [cv_std]).
    Conventions: *big.Int values are [Z]; random sources appear as the outcome of the single
    io.ReadFull(rand, 40-byte buffer) each function performs: [Some b] (b the 40 bytes) or [None] (read error). *)
From Verif Require Import GoBase GoLemmas BigBytes Asn1_model SM3_model NT Prime_cert SM2_curve_spec SM2_spec.
Open Scope Z_scope.

(** ** The curve interface (sm2.go:31-39 optMethod, crypto/elliptic.Curve) *)
Record optm (T : Type) := mkOptm {
  o_comb : T -> list Z -> list Z -> Z * Z;       (* CombinedMult(Precomputed, baseScalar, scalar) *)
  o_table : Z -> Z -> T;                         (* InitPubKeyTable(x, y) *)
  o_pre : T -> list Z -> Z * Z }.                (* PreScalarMult(Precomputed, scalar) *)
Record curve (T : Type) := mkCurve {
  cv_base : list Z -> Z * Z;                     (* ScalarBaseMult *)
  cv_mult : Z -> Z -> list Z -> Z * Z;           (* ScalarMult *)
  cv_add : Z -> Z -> Z -> Z -> Z * Z;            (* Add *)
  cv_opt : option (optm T) }.                    (* c.(optMethod) *)
Arguments mkOptm {T}. Arguments o_comb {T}. Arguments o_table {T}. Arguments o_pre {T}.
Arguments mkCurve {T}. Arguments cv_base {T}. Arguments cv_mult {T}. Arguments cv_add {T}. Arguments cv_opt {T}.

(** sm2p256_arm64.go: p256Curve embeds elliptic.CurveParams, so the interface methods are the generic ones of the
    standard library; their contract on curve points (with (0,0) for the point at infinity) is the group law.
    There are no optMethod methods. *)
Definition unaff (x y : Z) : pt := if (x =? 0) && (y =? 0) then Oinf else Pt x y.
Definition cv_std : curve unit :=
  mkCurve (fun k => aff (smul (be_val k) pG))
          (fun x y k => aff (smul (be_val k) (unaff x y)))
          (fun x1 y1 x2 y2 => aff (padd (unaff x1 y1) (unaff x2 y2)))
          None.

(** ** Keys (sm2.go:16-26) *)
Record pubkey (T : Type) := mkPub { pX : Z; pY : Z; pTab : option T }.
Record privkey (T : Type) := mkPriv { sPub : pubkey T; sD : Z; sDInv : option Z }.
Arguments mkPub {T}. Arguments pX {T}. Arguments pY {T}. Arguments pTab {T}.
Arguments mkPriv {T}. Arguments sPub {T}. Arguments sD {T}. Arguments sDInv {T}.

(** big.Int.ModInverse(g, n): nil (receiver unchanged) when gcd(g,n) <> 1, else the inverse in [0,n).
    The modulus is the prime sm2_n, for which the inverse is the Fermat power [zinv]. *)
Definition ModInverse (g : Z) : option Z := if Z.gcd g sm2_n =? 1 then Some (zinv sm2_n g) else None.

Definition err_rand : Z := 1.       (* the error returned by the reader *)
Definition EncryptionErr : Z := 2.  (* sm2enc.go:20 *)
Definition DecryptionErr : Z := 3.  (* sm2enc.go:21 *)

Section SM2.
Variable T : Type.
Variable cv : curve T.
Notation N := sm2_n.

(** sm2.go:48-60 randFieldElement and sm2.go:84-96 _generateRandK share this computation on the 40 bytes read *)
Definition k_of_bytes (b : list Z) : Z := be_val b mod (N - 1) + 1.
Definition randFieldElement (draw : option (list Z)) : res Z :=
  match draw with None => Err err_rand | Some b => Ok (k_of_bytes b) end.
(** sm2.go:84-96: nil on a read error *)
Definition generateRandK (draw : option (list Z)) : option Z := option_map k_of_bytes draw.

(** sm2.go:62-82 GenerateKey *)
Definition GenerateKey (draw : option (list Z)) : res (privkey T) :=
  do k <- randFieldElement draw;
  let DInv := match ModInverse (k + 1) with Some i => i | None => k + 1 end in
  let '(x, y) := cv_base cv (Bytes k) in
  let tab := match cv_opt cv with Some o => Some (o_table o x y) | None => None end in
  Ok (mkPriv (mkPub x y tab) k (Some DInv)).

(** sm2.go:98-133 getZById. SM2PARAM_A and the parameters B, Gx, Gy are the constants of initP256
    (sm2p256_amd64.go:41-51, sm2p256_arm64.go:22-33). *)
Definition getZById (pub : pubkey T) (id : list Z) : res (list Z) :=
  let lena := u16 (zlen id * 8) in
  let ENTLa := [u8 (Z.shiftr lena 8); u8 lena] in
  let xBuf := pad32 (Bytes (pX pub)) in
  let yBuf := pad32 (Bytes (pY pub)) in
  SumSM3 (ENTLa ++ id ++ Bytes sm2_a ++ Bytes sm2_b ++ Bytes sm2_gx ++ Bytes sm2_gy ++ xBuf ++ yBuf).
(** sm2.go:136-138 *)
Definition getZ (pub : pubkey T) : res (list Z) := getZById pub [49;50;51;52;53;54;55;56;49;50;51;52;53;54;55;56].

(** "var m = make([]byte, 32+len(msg)); copy(m, getZ(pub)); copy(m[32:], msg)" then SumSM3 and SetBytes
    (sm2.go:146-151, 226-234) *)
Definition copy_into (dst src : list Z) : list Z := firstn (length dst) src ++ skipn (length src) dst.
Definition hash_msg (pub : pubkey T) (msg : list Z) : res Z :=
  do z <- getZ pub;
  let m := zeros (32 + length msg) in
  let m := copy_into m z in
  let m := firstn 32 m ++ copy_into (skipn 32 m) msg in
  do h <- SumSM3 m; Ok (be_val h).

(** sm2.go:157-177 / 192-214: from e and k to (r, s); the two functions differ only in intermediate reductions *)
Definition s2_of (priv : privkey T) : Z :=
  match sDInv priv with
  | Some i => i
  | None => match ModInverse (1 + sD priv) with Some i => i | None => 1 + sD priv end
  end.
(** sm2.go:140-177 Sign *)
Definition Sign (draw : option (list Z)) (priv : privkey T) (msg : list Z) : res (Z * Z) :=
  do e <- hash_msg (sPub priv) msg;
  match generateRandK draw with
  | None => Panic                                    (* k.Bytes() on a nil *big.Int *)
  | Some k =>
      let '(x1, _) := cv_base cv (Bytes k) in
      let r := (e + x1) mod N in
      let s1 := k - r * sD priv in
      Ok (r, (s1 * s2_of priv) mod N)
  end.
(** sm2.go:179-214 SignWithDigest *)
Definition SignWithDigest (draw : option (list Z)) (priv : privkey T) (digest : list Z) : res (Z * Z) :=
  let e := be_val digest in
  match generateRandK draw with
  | None => Panic
  | Some k =>
      let '(x1, _) := cv_base cv (Bytes k) in
      let r := (e + x1) mod N in
      let s1 := (r * sD priv) mod N in
      let s1 := (k - s1) mod N in
      Ok (r, (s1 * s2_of priv) mod N)
  end.

(** sm2.go:238-249 / 275-286: the point s*G + t*P *)
Definition verify_point (pub : pubkey T) (sB tB : list Z) : Z * Z :=
  match cv_opt cv, pTab pub with
  | Some o, Some tab => o_comb o tab sB tB
  | _, _ => let '(x11, y11) := cv_mult cv (pX pub) (pY pub) tB in
            let '(x12, y12) := cv_base cv sB in
            cv_add cv x11 y11 x12 y12
  end.
(** the tail of both verification functions *)
Definition verify_tail (pub : pubkey T) (e r s : Z) : bool :=
  let t := r + s in
  let x1 := fst (verify_point pub (Bytes s) (Bytes t)) in
  (e + x1) mod N =? r.
(** sm2.go:216-256 Verify *)
Definition Verify (pub : pubkey T) (msg : list Z) (r s : Z) : res bool :=
  if (r <=? 0) || (s <=? 0) then Ok false
  else if (N <=? r) || (N <=? s) then Ok false
  else do e <- hash_msg pub msg; Ok (verify_tail pub e r s).
(** sm2.go:258-290 VerifyWithDigest *)
Definition VerifyWithDigest (pub : pubkey T) (digest : list Z) (r s : Z) : bool :=
  if (r <=? 0) || (s <=? 0) then false
  else if (N <=? r) || (N <=? s) then false
  else verify_tail pub (be_val digest) r s.

(** ** sm2enc.go *)
(** sm2enc.go:34-56 keyDerivation; [None] is the nil slice. float64 arithmetic is exact for the lengths
    (below 2^53) a slice can have, so math.Ceil(float64(klen)/256) is the integer ceiling.
    A negative klen panics (make with a negative length, or slicing K[:klen/8]). *)
Definition keyDerivation (Zb : list Z) (klen : Z) : res (option (list Z)) :=
  if negb (klen mod 8 =? 0) then Ok None
  else if klen <? 0 then Panic
  else
    let l := Z.to_nat ((klen + 255) / 256) in
    let K0 := zeros (l * 32) in
    (fix loop (cts : list nat) (K : list Z) : res (option (list Z)) :=
       match cts with
       | [] => Ok (Some (firstn (Z.to_nat (klen / 8)) K))
       | ct :: rest =>
           do hash <- SumSM3 (Zb ++ be_bytes 4 (Z.of_nat ct));
           let off := ((ct - 1) * 32)%nat in
           loop rest (firstn off K ++ copy_into (skipn off K) hash)
       end) (seq 1 l) K0.

(** "for i, v := range t { if v != 0 { break }; if i == len(t)-1 { <action> } }": is <action> taken? *)
Definition all_zero_exit (t : list Z) : bool := match t with [] => false | _ => forallb (fun v => v =? 0) t end.

(** x2, y2 as padded buffers, and Z = x2||y2 written into a 64-byte array (sm2enc.go:86-103, 145-162, 253-270).
    When a coordinate has more than 32 bytes the copies truncate. *)
Definition z_of (xBuf yBuf : list Z) : list Z :=
  let a := copy_into (zeros 64) xBuf in firstn 32 a ++ copy_into (skipn 32 a) yBuf.
(** m3/_u := make([]byte, 64+len(m)); copy(_, xBuf); copy(_[32:], m); copy(_[32+len(m):], yBuf) *)
Definition hash_buf (xBuf m yBuf : list Z) : list Z :=
  let a := copy_into (zeros (64 + length m)) xBuf in
  let a := firstn 32 a ++ copy_into (skipn 32 a) m in
  firstn (32 + length m) a ++ copy_into (skipn (32 + length m) a) yBuf.

Inductive enc_step := EAgain | EDone (r : res (Z * Z * list Z * list Z)).
(** sm2enc.go:73-127 doEncrypt, from label regen with nonce k: one pass *)
Definition enc_pass (key : pubkey T) (k : Z) (msg : list Z) : enc_step :=
  let '(x1, y1) := cv_base cv (Bytes k) in
  let '(x2, y2) := match cv_opt cv, pTab key with
                   | Some o, Some tab => o_pre o tab (Bytes k)
                   | _, _ => cv_mult cv (pX key) (pY key) (Bytes k)
                   end in
  let xBuf := pad32 (Bytes x2) in
  let yBuf := pad32 (Bytes y2) in
  match keyDerivation (z_of xBuf yBuf) (zlen msg * 8) with
  | Ok None => EDone (Err EncryptionErr)
  | Ok (Some t) =>
      if all_zero_exit t then EAgain                 (* goto regen *)
      else match SumSM3 (hash_buf xBuf msg yBuf) with
           | Ok h => EDone (Ok (x1, y1, xorl t msg, h))
           | Err e => EDone (Err e)
           | Panic => EDone Panic
           end
  | Err e => EDone (Err e)
  | Panic => EDone Panic
  end.
(** the label/goto loop: [None] when [fuel] passes did not terminate it *)
Fixpoint enc_loop (fuel : nat) (key : pubkey T) (k : Z) (msg : list Z) : option (res (Z * Z * list Z * list Z)) :=
  match fuel with
  | O => None
  | S f => match enc_pass key k msg with EAgain => enc_loop f key k msg | EDone r => Some r end
  end.
Definition doEncrypt (fuel : nat) (draw : option (list Z)) (key : pubkey T) (msg : list Z) :=
  match generateRandK draw with
  | None => Some Panic                               (* k.Bytes() on nil, at the first pass *)
  | Some k => enc_loop fuel key k msg
  end.
(** sm2enc.go:187-210 pointToBytes *)
Definition pointToBytes (x y : Z) : list Z := [4] ++ pad32 (Bytes x) ++ pad32 (Bytes y).
(** sm2enc.go:212-221 pointFromBytes; [None] is (nil, nil) *)
Definition pointFromBytes (buf : list Z) : option (Z * Z) :=
  if negb (length buf =? 65)%nat || negb (nth 0 buf 0 =? 4) then None
  else Some (be_val (firstn 32 (skipn 1 buf)), be_val (skipn 33 buf)).
(** sm2enc.go:58-71 Encrypt *)
Definition Encrypt (fuel : nat) (draw : option (list Z)) (key : pubkey T) (msg : list Z) : option (res (list Z)) :=
  option_map (fun r => do tup <- r; let '(x, y, c2, c3) := tup in Ok (pointToBytes x y ++ c3 ++ c2)) (doEncrypt fuel draw key msg).
(** sm2enc.go:223-232 EncryptAsn1 *)
Definition EncryptAsn1 (fuel : nat) (draw : option (list Z)) (key : pubkey T) (msg : list Z) : option (res (list Z)) :=
  option_map (fun r => do tup <- r; let '(x, y, c2, c3) := tup in Ok (der_seq [der_int x; der_int y; der_octets c3; der_octets c2]))
             (doEncrypt fuel draw key msg).

(** sm2enc.go:139-185 and 245-295 (identical tails): decryption from C1, C3, C2 *)
Definition dec_tail (priv : privkey T) (x1 y1 : Z) (c3 c2 : list Z) (klen : Z) : res (list Z) :=
  let '(x2, y2) := cv_mult cv x1 y1 (Bytes (sD priv)) in
  let xBuf := pad32 (Bytes x2) in
  let yBuf := pad32 (Bytes y2) in
  do ot <- keyDerivation (z_of xBuf yBuf) klen;
  match ot with
  | None => Err DecryptionErr
  | Some t =>
      if all_zero_exit t then Err DecryptionErr
      else
        let m := xorl t c2 in
        do u <- SumSM3 (hash_buf xBuf m yBuf);
        if beqb u c3 then Ok m else Err DecryptionErr
  end.
(** sm2enc.go:129-185 Decrypt. c[:65] panics when the capacity is below 65, and in any case (len(c)-97)*8 < 0
    panics in keyDerivation, after ScalarMult(nil, nil, _) if c[0] <> 4 has not panicked before. *)
Definition Decrypt (c : list Z) (priv : privkey T) : res (list Z) :=
  if (length c <? 65)%nat then Panic
  else match pointFromBytes (firstn 65 c) with
       | None => Panic                               (* ScalarMult(nil, nil, _): nil dereference *)
       | Some (x1, y1) =>
           if (length c <? 97)%nat then Panic
           else dec_tail priv x1 y1 (firstn 32 (skipn 65 c)) (skipn 97 c) ((zlen c - 97) * 8)
       end.
(** sm2enc.go:234-295 DecryptAsn1.  Negative coordinates reach ScalarMult like any other integers. *)
Definition DecryptAsn1 (priv : privkey T) (cipher : list Z) : res (list Z) :=
  do tup <- parse_cipher cipher; let '(x, y, h, c) := tup in
  dec_tail priv x y h c (zlen c * 8).

(** ** external.go *)
(** external.go:29-35 PrivateKey.Sign *)
Definition PrivSign (draw : option (list Z)) (priv : privkey T) (msg : list Z) : res (list Z) :=
  do tup <- Sign draw priv msg; let '(r, s) := tup in Ok (der_seq [der_int r; der_int s]).
(** external.go:37-44 PublicKey.Verify *)
Definition PubVerify (pub : pubkey T) (msg sign : list Z) : res bool :=
  match parse_ints2 sign with
  | Ok (r, s) => Verify pub msg r s
  | Err _ => Ok false
  | Panic => Panic
  end.
(** external.go:46-58 Sm2KeyGen: the error of GenerateKey is dropped, priv is then nil and dereferenced *)
Definition Sm2KeyGen (draw : option (list Z)) : res (list Z * list Z) :=
  match GenerateKey draw with
  | Ok priv => Ok (der_seq [der_int (sD priv)], der_seq [der_int (pX (sPub priv)); der_int (pY (sPub priv))])
  | _ => Panic
  end.
(** external.go:60-86 Sm2Sign ([draw] is what crypto/rand.Reader delivers); DInv and PreComputed stay nil *)
Definition Sm2Sign (draw : option (list Z)) (sk pk msg : list Z) : res (list Z) :=
  do d <- parse_ints1 sk; do tup <- parse_ints2 pk; let '(x, y) := tup in
  do tup <- Sign draw (mkPriv (mkPub x y None) d None) msg; let '(r, s) := tup in
  Ok (der_seq [der_int r; der_int s]).
(** external.go:88-106 Sm2Verify *)
Definition Sm2Verify (sign pk msg : list Z) : res bool :=
  match parse_ints2 sign with
  | Ok _ => match parse_ints2 pk with
            | Ok (x, y) => PubVerify (mkPub x y None) msg sign
            | Err _ => Ok false
            | Panic => Panic
            end
  | Err _ => Ok false
  | Panic => Panic
  end.
End SM2.
Arguments GenerateKey {T}. Arguments getZById {T}. Arguments getZ {T}. Arguments hash_msg {T}. Arguments s2_of {T}.
Arguments Sign {T}. Arguments SignWithDigest {T}. Arguments verify_point {T}. Arguments verify_tail {T}.
Arguments Verify {T}. Arguments VerifyWithDigest {T}. Arguments enc_pass {T}. Arguments enc_loop {T}.
Arguments doEncrypt {T}. Arguments Encrypt {T}. Arguments EncryptAsn1 {T}. Arguments dec_tail {T}.
Arguments Decrypt {T}. Arguments DecryptAsn1 {T}. Arguments PrivSign {T}. Arguments PubVerify {T}.
Arguments Sm2KeyGen {T}. Arguments Sm2Sign {T}. Arguments Sm2Verify {T}.

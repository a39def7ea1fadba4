(** Model of /repo/x509/pem_decrypt.go, /repo/x509/sec1.go, /repo/x509/pkcs8.go, the SM2 part of the public key
    functions of /repo/x509/x509.go and /repo/utils/keys.go.
    Parameters (standard library): AES block functions, HMAC, PEM armour, the NIST curves, PKCS#1 parsing.
    encoding/asn1 is modelled concretely (Asn1_model.v); an OBJECT IDENTIFIER is represented by its DER contents
    (two OIDs are equal iff their contents are; non-minimal base-128 encodings, which Go 1.16 accepts, are not identified),
    high-tag-number ANY values are treated as errors. All errors carry code 1. *)
From Verif Require Import GoBase GoLemmas BigBytes Asn1_model NT Prime_cert SM2_curve_spec SM2_spec SM2_model CBC.
Open Scope Z_scope.

(** ** PBKDF2 *)
Section Pbkdf.
Variable hashLen : nat.
Variable hmac : list Z -> list Z.   (* hmac.New(h, password) fed with one message *)
(** pem_decrypt.go:362-370: the inner loop, [k] iterations left; T is the tail of dk, U the last block *)
Fixpoint inner (k : nat) (dk U : list Z) : list Z :=
  match k with
  | O => dk
  | S k' => let U := hmac U in
            let p := (length dk - hashLen)%nat in
            inner k' (firstn p dk ++ xorl (skipn p dk) U) U
  end.
(** pem_decrypt.go:346-372: blocks [block..], [m] left.  buf = the four bytes of block *)
Fixpoint outer (m : nat) (salt : list Z) (iter : Z) (block : Z) (dk : list Z) : list Z :=
  match m with
  | O => dk
  | S m' =>
      let buf := [u8 (Z.shiftr block 24); u8 (Z.shiftr block 16); u8 (Z.shiftr block 8); u8 block] in
      let dk := dk ++ hmac (salt ++ buf) in
      let U := skipn (length dk - hashLen) dk in
      outer m' salt iter (block + 1) (inner (Z.to_nat (iter - 1)) dk U)
  end.
(** pem_decrypt.go:337-373 pbkdf *)
Definition pbkdf (salt : list Z) (iter : Z) (keyLen : nat) : list Z :=
  let numBlocks := ((keyLen + hashLen - 1) / hashLen)%nat in
  firstn keyLen (outer numBlocks salt iter 1 []).
End Pbkdf.

(** ** DER pieces used below *)
Definition der_oid (c : list Z) : list Z := der_tlv 6 c.
Definition oid_valid (c : list Z) : bool := (0 <? length c)%nat && (last c 128 <? 128).
Definition parse_oid (b : list Z) : res (list Z * list Z) :=
  do r <- parse_field 6 b; if oid_valid (fst r) then Ok r else Err 1.
(** asn1.parseInt64 into a Go int *)
Definition parse_goint (b : list Z) : res (Z * list Z) :=
  do r <- parse_int b; if (- 2 ^ 63 <=? fst r) && (fst r <? 2 ^ 63) then Ok r else Err 1.
(** an optional ANY: the complete TLV (RawValue.FullBytes), empty if there is nothing left *)
Definition parse_any_opt (b : list Z) : res (list Z * list Z) :=
  match b with
  | [] => Ok ([], [])
  | t :: _ => if Z.land t 31 =? 31 then Err 1
              else do r <- parse_field t b; let n := (length b - length (snd r))%nat in Ok (firstn n b, snd r)
  end.
(** pkix.AlgorithmIdentifier: SEQUENCE { OID, ANY OPTIONAL } *)
Definition der_alg (oid params : list Z) : list Z := der_seq [der_oid oid; params].
Definition parse_alg (b : list Z) : res ((list Z * list Z) * list Z) :=
  do r <- parse_field 48 b; do o <- parse_oid (fst r); do p <- parse_any_opt (snd o); Ok ((fst o, fst p), snd r).
(** BIT STRING: (padding, bytes); marshalled with no padding *)
Definition der_bits (b : list Z) : list Z := der_tlv 3 (0 :: b).
Definition parse_bits_content (c : list Z) : res (Z * list Z) :=
  match c with
  | [] => Err 1
  | p :: b => if (7 <? p) || ((0 <? p) && (length b =? 0)%nat) || negb (Z.land (last c 0) (Z.shiftl 1 p - 1) =? 0) then Err 1 else Ok (p, b)
  end.
Definition parse_bits (b : list Z) : res ((Z * list Z) * list Z) :=
  do r <- parse_field 3 b; do v <- parse_bits_content (fst r); Ok (v, snd r).
(** asn1.BitString.RightAlign *)
Definition RightAlign (v : Z * list Z) : list Z := be_bytes (length (snd v)) (be_val (snd v) / 2 ^ fst v).
(** explicit, optional, context tag [t] (0xA0+t): the contents parsed by [p]; absent if the tag differs or nothing is left *)
Definition parse_explicit {A} (tag : Z) (p : list Z -> res (A * list Z)) (dflt : A) (b : list Z) : res (A * list Z) :=
  match b with
  | t :: _ => if t =? tag then do r <- parse_field tag b;
                               if (length (fst r) =? 0)%nat then Err 1 else do v <- p (fst r); Ok (fst v, snd r)
              else Ok (dflt, b)
  | [] => Ok (dflt, [])
  end.

(** ** Object identifiers (pem_decrypt.go:43-58, x509.go:497-541), as DER contents *)
Definition oidPBES2 : list Z := [42;134;72;134;247;13;1;5;13].
Definition oidPBKDF2 : list Z := [42;134;72;134;247;13;1;5;12].
Definition oidKEYMD5 : list Z := [42;134;72;134;247;13;2;5].
Definition oidKEYSHA1 : list Z := [42;134;72;134;247;13;2;7].
Definition oidKEYSHA256 : list Z := [42;134;72;134;247;13;2;9].
Definition oidKEYSHA512 : list Z := [42;134;72;134;247;13;2;11].
Definition oidAES128CBC : list Z := [96;134;72;1;101;3;4;1;2].
Definition oidAES256CBC : list Z := [96;134;72;1;101;3;4;1;42].
Definition oidPublicKeyRSA : list Z := [42;134;72;134;247;13;1;1;1].
Definition oidPublicKeyDSA : list Z := [42;134;72;206;56;4;1].
Definition oidPublicKeyECDSA : list Z := [42;134;72;206;61;2;1].
Definition oidNamedCurveSm2 : list Z := [42;129;28;207;85;1;130;45].
Definition oidNamedCurveP224 : list Z := [43;129;4;0;33].
Definition oidNamedCurveP256 : list Z := [42;134;72;206;61;3;1;7].
Definition oidNamedCurveP384 : list Z := [43;129;4;0;34].
Definition oidNamedCurveP521 : list Z := [43;129;4;0;35].

(** ** Encrypted private key info (pem_decrypt.go:60-104) *)
Record keyinfo := mkInfo { i_pbes2 : list Z; i_kdf : list Z; i_salt : list Z; i_iter : Z; i_prf : list Z; i_prfpar : list Z;
                           i_enc : list Z; i_iv : list Z; i_data : list Z }.
Definition marshal_info (i : keyinfo) : list Z :=
  der_seq [ der_seq [ der_oid (i_pbes2 i);
                      der_seq [ der_seq [ der_oid (i_kdf i); der_seq [der_octets (i_salt i); der_int (i_iter i); der_alg (i_prf i) (i_prfpar i)] ];
                                der_seq [ der_oid (i_enc i); der_octets (i_iv i)] ] ];
            der_octets (i_data i) ].
Definition unmarshal_info (b : list Z) : res keyinfo :=
  do top <- parse_field 48 b;
  do alg <- parse_field 48 (fst top);
  do pb <- parse_oid (fst alg);
  do par <- parse_field 48 (snd pb);
  do kd <- parse_field 48 (fst par);
  do ko <- parse_oid (fst kd);
  do kp <- parse_field 48 (snd ko);
  do sa <- parse_field 4 (fst kp);
  do it <- parse_goint (snd sa);
  do pr <- parse_alg (snd it);
  do es <- parse_field 48 (snd kd);
  do eo <- parse_oid (fst es);
  do iv <- parse_field 4 (snd eo);
  do da <- parse_field 4 (snd alg);
  Ok (mkInfo (fst pb) (fst ko) (fst sa) (fst it) (fst (fst pr)) (snd (fst pr)) (fst eo) (fst iv) (fst da)).

(** encoding/pem Block; headers: only DEK-Info matters, Proc-Type is carried along *)
Record block := mkBlock { b_type : list Z; b_dek : option (list Z); b_proc : option (list Z); b_bytes : list Z }.
Definition IsEncryptedPEMBlock (b : block) : bool := match b_dek b with Some _ => true | None => false end.

Section Keys.
Variable aesE aesD : list Z -> list Z -> list Z.                (* key, block *)
(** hmac.New(h, key) applied to one message, and its size, for h = 0: MD5, 1: SHA1, 2: SHA256, 3: SHA512 *)
Variable hmac : nat -> list Z -> list Z -> list Z.
Variable hsize : nat -> nat.

(** pem_decrypt.go:181-250 DecryptPEMBlock, after asn1.Unmarshal *)
Definition prf_of (oid : list Z) : option nat :=
  if beqb oid oidKEYMD5 then Some 0%nat else if beqb oid oidKEYSHA1 then Some 1%nat
  else if beqb oid oidKEYSHA256 then Some 2%nat else if beqb oid oidKEYSHA512 then Some 3%nat else None.
Definition decrypt_info (i : keyinfo) (password : list Z) : res (list Z) :=
  if negb (beqb (i_pbes2 i) oidPBES2) then Err 1
  else if negb (beqb (i_kdf i) oidPBKDF2) then Err 1
  else if negb (beqb (i_enc i) oidAES128CBC) && negb (beqb (i_enc i) oidAES256CBC) then Err 1
  else match prf_of (i_prf i) with
       | None => Err 1
       | Some h =>
           let key := pbkdf (hsize h) (hmac h password) (i_salt i) (i_iter i) 32 in
           do data <- CBCDecrypt 16 (aesD key) (i_iv i) (i_data i);
           match data with
           | [] => Panic                                         (* encryptedKey[-1] *)
           | _ =>
               let dataLen := length data in
               let padLen := Z.to_nat (last data 0) in
               if (dataLen <=? padLen)%nat then Err 1
               else if forallb (fun v => Z.to_nat v =? padLen)%nat (skipn (dataLen - padLen) data) then Ok (firstn (dataLen - padLen) data)
               else Err 1
           end
       end.
Definition DecryptPEMBlock (b : block) (password : list Z) : res (list Z) :=
  do i <- unmarshal_info (b_bytes b); decrypt_info i password.

(** pem_decrypt.go:255-315 EncryptPEMBlock.  [alg]: 1 DES, 2 3DES, 3 AES128, 4 AES192, 5 AES256 (names as in rfc1423Algos).
    [rand]: the salt and iv buffers after the two rand.Read calls, None if one of them failed. *)
Definition cipher_name (alg : Z) : option (list Z) :=
  if alg =? 1 then Some [68;69;83;45;67;66;67]
  else if alg =? 2 then Some [68;69;83;45;69;68;69;51;45;67;66;67]
  else if alg =? 3 then Some [65;69;83;45;49;50;56;45;67;66;67]
  else if alg =? 4 then Some [65;69;83;45;49;57;50;45;67;66;67]
  else if alg =? 5 then Some [65;69;83;45;50;53;54;45;67;66;67] else None.
Definition hex_digit (d : Z) : Z := if d <? 10 then 48 + d else 87 + d.
Definition hex (l : list Z) : list Z := flat_map (fun b => [hex_digit (b / 16); hex_digit (b mod 16)]) l.
Definition EncryptPEMBlock (rand : option (list Z * list Z)) (blockType data password : list Z) (alg : Z) : res block :=
  match cipher_name alg with
  | None => Err 1
  | Some name =>
      match rand with
      | None => Err 1
      | Some (salt, iv) =>
          let key := pbkdf (hsize 1) (hmac 1 password) salt 2048 32 in
          let padding := 16 - zlen data mod 16 in
          let data := data ++ repeat (u8 padding) (Z.to_nat padding) in
          do enc <- CBCEncrypt 16 (aesE key) iv data;
          let i := mkInfo oidPBES2 oidPBKDF2 salt 2048 oidKEYSHA1 [5;0] oidAES256CBC iv enc in
          Ok (mkBlock blockType (Some (name ++ [44] ++ hex iv)) (Some [52;44;69;78;67;82;89;80;84;69;68]) (marshal_info i))
      end
  end.

(** ** EC private keys *)
Record ecpriv := mkEC { e_version : Z; e_priv : list Z; e_oid : list Z; e_pub : list Z }.
(** asn1.Marshal(ecPrivateKey{...}) with a non-empty OID and public key (sec1.go:70-75, keys.go:56-61, 111-116) *)
Definition marshal_ec (e : ecpriv) : list Z :=
  der_seq [der_int (e_version e); der_octets (e_priv e); der_tlv 160 (der_oid (e_oid e)); der_tlv 161 (der_bits (e_pub e))].
Definition unmarshal_ec (b : list Z) : res ecpriv :=
  do top <- parse_field 48 b;
  do v <- parse_goint (fst top);
  do k <- parse_field 4 (snd v);
  do o <- parse_explicit 160 parse_oid [] (snd k);
  do p <- parse_explicit 161 parse_bits (0, []) (snd o);
  Ok (mkEC (fst v) (fst k) (fst o) (snd (fst p))).

Inductive ncurve := SM2C | NIST (i : nat).                      (* NIST 0..3: P-224, P-256, P-384, P-521 *)
Variable T : Type.
Variable cv : curve T.                                         (* sm2.P256() *)
Variable nist_order : nat -> Z.
Variable nist_base : nat -> list Z -> Z * Z.
Variable nist_on_curve : nat -> Z -> Z -> bool.
Definition order (c : ncurve) : Z := match c with SM2C => sm2_n | NIST i => nist_order i end.
Definition baseMult (c : ncurve) (k : list Z) : Z * Z := match c with SM2C => cv_base cv k | NIST i => nist_base i k end.
(** (N.BitLen()+7)/8 *)
Definition order_len (c : ncurve) : nat := nbytes (order c).
(** x509.go:543-557 namedCurveFromOID *)
Definition namedCurveFromOID (oid : list Z) : option ncurve :=
  if beqb oid oidNamedCurveSm2 then Some SM2C
  else if beqb oid oidNamedCurveP224 then Some (NIST 0)
  else if beqb oid oidNamedCurveP256 then Some (NIST 1)
  else if beqb oid oidNamedCurveP384 then Some (NIST 2)
  else if beqb oid oidNamedCurveP521 then Some (NIST 3) else None.
(** the keys returned: sm2.PrivateKey (no table, no DInv) / ecdsa.PrivateKey / other *)
Inductive anykey := KEC (c : ncurve) (d x y : Z) | KRSA.
(** sec1.go:118-124 and 154-160: drop leading zeros beyond [n] bytes *)
Fixpoint strip_zeros (k : list Z) (n : nat) : option (list Z) :=
  match k with
  | [] => Some []
  | x :: t => if (n <? length k)%nat then if x =? 0 then strip_zeros t n else None else Some k
  end.
(** sec1.go:82-173 parseECPrivateKey ([unm] is asn1.Unmarshal into ecPrivateKey; both branches do the same, the result type differs) *)
Definition parseECPrivateKey (unm : list Z -> res ecpriv) (namedCurveOID : option (list Z)) (der : list Z) : res anykey :=
  do e <- unm der;
  if negb (e_version e =? 1) then Err 1
  else match namedCurveFromOID (match namedCurveOID with Some o => o | None => e_oid e end) with
       | None => Err 1
       | Some c =>
           let k := be_val (e_priv e) in
           if order c <=? k then Err 1
           else match strip_zeros (e_priv e) (order_len c) with
                | None => Err 1
                | Some pk => let privateKey := zeros (order_len c - length pk) ++ pk in
                             let '(x, y) := baseMult c privateKey in Ok (KEC c k x y)
                end
       end.

(** ** PKCS#8 (pkcs8.go:16-55, keys.go:26-30) *)
Variable parsePKCS1 : list Z -> res unit.
Definition marshal_pkcs8 (oid params key : list Z) : list Z := der_seq [der_int 0; der_alg oid params; der_octets key].
Definition unmarshal_pkcs8 (b : list Z) : res ((list Z * list Z) * list Z) :=
  do top <- parse_field 48 b; do v <- parse_goint (fst top); do a <- parse_alg (snd v); do k <- parse_field 4 (snd a); Ok (fst a, fst k).
Definition ParsePKCS8PrivateKey (der : list Z) : res anykey :=
  do p <- unmarshal_pkcs8 der;
  let '((oid, params), key) := p in
  if beqb oid oidPublicKeyRSA then do u <- parsePKCS1 key; Ok KRSA
  else if beqb oid oidPublicKeyECDSA then
    let namedCurveOID := match parse_oid params with Ok r => Some (fst r) | _ => None end in
    parseECPrivateKey unmarshal_ec namedCurveOID key
  else Err 1.

(** elliptic.Marshal / elliptic.Unmarshal for the SM2 curve (256 bits): 4 || X || Y; Unmarshal checks range and the equation *)
Definition on_curve_b (x y : Z) : bool := (y * y) mod sm2_p =? (x * x * x + sm2_a * x + sm2_b) mod sm2_p.
Definition ellMarshal (x y : Z) : list Z := [4] ++ pad32 (Bytes x) ++ pad32 (Bytes y).
Definition ellUnmarshal (d : list Z) : option (Z * Z) :=
  if negb (length d =? 65)%nat then None
  else if negb (nth 0 d 0 =? 4) then None
  else let x := be_val (firstn 32 (skipn 1 d)) in let y := be_val (skipn 33 d) in
       if (sm2_p <=? x) || (sm2_p <=? y) then None
       else if on_curve_b x y then Some (x, y) else None.

(** ** utils/keys.go.  PEM armour: pem.EncodeToMemory and pem.Decode *)
Variable pemEncode : block -> list Z.
Variable pemDecode : list Z -> option block.
Definition sm2_params : list Z := [6;8;42;129;28;207;85;1;130;45].
(** keys.go:48-80 / 97-131: the PKCS#8 bytes of a key.  The copy panics if D needs more than 32 bytes. *)
Definition pkcs8_bytes (d x y : Z) : res (list Z) :=
  if (32 <? nbytes d)%nat then Panic
  else Ok (marshal_pkcs8 oidPublicKeyECDSA sm2_params (marshal_ec (mkEC 1 (pad32 (Bytes d)) oidNamedCurveSm2 (ellMarshal x y)))).
Definition str_PRIVATE_KEY : list Z := [80;82;73;86;65;84;69;32;75;69;89].
Definition str_ENCRYPTED_PRIVATE_KEY : list Z := [69;78;67;82;89;80;84;69;68;32;80;82;73;86;65;84;69;32;75;69;89].
Definition str_PUBLIC_KEY : list Z := [80;85;66;76;73;67;32;75;69;89].
(** keys.go:41-88 PrivateKeyToPEM with 90-144 PrivateKeyToEncryptedPEM *)
Definition PrivateKeyToPEM (rand : option (list Z * list Z)) (d x y : Z) (pwd : list Z) : res (list Z) :=
  do b <- pkcs8_bytes d x y;
  match pwd with
  | [] => Ok (pemEncode (mkBlock str_PRIVATE_KEY None None b))
  | _ => do blk <- EncryptPEMBlock rand str_ENCRYPTED_PRIVATE_KEY b pwd 5; Ok (pemEncode blk)
  end.
(** keys.go:146-188 PEMtoPrivateKey: only an SM2 key is returned: (D, X, Y) *)
Definition as_sm2 (k : anykey) : res (Z * Z * Z) := match k with KEC SM2C d x y => Ok (d, x, y) | _ => Err 1 end.
Definition PEMtoPrivateKey (raw pwd : list Z) : res (Z * Z * Z) :=
  match raw with
  | [] => Err 1
  | _ => match pemDecode raw with
         | None => Err 1
         | Some blk =>
             if IsEncryptedPEMBlock blk || beqb (b_type blk) str_ENCRYPTED_PRIVATE_KEY then
               match pwd with
               | [] => Err 1
               | _ => do d <- DecryptPEMBlock blk pwd; do k <- ParsePKCS8PrivateKey d; as_sm2 k
               end
             else do k <- ParsePKCS8PrivateKey (b_bytes blk); as_sm2 k
         end
  end.
(** x509.go:74-87, 123-143 MarshalPKIXPublicKey for an SM2 key *)
Definition MarshalPKIXPublicKey (x y : Z) : list Z :=
  der_seq [der_alg oidPublicKeyECDSA (der_oid oidNamedCurveSm2); der_bits (ellMarshal x y)].
(** x509.go:55-72 ParsePKIXPublicKey and 1014-1037 parsePublicKey, SM2 branch; keys of another kind are an error here
    (PEMtoPublicKey turns them into one) *)
Definition ParsePKIXPublicKey (der : list Z) : res (Z * Z) :=
  do top <- parse_field 48 der;
  match snd top with
  | _ :: _ => Err 1
  | [] =>
      do a <- parse_alg (fst top);
      do p <- parse_bits (snd a);
      if negb (beqb (fst (fst a)) oidPublicKeyECDSA && beqb (snd (fst a)) (der_oid oidNamedCurveSm2)) then Err 1
      else match ellUnmarshal (RightAlign (fst p)) with None => Err 1 | Some xy => Ok xy end
  end.
(** keys.go:190-211 PublicKeyToPEM with 213-240 *)
Definition PublicKeyToPEM (rand : option (list Z * list Z)) (x y : Z) (pwd : list Z) : res (list Z) :=
  match pwd with
  | [] => Ok (pemEncode (mkBlock str_PUBLIC_KEY None None (MarshalPKIXPublicKey x y)))
  | _ => do blk <- EncryptPEMBlock rand str_PUBLIC_KEY (MarshalPKIXPublicKey x y) pwd 5; Ok (pemEncode blk)
  end.
(** keys.go:242-285 PEMtoPublicKey *)
Definition PEMtoPublicKey (raw pwd : list Z) : res (Z * Z) :=
  match raw with
  | [] => Err 1
  | _ => match pemDecode raw with
         | None => Err 1
         | Some blk =>
             if IsEncryptedPEMBlock blk then
               match pwd with
               | [] => Err 1
               | _ => do d <- DecryptPEMBlock blk pwd; ParsePKIXPublicKey d
               end
             else ParsePKIXPublicKey (b_bytes blk)
         end
  end.
End Keys.

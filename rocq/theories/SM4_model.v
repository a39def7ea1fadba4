(** Model of package sm4 (/repo/sm4/sm4.go, /repo/sm4/const.go). *)
From Verif Require Import GoBase SM4_tables.
Open Scope Z_scope.

(** const.go:11-14 cryptMode: any int; only the comparison with ENC matters. *)
Inductive mode := ENC | DEC.

(** sm4.go:24-29 scSbox (indices are below 16 for every byte) *)
Definition scSbox (inb : Z) : Z :=
  nth (Z.to_nat (Z.land inb 0x0f)) (nth (Z.to_nat (Z.land (Z.shiftr inb 4) 0x0f)) sbox []) 0.

(** sm4.go:46-49 leftRotate *)
Definition leftRotate (x r : Z) : Z :=
  Z.land (Z.lor (u32 (Z.shiftl x r)) (Z.shiftr x (32 - r))) 0xffffffff.

(** sm4.go:37-39 key_l *)
Definition key_l (x : Z) : Z := Z.lxor (Z.lxor x (leftRotate x 13)) (leftRotate x 23).
(** sm4.go:32-34 l *)
Definition l_ (x : Z) : Z :=
  Z.lxor (Z.lxor (Z.lxor (Z.lxor x (leftRotate x 2)) (leftRotate x 10)) (leftRotate x 18)) (leftRotate x 24).

(** sm4.go:52-64 tt *)
Definition tt_ (x : Z) : Z :=
  let t0 := Z.land (u8 (Z.shiftr x 24)) 0xff in
  let t1 := Z.land (u8 (Z.shiftr x 16)) 0xff in
  let t2 := Z.land (u8 (Z.shiftr x 8)) 0xff in
  let t3 := Z.land (u8 x) 0xff in
  Z.lor (Z.lor (Z.lor (scSbox t3) (Z.shiftl (scSbox t2) 8)) (Z.shiftl (scSbox t1) 16)) (Z.shiftl (scSbox t0) 24).

(** sm4.go:72-74 key_t; sm4.go:67-69 t3 (unused by the cipher) *)
Definition key_t (x : Z) : Z := key_l (tt_ x).
Definition t3_ (x : Z) : Z := l_ (tt_ x).

(** sm4.go:83-86 body of the key schedule loop on the arrays (k, rk) *)
Definition keyExp_step (kr : list Z * list Z) (i : nat) : list Z * list Z :=
  let '(k, rk) := kr in
  let v := Z.lxor (nth i k 0)
             (key_t (Z.lxor (Z.lxor (Z.lxor (nth (i+1) k 0) (nth (i+2) k 0)) (nth (i+3) k 0)) (nth i ck 0))) in
  (upd (i+4) v k, upd i v rk).
(** sm4.go:77-88 keyExp: arrays k [36]uint32, rk [32]uint32 filled by the loops. *)
Definition keyExp (key : list Z) : list Z :=
  let k := fold_left (fun k i => upd i (Z.lxor (nth i key 0) (nth i fk 0)) k) (seq 0 4) (zeros 36) in
  snd (fold_left keyExp_step (seq 0 32) (k, zeros 32)).

(** sm4.go:91-101 loading of four big-endian words *)
Definition load (src : list Z) (i : nat) : Z :=
  Z.lor (Z.lor (Z.lor (Z.shiftl (nth (i*4) src 0) 24) (Z.shiftl (nth (i*4+1) src 0) 16))
               (Z.shiftl (nth (i*4+2) src 0) 8)) (nth (i*4+3) src 0).

(** sm4.go:106-107 etc.: the table-driven T transform applied to x *)
Definition tbl (x : Z) : Z :=
  Z.lxor (Z.lxor (Z.lxor (nth (Z.to_nat (Z.land x 0xff)) sbox0 0)
                         (nth (Z.to_nat (Z.land (Z.shiftr x 8) 0xff)) sbox1 0))
                 (nth (Z.to_nat (Z.land (Z.shiftr x 16) 0xff)) sbox2 0))
         (nth (Z.to_nat (Z.land (Z.shiftr x 24) 0xff)) sbox3 0).

(** sm4.go:104-113 and 115-124: one iteration of the loops of cryptBlock, given its four round keys *)
Definition iter4 (r0 r1 r2 r3 : Z) (b : Z * Z * Z * Z) : Z * Z * Z * Z :=
  let '(b0, b1, b2, b3) := b in
  let b0 := Z.lxor b0 (tbl (Z.lxor (Z.lxor (Z.lxor b1 b2) b3) r0)) in
  let b1 := Z.lxor b1 (tbl (Z.lxor (Z.lxor (Z.lxor b0 b2) b3) r1)) in
  let b2 := Z.lxor b2 (tbl (Z.lxor (Z.lxor (Z.lxor b0 b1) b3) r2)) in
  let b3 := Z.lxor b3 (tbl (Z.lxor (Z.lxor (Z.lxor b1 b2) b0) r3)) in
  (b0, b1, b2, b3).

(** sm4.go:91-134 cryptBlock. [src[15]] is read, so a shorter [src] panics; [copy(dst, r)] writes
    min(len dst, 16) bytes. Returns the new contents of [dst]. *)
Definition cryptBlock (rk dst src : list Z) (m : mode) : res (list Z) :=
  if (length src <? 16)%nat then Panic else
  let b := (load src 0, load src 1, load src 2, load src 3) in
  let b := match m with
    | ENC => fold_left (fun b i => iter4 (nth (4*i) rk 0) (nth (4*i+1) rk 0) (nth (4*i+2) rk 0) (nth (4*i+3) rk 0) b) (seq 0 8) b
    | DEC => fold_left (fun b i => iter4 (nth (31-4*i) rk 0) (nth (31-4*i-1) rk 0) (nth (31-4*i-2) rk 0) (nth (31-4*i-3) rk 0) b) (seq 0 8) b
    end in
  let '(b0, b1, b2, b3) := b in
  let r := concat (map (fun s => [u8 (Z.shiftr s 24); u8 (Z.shiftr s 16); u8 (Z.shiftr s 8); u8 s]) [b3; b2; b1; b0]) in
  Ok (firstn (length dst) r ++ skipn 16 dst).

(** sm4.go:136-138 KeySizeError(n): errors are identified by the reported size n. *)
Definition KeySizeError (n : Z) : Z := n.

(** sm4.go:140-152 NewCipher; the cipher object is its round keys *)
Definition NewCipher (key : list Z) : res (list Z) :=
  if negb (length key =? 16)%nat then Err (KeySizeError (zlen key))
  else Ok (keyExp (map (load key) (seq 0 4))).

(** sm4.go:158-164 Encrypt, Decrypt *)
Definition Encrypt (c dst src : list Z) : res (list Z) := cryptBlock c dst src ENC.
Definition Decrypt (c dst src : list Z) : res (list Z) := cryptBlock c dst src DEC.

(** sm4.go:166-170 pkcs7Padding (contents of the result) *)
Definition pkcs7Padding (src : list Z) : list Z :=
  let padding := 16 - zlen src mod 16 in
  src ++ repeat (u8 padding) (Z.to_nat padding).

(** Errors of pkcs7UnPadding (sm4.go:177, 183). *)
Definition errPadRange : Z := -1.
Definition errPadBytes : Z := -2.
(** sm4.go:172-188 pkcs7UnPadding. [src[length-1]] panics on an empty slice;
    [src[len(src)-unpadding:]] panics when unpadding > len(src). *)
Definition pkcs7UnPadding (src : list Z) : res (list Z) :=
  match rev src with
  | [] => Panic
  | unpadding :: _ =>
    if (unpadding >? 16) || (unpadding =? 0) then Err errPadRange
    else if zlen src <? unpadding then Panic
    else let pad := skipn (length src - Z.to_nat unpadding) src in
      if forallb (fun b => b =? u8 unpadding) (firstn (Z.to_nat unpadding) pad)
      then Ok (firstn (length src - Z.to_nat unpadding) src)
      else Err errPadBytes
  end.

(** Write the 16-byte [blk] at block index [i] of [out] (sm4.go:210, 217: copy(out[i*16:i*16+16], out_tmp)). *)
Definition put_block (out : list Z) (i : nat) (blk : list Z) : list Z :=
  firstn (i * 16) out ++ blk ++ skipn (i * 16 + 16) out.
Definition get_block (l : list Z) (i : nat) : list Z := firstn 16 (skipn (i * 16) l).

(** Result of the Go helper functions: [(out, err)] where out may be nil ([None]). *)
Definition go_out : Type := option (list Z).

(** [out, _ = pkcs7UnPadding(out)] (sm4.go:219, 273): the error is discarded, out is nil then. *)
Definition unpad_swallow (out : list Z) : res go_out :=
  match pkcs7UnPadding out with
  | Ok o => Ok (Some o)
  | Err _ => Ok None
  | Panic => Panic
  end.

(** sm4.go:206-211 / 213-218 loop body over all whole blocks *)
Fixpoint ecb_loop (f : list Z -> list Z -> res (list Z)) (inData : list Z) (is : list nat) (out : list Z) : res (list Z) :=
  match is with
  | [] => Ok out
  | i :: is' =>
      do out_tmp <- f (zeros 16) (get_block inData i);
      ecb_loop f inData is' (put_block out i out_tmp)
  end.

(** sm4.go:191-224 Sm4Ecb *)
Definition Sm4Ecb (key inp : list Z) (m : mode) : res go_out :=
  if negb (length key =? 16)%nat then Err (KeySizeError (zlen key)) else
  let inData := match m with ENC => pkcs7Padding inp | DEC => inp end in
  let out := zeros (length inData) in
  match NewCipher key with
  | Ok c =>
    match m with
    | ENC => do out <- ecb_loop (Encrypt c) inData (seq 0 (length inData / 16)) out; Ok (Some out)
    | DEC => do out <- ecb_loop (Decrypt c) inData (seq 0 (length inData / 16)) out; unpad_swallow out
    end
  | _ => Panic   (* panic(err) *)
  end.

(** sm4.go:226-236 xor: nil when the lengths differ (never here: both are 16) *)
Definition xor_ (a iv : list Z) : option (list Z) :=
  if (length a =? length iv)%nat then Some (xorl a iv) else None.

(** sm4.go:257-263: encryption loop of Sm4Cbc *)
Fixpoint cbc_enc_loop (c inData : list Z) (is : list nat) (iv out : list Z) : res (list Z) :=
  match is with
  | [] => Ok out
  | i :: is' =>
      match xor_ (get_block inData i) iv with
      | None => Panic       (* nil slice passed to Encrypt: src[0] out of range *)
      | Some in_tmp =>
        do out_tmp <- Encrypt c (zeros 16) in_tmp;
        cbc_enc_loop c inData is' out_tmp (put_block out i out_tmp)
      end
  end.
(** sm4.go:265-272: decryption loop of Sm4Cbc *)
Fixpoint cbc_dec_loop (c inData : list Z) (is : list nat) (iv out : list Z) : res (list Z) :=
  match is with
  | [] => Ok out
  | i :: is' =>
      let in_tmp := get_block inData i in
      do out_tmp <- Decrypt c (zeros 16) in_tmp;
      match xor_ out_tmp iv with
      | None => Panic       (* not reachable; copy of a nil slice would leave zeros *)
      | Some o => cbc_dec_loop c inData is' in_tmp (put_block out i o)
      end
  end.

(** sm4.go:239-278 Sm4Cbc *)
Definition Sm4Cbc (key inp : list Z) (m : mode) : res go_out :=
  if negb (length key =? 16)%nat then Err (KeySizeError (zlen key)) else
  let inData := match m with ENC => pkcs7Padding inp | DEC => inp end in
  let iv := zeros 16 in
  let out := zeros (length inData) in
  match NewCipher key with
  | Ok c =>
    match m with
    | ENC => do out <- cbc_enc_loop c inData (seq 0 (length inData / 16)) iv out; Ok (Some out)
    | DEC => do out <- cbc_dec_loop c inData (seq 0 (length inData / 16)) iv out; unpad_swallow out
    end
  | _ => Panic
  end.

(** ** Memory effect of the padding step, for C11.
    A slice argument is a window [off, off+len) of its backing array [arr] (capacity: up to the end of
    [arr]). sm4.go:169 [append(src, padtext...)] writes in place when the spare capacity suffices, and
    allocates otherwise. [Sm4Ecb]/[Sm4Cbc] touch the caller's array nowhere else (they write only to [out],
    a fresh slice). *)
Definition append_effect (arr : list Z) (off len : nat) (extra : list Z) : list Z :=
  if (off + len + length extra <=? length arr)%nat
  then firstn (off + len) arr ++ extra ++ skipn (off + len + length extra) arr
  else arr.
Definition helper_effect (arr : list Z) (off len : nat) (m : mode) : list Z :=
  match m with
  | ENC => let padding := 16 - Z.of_nat len mod 16 in
           append_effect arr off len (repeat (u8 padding) (Z.to_nat padding))
  | DEC => arr
  end.

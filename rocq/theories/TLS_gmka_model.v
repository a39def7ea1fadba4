(** Model of eccKeyAgreementGM, /repo/tls/gm_key_agreement.go:291-430 (the ECC_SM4 suites), over the model of package sm2.
    Certificates enter only through their raw bytes and keys.  A private key that is not an SM2 key of this library
    (another crypto.Signer / crypto.Decrypter) is not modelled: [None] is a key implementing neither interface. *)
From Verif Require Import GoBase GoLemmas BigBytes Asn1_model SM2_model.
Open Scope Z_scope.

(** errors: key_agreement.go errClientKeyExchange, errServerKeyExchange and the errors.New of this file *)
Definition errClientKeyExchange : Z := 11. Definition errServerKeyExchange : Z := 12. Definition errKeyType : Z := 13. Definition errSignature : Z := 14.

Section KA.
Context {T : Type} (cv : curve T).

(** gm_key_agreement.go:397-406 hashForServerKeyExchange: the concatenation, a 3-byte length before the third slice *)
Fixpoint hash_slices (i : nat) (slices : list (list Z)) : list Z :=
  match slices with
  | [] => []
  | s :: rest =>
      (if (i =? 2)%nat then [u8 (Z.shiftr (zlen s) 16); u8 (Z.shiftr (zlen s) 8); u8 (zlen s)] else []) ++ s ++ hash_slices (i + 1) rest
  end.
Definition hashForServerKeyExchange (slices : list (list Z)) : list Z := hash_slices 0 slices.

(** gm_key_agreement.go:311-338 generateServerKeyExchange; [cipherCert] = cipherCert.Certificate; the result is ske.key *)
Definition generateServerKeyExchange (draw : option (list Z)) (signKey : option (privkey T)) (cipherCert : list (list Z)) (clientRandom serverRandom : list Z) : res (list Z) :=
  match cipherCert with
  | [] => Panic                                            (* Certificate[0] *)
  | c0 :: _ =>
      let digest := hashForServerKeyExchange [clientRandom; serverRandom; c0] in
      match signKey with
      | None => Err errKeyType
      | Some priv =>
          do sig <- PrivSign cv draw priv digest;
          let n := zlen sig in
          Ok ([u8 (Z.shiftr n 8); u8 n] ++ sig)
      end
  end.

(** the expression ciphertext[0]<<8 | ciphertext[1] is computed on bytes: uint8 *)
Definition byte_len (b0 b1 : Z) : Z := Z.lor (u8 (Z.shiftl b0 8)) b1.

(** gm_key_agreement.go:340-366 processClientKeyExchange; [ct] = ckx.ciphertext *)
Definition processClientKeyExchange (key : option (privkey T)) (ct : list Z) : res (list Z) :=
  match ct with
  | [] => Err errClientKeyExchange
  | [_] => Panic                                           (* ciphertext[1]: index out of range *)
  | b0 :: b1 :: cipher =>
      if negb (byte_len b0 b1 =? zlen ct - 2) then Err errClientKeyExchange
      else match key with
           | None => Err errKeyType
           | Some priv =>
               do plain <- Decrypt cv cipher priv;
               if negb (length plain =? 48)%nat then Err errClientKeyExchange else Ok plain
           end
  end.

(** gm_key_agreement.go:368-395 processServerKeyExchange; [encCert] = ka.encipherCert.Raw, [pub] = cert.PublicKey if it is an SM2 key *)
Definition processServerKeyExchange (clientRandom serverRandom encCert : list Z) (pub : option (pubkey T)) (key : list Z) : res unit :=
  match key with
  | b0 :: b1 :: _ :: _ =>
      let sigLen := byte_len b0 b1 in
      if negb (sigLen + 2 =? zlen key) then Err errServerKeyExchange
      else
        let sig := skipn 2 key in
        let digest := hashForServerKeyExchange [clientRandom; serverRandom; encCert] in
        match pub with
        | None => Err errKeyType
        | Some pub =>
            do f <- parse_field 48 sig;                     (* asn1.Unmarshal; rest = snd f *)
            do rs <- parse_ints2 sig;
            let '(r, s) := rs in
            if match snd f with [] => false | _ => true end then Err errSignature
            else if (r <=? 0) || (s <=? 0) then Err errSignature
            else do ok <- Verify cv pub digest r s;
                 if ok then Ok tt else Err errSignature
        end
  | _ => Err errServerKeyExchange
  end.

(** gm_key_agreement.go:408-430 generateClientKeyExchange; [rnd] = the 46 bytes read from config.rand() (None: the reader failed), [draw] = the
    randomness of sm2.Encrypt.  The result is (preMasterSecret, ckx.ciphertext); None = Encrypt does not terminate within [fuel] passes. *)
Definition generateClientKeyExchange (fuel : nat) (rnd draw : option (list Z)) (vers : Z) (encKey : pubkey T) : option (res (list Z * list Z)) :=
  match rnd with
  | None => Some (Err err_rand)
  | Some r =>
      let preMasterSecret := [u8 (Z.shiftr vers 8); u8 vers] ++ r in
      option_map (fun e => do encrypted <- e;
                           Ok (preMasterSecret, [u8 (Z.shiftr (zlen encrypted) 8); u8 (zlen encrypted)] ++ encrypted))
                 (Encrypt cv fuel draw encKey preMasterSecret)
  end.
End KA.

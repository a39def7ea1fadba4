(** Model of the negotiation and configuration code of /repo/tls/common.go, cipher_suites.go, gm_support.go, handshake_client.go,
    handshake_server.go (selection only), and of /repo/internal/subtle/aliasing.go.
    Strings are byte lists; strings.ToLower is a parameter (it is the ASCII lower-casing on ASCII strings). *)
From Verif Require Import GoBase GoLemmas TLS_record_model TLS_ticket_model.
Open Scope Z_scope.

(** ** Versions.  common.go:37-38 *)
Definition minVersionConst : Z := VersionGMSSL. Definition maxVersionConst : Z := VersionTLS12.
(** common.go:688-693, 695-700: an unset field is 0 *)
Definition minVersion (cfgMin : Z) : Z := if cfgMin =? 0 then minVersionConst else cfgMin.
Definition maxVersion (cfgMax : Z) : Z := if cfgMax =? 0 then maxVersionConst else cfgMax.
(** common.go:713-724 mutualVersion: Some v = (v, true), None = (0, false) *)
Definition mutualVersion (cfgMin cfgMax vers : Z) : option Z :=
  let minV := minVersion cfgMin in
  let maxV := maxVersion cfgMax in
  if vers <? minV then None else Some (if maxV <? vers then maxV else vers).
(** handshake_client.go pickTLSVersion:296-308 *)
Definition pickTLSVersion (cfgMin cfgMax serverVers : Z) : option Z :=
  match mutualVersion cfgMin cfgMax serverVers with
  | Some v => if v <? VersionTLS10 then None else Some v
  | None => None
  end.

(** ** Cipher suites.  cipher_suites.go:40-59 flags; cipher_suites.go:75-108 and gm_support.go:119-122, identified by id and flags *)
Definition suiteECDHE : Z := 1. Definition suiteECDSA : Z := 2. Definition suiteTLS12 : Z := 4.
Definition suiteSHA384 : Z := 8. Definition suiteDefaultOff : Z := 16.
Record suite := mkSuite { su_id : Z; su_flags : Z }.
Definition cipherSuites : list suite :=
  [ mkSuite 0xcca8 (1 + 4); mkSuite 0xcca9 (1 + 2 + 4); mkSuite 0xc02f (1 + 4); mkSuite 0xc02b (1 + 2 + 4);
    mkSuite 0xc030 (1 + 4 + 8); mkSuite 0xc02c (1 + 2 + 4 + 8); mkSuite 0xc023 (1 + 2 + 4 + 16); mkSuite 0xc009 (1 + 2);
    mkSuite 0xc014 1; mkSuite 0xc00a (1 + 2); mkSuite 0x009c 4; mkSuite 0x009d (4 + 8); mkSuite 0x003c (4 + 16);
    mkSuite 0x002f 0; mkSuite 0x0035 0; mkSuite 0xc012 1; mkSuite 0x000a 0; mkSuite 0x0005 16; mkSuite 0xc011 (1 + 16);
    mkSuite 0xc007 (1 + 2 + 16) ].
Definition gmCipherSuites : list suite := [ mkSuite 0xe013 2; mkSuite 0xe011 (1 + 2) ].
Definition has_flag (s : suite) (f : Z) : bool := negb (Z.land (su_flags s) f =? 0).

Fixpoint find_suite (id : Z) (l : list suite) : option suite :=
  match l with [] => None | s :: l => if su_id s =? id then Some s else find_suite id l end.
(** cipher_suites.go:348-360 mutualCipherSuite (with [table] = cipherSuites), gm_support.go:186-198 mutualCipherSuiteGM (gmCipherSuites) *)
Fixpoint mutual_suite (table : list suite) (have : list Z) (want : Z) : option suite :=
  match have with
  | [] => None
  | id :: have => if id =? want then find_suite want table else mutual_suite table have want
  end.
Definition mutualCipherSuite := mutual_suite cipherSuites.
Definition mutualCipherSuiteGM := mutual_suite gmCipherSuites.

(** common.go:931-957 initDefaultCipherSuites *)
Definition topCipherSuites : list Z := [0xcca8; 0xcca9; 0xc02f; 0xc030; 0xc02b; 0xc02c].
Definition defaultCipherSuites : list Z :=
  fold_left (fun acc s => if has_flag s suiteDefaultOff then acc
                          else if existsb (fun e => e =? su_id s) acc then acc else acc ++ [su_id s]) cipherSuites topCipherSuites.
(** common.go:680-686 Config.cipherSuites, gm_support.go:124-130 getCipherSuites; a nil list is None *)
Definition cfg_cipherSuites (cs : option (list Z)) : list Z := match cs with Some l => l | None => defaultCipherSuites end.
Definition getCipherSuites (cs : option (list Z)) : list Z := match cs with Some l => l | None => [0xe013; 0xe011] end.

(** handshake_server.go:727-765 setCipherSuite ([ok] = the suite suits this client and certificate) and
    gm_handshake_server_double.go:692-717 (where [ok] is only the version condition) *)
Fixpoint set_suite (table : list suite) (ok : suite -> bool) (id : Z) (supported : list Z) : option suite :=
  match supported with
  | [] => None
  | s :: supported =>
      if id =? s then
        match find_suite id table with
        | None => set_suite table ok id supported
        | Some c => if ok c then Some c else set_suite table ok id supported
        end
      else set_suite table ok id supported
  end.
Definition std_suite_ok (ellipticOk ecdsaOk rsaSignOk rsaDecryptOk : bool) (version : Z) (c : suite) : bool :=
  (if has_flag c suiteECDHE then ellipticOk && (if has_flag c suiteECDSA then ecdsaOk else rsaSignOk) else rsaDecryptOk) &&
  negb ((version <? VersionTLS12) && has_flag c suiteTLS12).
Definition gm_suite_ok (version : Z) (c : suite) : bool := negb ((version <? VersionTLS12) && has_flag c suiteTLS12).
(** handshake_server.go:252-266, gm_handshake_server_double.go:213-227: the selection loop *)
Fixpoint select_suite (table : list suite) (ok : suite -> bool) (preference supported : list Z) : option suite :=
  match preference with
  | [] => None
  | id :: rest => match set_suite table ok id supported with Some c => Some c | None => select_suite table ok rest supported end
  end.
Definition negotiate_suite (table : list suite) (ok : suite -> bool) (preferServer : bool) (server client : list Z) : option suite :=
  if preferServer then select_suite table ok server client else select_suite table ok client server.
(** handshake_server.go:272-282, gm_handshake_server_double.go:233-243: RFC 7507; true = inappropriate fallback *)
Definition TLS_FALLBACK_SCSV : Z := 0x5600.
Fixpoint bad_fallback (suites : list Z) (clientVers maxV : Z) : bool :=
  match suites with
  | [] => false
  | id :: rest => if id =? TLS_FALLBACK_SCSV then clientVers <? maxV else bad_fallback rest clientVers maxV
  end.

(** handshake_client.go:855-865 mutualProtocol *)
Fixpoint mutual_proto (preferenceProtos protos : list (list Z)) : option (list Z) :=
  match preferenceProtos with
  | [] => None
  | s :: rest => if existsb (beqb s) protos then Some s else mutual_proto rest protos
  end.
Definition mutualProtocol (protos preferenceProtos : list (list Z)) : res (list Z * bool) :=
  match mutual_proto preferenceProtos protos with
  | Some s => Ok (s, false)
  | None => match protos with [] => Panic | p :: _ => Ok (p, true) end
  end.

(** ** Certificate selection *)
Definition star : list Z := [42]. Definition dot : Z := 46.
(** strings.Split(name, "."), strings.Join(labels, ".") *)
Fixpoint split_dots (cur : list Z) (name : list Z) : list (list Z) :=
  match name with
  | [] => [cur]
  | c :: rest => if c =? dot then cur :: split_dots [] rest else split_dots (cur ++ [c]) rest
  end.
Fixpoint join_dots (labels : list (list Z)) : list Z :=
  match labels with
  | [] => []
  | [l] => l
  | l :: rest => l ++ dot :: join_dots rest
  end.
(** common.go:746-749 *)
Fixpoint trim_dots_rev (r : list Z) : list Z := match r with c :: r' => if c =? dot then trim_dots_rev r' else r | [] => [] end.
Definition trim_dots (name : list Z) : list Z := rev (trim_dots_rev (rev name)).

Section GetCert.
Context {cert : Type} (toLower : list Z -> list Z).
(** common.go:757-764: i is the index of the next label to replace *)
Fixpoint wildcard_loop (m : list Z -> option cert) (fuel i : nat) (labels : list (list Z)) : option cert :=
  match fuel with
  | O => None
  | S fuel => let labels := upd i star labels in
              match m (join_dots labels) with
              | Some c => Some c
              | None => wildcard_loop m fuel (i + 1) labels
              end
  end.
(** common.go:728-769 getCertificate; [callback] = Config.GetCertificate applied to this ClientHelloInfo (None: nil), [certs] = Config.Certificates,
    [byName] = NameToCertificate (None: nil map).  Result: (certificate or nil, error or nil); error 1 = no certificates configured *)
Definition getCertificate (callback : option (option cert * option Z)) (certs : list cert) (byName : option (list Z -> option cert)) (serverName : list Z)
  : option cert * option Z :=
  let rest :=
    match certs with
    | [] => (None, Some 1)
    | c0 :: more =>
        match more, byName with
        | [], _ => (Some c0, None)
        | _, None => (Some c0, None)
        | _, Some m =>
            let name := trim_dots (toLower serverName) in
            match m name with
            | Some c => (Some c, None)
            | None =>
                let labels := split_dots [] name in
                match wildcard_loop m (length labels) 0 labels with
                | Some c => (Some c, None)
                | None => (Some c0, None)
                end
            end
        end
    end in
  match callback with
  | Some (c, e) =>
      if (match certs with [] => true | _ => false end) || (0 <? zlen serverName) then
        match c, e with None, None => rest | _, _ => (c, e) end
      else rest
  | None => rest
  end.
(** common.go:773-790 BuildNameToCertificate; [parse] = CommonName and DNSNames of the parsed leaf (None: parse error);
    later assignments to a key win; an entry without any certificate panics (Certificate[0]) *)
Definition map_set (m : list Z -> option cert) (k : list Z) (v : cert) : list Z -> option cert := fun x => if beqb x k then Some v else m x.
Fixpoint build_names (leaf : cert -> option (list Z)) (parse : list Z -> option (list Z * list (list Z))) (certs : list cert) (m : list Z -> option cert)
  : res (list Z -> option cert) :=
  match certs with
  | [] => Ok m
  | c :: rest =>
      match leaf c with
      | None => Panic
      | Some der =>
          match parse der with
          | None => build_names leaf parse rest m
          | Some (cn, sans) =>
              let m := if 0 <? zlen cn then map_set m cn c else m in
              build_names leaf parse rest (fold_left (fun m san => map_set m san c) sans m)
          end
      end
  end.
Definition BuildNameToCertificate leaf parse (certs : list cert) := build_names leaf parse certs (fun _ => None).
End GetCert.

(** ** serverInit, common.go:604-636.  The fields of Config it reads and writes; [rnd] = the 32 bytes read from config.rand() *)
Record tconfig := mkTC { tc_disabled : bool; tc_key : list Z; tc_keys : list ticketKey }.
Definition serverInit (sha512 : list Z -> list Z) (c : tconfig) (original : option tconfig) (rnd : option (list Z)) : tconfig :=
  if tc_disabled c || negb (length (tc_keys c) =? 0)%nat then c
  else
    let alreadySet := existsb (fun b => negb (b =? 0)) (tc_key c) in
    let next := if alreadySet then Some (tc_key c)
                else match original with Some o => Some (tc_key o) | None => rnd end in
    match next with
    | None => mkTC true (tc_key c) (tc_keys c)                  (* the reader failed: tickets are disabled *)
    | Some key =>
        match original with
        | Some o => mkTC (tc_disabled c) key (tc_keys o)
        | None => mkTC (tc_disabled c) key [ticketKeyFromBytes sha512 key]
        end
    end.
(** common.go:649-663 SetSessionTicketKeys *)
Definition SetSessionTicketKeys (sha512 : list Z -> list Z) (c : tconfig) (keys : list (list Z)) : res tconfig :=
  match keys with [] => Panic | _ => Ok (mkTC (tc_disabled c) (tc_key c) (map (ticketKeyFromBytes sha512) keys)) end.

(** ** lruSessionCache, common.go:836-906.  container/list elements are numbered; [lc_heap] holds their entries, [lc_q] the list from
    front to back, [lc_m] the map.  The methods hold the mutex, so calls are sequential. *)
Section LRU.
Context {St : Type}.
Record lru := mkLRU { lc_m : list (list Z * nat); lc_q : list nat; lc_heap : nat -> list Z * St; lc_cap : Z; lc_next : nat }.
Fixpoint mlookup (k : list Z) (m : list (list Z * nat)) : option nat :=
  match m with [] => None | (k', v) :: m => if beqb k k' then Some v else mlookup k m end.
Definition mdelete (k : list Z) (m : list (list Z * nat)) : list (list Z * nat) := filter (fun p => negb (beqb k (fst p))) m.
Definition minsert (k : list Z) (v : nat) (m : list (list Z * nat)) : list (list Z * nat) := (k, v) :: mdelete k m.
Definition hset (h : nat -> list Z * St) (e : nat) (v : list Z * St) : nat -> list Z * St := fun x => if (x =? e)%nat then v else h x.
(** list.MoveToFront *)
Definition moveToFront (e : nat) (q : list nat) : list nat := e :: filter (fun x => negb (x =? e)%nat) q.
(** common.go:855-866 NewLRUClientSessionCache *)
Definition newLRU (dflt : list Z * St) (capacity : Z) : lru :=
  mkLRU [] [] (fun _ => dflt) (if capacity <? 1 then 64 else capacity) 0.
(** common.go:869-893 Put; None: c.q.Back() is nil (nil dereference) *)
Definition lru_put (c : lru) (key : list Z) (cs : St) : option lru :=
  match mlookup key (lc_m c) with
  | Some e => Some (mkLRU (lc_m c) (moveToFront e (lc_q c)) (hset (lc_heap c) e (fst (lc_heap c e), cs)) (lc_cap c) (lc_next c))
  | None =>
      if zlen (lc_q c) <? lc_cap c then
        let e := lc_next c in
        Some (mkLRU (minsert key e (lc_m c)) (e :: lc_q c) (hset (lc_heap c) e (key, cs)) (lc_cap c) (S e))
      else
        match rev (lc_q c) with
        | [] => None
        | e :: _ =>
            let m := mdelete (fst (lc_heap c e)) (lc_m c) in
            Some (mkLRU (minsert key e m) (moveToFront e (lc_q c)) (hset (lc_heap c) e (key, cs)) (lc_cap c) (lc_next c))
        end
  end.
(** common.go:897-906 Get *)
Definition lru_get (c : lru) (key : list Z) : option St * lru :=
  match mlookup key (lc_m c) with
  | Some e => (Some (snd (lc_heap c e)), mkLRU (lc_m c) (moveToFront e (lc_q c)) (lc_heap c) (lc_cap c) (lc_next c))
  | None => (None, c)
  end.
(** a history of calls, and what it returns *)
Inductive lop := LPut (k : list Z) (v : St) | LGet (k : list Z).
Definition lru_step (c : lru) (o : lop) : option (option St * lru) :=
  match o with
  | LPut k v => match lru_put c k v with Some c => Some (None, c) | None => None end
  | LGet k => Some (lru_get c k)
  end.
(** the trace: each call with the result of Get (None for Put and for a miss) *)
Fixpoint lru_run (c : lru) (ops : list lop) : option (list (lop * option St) * lru) :=
  match ops with
  | [] => Some ([], c)
  | o :: ops => match lru_step c o with
                | None => None
                | Some (r, c) => match lru_run c ops with None => None | Some (tr, c) => Some ((o, r) :: tr, c) end
                end
  end.
End LRU.
Arguments lop : clear implicits.

(** ** internal/subtle/aliasing.go:17-36.  A slice is the address of its first byte and its length. *)
Definition AnyOverlap (x : Z) (lx : Z) (y : Z) (ly : Z) : bool :=
  (0 <? lx) && (0 <? ly) && (x <=? y + (ly - 1)) && (y <=? x + (lx - 1)).
Definition InexactOverlap (x : Z) (lx : Z) (y : Z) (ly : Z) : bool :=
  if (lx =? 0) || (ly =? 0) || (x =? y) then false else AnyOverlap x lx y ly.

(** ** GMX509KeyPairs, gm_support.go:277-393.  PEM decoding, certificate and private key parsing are parameters. *)
Section KeyPair.
Context {key pubk : Type} (pem_decode : list Z -> option (list Z * list Z * list Z))       (* type, bytes, rest *)
        (parse_cert : list Z -> option (option pubk))                                        (* None: error; Some None: not an SM2 key *)
        (parse_key : list Z -> option key) (match_key : pubk -> key -> bool).                (* same public point *)
Definition CERTIFICATE : list Z := [67; 69; 82; 84; 73; 70; 73; 67; 65; 84; 69].
Definition PRIVATE_KEY : list Z := [80; 82; 73; 86; 65; 84; 69; 32; 75; 69; 89].
Definition has_suffix (s suf : list Z) : bool := (length suf <=? length s)%nat && beqb (skipn (length s - length suf) s) suf.
(** gm_support.go:277-304 getCert; fuel: pem.Decode consumes input.  Error 1: no certificate *)
Fixpoint cert_loop (fuel : nat) (pem : list Z) (certs : list (list Z)) : list (list Z) :=
  match fuel with
  | O => certs
  | S fuel => match pem_decode pem with
              | None => certs
              | Some (t, b, rest) => cert_loop fuel rest (if beqb t CERTIFICATE then certs ++ [b] else certs)
              end
  end.
Definition getCert (pem : list Z) : res (list (list Z)) :=
  match cert_loop (S (length pem)) pem [] with [] => Err 1 | cs => Ok cs end.
(** gm_support.go:306-326 getKey.  Error 2: no private key block *)
Fixpoint getKey (fuel : nat) (pem : list Z) : res (list Z) :=
  match fuel with
  | O => Err 2
  | S fuel => match pem_decode pem with
              | None => Err 2
              | Some (t, b, rest) => if beqb t PRIVATE_KEY || has_suffix t (32 :: PRIVATE_KEY) then Ok b else getKey fuel rest
              end
  end.
(** gm_support.go:328-354 matchKeyCert *)
Definition matchKeyCert (keyDER certDER : list Z) : res key :=
  match parse_cert certDER with
  | None => Err 3
  | Some po => match parse_key keyDER with
               | None => Err 4
               | Some k => match po with
                           | None => Err 5
                           | Some pub => if match_key pub k then Ok k else Err 6
                           end
               end
  end.
(** gm_support.go:359-393 GMX509KeyPairs: the certificate chain and the private key *)
Definition GMX509KeyPairs (certPEM keyPEM encCertPEM encKeyPEM : list Z) : res (list (list Z) * key) :=
  do signCerts <- getCert certPEM;
  match signCerts with
  | [] => Err 7
  | sc :: _ =>
      do encCerts <- getCert encCertPEM;
      match encCerts with
      | [] => Err 8
      | ec :: _ =>
          do kb <- getKey (S (length keyPEM)) keyPEM;
          do k <- matchKeyCert kb sc;
          Ok ([sc; ec], k)
      end
  end.
End KeyPair.

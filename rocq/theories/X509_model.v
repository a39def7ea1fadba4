(** Model of /repo/x509/verify.go and /repo/x509/cert_pool.go.
    Parameters (contracts of the standard library / of cryptography, universally quantified): the signature check
    [check_signature] (x509.go:868 CheckSignature), net.ParseIP and net.IP.Equal.
    The kind of error returned is modelled only as "an error". *)
From Verif Require Import GoBase X509_spec.
Open Scope Z_scope.

(** ** unicode/utf8: one step of "for _, c := range s" (decode the first rune): (rune, width).
    Table-driven utf8.DecodeRuneInString of the standard library; RuneError = 0xFFFD with width 1 on invalid input. *)
Definition RuneError : Z := 0xFFFD.
Definition cont (b : Z) : bool := (0x80 <=? b) && (b <=? 0xBF).
Definition decode_rune (s : list Z) : Z * nat :=
  match s with
  | [] => (RuneError, 0%nat)
  | b0 :: t =>
      if b0 <? 0x80 then (b0, 1%nat)
      else if (b0 <? 0xC2) || (0xF4 <? b0) then (RuneError, 1%nat)
      else if b0 <? 0xE0 then
        match t with b1 :: _ => if cont b1 then ((b0 - 0xC0) * 64 + (b1 - 0x80), 2%nat) else (RuneError, 1%nat) | _ => (RuneError, 1%nat) end
      else if b0 <? 0xF0 then
        match t with
        | b1 :: b2 :: _ =>
            let lo := if b0 =? 0xE0 then 0xA0 else 0x80 in let hi := if b0 =? 0xED then 0x9F else 0xBF in
            if (lo <=? b1) && (b1 <=? hi) && cont b2
            then ((b0 - 0xE0) * 4096 + (b1 - 0x80) * 64 + (b2 - 0x80), 3%nat) else (RuneError, 1%nat)
        | _ => (RuneError, 1%nat)
        end
      else
        match t with
        | b1 :: b2 :: b3 :: _ =>
            let lo := if b0 =? 0xF0 then 0x90 else 0x80 in let hi := if b0 =? 0xF4 then 0x8F else 0xBF in
            if (lo <=? b1) && (b1 <=? hi) && cont b2 && cont b3
            then ((b0 - 0xF0) * 262144 + (b1 - 0x80) * 4096 + (b2 - 0x80) * 64 + (b3 - 0x80), 4%nat) else (RuneError, 1%nat)
        | _ => (RuneError, 1%nat)
        end
  end.
(** verify.go:455-469: the scan of toLowerCaseASCII; [fuel] >= length is enough *)
Fixpoint already_lower (fuel : nat) (s : list Z) : bool :=
  match fuel, s with
  | _, [] => true
  | O, _ => true
  | S f, _ => let '(c, w) := decode_rune s in
              if c =? RuneError then false
              else if (65 <=? c) && (c <=? 90) then false
              else already_lower f (skipn w s)
  end.
(** verify.go:450-480 toLowerCaseASCII *)
Definition toLowerCaseASCII (s : list Z) : list Z :=
  if already_lower (length s) s then s
  else map (fun c => if (65 <=? c) && (c <=? 90) then u8 (c + (97 - 65)) else c) s.

(** strings.TrimSuffix(s, ".") *)
Definition trim_dot (s : list Z) : list Z :=
  if beqb (skipn (length s - 1) s) [dot] then firstn (length s - 1) s else s.
(** strings.Split(s, ".") *)
Fixpoint split_dot (s : list Z) : list (list Z) :=
  match s with
  | [] => [[]]
  | b :: t => if b =? dot then [] :: split_dot t
              else match split_dot t with l :: ls => (b :: l) :: ls | [] => [[b]] end
  end.
(** verify.go:420-445 matchHostnames; the loop "for i, patternPart := range patternParts" *)
Fixpoint parts_match (i : nat) (pp hp : list (list Z)) : bool :=
  match pp, hp with
  | p :: pp', h :: hp' =>
      if (Nat.eqb i 0) && beqb p [42] then parts_match (S i) pp' hp'
      else if negb (beqb p h) then false else parts_match (S i) pp' hp'
  | _, _ => true
  end.
Definition matchHostnames (pattern host : list Z) : bool :=
  let host := trim_dot host in
  let pattern := trim_dot pattern in
  if (length pattern =? 0)%nat || (length host =? 0)%nat then false
  else
    let patternParts := split_dot pattern in let hostParts := split_dot host in
    if negb (length patternParts =? length hostParts)%nat then false
    else parts_match 0 patternParts hostParts.

Section Host.
Variable IP : Type.
Variable ParseIP : list Z -> option IP.            (* net.ParseIP, nil = None *)
Variable ipEqual : IP -> list Z -> bool.           (* ip.Equal(candidate) *)
(** verify.go:484-516 VerifyHostname; true = nil error *)
Definition VerifyHostname (c : cert) (h : list Z) : bool :=
  let candidateIP := if (3 <=? length h)%nat && (hd 0 h =? 91) && (last h 0 =? 93)
                     then firstn (length h - 2) (skipn 1 h) else h in
  match ParseIP candidateIP with
  | Some ip => existsb (ipEqual ip) (ipAddrs c)
  | None =>
      let lowered := toLowerCaseASCII h in
      if hasSAN c then existsb (fun m => matchHostnames (toLowerCaseASCII m) lowered) (dnsNames c)
      else matchHostnames (toLowerCaseASCII (commonName c)) lowered
  end.
End Host.
Arguments VerifyHostname {IP}.

(** strings.EqualFold, exact for ASCII strings (the theorems about it assume ASCII) *)
Definition EqualFold (s t : list Z) : bool := beqb (map lower_byte s) (map lower_byte t).
(** verify.go:163-187 matchNameConstraint *)
Definition matchNameConstraint (domain constraint : list Z) : bool :=
  if (length constraint =? 0)%nat then true
  else if (length domain <? length constraint)%nat then false
  else
    let prefixLen := (length domain - length constraint)%nat in
    if negb (EqualFold (skipn prefixLen domain) constraint) then false
    else if (prefixLen =? 0)%nat then true
    else
      let isSubdomain := nth (prefixLen - 1) domain 0 =? dot in
      let constraintHasLeadingDot := nth 0 constraint 0 =? dot in
      negb (Bool.eqb isSubdomain constraintHasLeadingDot).

(** verify.go:518-565 checkChainForKeyUsage *)
Definition invalidUsage : Z := -1.
(** the inner loop over cert.ExtKeyUsage: is the requested usage supported? *)
Definition usage_supported (requested : Z) (eku : list Z) : bool :=
  existsb (fun usage => (requested =? usage) ||
     ((requested =? EKU_ServerAuth) && ((usage =? EKU_NetscapeSGC) || (usage =? EKU_MicrosoftSGC)))) eku.
(** NextRequestedUsage loop: [None] = return false; [done] are the usages already visited, in order *)
Fixpoint cross_out (eku : list Z) (done todo : list Z) (remaining : Z) : option (list Z * Z) :=
  match todo with
  | [] => Some (done, remaining)
  | u :: todo' =>
      if u =? invalidUsage then cross_out eku (done ++ [u]) todo' remaining
      else if usage_supported u eku then cross_out eku (done ++ [u]) todo' remaining
      else let remaining := remaining - 1 in
           if remaining =? 0 then None else cross_out eku (done ++ [invalidUsage]) todo' remaining
  end.
(** NextCert loop, from the last certificate down ([rchain] is the reversed chain) *)
Fixpoint check_certs (rchain : list cert) (usages : list Z) (remaining : Z) : bool :=
  match rchain with
  | [] => true
  | c :: rest =>
      if ((length (extKeyUsage c) =? 0) && (unknownEKU c =? 0))%nat then check_certs rest usages remaining
      else if existsb (fun u => u =? EKU_Any) (extKeyUsage c) then check_certs rest usages remaining
      else match cross_out (extKeyUsage c) [] usages remaining with
           | None => false
           | Some (usages', remaining') => check_certs rest usages' remaining'
           end
  end.
Definition checkChainForKeyUsage (chain : list cert) (keyUsages : list Z) : bool :=
  if (length chain =? 0)%nat then false else check_certs (rev chain) keyUsages (zlen keyUsages).

(** ** CertPool (cert_pool.go:13-17): Go maps from strings are functions, updated by [mupd] *)
Record pool := mkPool { bySKI : list Z -> list nat; byName : list Z -> list nat; certs : list cert }.
Definition mupd (m : list Z -> list nat) (k : list Z) (v : list nat) : list Z -> list nat := fun k' => if beqb k' k then v else m k'.
Definition NewCertPool : pool := mkPool (fun _ => []) (fun _ => []) [].
(** x509.go:783 Equal *)
Definition Equal (a b : cert) : bool := beqb (raw a) (raw b).
(** cert_pool.go:101-114 contains; indices in the maps are always in range (see [pool_inv]), a bad index would panic:
    modelled as not contained *)
Definition at_idx (s : pool) (i : nat) : option cert := nth_error (certs s) i.
Definition contains (s : pool) (c : cert) : bool :=
  existsb (fun i => match at_idx s i with Some x => Equal x c | None => false end) (byName s (rawSubject c)).
(** cert_pool.go:117-137 AddCert *)
Definition AddCert (s : pool) (c : cert) : pool :=
  if contains s c then s
  else
    let n := length (certs s) in
    let ski := if (length (subjectKeyId c) =? 0)%nat then bySKI s
               else mupd (bySKI s) (subjectKeyId c) (bySKI s (subjectKeyId c) ++ [n]) in
    mkPool ski (mupd (byName s) (rawSubject c) (byName s (rawSubject c) ++ [n])) (certs s ++ [c]).
(** cert_pool.go:168-174 Subjects *)
Definition Subjects (s : pool) : list (list Z) := map rawSubject (certs s).

(** ** Chain building *)
Section Verify.
Variable check_signature : cert -> cert -> bool.   (* parent.CheckSignature(child.alg, child.RawTBS, child.Signature) == nil *)
Variable entrustSPKI : list Z.                     (* the constant entrustBrokenSPKI, x509.go:800-840 *)
(** x509.go:842-866 CheckSignatureFrom (KeyUsageCertSign = 1<<5) *)
Definition CheckSignatureFrom (c parent : cert) : bool :=
  if (((version parent =? 3) && negb (bcValid parent)) || (bcValid parent && negb (isCA parent)))
     && negb (beqb (rawSPKI c) entrustSPKI) then false
  else if negb (keyUsage parent =? 0) && (Z.land (keyUsage parent) 32 =? 0) then false
  else if negb (knownPubAlg parent) then false
  else check_signature c parent.
(** cert_pool.go:77-99 findVerifiedParents: the parents, with their indices; [None] is the nil pool *)
Definition candidates (s : pool) (c : cert) : list nat :=
  let cand := if (0 <? length (authorityKeyId c))%nat then bySKI s (authorityKeyId c) else [] in
  match cand with [] => byName s (rawIssuer c) | _ => cand end.
Definition findVerifiedParents (os : option pool) (c : cert) : list (nat * cert) :=
  match os with
  | None => []
  | Some s => flat_map (fun i => match at_idx s i with
                                 | Some p => if CheckSignatureFrom c p then [(i, p)] else []
                                 | None => [] end) (candidates s c)
  end.

Record options := mkOpts { o_dns : list Z; o_now : Z; o_inter : option pool; o_roots : pool; o_usages : list Z }.
Inductive ctype := Leaf | Inter | Root.
(** verify.go:190-262 isValid; true = nil *)
Definition isValid (c : cert) (ty : ctype) (currentChain : list cert) (o : options) : bool :=
  if (0 <? unhandledCritical c)%nat then false
  else if match rev currentChain with child :: _ => negb (beqb (rawIssuer child) (rawSubject c)) | [] => false end then false
  else if (o_now o <? notBefore c) || (notAfter c <? o_now o) then false
  else if (0 <? length (permittedDNS c))%nat && negb (existsb (matchNameConstraint (o_dns o)) (permittedDNS c)) then false
  else if existsb (matchNameConstraint (o_dns o)) (excludedDNS c) then false
  else if match ty with Inter => negb (bcValid c) || negb (isCA c) | _ => false end then false
  else if bcValid c && (0 <=? maxPathLen c) && (maxPathLen c <? zlen currentChain - 1) then false
  else true.

(** verify.go:361-418 buildChains.  The error is non-nil iff no chain is returned, so only the chains are modelled.
    [cache] maps an intermediate's index to previously computed chains (absent = None); it is threaded through.
    [fuel] bounds the recursion depth: None = not enough fuel. *)
Definition cache_t := nat -> option (list (list cert)).
Fixpoint buildChains (fuel : nat) (o : options) (c : cert) (cache : cache_t) (currentChain : list cert)
  : option (list (list cert) * cache_t) :=
  match fuel with
  | O => None
  | S f =>
      let from_roots := flat_map (fun root =>
          if existsb (fun x => Equal x root) currentChain then []
          else if isValid root Root currentChain o then [currentChain ++ [root]] else [])
          (map snd (findVerifiedParents (Some (o_roots o)) c)) in
      (fix loop (todo : list (nat * cert)) (cache : cache_t) (chains : list (list cert)) :=
         match todo with
         | [] => Some (chains, cache)
         | (num, inter) :: rest =>
             if existsb (fun x => Equal x inter) currentChain then loop rest cache chains
             else if negb (isValid inter Inter currentChain o) then loop rest cache chains
             else match cache num with
                  | Some childChains => loop rest cache (chains ++ childChains)
                  | None =>
                      match buildChains f o inter cache (currentChain ++ [inter]) with
                      | None => None
                      | Some (childChains, cache') =>
                          loop rest (fun k => if (k =? num)%nat then Some childChains else cache' k) (chains ++ childChains)
                      end
                  end
         end) (findVerifiedParents (o_inter o) c) cache from_roots
  end.

(** verify.go:274-351 Verify with opts.Roots given (the platform's system roots and the Windows verifier are not modelled).
    [hostname_ok] is the outcome of c.VerifyHostname(opts.DNSName).  [None] = out of fuel; inner None = error. *)
Definition Verify (fuel : nat) (hostname_ok : bool) (o : options) (c : cert) : option (option (list (list cert))) :=
  if (length (raw c) =? 0)%nat then Some None
  else if match o_inter o with Some s => existsb (fun x => (length (raw x) =? 0)%nat) (certs s) | None => false end then Some None
  else if negb (isValid c Leaf [] o) then Some None
  else if (0 <? length (o_dns o))%nat && negb hostname_ok then Some None
  else
    match (if contains (o_roots o) c then Some [[c]]
           else option_map fst (buildChains fuel o c (fun _ => None) [c])) with
    | None => None
    | Some [] => Some None
    | Some candidateChains =>
        let keyUsages := match o_usages o with [] => [EKU_ServerAuth] | us => us end in
        if existsb (fun u => u =? EKU_Any) keyUsages then Some (Some candidateChains)
        else match filter (fun ch => checkChainForKeyUsage ch keyUsages) candidateChains with
             | [] => Some None
             | chains => Some (Some chains)
             end
    end.
End Verify.

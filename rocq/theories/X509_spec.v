(** Specification side of the x509 properties (C33-C40): what a user means by "this host matches", "this chain is a
    valid path", "this usage is permitted".  Nothing here comes from the Go code except the certificate record,
    whose fields are the exported fields of x509.Certificate the properties talk about. *)
From Verif Require Import GoBase.
Open Scope Z_scope.

(** A parsed certificate (x509/x509.go type Certificate; only the fields verification looks at). Strings and DER are byte lists. *)
Record cert := mkCert {
  raw : list Z; rawSubject : list Z; rawIssuer : list Z; rawSPKI : list Z;
  authorityKeyId : list Z; subjectKeyId : list Z;
  version : Z; notBefore : Z; notAfter : Z;
  unhandledCritical : nat;                       (* len(UnhandledCriticalExtensions) *)
  permittedDNS : list (list Z); excludedDNS : list (list Z);
  bcValid : bool; isCA : bool; maxPathLen : Z;
  keyUsage : Z; knownPubAlg : bool;              (* PublicKeyAlgorithm <> UnknownPublicKeyAlgorithm *)
  extKeyUsage : list Z; unknownEKU : nat;        (* len(UnknownExtKeyUsage) *)
  hasSAN : bool; dnsNames : list (list Z); commonName : list Z; ipAddrs : list (list Z) }.

Definition dot : Z := 46.
(** ** Host names *)
Definition lower_byte (b : Z) : Z := if (65 <=? b) && (b <=? 90) then b + 32 else b.
Definition lower (s : list Z) : list Z := map lower_byte s.
Fixpoint join_labels (ls : list (list Z)) : list Z :=
  match ls with [] => [] | [l] => l | l :: rest => l ++ dot :: join_labels rest end.
(** [ls] are the dot-separated labels of [s] *)
Definition labels_of (s : list Z) (ls : list (list Z)) : Prop :=
  ls <> [] /\ s = join_labels ls /\ Forall (fun l => ~ In dot l) ls.
(** [s'] is [s] without one trailing dot, if there is one *)
Definition without_trailing_dot (s s' : list Z) : Prop := s = s' ++ [dot] \/ (s = s' /\ forall t, s <> t ++ [dot]).
(** case-insensitive label-wise match, "*" allowed as the whole left-most label of the pattern *)
Definition host_matches (pattern host : list Z) : Prop :=
  exists p h pl hl, without_trailing_dot (lower pattern) p /\ without_trailing_dot (lower host) h /\ p <> [] /\ h <> [] /\
    labels_of p pl /\ labels_of h hl /\ length pl = length hl /\ tl pl = tl hl /\ (hd [] pl = [42] \/ hd [] pl = hd [] hl).

(** ** DNS name constraints *)
Definition constraint_allows (domain c : list Z) : Prop :=
  c = [] \/ lower domain = lower c \/
  (hd 0 c <> dot /\ exists p s, domain = p ++ dot :: s /\ lower s = lower c) \/
  (hd 0 c = dot /\ exists p s, domain = p ++ s /\ p <> [] /\ last p 0 <> dot /\ lower s = lower c).

(** ** Extended key usage *)
Definition EKU_Any : Z := 0. Definition EKU_ServerAuth : Z := 1.
Definition EKU_MicrosoftSGC : Z := 10. Definition EKU_NetscapeSGC : Z := 11.
Definition permits (c : cert) (u : Z) : Prop :=
  (extKeyUsage c = [] /\ unknownEKU c = 0%nat) \/ In EKU_Any (extKeyUsage c) \/ In u (extKeyUsage c) \/
  (u = EKU_ServerAuth /\ (In EKU_NetscapeSGC (extKeyUsage c) \/ In EKU_MicrosoftSGC (extKeyUsage c))).

(** ** Paths *)
Section Path.
Variable signed_by : cert -> cert -> Prop.       (* child, parent: CheckSignatureFrom succeeds *)
Variable roots inters : list cert.
Variable now : Z.
Variable dnsName : list Z.
Definition name_allowed (c : cert) : Prop :=
  (permittedDNS c = [] \/ exists k, In k (permittedDNS c) /\ constraint_allows dnsName k) /\
  (forall k, In k (excludedDNS c) -> ~ constraint_allows dnsName k).
(** conditions on a single certificate *)
Definition cert_ok (c : cert) : Prop :=
  unhandledCritical c = 0%nat /\ notBefore c <= now <= notAfter c /\ name_allowed c.
(** [c] may stand in position [i] >= 1 of a chain: i-1 intermediates are below it *)
Definition pathlen_ok (i : nat) (c : cert) : Prop := bcValid c = true -> 0 <= maxPathLen c -> Z.of_nat i - 1 <= maxPathLen c.
Definition valid_path (leaf : cert) (chain : list cert) : Prop :=
  hd_error chain = Some leaf /\
  (exists r e, In r roots /\ last chain leaf = e /\ raw e = raw r /\ (e = r \/ chain = [leaf])) /\
  NoDup (map raw chain) /\
  Forall cert_ok chain /\
  (forall i a b, nth_error chain i = Some a -> nth_error chain (S i) = Some b ->
     signed_by a b /\ rawIssuer a = rawSubject b /\ pathlen_ok (S i) b /\
     (S (S i) <> length chain -> In b inters /\ bcValid b = true /\ isCA b = true)).
End Path.
(** the certificates of a history of additions, each at its first occurrence (same certificate = same DER) *)
Fixpoint keep_first (seen : list (list Z)) (hist : list cert) : list cert :=
  match hist with
  | [] => []
  | c :: t => if existsb (beqb (raw c)) seen then keep_first seen t else c :: keep_first (raw c :: seen) t
  end.
(** parsing is a function: certificates with the same DER are the same *)
Definition parsed (l : list cert) : Prop := forall a b, In a l -> In b l -> raw a = raw b -> a = b.
(** host with the brackets of an IPv6 literal removed, if it has them *)
Definition unbracketed (h x : list Z) : Prop :=
  (x <> [] /\ h = [91] ++ x ++ [93]) \/ (x = h /\ forall y, y <> [] -> h <> [91] ++ y ++ [93]).

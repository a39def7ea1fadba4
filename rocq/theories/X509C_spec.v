(** What a certificate made from a template is documented to carry (x509.go:1846-1862 and the field comments 664-760):
    every field of the template, with these normalisations: KeyUsage keeps the nine bits RFC 5280 defines, MaxPathLen is -1
    ("no limit") when it is 0 and MaxPathLenZero is false, IPv4 addresses take four octets, a field whose extension is not
    written is empty, and the critical extensions this package does not interpret are listed. *)
From Verif Require Import GoBase GoLemmas BigBytes Asn1_model Asn1_go SM2_curve_spec SM2_spec Keys_model X509C_model.
Open Scope Z_scope.

(** extension identifiers this package interprets: key usage, basic constraints, subject alternative name, name constraints,
    CRL distribution points, authority key id, extended key usage, subject key id, certificate policies, authority information access *)
Definition known_ids : list (list Z) :=
  [[85;29;15]; [85;29;19]; [85;29;17]; [85;29;30]; [85;29;31]; [85;29;35]; [85;29;37]; [85;29;14]; [85;29;32]; [43;6;1;5;5;7;1;1]].
Definition path_len (x : exs) : Z := if (x_mpl x =? 0) && negb (x_mplz x) then -1 else x_mpl x.
Definition written (x : exs) (aki : list Z) (extra : list ext) : exs :=
  {| x_ku := x_ku x mod 512;
     x_bcv := x_bcv x; x_isca := x_bcv x && x_isca x; x_mpl := if x_bcv x then path_len x else 0; x_mplz := x_bcv x && (path_len x =? 0);
     x_dns := x_dns x; x_email := x_email x; x_ip := map ip_bytes (x_ip x);
     x_perm := x_perm x; x_excl := x_excl x; x_permcrit := (nonempty (x_perm x) || nonempty (x_excl x)) && x_permcrit x;
     x_crldp := x_crldp x; x_aki := aki; x_eku := x_eku x; x_ueku := x_ueku x; x_ski := x_ski x; x_pol := x_pol x;
     x_ocsp := x_ocsp x; x_iss := x_iss x; x_unh := map ex_id (filter ex_crit extra) |}.
(** a template this package can express: OIDs are OIDs, IP addresses have 4 or 16 octets, name constraints are not empty,
    UnknownExtKeyUsage is unknown, and ExtraExtensions does not override an extension the package itself builds *)
Record exs_ok (x : exs) (extra : list ext) : Prop := {
  ok_mpl : - 2 ^ 63 <= x_mpl x < 2 ^ 63;
  ok_ip : Forall (fun i => length i = 4%nat \/ length i = 16%nat) (x_ip x);
  ok_nc : Forall (fun n => n <> []) (x_perm x) /\ Forall (fun n => n <> []) (x_excl x);
  ok_ueku : Forall (fun o => oid_ok o = true /\ extKeyUsageFromOID o = None) (x_ueku x);
  ok_pol : Forall (fun o => oid_ok o = true) (x_pol x);
  ok_extra : Forall (fun e => oid_ok (ex_id e) = true /\ ~ In (ex_id e) known_ids) extra }.
(** the name and the times survive the standard library's encoders *)
Definition name_ok {nm tm} (enc_name : nm -> res (list Z)) (dec_name : list Z -> res nm) (c : xcert nm tm) (bytes_ : list Z) (n : nm) : Prop :=
  exists content, bytes_ = der_tlv 48 content /\ subjectBytes nm tm enc_name c = Ok bytes_ /\ dec_name content = Ok n.
Definition time_ok {tm} (enc_time : tm -> res (bool * list Z)) (dec_time : bool -> list Z -> res tm) (t t' : tm) : Prop :=
  exists g content, enc_time t = Ok (g, content) /\ dec_time g content = Ok t'.
(** public keys that can be read back *)
Definition pub_ok (nist_unm : nat -> list Z -> option (Z * Z)) (nist_mar : nat -> Z -> Z -> list Z) (k : xkey) : Prop :=
  match k with
  | XSM2 SM2C x y => on_curve (Pt x y)
  | XEC (NIST i) x y => nist_unm i (nist_mar i x y) = Some (x, y)
  | XRSA n e => 0 < n /\ 0 < e < 2 ^ 63
  | _ => False
  end.
Definition key_algorithm (k : xkey) : Z := match k with XSM2 _ _ _ => SM2 | XEC _ _ _ => ECDSA | XRSA _ _ => RSA | XDSA _ _ _ _ => DSA | _ => 0 end.
(** the algorithm a certificate is signed with: the template's, or the default for the signer's key *)
Definition signature_algorithm (k : xkey) (requested : Z) : Z :=
  if requested =? 0 then
    match k with
    | XSM2 _ _ _ => SM2WithSM3
    | XRSA _ _ => SHA256WithRSA
    | XEC (NIST 2) _ _ => ECDSAWithSHA384
    | XEC (NIST 3) _ _ => ECDSAWithSHA512
    | _ => ECDSAWithSHA256
    end
  else requested.
(** the authority key id: the parent's subject key id unless the certificate is self-issued or the parent has none *)
Definition authority_key_id {nm tm} (t parent : xcert nm tm) (subject issuer : list Z) : list Z :=
  if list_eq_dec Z.eq_dec issuer subject then x_aki (c_x t) else match x_ski (c_x parent) with [] => x_aki (c_x t) | k => k end.

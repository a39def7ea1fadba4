(** Model of /repo/x509/cert_pool.go (AppendCertsFromPEM, SystemCertPool) and /repo/x509/root_unix.go, root.go, root_linux.go (loadSystemRoots).
    encoding/pem.Decode, ParseCertificate (modelled in X509C_model; here any function), the file system and the environment are parameters. *)
From Verif Require Import GoBase GoLemmas X509_spec X509_model.
Open Scope Z_scope.
(** encoding/pem Block; of the headers only their number matters *)
Record pblock := mkPB { pb_type : list Z; pb_headers : nat; pb_bytes : list Z }.
Definition str_CERT : list Z := [67; 69; 82; 84; 73; 70; 73; 67; 65; 84; 69].
(** the result of ioutil.ReadFile or ReadDir: os.IsNotExist(err), or another error *)
Inductive io (A : Type) := Data (a : A) | NotExist | IOErr (e : Z).
Arguments Data {A}. Arguments NotExist {A}. Arguments IOErr {A}.
(** files by path, directories by path: the names in them, in the order of ReadDir *)
Record fsys := mkFS { readFile : list Z -> io (list Z); readDir : list Z -> io (list (list Z)) }.
Section Roots.
Variable pemDecode : list Z -> option (pblock * list Z).
Variable parse : list Z -> option cert.

(** cert_pool.go:143-164 AppendCertsFromPEM: the pool and ok.  One unit of fuel per byte suffices: pem.Decode leaves less than it was given. *)
Fixpoint append_pem (fuel : nat) (s : pool) (data : list Z) (ok : bool) : pool * bool :=
  match fuel with
  | O => (s, ok)
  | Datatypes.S f =>
      match data with
      | [] => (s, ok)
      | _ =>
          match pemDecode data with
          | None => (s, ok)
          | Some (b, rest) =>
              if negb (beqb (pb_type b) str_CERT) || negb (pb_headers b =? 0)%nat then append_pem f s rest ok
              else match parse (pb_bytes b) with
                   | None => append_pem f s rest ok
                   | Some c => append_pem f (AddCert s c) rest true
                   end
          end
      end
  end.
Definition AppendCertsFromPEM (s : pool) (data : list Z) : pool * bool := append_pem (Datatypes.S (length data)) s data false.

(** root_unix.go:50-59 the files: stop at the first that can be read *)
Fixpoint load_files (fs : fsys) (files : list (list Z)) (s : pool) (firstErr : option Z) : pool * option Z :=
  match files with
  | [] => (s, firstErr)
  | f :: files =>
      match readFile fs f with
      | Data d => (fst (AppendCertsFromPEM s d), firstErr)
      | NotExist => load_files fs files s firstErr
      | IOErr e => load_files fs files s (match firstErr with None => Some e | _ => firstErr end)
      end
  end.
(** root_unix.go:75-80 the files of a directory: the pool and rootsAdded *)
Fixpoint load_dir (fs : fsys) (dir : list Z) (names : list (list Z)) (s : pool) (added : bool) : pool * bool :=
  match names with
  | [] => (s, added)
  | n :: names =>
      match readFile fs (dir ++ [47] ++ n) with
      | Data d => let '(s, ok) := AppendCertsFromPEM s d in load_dir fs dir names s (added || ok)
      | _ => load_dir fs dir names s added
      end
  end.
(** root_unix.go:66-84 the directories: Some for the return inside the loop *)
Fixpoint load_dirs (fs : fsys) (dirs : list (list Z)) (s : pool) (firstErr : option Z) : pool * option Z * bool :=
  match dirs with
  | [] => (s, firstErr, false)
  | d :: dirs =>
      match readDir fs d with
      | Data names => let '(s, added) := load_dir fs d names s false in if added then (s, firstErr, true) else load_dirs fs dirs s firstErr
      | NotExist => load_dirs fs dirs s firstErr
      | IOErr e => load_dirs fs dirs s (match firstErr with None => Some e | _ => firstErr end)
      end
  end.
(** root_unix.go:42-91 loadSystemRoots.  [envFile], [envDir]: the values of SSL_CERT_FILE and SSL_CERT_DIR (empty if unset); [certFiles] (root_linux.go),
    [certDirectories] (root_unix.go:17-23): the built-in lists *)
Definition loadSystemRoots (certFiles certDirectories : list (list Z)) (envFile envDir : list Z) (fs : fsys) : option pool * option Z :=
  let files := match envFile with [] => certFiles | f => [f] end in
  let '(s, err) := load_files fs files NewCertPool None in
  let dirs := match envDir with [] => certDirectories | d => [d] end in
  let '(s, err, found) := load_dirs fs dirs s err in
  if found then (Some s, None)
  else if (0 <? length (certs s))%nat then (Some s, None) else (None, err).
(** cert_pool.go:59-70 SystemCertPool (not on Windows).  [first]: what loadSystemRoots returned when once.Do ran it (root.go:15-22); [now]: the file system now.
    copy() gives an equal pool: pools are values here. *)
Definition SystemCertPool (certFiles certDirectories : list (list Z)) (envFile envDir : list Z) (first : option pool * option Z) (now : fsys) : option pool * option Z :=
  match fst first with
  | Some p => (Some p, None)
  | None => loadSystemRoots certFiles certDirectories envFile envDir now
  end.
End Roots.

(** Model of the command line tools of /repo/javatools/manifest.py (841-1060) and
    /repo/javatools/jarutil.py (223-372). *)
From Verif Require Import Base Pack_Model ConstPool_Model Manifest_Model Glob_Model Zip_Model.
From Verif Require Import Sign_Model.
From Verif Require Report_Model.
Import Report_Model (join, split_slash).

(** ** Paths *)
(** The loop of posixpath.normpath over the components of a path, called by
    ZipInfo.from_file through ZipFile.write (jarutil.py:236, 240) *)
Fixpoint norm_comps (rooted : bool) (acc comps : list str) : list str :=
  match comps with
  | [] => acc
  | c :: r =>
      if seqb c [] || seqb c (lit ".") then norm_comps rooted acc r
      else if negb (seqb c (lit "..")) then norm_comps rooted (acc ++ [c]) r
      else match acc with
           | [] => norm_comps rooted (if rooted then [] else [c]) r
           | _ => norm_comps rooted (if seqb (last acc []) (lit "..") then acc ++ [c] else removelast acc) r
           end
  end.
(** os.path.normpath on POSIX (jarutil.py:236, 240); exactly two leading slashes
    are kept *)
Definition normpath (p : str) : str :=
  let slashes_ := if starts_with (lit "//") p && negb (starts_with (lit "///") p) then lit "//" else if starts_with (lit "/") p then lit "/" else [] in
  match slashes_ ++ slashes (norm_comps (negb (seqb slashes_ [])) [] (split_slash p)) with
  | [] => lit "."
  | x => x
  end.
(** ZipInfo.from_file: leading slashes are removed, and nothing may be left
    (jarutil.py:236, 240) *)
Fixpoint no_lead (p : str) : res str :=
  match p with
  | [] => Err IndexError
  | c :: r => if c =? 47 then no_lead r else Ok (c :: r)
  end.
(** The path of a directory met by os.walk(top): join at each level
    (manifest.py:855, jarutil.py:238) *)
Definition walk_path (top : str) (rel : list str) : str := fold_left join rel top.

(** What open(path, "rb") and reading gives (manifest.py:826-831); devices and
    dangling links are all taken to be missing *)
Definition content_of (n : node) : res bytes := match n with File _ d _ => Ok d | _ => Err FileNotFoundError end.

(** str.split(",") in manifest.py:952 is split_on of Manifest_Model *)
Definition commas (s : str) : list str := split_on 44 [] s.

Section Tools.
Variable up : Z -> str.
Variable hash : str -> bytes -> str.
(** What stat finds under a path; the current directory is part of it *)
Variable fs : str -> option node.
(** ZipFile(path) for a regular file with this content *)
Variable unzip : bytes -> res zip.

(** ZipFile(path) (manifest.py:919, 362, 441; jarutil.py:89) *)
Definition open_zip (path : str) : res zip :=
  match fs path with Some (File _ d _) => unzip d | _ => Err FileNotFoundError end.

(** ** Creating manifests *)
(** An entry: its name, and what reading its chunks gives.  A generator stops at
    its first exception: the list ends with it. *)
Definition entries := list (res (str * res bytes)).

(** directory_generator, manifest.py:848-857 *)
Definition directory_generator (dirname : str) (top : node) (trim : nat) : entries :=
  concat (map (fun x : list str * list (str * node) * list (str * node) =>
    let '(rel, _, files) := x in
    let dirpath := walk_path dirname rel in
    map (fun f : str * node => Ok (join dirpath (skipn trim (fst f)), content_of (snd f))) files) (walk [] top)).
(** multi_path_generator, manifest.py:860-875 *)
Definition multi_path_generator (pathnames : list str) : entries :=
  concat (map (fun p =>
    match fs p with
    | Some (Dir l kids) => directory_generator p (Dir l kids) 0
    | Some n => [Ok (p, content_of n)]
    | None => [Ok (p, Err FileNotFoundError)]
    end) pathnames).
(** The loop over the archive in single_path_generator, manifest.py:919-924 *)
Fixpoint zip_entries (z : zip) (names : list str) : entries :=
  match names with
  | [] => []
  | [] :: _ => [Err IndexError]
  | f :: r => if last f 0 =? 47 then zip_entries z r else Ok (f, zread z f) :: zip_entries z r
  end.
(** single_path_generator, manifest.py:903-924 *)
Definition single_path_generator (path : str) : entries :=
  match fs path with
  | Some (Dir l kids) =>
      let trim := if last path 0 =? 47 then length path else S (length path) in
      directory_generator path (Dir l kids) trim
  | _ => match open_zip path with
         | Ok z => zip_entries z (namelist z)
         | Err e => [Err e]
         end
  end.

(** The options of cli_create, manifest.py:933-946; each -i collects a list *)
Record create_args := mkargs { a_content : str; a_recursive : bool; a_ignore : list (list str); a_digest : option str }.

(** The assignments of one section, manifest.py:973-975 *)
Fixpoint set_digests (m : manifest) (name : str) (algs : list str) (data : bytes) : res manifest :=
  match algs with
  | [] => Ok m
  | a :: r => m1 <- set_in_section m name (a ++ SUF) (hash a data) ;; set_digests m1 name r data
  end.
(** The loop of cli_create, manifest.py:966-975 *)
Fixpoint create_loop (ignores algs : list str) (m : manifest) (es : entries) : res manifest :=
  match es with
  | [] => Ok m
  | Err e :: _ => Err e
  | Ok (name, chunks) :: r =>
      if fnmatches name ignores then create_loop ignores algs m r
      else
        let '(_, m1) := create_section m name in
        data <- chunks ;;
        m2 <- set_digests m1 name algs data ;;
        create_loop ignores algs m2 r
  end.
(** cli_create, manifest.py:948-987: the data written to the file or to standard
    output *)
Definition cli_create (a : create_args) : res bytes :=
  let requested := commas (match a_digest a with Some d => d | None => lit "MD5,SHA1" end) in
  if negb (forallb (fun d => smem d java_digests) requested) then Err UnsupportedDigest
  else
    let es := if a_recursive a then multi_path_generator (map (fun c => [c]) (a_content a)) else single_path_generator (a_content a) in
    ignores <- (match a_ignore a with
                | [] => Ok [lit "META-INF/*"]
                | [l] => Ok (lit "META-INF/*" :: l)
                | _ => Err TypeError
                end) ;;
    m <- create_loop ignores requested (new_manifest None) es ;;
    man_data m None.

(** cli_verify, manifest.py:990-1006: the status; with other than one argument, or
    -h, the usage *)
Definition cli_verify (args : list str) : res Z :=
  match args with
  | [jar] =>
      if seqb jar (lit "-h") then Ok 2
      else
        z <- open_zip jar ;;
        m <- load_from_jar (new_manifest None) z ;;
        '(errors, _) <- verify_jar_checksums up hash m z true ;;
        Ok (match errors with [] => 0 | _ => 1 end)
  | _ => Ok 2
  end.

(** One line of cli_query, manifest.py:1018-1027: the query and the value found,
    or None for "None", or that there is no such section *)
Inductive answer := Value (v : option str) | NoSection.
Definition query1 (m : manifest) (q : str) : answer :=
  match split_colon q with
  | Some (sec, key) =>
      match dget (m_subs m) sec with
      | Some (kv :: s) => Value (dget (kv :: s) key)
      | _ => NoSection
      end
  | None => Value (dget (m_main m) q)
  end.
(** cli_query, manifest.py:1009-1027: None for the usage *)
Definition cli_query (args : list str) : res (option (list (str * answer))) :=
  match args with
  | jar :: q :: qs =>
      if smem (lit "-h") args then Ok None
      else z <- open_zip jar ;; m <- load_from_jar (new_manifest None) z ;; Ok (Some (map (fun q => (q, query1 m q)) (q :: qs)))
  | _ => Ok None
  end.

(** The commands of manifest.main, manifest.py:1042-1060 and of jarutil.main,
    jarutil.py:358-372 *)
Inductive command := Create (rest : list str) | Query (rest : list str) | Verify (rest : list str) | Sign (rest : list str) | Usage.
(** manifest.main, manifest.py:1042-1060; [args] without the program name *)
Definition manifest_main (args : list str) : command :=
  match args with
  | [] => Usage
  | c :: rest =>
      if starts_with c (lit "create") then Create rest
      else if starts_with c (lit "query") then Query rest
      else if starts_with c (lit "verify") then Verify rest
      else Usage
  end.
(** jarutil.main, jarutil.py:358-372 *)
Definition jarutil_main (args : list str) : command :=
  match args with
  | [] => Usage
  | c :: rest =>
      if starts_with c (lit "create") then Create rest
      else if starts_with c (lit "sign") then Sign rest
      else if starts_with c (lit "view") then Verify rest
      else Usage
  end.

(** ** Creating jars *)
(** ZipFile.write(path), jarutil.py:236, 240: the entry added.  Times before 1980
    (an exception) are not modelled. *)
Definition zip_write (path : str) (n : node) : res (str * bytes) :=
  arc <- no_lead (normpath path) ;;
  match n with
  | File _ d _ => Ok (arc, d)
  | Dir _ _ => Ok (arc ++ [47], [])
  | Other _ => Err FileNotFoundError
  end.
(** The entries for one argument, jarutil.py:236-240 *)
Definition write_tree (path : str) (n : node) : res zip :=
  top <- zip_write path n ;;
  below <- mapM (fun pn : str * node => zip_write (fst pn) (snd pn))
    (concat (map (fun x : list str * list (str * node) * list (str * node) =>
       let '(rel, dirs, files) := x in map (fun f : str * node => (join (walk_path path rel) (fst f), snd f)) (dirs ++ files)) (walk [] n))) ;;
  Ok (top :: below).
(** create_jar, jarutil.py:223-240: the entries of the jar.  The jar itself is
    taken not to be among the files. *)
Definition create_jar (paths : list str) : res zip :=
  mf <- man_data (new_manifest None) None ;;
  parts <- mapM (fun p => match fs p with Some n => write_tree p n | None => Err FileNotFoundError end) paths ;;
  Ok ((lit "META-INF/", []) :: (MANIFEST_NAME, mf) :: concat parts).

(** cli_create_jar, jarutil.py:243-259: the status and the entries.  --main-class
    is parsed and not used; unknown options are taken for files. *)
Definition cli_create_jar (main_class : option str) (paths : list str) : res (Z * zip) :=
  z <- create_jar paths ;; Ok (0, z).

(** ** Signing and verifying *)
Variable block_ok : bytes -> bytes -> bytes -> bool.
Variable make_block : str -> bytes -> bytes.
(** private_key_type(key_file), crypto.py:73-94: CannotFindKeyTypeError is None *)
Variable key_type : option str.

(** except VerificationError, jarutil.py:325: the class and its subclasses
    (jarutil.py:47-65) *)
Definition is_verification_error (e : exn) : bool :=
  match e with
  | VerificationError | SignatureBlockFileVerificationError | ManifestChecksumError | JarChecksumError | JarSignatureMissingError => true
  | _ => false
  end.
(** cli_verify_jar_signature, jarutil.py:302-333, with the crypto library present:
    the status.  Certificates are read by the block check; [cert] maps the file
    name to the certificate. *)
Definition cli_verify_jar (cert : str -> bytes) (args : list str) : res Z :=
  match (match args with
         | [jar; c] => Some (jar, c, None)
         | [jar; c; sf] => Some (jar, c, Some sf)
         | _ => None
         end) with
  | None => Ok 1
  | Some (jar, c, sf) =>
      match (z <- open_zip jar ;; verify up hash block_ok (cert c) z sf) with
      | Ok _ => Ok 0
      | Err e => if is_verification_error e then Ok 1 else Err e
      end
  end.

(** cli_sign_jar, jarutil.py:262-299, with the crypto library present: the status,
    and the file written with its entries, if any *)
Definition cli_sign_jar (jar alias alg : str) (output : option str) : res (Z * option (str * zip)) :=
  match (z <- open_zip jar ;;
         mf0 <- load_from_jar (new_manifest None) z ;;
         mf <- add_jar_entries up hash mf0 z alg ;;
         _ <- digest_manifest hash (new_sigmanifest (m_linesep mf)) mf alg ;;
         match key_type with
         | None => Ok None
         | Some ext => z' <- sign up hash make_block ext z alias alg ;; Ok (Some z')
         end) with
  | Ok (Some z') => Ok (0, Some (match output with Some o => o | None => jar end, z'))
  | Ok None => Ok (1, None)
  | Err MissingManifestError => Ok (2, None)
  | Err e => Err e
  end.
End Tools.

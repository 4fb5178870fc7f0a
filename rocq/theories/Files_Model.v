(** Model of what jarutil.sign and jarutil.create_jar do to the files on the disk, step by
    step, and of both commands and jarutil.verify with or without M2Crypto;
    /repo/javatools/jarutil.py:72-333, crypto.py:26-71. *)
From Verif Require Import Base Pack_Model ConstPool_Model Manifest_Model Glob_Model Zip_Model.
From Verif Require Import Sign_Model Tool_Model.
From Verif Require Report_Model.
Import Report_Model (join).

(** What is at a path: an archive with these entries, a regular file that is not an
    archive, or a directory.  Links are not modelled.  (The paths given to jarutil.py:179,
    223) *)
Inductive item := IZip (z : zip) | IRaw | IDir.
Definition disk := dict item.
(** The exceptions the commands tell apart (jarutil.py:302-312, 325-333): CryptoDisabled
    (crypto.py:34), CannotFindKeyTypeError (42), OSError with its subclasses, BadZipFile,
    and those of Base *)
Inductive stop := Raised (e : exn) | CryptoDisabled | CannotFindKeyType | OSError | BadZipFile.
Inductive out (A : Type) := Done (a : A) | Fail (e : stop).
Arguments Done {A} a.
Arguments Fail {A} e.

(** Statements run one after the other until one raises; jarutil.py:187-220 *)
Definition act (A : Type) := disk -> disk * out A.
(** A statement that gives a value, and one that raises (jarutil.py:187-220) *)
Definition ret {A} (a : A) : act A := fun d => (d, Done a).
Definition fail {A} (e : stop) : act A := fun d => (d, Fail e).
(** One statement after another (jarutil.py:187-220) *)
Definition then_ {A B} (m : act A) (k : A -> act B) : act B :=
  fun d => match m d with (d1, Done a) => k a d1 | (d1, Fail e) => (d1, Fail e) end.
(** A computation that touches no file (jarutil.py:188-201) *)
Definition lift {A} (r : res A) : act A := match r with Ok a => ret a | Err e => fail (Raised e) end.
Definition lift_out {A} (r : out A) : act A := match r with Done a => ret a | Fail e => fail e end.
Notation "x <<- m ;;; k" := (then_ m (fun x => k)) (at level 61, m at next level, right associativity).

(** Removing a file (the end of the with block, jarutil.py:203) *)
Definition rm (p : str) (d : disk) : disk := filter (fun kv : str * item => negb (seqb (fst kv) p)) d.

Section Files.
Variable up : Z -> str.
Variable hash : str -> bytes -> str.
(** May the process write to this path *)
Variable may_write : str -> bool.

(** ZipFile(path) (manifest.py:362, 441; jarutil.py:89) *)
Definition open_read (p : str) : act zip := fun d =>
  match dget d p with
  | Some (IZip z) => (d, Done z)
  | Some IRaw => (d, Fail BadZipFile)
  | _ => (d, Fail OSError)
  end.
(** ZipFile(path, "a") of a file already read as an archive (jarutil.py:209): the file
    is opened "r+b", and "w+b", "wb" where that fails.  Nothing is written to it, so that it
    is left as it is. *)
Definition open_append (p : str) : act zip := fun d =>
  if may_write p then open_read p d else (d, Fail OSError).
(** open(path, "wb") and writing: copyfile to a path (jarutil.py:217), ZipFile(path, "w")
    (jarutil.py:233).  A disk that fills up is not modelled. *)
Definition write (p : str) (i : item) : act unit := fun d =>
  match dget d p with
  | Some IDir => (d, Fail OSError)
  | _ => if may_write p then (dset d p i, Done tt) else (d, Fail OSError)
  end.
(** shutil.copyfile (jarutil.py:217): SameFileError for the same path *)
Definition copyfile (src dst : str) : act unit := fun d =>
  if seqb src dst then (d, Fail OSError)
  else match dget d src with Some i => write dst i d | None => (d, Fail OSError) end.

(** NamedTemporaryFile() as a context (jarutil.py:203-217): the file is made under a
    name not in use, [tmp], and removed at the end, also when something is raised *)
Definition with_tmp {A} (tmp : str) (body : act A) : act A := fun d =>
  let '(d1, r) := body (dset d tmp IRaw) in (rm tmp d1, r).

(** requires_crypto, crypto.py:58-71, over private_key_type (73-94) and
    create_signature_block (97-144): [None] without M2Crypto *)
Definition needs_crypto {A} (c : option (out A)) : act A :=
  match c with None => fail CryptoDisabled | Some r => lift_out r end.

(** M2Crypto, with the key and the certificates given: the key type, and the signature
    block for an algorithm and data (jarutil.py:198-201) *)
Record crypto := mkcrypto { c_key : out str; c_block : str -> bytes -> out bytes }.

(** jarutil.sign, jarutil.py:179-217 *)
Definition sign_files (m2 : option crypto) (tmp jar alias alg : str) (output : option str) : act unit :=
  z <<- open_read jar ;;;
  mf0 <<- lift (load_from_jar (new_manifest None) z) ;;;
  mf <<- lift (add_jar_entries up hash mf0 z alg) ;;;
  sf <<- lift (digest_manifest hash (new_sigmanifest (m_linesep mf)) mf alg) ;;;
  ext <<- needs_crypto (option_map c_key m2) ;;;
  sfd <<- lift (man_data sf None) ;;;
  sig <<- needs_crypto (option_map (fun c => c_block c alg sfd) m2) ;;;
  with_tmp tmp
    (mfd <<- lift (man_data mf None) ;;;
     z2 <<- open_append jar ;;;
     rest <<- lift (mapM (fun n => b <- zread z2 n ;; Ok (n, b))
                         (filter (fun n => negb (seqb (upper up n) MANIFEST_NAME)) (namelist z2))) ;;;
     _ <<- write tmp (IZip ((MANIFEST_NAME, mfd) :: (META ++ alias ++ lit ".SF", sfd)
                             :: (META ++ alias ++ [46] ++ ext, sig) :: rest)) ;;;
     copyfile tmp (match output with Some o => o | None => jar end)).

(** cli_sign_jar, jarutil.py:298-314: the status, or the exception that is not caught *)
Definition sign_status (r : out unit) : out Z :=
  match r with
  | Done _ => Done 0
  | Fail CryptoDisabled => Done (-1)
  | Fail CannotFindKeyType => Done 1
  | Fail (Raised MissingManifestError) => Done 2
  | Fail e => Fail e
  end.
(** The command, jarutil.py:262-314; the options are taken to be parsed *)
Definition cli_sign (m2 : option crypto) (tmp jar alias alg : str) (output : option str) (d : disk) : disk * out Z :=
  let '(d1, r) := sign_files m2 tmp jar alias alg output d in (d1, sign_status r).

(** ** Creating *)
(** What stat finds under the paths to be put into the jar; the jar itself is taken not to
    be among them (as in Tool_Model) *)
Variable fs : str -> option node.
(** The paths written for one argument, in turn, jarutil.py:236-240 *)
Definition below (path : str) (n : node) : list (str * node) :=
  concat (map (fun x : list str * list (str * node) * list (str * node) =>
    let '(rel, dirs, files) := x in map (fun f : str * node => (join (walk_path path rel) (fst f), snd f)) (dirs ++ files)) (walk [] n)).
(** ZipFile.write one after the other until one raises (jarutil.py:236-240): the entries
    written, and the exception *)
Fixpoint write_all (l : list (str * node)) : zip * out unit :=
  match l with
  | [] => ([], Done tt)
  | (p, n) :: r =>
      match zip_write p n with
      | Err e => ([], Fail (Raised e))
      | Ok x => let '(z, o) := write_all r in (x :: z, o)
      end
  end.
(** The loop over the arguments, jarutil.py:235-240 *)
Fixpoint write_args (paths : list str) : zip * out unit :=
  match paths with
  | [] => ([], Done tt)
  | p :: r =>
      match fs p with
      | None => ([], Fail (Raised FileNotFoundError))
      | Some n =>
          let '(z, o) := write_all ((p, n) :: below p n) in
          match o with
          | Fail e => (z, Fail e)
          | Done _ => let '(z2, o2) := write_args r in (z ++ z2, o2)
          end
      end
  end.
(** create_jar, jarutil.py:223-240: ZipFile(jar, "w") cuts off what was there; the end of
    the with block writes the directory of the archive, also when something was raised *)
Definition create_files (jar : str) (paths : list str) : act unit :=
  _ <<- write jar IRaw ;;;
  mf <<- lift (man_data (new_manifest None) None) ;;;
  let '(z, o) := write_args paths in
  _ <<- write jar (IZip ((lit "META-INF/", []) :: (MANIFEST_NAME, mf) :: z)) ;;;
  lift_out o.

(** ** Verifying *)
(** jarutil.verify, jarutil.py:72-176; [block_ok] is None without M2Crypto.  The steps
    before the block is checked are those of Sign_Model.verify, and so are those after *)
Definition verify_files (block_ok : option (bytes -> bytes -> bytes -> bool)) (cert : bytes) (jar : str) (sf_name : option str) : act unit :=
  z <<- open_read jar ;;;
  f <<- lift (choose_sf up z sf_name) ;;;
  sf_data <<- lift (zread z f) ;;;
  blk <<- lift (find_block z (alias_of f)) ;;;
  sig <<- lift (zread z blk) ;;;
  match block_ok with
  | None => fail CryptoDisabled
  | Some ok => lift (verify up hash ok cert z sf_name)
  end.
(** cli_verify_jar_signature, jarutil.py:317-333: the status *)
Definition verify_status (r : out unit) : out Z :=
  match r with
  | Done _ => Done 0
  | Fail CryptoDisabled => Done (-1)
  | Fail (Raised e) => if is_verification_error e then Done 1 else Fail (Raised e)
  | Fail e => Fail e
  end.
End Files.

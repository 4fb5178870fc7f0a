(** Model of where cli_create of /repo/javatools/manifest.py (927-987) writes the manifest:
    the file given with -m and its parent directories, or standard output; makedirsp of
    dirutils.py (51-57). *)
From Verif Require Import Base Pack_Model ConstPool_Model Manifest_Model Glob_Model Zip_Model.
From Verif Require Import Sign_Model Tool_Model.

(** A path as its components, from the current directory or the root, which is there;
    without "." and ".." (manifest.py:980, 981) *)
Definition path := list str.
Fixpoint peqb (a b : path) : bool :=
  match a, b with
  | [], [] => true
  | x :: a', y :: b' => seqb x y && peqb a' b'
  | _, _ => false
  end.
(** What is at a path (manifest.py:980-981); links are not modelled *)
Inductive fitem := FFile (b : bytes) | FDir.
Definition fdisk := path -> option fitem.
(** A path with new content (manifest.py:980-985) *)
Definition upd (d : fdisk) (p : path) (i : fitem) : fdisk := fun q => if peqb q p then Some i else d q.

(** An exception of Base, or an OSError (manifest.py:980-981) *)
Inductive mstop := MRaised (e : exn) | MOSError.

Section Out.
Variable hash : str -> bytes -> str.
Variable fs : str -> option node.
Variable unzip : bytes -> res zip.
(** May the process make or write this file, or make this directory *)
Variable may_write : path -> bool.

(** The part of cli_create before anything is written, manifest.py:948-975; as in
    Tool_Model *)
Definition created (a : create_args) : res manifest :=
  let requested := commas (match a_digest a with Some d => d | None => lit "MD5,SHA1" end) in
  if negb (forallb (fun d => smem d java_digests) requested) then Err UnsupportedDigest
  else
    let es := if a_recursive a then multi_path_generator fs (map (fun c => [c]) (a_content a)) else single_path_generator fs unzip (a_content a) in
    ignores <- (match a_ignore a with
                | [] => Ok [lit "META-INF/*"]
                | [l] => Ok (lit "META-INF/*" :: l)
                | _ => Err TypeError
                end) ;;
    create_loop hash ignores requested (new_manifest None) es.

(** The sections of store one after the other, manifest.py:403-404: what is written, and
    the exception.  Of a section that cannot be written nothing is written; in the code
    items before the bad one are, but the name comes first and the digests after it can
    be written. *)
Fixpoint store_secs (ls : str) (l : list (bytes * section)) : bytes * option exn :=
  match l with
  | [] => ([], None)
  | x :: r =>
      match sec_data (snd x) (Some ls) with
      | Err e => ([], Some e)
      | Ok b => let '(b2, e) := store_secs ls r in (b ++ b2, e)
      end
  end.
(** Manifest.store to a stream, manifest.py:393-404: the main section is written before
    the others are sorted *)
Definition store (m : manifest) : bytes * option exn :=
  let ls := man_linesep m None in
  match sec_data (m_main m) (Some ls) with
  | Err e => ([], Some e)
  | Ok mn =>
      match mapM sec_key (map snd (m_subs m)) with
      | Err e => (mn, Some e)
      | Ok ks => let '(b, e) := store_secs ls (sort_secs ks) in (mn ++ b, e)
      end
  end.

(** os.makedirs, called at dirutils.py:57: from the top, those that are missing.  Without
    leave, or with a file in the way, an OSError *)
Fixpoint makedirs (top rest : path) (d : fdisk) : fdisk * bool :=
  match rest with
  | [] => (d, true)
  | c :: r =>
      let p := top ++ [c] in
      match d p with
      | Some FDir => makedirs p r d
      | Some (FFile _) => (d, false)
      | None => if may_write p then makedirs p r (upd d p FDir) else (d, false)
      end
  end.
(** makedirsp, dirutils.py:51-57 *)
Definition makedirsp (p : path) (d : fdisk) : fdisk * bool :=
  match p with
  | [] => (d, true)
  | _ => match d p with None => makedirs [] p d | Some _ => (d, true) end
  end.
(** Is this a directory, in which a file can be opened (manifest.py:981) *)
Definition is_dir (p : path) (d : fdisk) : bool :=
  match p with [] => true | _ => match d p with Some FDir => true | _ => false end end.

(** cli_create, manifest.py:948-987: the disk, what is written to standard output, and the
    exception, if any.  The buffers of a file that is not closed are taken to be written
    when it is collected. *)
Definition create_out (a : create_args) (out : option path) (d : fdisk) : fdisk * bytes * option mstop :=
  match created a with
  | Err e => (d, [], Some (MRaised e))
  | Ok m =>
      let '(b, e) := store m in
      match out with
      | None => (d, b, option_map MRaised e)
      | Some p =>
          match makedirsp (removelast p) d with
          | (d1, false) => (d1, [], Some MOSError)
          | (d1, true) =>
              if negb (is_dir (removelast p) d1) then (d1, [], Some MOSError)
              else match d1 p with
                   | Some FDir => (d1, [], Some MOSError)
                   | _ => if may_write p then (upd d1 p (FFile b), [], option_map MRaised e) else (d1, [], Some MOSError)
                   end
          end
      end
  end.
End Out.

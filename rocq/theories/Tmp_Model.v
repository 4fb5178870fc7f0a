(** Model of a DistInfo object over several calls: its temporary directory and the list
    of contents it remembers, /repo/javatools/distinfo.py:50-84, 146-192. *)
From Verif Require Import Base Pack_Model ConstPool_Model ClassFile_Model Descr_Model Manifest_Model
  Change_Model Classdiff_Model Jardiff_Model Distdiff_Model Info_Model Session_Model.
From Verif Require Zip_Model.

(** What is at base_path: a directory; or a file, with what extractall leaves in the
    temporary directory and the exception of open_zip or extractall, if any (75-82) *)
Inductive base := BDir (tree : Zip_Model.node) | BFile (extracted : Zip_Model.node) (failure : option exn).
(** get_contents (173-176), get_jars (146-151), get_classes (159-166), close (179-188);
    generators are consumed *)
Inductive dcall := DContents | DJars | DClasses | DClose.

(** The object, with the numbers of all temporary directories that exist; 52-68.  The
    _requires and _provides are not part of it. *)
Record dsession := mkds { t_tmp : option (nat * Zip_Model.node); t_contents : option (list str); t_dirs : list nat }.
Definition new_dist (dirs : list nat) : dsession := mkds None None dirs.

(** _working_path, distinfo.py:72-83: tmpdir is set before the archive is opened *)
Definition working_path (b : base) (s : dsession) : dsession * res Zip_Model.node :=
  match t_tmp s with
  | Some (_, t) => (s, Ok t)
  | None =>
      match b with
      | BDir t => (s, Ok t)
      | BFile t f =>
          let i := unused (t_dirs s) in
          (mkds (Some (i, t)) (t_contents s) (i :: t_dirs s), match f with None => Ok t | Some e => Err e end)
      end
  end.
(** get_contents, distinfo.py:173-176; _collect_dist is dist_contents of Info_Model *)
Definition contents (b : base) (s : dsession) : dsession * res (list str) :=
  match t_contents s with
  | Some l => (s, Ok l)
  | None =>
      let '(s', r) := working_path b s in
      match r with
      | Ok t => let l := dist_contents (mkdist false t) in (mkds (t_tmp s') (Some l) (t_dirs s'), Ok l)
      | Err e => (s', Err e)
      end
  end.
(** close, distinfo.py:179-188 *)
Definition close_dist (s : dsession) : dsession :=
  match t_tmp s with
  | Some (i, _) => mkds None None (filter (fun j => negb (Nat.eqb j i)) (t_dirs s))
  | None => mkds None None (t_dirs s)
  end.
(** One call *)
Definition dstep (s : dsession) (x : base * dcall) : dsession * res (list str) :=
  let '(b, c) := x in
  match c with
  | DContents => contents b s
  | DJars => let '(s', r) := contents b s in (s', l <- r ;; Ok (filter (fun e => fnmatches e JAR_PATTERNS) l))
  | DClasses => let '(s', r) := contents b s in (s', l <- r ;; Ok (filter is_classfile l))
  | DClose => (close_dist s, Ok [])
  end.
Fixpoint dplay (s : dsession) (h : list (base * dcall)) : dsession * list (res (list str)) :=
  match h with
  | [] => (s, [])
  | x :: h' => let '(s1, r) := dstep s x in let '(s2, rs) := dplay s1 h' in (s2, r :: rs)
  end.

(** Model of a DistInfo object for a directory over several calls, with what it remembers:
    the list of contents, and what is required and provided; and of a caller who changes the
    mappings it was given.  /repo/javatools/distinfo.py:50-188. *)
From Verif Require Import Base Pack_Model ConstPool_Model ClassFile_Model Descr_Model Manifest_Model
  Change_Model Classdiff_Model Jardiff_Model Distdiff_Model Info_Model.
From Verif Require Zip_Model.

(** get_contents (173-176), get_jars (146-151), get_classes (159-166), get_requires and
    get_provides (116-144) with the patterns ignored, close (179-188); and a caller who calls
    get_requires or get_provides and deletes a key of the result, if it is there.  Generators
    are consumed. *)
Inductive qcall := QContents | QJars | QClasses | QRequires (ign : list str) | QProvides (ign : list str) | QClose
  | QDropRequires (ign : list str) (k : str) | QDropProvides (ign : list str) (k : str).
Inductive qanswer := QNames (l : list str) | QApi (d : dict (list source)) | QDone.

(** The object, distinfo.py:52-68: _contents, and _requires with _provides, which are set
    together (112-113); tmpdir is not used for a directory (76-77) *)
Record qobj := mkq { q_contents : option (list str); q_api : option (dict (list source) * dict (list source)) }.
(** A new object, distinfo.py:53-68 *)
Definition new_q : qobj := mkq None None.

Section Dsess.
(** As in Info_Model *)
Variable fmt : pyval -> str.
Variable repr : pyval -> str.
Variable text : bytes -> res str.
Variable order : list str -> list str.
Variable unzip : bytes -> jar.

(** get_contents, distinfo.py:173-176; [t] is the directory at the time of the call *)
Definition q_list (t : Zip_Model.node) (s : qobj) : qobj * list str :=
  match q_contents s with
  | Some l => (s, l)
  | None => let l := dist_contents (mkdist false t) in (mkq (Some l) (q_api s), l)
  end.
(** _collect_requires_provides, distinfo.py:86-113: the files named by get_contents, as they
    are now; the loops are those of Info_Model *)
Definition q_collect (t : Zip_Model.node) (s : qobj) : qobj * res (dict (list source) * dict (list source)) :=
  match q_api s with
  | Some x => (s, Ok x)
  | None =>
      let '(s1, l) := q_list t s in
      match (st <- dist_jar_loop fmt repr text order unzip (mkdist false t) (filter (fun e => fnmatches e JAR_PATTERNS) l) ([], [], []) ;;
             dist_class_loop fmt repr order (mkdist false t) (filter is_classfile l) st) with
      | Err e => (s1, Err e)
      | Ok (req, prov, p) =>
          let x := (dfilter (fun k => negb (smem k p)) req, prov) in
          (mkq (q_contents s1) (Some x), Ok x)
      end
  end.
(** del of a key by the caller: without patterns the mapping returned is the one the object
    keeps (distinfo.py:124, 139), with patterns it is a new one (126, 141) *)
Definition drop_key (k : str) (d : dict (list source)) : dict (list source) := dfilter (fun k' => negb (seqb k' k)) d.
(** One call *)
Definition qstep (s : qobj) (x : Zip_Model.node * qcall) : qobj * res qanswer :=
  let '(t, c) := x in
  match c with
  | QContents => let '(s1, l) := q_list t s in (s1, Ok (QNames l))
  | QJars => let '(s1, l) := q_list t s in (s1, Ok (QNames (filter (fun e => fnmatches e JAR_PATTERNS) l)))
  | QClasses => let '(s1, l) := q_list t s in (s1, Ok (QNames (filter is_classfile l)))
  | QRequires ign => let '(s1, r) := q_collect t s in (s1, a <- r ;; Ok (QApi (with_ignored ign (fst a))))
  | QProvides ign => let '(s1, r) := q_collect t s in (s1, a <- r ;; Ok (QApi (with_ignored ign (snd a))))
  | QClose => (mkq None (q_api s), Ok QDone)
  | QDropRequires ign k =>
      let '(s1, r) := q_collect t s in
      match r, ign with
      | Ok a, [] => (mkq (q_contents s1) (Some (drop_key k (fst a), snd a)), Ok QDone)
      | Ok _, _ => (s1, Ok QDone)
      | Err e, _ => (s1, Err e)
      end
  | QDropProvides ign k =>
      let '(s1, r) := q_collect t s in
      match r, ign with
      | Ok a, [] => (mkq (q_contents s1) (Some (fst a, drop_key k (snd a))), Ok QDone)
      | Ok _, _ => (s1, Ok QDone)
      | Err e, _ => (s1, Err e)
      end
  end.
(** Several calls, each with the directory as it is then *)
Fixpoint qplay (s : qobj) (h : list (Zip_Model.node * qcall)) : qobj * list (res qanswer) :=
  match h with
  | [] => (s, [])
  | x :: h' => let '(s1, r) := qstep s x in let '(s2, rs) := qplay s1 h' in (s2, r :: rs)
  end.
End Dsess.

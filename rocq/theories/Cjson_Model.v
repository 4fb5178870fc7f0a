(** Model of classinfo --json (/repo/javatools/classinfo.py:291-383) and of the
    command classinfo over several files (386-407). *)
From Verif Require Import Base Pack_Model ConstPool_Model ClassFile_Model Descr_Model Classdiff_Model Info_Model Print_Model Jinfo_Model.

(** The values handed to json.dump, classinfo.py:383: tuples and lists are written
    alike; a float is kept as the constant it comes from *)
Inductive data :=
| DNull
| DTrue
| DText (s : str)
| DNumber (z : Z)
| DFloat (v : pyval)
| DSeq (l : list data)
| DObject (d : list (str * data)).
(** A constant as a value: str, int, float or tuple, __init__.py:235-301 *)
Fixpoint of_pyval (v : pyval) : data :=
  match v with
  | PStr s => DText s
  | PInt z => DNumber z
  | PPair a b => DSeq [of_pyval a; of_pyval b]
  | f => DFloat f
  end.
Definition of_opt (v : option pyval) : data := match v with None => DNull | Some v => of_pyval v end.
(** ifonly, classinfo.py:371-377 *)
Definition ifonly (d : dict data) (key : String.string) (truth : bool) (v : data) : dict data :=
  if truth then dset d (lit key) v else d.
(** A value of pretty_const, __init__.py:2170-2231 *)
Definition of_pretty (v : pretty_val) : data := match v with PText s => DText s | PNum z => DNumber z end.
Definition texts (l : list str) : data := DSeq (map DText l).

Section Cjson.
(** as in Print_Model *)
Variable fmt : pyval -> str.
Variable repr : pyval -> str.
Variable reprs : str -> str.
Variable ffmt : pyval -> str.
Variable order : list str -> list str.

(** What is passed as the parameter [field] or [method] of the functions below: a
    JavaMemberInfo with its pool, or the Namespace of options, which has no method
    get_name *)
Inductive passed := Member (p : pool) (m : member) | Namespace (o : popts).
(** pretty_const of the constant of a field, classinfo.py:302-306 *)
Definition with_constant (p : pool) (m : member) (d : dict data) : res (dict data) :=
  cv <- get_constantvalue m ;;
  match cv with
  | None => Ok d
  | Some i => x <- pretty_const reprs ffmt p i ;;
              Ok (match x with
                  | Some (t, v) => dset d (lit "constant_value") (DSeq [DText t; of_pretty v])
                  | None => d
                  end)
  end.
(** cli_simplify_field with data left out, classinfo.py:291-308 *)
Definition simplify_field (a : passed) : res (dict data) :=
  match a with
  | Namespace _ => Err AttributeError
  | Member p m =>
      n <- m_name p m ;; let d := dset [] (lit "name") (of_pyval n) in
      t <- m_pretty_type fmt p m ;; let d := dset d (lit "type") (DText t) in
      let d := dset d (lit "access_flags") (texts (member_access_flags false m)) in
      sg <- get_signature p (m_attrs m) ;; let d := ifonly d "signature" (py_true sg) (of_opt sg) in
      let d := ifonly d "deprecated" (is_deprecated (m_attrs m)) DTrue in
      with_constant p m d
  end.
(** cli_simplify_method with data left out, classinfo.py:311-323 *)
Definition simplify_method (a : passed) : res (dict data) :=
  match a with
  | Namespace _ => Err AttributeError
  | Member p m =>
      n <- m_name p m ;; let d := dset [] (lit "name") (of_pyval n) in
      t <- m_pretty_type fmt p m ;; let d := dset d (lit "type") (DText t) in
      let d := dset d (lit "access_flags") (texts (member_access_flags false m)) in
      ts <- m_pretty_arg_types fmt p m ;; let d := dset d (lit "arg_types") (texts ts) in
      sg <- get_signature p (m_attrs m) ;; let d := ifonly d "signature" (py_true sg) (of_opt sg) in
      Ok (ifonly d "deprecated" (is_deprecated (m_attrs m)) DTrue)
  end.
(** cli_simplify_fields, classinfo.py:326-331: the call is
    cli_simplify_field(options, field), so the options are the parameter [field].
    The member would be [data]; that is of no account, the exception comes first. *)
Definition simplify_fields (o : popts) (c : classinfo) : res (list data) :=
  mapM (fun _ : member => d <- simplify_field (Namespace o) ;; Ok (DObject d)) (filter (should_show (o_show o)) (c_fields c)).
(** cli_simplify_methods, classinfo.py:334-339, likewise *)
Definition simplify_methods (o : popts) (c : classinfo) : res (list data) :=
  mapM (fun _ : member => d <- simplify_method (Namespace o) ;; Ok (DObject d)) (filter (should_show (o_show o)) (c_methods c)).
(** tuple(info.cpool.pretty_constants()), __init__.py:316-325 *)
Fixpoint numbered_constants (i : Z) (l : list const) : res (list data) :=
  match l with
  | [] => Ok []
  | c :: l' =>
      x <- pretty_entry reprs ffmt c ;; rest <- numbered_constants (i + 1) l' ;;
      Ok (match x with Some (t, v) => DSeq [DNumber i; DText t; of_pretty v] :: rest | None => rest end)
  end.
(** cli_simplify_classinfo with data left out, classinfo.py:342-368 *)
Definition simplify_classinfo (o : popts) (c : classinfo) : res (dict data) :=
  d <- (if o_provides o then l <- get_provides fmt order c (o_api_ignore o) false ;; Ok (dset [] (lit "class_provides") (texts l)) else Ok []) ;;
  d <- (if o_requires o then l <- get_requires fmt repr order c (o_api_ignore o) ;; Ok (dset d (lit "class_requires") (texts l)) else Ok d) ;;
  this <- pretty_this c ;; let d := dset d (lit "name") (DText this) in
  super <- pretty_super c ;; let d := dset d (lit "extends") (DText super) in
  ifs <- pretty_interfaces c ;; let d := dset d (lit "implements") (texts ifs) in
  src <- get_sourcefile c ;; let d := dset d (lit "source_file") (of_opt src) in
  sg <- get_signature (c_pool c) (c_attrs c) ;; let d := ifonly d "signature" (py_true sg) (of_opt sg) in
  em <- get_enclosingmethod fmt c ;; let d := ifonly d "enclosing_method" (py_true em) (of_opt em) in
  let d := dset d (lit "version") (DSeq [DNumber (fst (c_version c)); DNumber (snd (c_version c))]) in
  let d := dset d (lit "platform") (match platform_from_version (fst (c_version c)) (snd (c_version c)) with Some s => DText s | None => DNull end) in
  d <- (if o_constpool o then l <- numbered_constants 1 (tl (c_pool c)) ;; Ok (dset d (lit "constants_pool") (DSeq l)) else Ok d) ;;
  fs <- simplify_fields o c ;; let d := dset d (lit "fields") (DSeq fs) in
  ms <- simplify_methods o c ;; Ok (dset d (lit "methods") (DSeq ms)).
(** dump(data, sys.stdout, sort_keys=True, ...), classinfo.py:383: the items in the
    order of their keys.  How json writes the values is not modelled. *)
Definition dumped (d : dict data) : dict data := sorted_items d.
(** cli_json_class, classinfo.py:380-383, of the class in the file *)
Definition json_file (o : popts) (b : bytes) : res (dict data) :=
  c <- unpack_class b MNone ;; d <- simplify_classinfo o c ;; Ok (dumped d).
(** cli_print_class, classinfo.py:286-288 *)
Definition text_file (o : popts) (b : bytes) : res str := c <- unpack_class b MNone ;; print_classinfo fmt repr reprs ffmt order o c.

(** Standard output: texts and documents *)
Inductive written := WText (s : str) | WJson (d : dict data).
(** The loop of cli, classinfo.py:401-407, over the files: what was written, and the
    status or exception.  [read] is open(f, "rb").read(), __init__.py:2466-2467.
    Simplification: of a file whose printing raises, what was printed before is not
    counted. *)
Fixpoint each_file (json : bool) (read : str -> res bytes) (o : popts) (files : list str) : list written * res Z :=
  match files with
  | [] => ([], Ok 0)
  | f :: files' =>
      match (b <- read f ;; if json then d <- json_file o b ;; Ok (WJson d) else s <- text_file o b ;; Ok (WText s)) with
      | Err e => ([], Err e)
      | Ok w => let '(ws, st) := each_file json read o files' in (w :: ws, st)
      end
  end.
(** cli, classinfo.py:386-407; [json] is --json *)
Definition classinfo_cli (json : bool) (read : str -> res bytes) (o : popts) (files : list str) : list written * res Z :=
  each_file json read (cli_options o) files.
End Cjson.

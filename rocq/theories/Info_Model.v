(** Model of what a class, a jar and a distribution provide and require
    (/repo/javatools/__init__.py, jarinfo.py, distinfo.py), of looking up methods,
    and of which members classinfo.py shows. *)
From Verif Require Import Base Pack_Model ConstPool_Model ClassFile_Model Descr_Model Manifest_Model
  Change_Model Classdiff_Model Jardiff_Model Distdiff_Model.
From Verif Require Zip_Model.

(** SHOW_HEADER, SHOW_PUBLIC, SHOW_PACKAGE, SHOW_PRIVATE, classinfo.py:51-54 *)
Definition SHOW_HEADER := 0.   Definition SHOW_PUBLIC := 1.
Definition SHOW_PACKAGE := 3.  Definition SHOW_PRIVATE := 7.
(** should_show, classinfo.py:57-70, as a truth value (None for other values of
    options.show); is_public, is_protected are __init__.py:1125-1149 *)
Definition should_show (show : Z) (m : member) : bool :=
  if show =? SHOW_PUBLIC then flag ACC_PUBLIC (m_flags m)
  else if show =? SHOW_PACKAGE then flag ACC_PUBLIC (m_flags m) || flag ACC_PROTECTED (m_flags m)
  else if show =? SHOW_PRIVATE then true
  else false.
(** The members listed by cli_print_classinfo, classinfo.py:268-283 (nothing
    after the return at 269 for SHOW_HEADER): fields, then methods *)
Definition shown_members (show : Z) (c : classinfo) : list member :=
  if show =? SHOW_HEADER then []
  else filter (should_show show) (c_fields c) ++ filter (should_show show) (c_methods c).

(** cli_simplify_fields and cli_simplify_methods, classinfo.py:326-339: the
    elements are cli_simplify_field(options, field), whose parameters are (field,
    data), so [options.get_name()] is an AttributeError *)
Definition simplify_members (show : Z) (ms : list member) : res (list unit) :=
  mapM (fun _ : member => Err AttributeError) (filter (should_show show) ms).

(** The lines of cli_print_classinfo about the version, classinfo.py:246-248 *)
Definition version_lines (c : classinfo) : list str :=
  let '(major, minor) := c_version c in
  [lit "  minor version: " ++ dec major; lit "  major version: " ++ dec minor].

Section Info.
(** "%s" of a constant that is not a str, and "%r" of a constant: arbitrary *)
Variable fmt : pyval -> str.
Variable repr : pyval -> str.
(** as in Zip_Model: reading a file in text mode; the order of iteration of a set *)
Variable text : bytes -> res str.
Variable order : list str -> list str.

(** ** Classes *)

(** pretty_identifier, __init__.py:1593-1604 *)
Definition pretty_identifier (p : pool) (m : member) : res str :=
  n <- m_name p m ;;
  (if m_is_method m
   then args <- m_pretty_arg_types fmt p m ;; ty <- m_pretty_type fmt p m ;;
        Ok (pct_s fmt n ++ lit "(" ++ concat_with (lit ",") args ++ lit "):" ++ ty)
   else ty <- m_pretty_type fmt p m ;; Ok (pct_s fmt n ++ lit ":" ++ ty)).
(** _get_provides consumed, __init__.py:936-952 *)
Definition get_provides_all (c : classinfo) (private : bool) : res (list str) :=
  me <- pretty_this c ;;
  let one (m : member) := s <- pretty_identifier (c_pool c) m ;; Ok (me ++ lit "." ++ s) in
  let keep (m : member) := private || flag ACC_PUBLIC (m_flags m) in
  fs <- mapM one (filter keep (c_fields c)) ;;
  ms <- mapM one (filter keep (c_methods c)) ;;
  Ok (me :: fs ++ ms).
(** set(...) iterated and filtered, __init__.py:1008, 1020 *)
Definition set_list (l : list str) : list str := order (Zip_Model.nodup_names l).
Definition not_ignored (ignored : list str) (s : str) : bool := negb (fnmatches s ignored).
(** get_provides, __init__.py:992-1008.  The cached sets are not modelled: the
    class does not change. *)
Definition get_provides (c : classinfo) (ignored : list str) (private : bool) : res (list str) :=
  l <- get_provides_all c private ;; Ok (filter (not_ignored ignored) (set_list l)).

(** [t in (CONST_Class, CONST_Fieldref, CONST_Methodref, CONST_InterfaceMethodref)], __init__.py:967-968 *)
Definition is_api_tag (t : Z) : bool :=
  zmem t [CONST_Class; CONST_Fieldref; CONST_Methodref; CONST_InterfaceMethodref].
(** __init__.py:973-986: the name kept for the text [pv] of a constant, if any *)
Definition strip_array (pv : str) : res (option str) :=
  match pv with
  | [] => Err IndexError
  | c :: _ =>
      if c =? 91 (* [ *) then
        ts <- typeseq pv ;; t <- py_first ts ;;
        match t with
        | _ :: c1 :: r => if c1 =? 76 (* L *) then s <- pretty_type (c1 :: r) ;; Ok (Some s) else Ok None
        | _ => Err IndexError
        end
      else Ok (Some pv)
  end.
(** the loop of _get_requires, __init__.py:955-989, over constants() (304-313) *)
Fixpoint requires_loop (p : pool) (provided : list str) (l : list const) (i : Z) : res (list str) :=
  match l with
  | [] => Ok []
  | c :: l' =>
      match ctag c with
      | None => requires_loop p provided l' (i + 1)
      | Some t =>
          _ <- deref_const p i ;;
          if is_api_tag t then
            v <- pretty_deref_const fmt repr p i ;;
            o <- strip_array (pct_s fmt v) ;;
            rest <- requires_loop p provided l' (i + 1) ;;
            match o with
            | Some pv => if negb (seqb pv []) && negb (smem pv provided) then Ok (pv :: rest) else Ok rest
            | None => Ok rest
            end
          else requires_loop p provided l' (i + 1)
      end
  end.
Definition get_requires_all (c : classinfo) : res (list str) :=
  provided <- get_provides c [] true ;;
  requires_loop (c_pool c) provided (tl (c_pool c)) 1.
(** get_requires, __init__.py:1010-1020 *)
Definition get_requires (c : classinfo) (ignored : list str) : res (list str) :=
  l <- get_requires_all c ;; Ok (filter (not_ignored ignored) (set_list l)).

(** ** Looking up members *)

(** get_field_by_name, __init__.py:543-551; get_methods_by_name, 554-560.  The
    comparison is of values of any type. *)
Fixpoint find_member (p : pool) (test : member -> res bool) (ms : list member) : res (option member) :=
  match ms with
  | [] => Ok None
  | m :: ms' => b <- test m ;; if (b : bool) then Ok (Some m) else find_member p test ms'
  end.
Definition named (p : pool) (name : str) (m : member) : res bool := v <- m_name p m ;; Ok (py_eq v (PStr name)).
Definition get_field_by_name (c : classinfo) (name : str) : res (option member) :=
  find_member (c_pool c) (named (c_pool c) name) (c_fields c).
(** A sequence of descriptors given as an argument: a tuple or a list *)
Inductive pyseq := STuple (l : list str) | SList (l : list str).
Definition seq_items (s : pyseq) : list str := match s with STuple l | SList l => l end.
(** [==] of the tuple [l] with a sequence: a tuple is never equal to a list *)
Definition tuple_eqb (l : list str) (s : pyseq) : bool :=
  match s with
  | STuple r => (length l =? length r)%nat && forallb (fun xy => seqb (fst xy) (snd xy)) (combine l r)
  | SList _ => false
  end.
(** [arg_types] of a method matches a sequence, __init__.py:585-587, 598-600 *)
Definition bridge_and_args (c : classinfo) (bridge : bool) (s : pyseq) (m : member) : res bool :=
  if Bool.eqb (flag ACC_BRIDGE (m_flags m)) bridge
  then l <- m_arg_types fmt (c_pool c) m ;; Ok (tuple_eqb l s) else Ok false.
(** get_method, __init__.py:563-589: arg_types is converted to a tuple *)
Definition get_method (c : classinfo) (name : str) (arg_types : pyseq) : res (option member) :=
  find_member (c_pool c)
    (fun m => b <- named (c_pool c) name m ;;
              if (b : bool) then bridge_and_args c false (STuple (seq_items arg_types)) m else Ok false)
    (c_methods c).
(** get_method_bridges consumed, __init__.py:591-601: arg_types is not converted *)
Fixpoint filterM (test : member -> res bool) (ms : list member) : res (list member) :=
  match ms with
  | [] => Ok []
  | m :: ms' => b <- test m ;; rest <- filterM test ms' ;; Ok (if (b : bool) then m :: rest else rest)
  end.
Definition get_method_bridges (c : classinfo) (name : str) (arg_types : pyseq) : res (list member) :=
  filterM (fun m => b <- named (c_pool c) name m ;;
                    if (b : bool) then bridge_and_args c true arg_types m else Ok false)
    (c_methods c).
(** get_methods_by_name consumed, __init__.py:554-560 *)
Definition get_methods_by_name (c : classinfo) (name : str) : res (list member) :=
  filterM (named (c_pool c) name) (c_methods c).

(** ** Jars *)

(** [d.setdefault(sym, list()).append(x)] *)
Definition dict_append {V} (d : dict (list V)) (k : str) (x : V) : dict (list V) :=
  dset d k (match dget d k with Some l => l ++ [x] | None => [x] end).
Definition add_all {V} (d : dict (list V)) (syms : list str) (x : V) : dict (list V) :=
  fold_left (fun d s => dict_append d s x) syms d.
(** [dict((k, v) for k, v in d.items() if ...)] *)
Definition dfilter {V} (f : str -> bool) (d : dict V) : dict V := filter (fun kv => f (fst kv)) d.

(** JarInfo.get_classes, jarinfo.py:141-148 *)
Definition jar_classes (a : Zip_Model.archive) : res (list str) :=
  l <- Zip_Model.namelist a ;; Ok (filter is_classfile l).
(** JarInfo.get_classinfo, jarinfo.py:90-91, 151-157: unpack_class of the stream.
    The stream of an entry of a directory is a text stream, whose read(4) gives a
    str: too short for the magic, or not accepted by struct.  Simplification: the
    text is taken to be decoded as a whole. *)
Definition jar_classinfo (a : Zip_Model.archive) (entry : str) : res classinfo :=
  x <- read_entry text a entry ;;
  match x with
  | Zip_Model.PBytes b => unpack_class_stream b MNone
  | Zip_Model.PText t =>
      if (length t <? 4)%nat then Err (UnpackException 4 (Z.of_nat (length t))) else Err TypeError
  end.

(** What one class contributes: get_requires(), get_provides(private=False),
    get_provides(private=True), in this order *)
Definition class_api (c : classinfo) : res (list str * list str * list str) :=
  r <- get_requires c [] ;; v <- get_provides c [] false ;; p <- get_provides c [] true ;; Ok (r, v, p).

(** JarInfo._collect_requires_provides, jarinfo.py:94-116: the loop over the
    classes with req, prov and p.  Of the pairs (REQ_BY_CLASS, entry) and
    (PROV_BY_CLASS, entry) the entry is kept. *)
Definition api := (dict (list str) * dict (list str) * list str)%type.
Fixpoint jar_loop (a : Zip_Model.archive) (entries : list str) (st : api) : res api :=
  match entries with
  | [] => Ok st
  | e :: es =>
      c <- jar_classinfo a e ;; x <- class_api c ;;
      let '(r, v, p) := x in
      let '(req, prov, priv) := st in
      jar_loop a es (add_all req r e, add_all prov v e, priv ++ p)
  end.
Definition jar_api (j : jar) : res (dict (list str) * dict (list str)) :=
  a <- j ;; es <- jar_classes a ;; st <- jar_loop a es ([], [], []) ;;
  let '(req, prov, priv) := st in Ok (dfilter (fun k => negb (smem k priv)) req, prov).
(** JarInfo.get_requires, get_provides, jarinfo.py:119-138; [if ignored] guards a
    filter that keeps everything when nothing is ignored *)
Definition with_ignored {V} (ignored : list str) (d : dict V) : dict V :=
  match ignored with [] => d | _ => dfilter (not_ignored ignored) d end.
Definition jar_requires (j : jar) (ignored : list str) : res (dict (list str)) :=
  x <- jar_api j ;; Ok (with_ignored ignored (fst x)).
Definition jar_provides (j : jar) (ignored : list str) : res (dict (list str)) :=
  x <- jar_api j ;; Ok (with_ignored ignored (snd x)).

(** The numbers printed by cli_jar_zip_info, jarinfo.py:199-208 (and 263-273):
    files, directories, compressed and uncompressed size.  The percentage is a
    float division; only that it raises is modelled. *)
Definition jar_zip_info (a : Zip_Model.archive) : res (Z * Z * Z * Z) :=
  x <- Zip_Model.zip_entry_rollup a ;;
  let '(files, dirs, comp, uncomp) := x in
  if uncomp =? 0 then Err ZeroDivisionError else Ok (files, dirs, comp, uncomp).

(** ** Distributions *)

(** DistInfo, distinfo.py:50-84: a directory, or a zip file that is extracted into
    a temporary directory ([d_tree] is then what extractall made) *)
Record dist := mkdist { d_zipped : bool; d_tree : Zip_Model.node }.
(** get_contents and _collect_dist, distinfo.py:173-199: relpath(join(r, f), top)
    for the entries that are not directories *)
Definition dist_contents (d : dist) : list str :=
  concat (map (fun x => let '(r, _, fs) := x in map (fun f => Zip_Model.slashes (r ++ [fst f])) fs)
              (Zip_Model.walk [] (d_tree d))).
Variable unzip : bytes -> jar.
(** get_jars, get_classes, distinfo.py:146-168 *)
Definition dist_jars (d : dist) : list str := filter (fun e => fnmatches e JAR_PATTERNS) (dist_contents d).
Definition dist_classes (d : dist) : list str := filter is_classfile (dist_contents d).
(** [join(self.base_path, entry)], distinfo.py:155-156, 170-171: nothing is there
    if base_path is a zip file (the kind of the exception is not modelled) *)
Definition dist_open (d : dist) (entry : str) : res bytes :=
  if d_zipped d then Err FileNotFoundError else read_file (d_tree d) entry.
Definition dist_jarinfo (d : dist) (entry : str) : jar := b <- dist_open d entry ;; unzip b.
Definition dist_classinfo (d : dist) (entry : str) : res classinfo :=
  b <- dist_open d entry ;; unpack_class_stream b MNone.

(** (REQ_BY_JAR, entry, data) or (REQ_BY_CLASS, entry) *)
Inductive source := ByJar (entry : str) (data : list str) | ByClass (entry : str).
Definition dapi := (dict (list source) * dict (list source) * list str)%type.
Definition add_items (d : dict (list source)) (items : dict (list str)) (entry : str) : dict (list source) :=
  fold_left (fun d kv => dict_append d (fst kv) (ByJar entry (snd kv))) items d.
(** DistInfo._collect_requires_provides, distinfo.py:86-113 *)
Fixpoint dist_jar_loop (d : dist) (entries : list str) (st : dapi) : res dapi :=
  match entries with
  | [] => Ok st
  | e :: es =>
      x <- jar_api (dist_jarinfo d e) ;;
      let '(req, prov, p) := st in
      dist_jar_loop d es (add_items req (fst x) e, add_items prov (snd x) e, p ++ dkeys (snd x))
  end.
Fixpoint dist_class_loop (d : dist) (entries : list str) (st : dapi) : res dapi :=
  match entries with
  | [] => Ok st
  | e :: es =>
      c <- dist_classinfo d e ;; x <- class_api c ;;
      let '(r, v, p) := x in
      let '(req, prov, priv) := st in
      dist_class_loop d es (add_all req r (ByClass e), add_all prov v (ByClass e), priv ++ p)
  end.
Definition dist_api (d : dist) : res (dict (list source) * dict (list source)) :=
  st <- dist_jar_loop d (dist_jars d) ([], [], []) ;;
  st <- dist_class_loop d (dist_classes d) st ;;
  let '(req, prov, p) := st in Ok (dfilter (fun k => negb (smem k p)) req, prov).
(** get_requires, get_provides, distinfo.py:116-144 *)
Definition dist_requires (d : dist) (ignored : list str) : res (dict (list source)) :=
  x <- dist_api d ;; Ok (with_ignored ignored (fst x)).
Definition dist_provides (d : dist) (ignored : list str) : res (dict (list source)) :=
  x <- dist_api d ;; Ok (with_ignored ignored (snd x)).
End Info.

(** Model of the class comparison of /repo/javatools/classdiff.py, with the
    functions of /repo/javatools/__init__.py it calls.  A comparison is a tree of
    change objects (Change_Model); this file gives, for two class files, the tree
    that classdiff builds. *)
From Verif Require Import Base Pack_Model ConstPool_Model Opcodes_Model ClassFile_Model
  Descr_Model Anno_Model Change_Model.

Section Classdiff.
(** Python's "%s" of a constant that is not a str (int, float, tuple);
    [repr(s)[1:-1]] of a str; "%f" of a float constant.  Arbitrary functions. *)
Variable fmt : pyval -> str.
Variable reprs : str -> str.
Variable ffmt : pyval -> str.

(** "%s" % v, __init__.py:1570-1590, 1933-1950 *)
Definition pct_s (v : pyval) : str := match v with PStr s => s | _ => fmt v end.

(** ** Rendering *)

(** [s.replace("/", ".")] of a constant, __init__.py:2387-2394; numbers and
    tuples have no replace. *)
Definition pretty_class_v (v : pyval) : res str :=
  match v with PStr s => Ok (pretty_class s) | _ => Err AttributeError end.
(** _pretty_type of a constant, __init__.py:2333-2384.  Simplification: a tuple
    would be indexed, here as for numbers a TypeError. *)
Definition pretty_type_v (v : pyval) : res str :=
  match v with PStr s => pretty_type s | _ => Err TypeError end.

(** pretty_this, __init__.py:892-897 *)
Definition pretty_this (c : classinfo) : res str := v <- get_this c ;; pretty_class_v v.
(** [if test: yield word] *)
Definition word_if (b : bool) (w : String.string) : list str := if b then [lit w] else [].

(** _pretty_access_flags_gen of a class, __init__.py:863-881 *)
Definition class_access_flags (f : Z) : list str :=
  word_if (flag ACC_PUBLIC f) "public" ++
  word_if (flag ACC_FINAL f) "final" ++
  word_if (flag ACC_ABSTRACT f) "abstract" ++
  (if flag ACC_INTERFACE f then (if flag ACC_ANNOTATION f then [lit "@interface"] else [lit "interface"]) else []) ++
  word_if (flag ACC_ENUM f) "enum".
(** pretty_super, pretty_interfaces consumed, __init__.py:900-913 *)
Definition pretty_super (c : classinfo) : res str := v <- get_super c ;; pretty_class_v v.
Definition pretty_interfaces (c : classinfo) : res (list str) := l <- get_interfaces c ;; mapM pretty_class_v l.
(** _pretty_access_flags_gen of a member, __init__.py:1513-1551 *)
Definition member_access_flags (showall : bool) (m : member) : list str :=
  let f := m_flags m in
  word_if (flag ACC_PUBLIC f) "public" ++
  word_if (flag ACC_PRIVATE f) "private" ++
  word_if (flag ACC_PROTECTED f) "protected" ++
  word_if (flag ACC_STATIC f) "static" ++
  word_if (flag ACC_FINAL f) "final" ++
  word_if (flag ACC_STRICT f) "strict" ++
  word_if (flag ACC_NATIVE f) "native" ++
  word_if (flag ACC_ABSTRACT f) "abstract" ++
  word_if (flag ACC_ENUM f) "enum" ++
  word_if (flag ACC_MODULE f) "module" ++
  word_if (showall && is_synthetic m) "synthetic" ++
  (if m_is_method m then
     word_if (flag ACC_SYNCHRONIZED f) "synchronized" ++
     word_if (showall && flag ACC_BRIDGE f) "bridge" ++
     word_if (showall && flag ACC_VARARGS f) "varargs"
   else
     word_if (flag ACC_TRANSIENT f) "transient" ++
     word_if (flag ACC_VOLATILE f) "volatile").

(** The descriptor as _typeseq sees it: [str(s)], __init__.py:2294 *)
Definition m_desc_str (p : pool) (m : member) : res str := v <- m_descriptor p m ;; Ok (pct_s v).
(** get_type_descriptor, get_arg_type_descriptors, pretty_type, pretty_arg_types of
    a member, __init__.py:1437-1482 *)
Definition m_type (p : pool) (m : member) : res str := d <- m_desc_str p m ;; get_type_descriptor d.
Definition m_arg_types (p : pool) (m : member) : res (list str) :=
  if m_is_method m then d <- m_desc_str p m ;; get_arg_type_descriptors true d else Ok [].
Definition m_pretty_type (p : pool) (m : member) : res str := t <- m_type p m ;; pretty_type t.
Definition m_pretty_arg_types (p : pool) (m : member) : res (list str) :=
  ts <- m_arg_types p m ;; mapM pretty_type ts.

(** pretty_exceptions consumed, __init__.py:1562-1567 *)
Definition pretty_exceptions (p : pool) (m : member) : res (list str) :=
  l <- get_exceptions p m ;; mapM pretty_class_v l.
(** JavaMemberInfo.pretty_descriptor, __init__.py:1485-1510.  The parts that are
    None or empty are left out.  Simplification: a field name that is no str is a
    TypeError; in the code one that is zero is left out. *)
Definition member_descriptor (p : pool) (m : member) : res str :=
  let f := concat_with (lit " ") (member_access_flags false m) in
  ty <- m_pretty_type p m ;;
  n <- m_name p m ;;
  ex <- pretty_exceptions p m ;;
  let t := concat_with (lit ",") ex in
  let ty := if py_eq n (PStr (lit "<init>")) then [] else ty in
  n <- (if m_is_method m
        then args <- m_pretty_arg_types p m ;; Ok (pct_s n ++ lit "(" ++ concat_with (lit ",") args ++ lit ")")
        else match n with
             | PStr s => Ok s
             | _ => Err TypeError
             end) ;;
  let t := match t with [] => [] | _ => lit "throws " ++ t end in
  Ok (concat_with (lit " ") (filter (fun z => negb (seqb z [])) [f; ty; n; t])).

(** [n, t = v] for a value of deref_const: a pair, or a str of two characters *)
Definition unpair (v : pyval) : res (pyval * pyval) :=
  match v with
  | PPair a b => Ok (a, b)
  | PStr [a; b] => Ok (PStr [a], PStr [b])
  | PStr _ => Err ValueError
  | _ => Err TypeError
  end.
(** _pretty_typeseq(t) consumed, __init__.py:2325-2330 *)
Definition pretty_typeseq (v : pyval) : res (list str) := ts <- typeseq (pct_s v) ;; mapM pretty_type ts.

(** pretty_deref_const, __init__.py:341-418.  For MethodType [v[0]] subscripts an
    int; for Module and Package [self.deref_cons] does not exist. *)
Definition pretty_deref_const (repr : pyval -> str) (p : pool) (i : Z) : res pyval :=
  c <- get_const p i ;;
  match c with
  | KNone => Ok (PStr [])
  | KUtf8 s => Ok (PStr s)
  | KInt z | KLong z => Ok (PInt z)
  | KFloat b => Ok (PF32 b)
  | KDouble b => Ok (PF64 b)
  | KRef t j =>
      if t =? CONST_String then deref_const p j
      else if t =? CONST_Class then v <- deref_const p j ;; s <- pretty_class_v v ;; Ok (PStr s)
      else if t =? CONST_MethodType then Err TypeError
      else if (t =? CONST_Module) || (t =? CONST_Package) then Err AttributeError
      else Err UnknownConstantPoolTag
  | KRef2 t a b =>
      if t =? CONST_Fieldref then
        vc <- deref_const p a ;; cn <- pretty_class_v vc ;;
        nt <- deref_const p b ;; nt <- unpair nt ;;
        ty <- pretty_type_v (snd nt) ;;
        Ok (PStr (cn ++ lit "." ++ pct_s (fst nt) ++ lit ":" ++ ty))
      else if (t =? CONST_Methodref) || (t =? CONST_InterfaceMethodref) then
        vc <- deref_const p a ;; cn <- pretty_class_v vc ;;
        nt <- deref_const p b ;; nt <- unpair nt ;;
        ts <- pretty_typeseq (snd nt) ;;
        match ts with
        | [args; ret] => Ok (PStr (cn ++ lit "." ++ pct_s (fst nt) ++ args ++ lit ":" ++ ret))
        | _ => Err ValueError
        end
      else if t =? CONST_NameAndType then
        va <- deref_const p a ;; vb <- deref_const p b ;; ts <- pretty_typeseq vb ;;
        Ok (PStr (pct_s va ++ lit ":" ++ concat ts))
      else if t =? CONST_ModuleId then
        va <- deref_const p a ;; vb <- deref_const p b ;; Ok (PStr (pct_s va ++ lit "@" ++ pct_s vb))
      else if t =? CONST_InvokeDynamic then
        vb <- deref_const p b ;; Ok (PStr (lit "InvokeDynamic " ++ dec a ++ lit " " ++ repr vb))
      else if t =? CONST_Dynamic then
        vb <- deref_const p b ;; Ok (PStr (lit "Dynamic " ++ dec a ++ lit " " ++ repr vb))
      else Err UnknownConstantPoolTag
  | KHandle _ _ => Err UnknownConstantPoolTag
  end.

(** *** Values in descriptions *)

(** [repr(s)] of a str, from [repr(s)[1:-1]]: in double quotes if it contains a
    single quote and no double quote *)
Definition quoted (s : str) : str :=
  let q := if zmem 39 s && negb (zmem 34 s) then 34 else 39 in q :: reprs s ++ [q].
(** [repr] of a value *)
Fixpoint repr_o (o : pyobj) : str :=
  match o with
  | ONone => lit "None"
  | OBool b => if b then lit "True" else lit "False"
  | OInt z => dec z
  | ONum t => t
  | OStr s => quoted s
  | OTuple l =>
      match l with
      | [x] => lit "(" ++ repr_o x ++ lit ",)"
      | _ => lit "(" ++ concat_with (lit ", ") (map repr_o l) ++ lit ")"
      end
  | OList l => lit "[" ++ concat_with (lit ", ") (map repr_o l) ++ lit "]"
  | ODict l => lit "{" ++ concat_with (lit ", ") (map (fun kv => quoted (fst kv) ++ lit ": " ++ repr_o (snd kv)) l) ++ lit "}"
  end.
(** "%s" of a value *)
Definition str_o (o : pyobj) : str := match o with OStr s => s | _ => repr_o o end.
(** A constant as a value *)
Fixpoint obj (v : pyval) : pyobj :=
  match v with
  | PStr s => OStr s
  | PInt z => OInt z
  | PPair a b => OTuple [obj a; obj b]
  | _ => ONum (fmt v)
  end.
Definition obj_opt (v : option pyval) : pyobj := match v with Some v => obj v | None => ONone end.
Definition strs (l : list str) : list pyobj := map OStr l.

(** The value shown for a constant: a text, or an int left as it is. *)
Inductive pretty_val := PText (s : str) | PNum (z : Z).

(** pretty_const and _pretty_const_type_val, __init__.py:328-338, 2170-2231 *)
Definition pretty_entry (c : const) : res (option (str * pretty_val)) :=
  match c with
  | KNone => Ok None
  | KUtf8 s => Ok (Some (lit "Utf8", PText (reprs s)))
  | KInt z => Ok (Some (lit "int", PNum z))
  | KFloat b => Ok (Some (lit "float", PText (ffmt (PF32 b) ++ lit "f")))
  | KLong z => Ok (Some (lit "long", PText (dec z ++ lit "l")))
  | KDouble b => Ok (Some (lit "double", PText (ffmt (PF64 b) ++ lit "d")))
  | KRef t i =>
      if t =? CONST_Class then Ok (Some (lit "class", PText (lit "#" ++ dec i)))
      else if t =? CONST_String then Ok (Some (lit "String", PText (lit "#" ++ dec i)))
      else if t =? CONST_MethodType then Ok (Some (lit "MethodType", PText (dec i)))
      else if t =? CONST_Module then Ok (Some (lit "Module", PNum i))
      else if t =? CONST_Package then Ok (Some (lit "Package", PNum i))
      else Err UnknownConstantPoolTag
  | KRef2 t a b =>
      if t =? CONST_Fieldref then Ok (Some (lit "Field", PText (lit "#" ++ dec a ++ lit ".#" ++ dec b)))
      else if t =? CONST_Methodref then Ok (Some (lit "Method", PText (lit "#" ++ dec a ++ lit ".#" ++ dec b)))
      else if t =? CONST_InterfaceMethodref then
        Ok (Some (lit "InterfaceMethod", PText (lit "#" ++ dec a ++ lit ".#" ++ dec b)))
      else if t =? CONST_NameAndType then
        Ok (Some (lit "NameAndType", PText (lit "#" ++ dec a ++ lit ":#" ++ dec b)))
      else if t =? CONST_ModuleId then Ok (Some (lit "ModuleId", PText (lit "#" ++ dec a ++ lit "@#" ++ dec b)))
      else if t =? CONST_InvokeDynamic then
        Ok (Some (lit "InvokeDynamic", PText (lit "(" ++ dec a ++ lit ", " ++ dec b ++ lit ")")))
      else Err UnknownConstantPoolTag
  | KHandle k i => Ok (Some (lit "MethodHandle", PText (lit "(" ++ dec k ++ lit ", " ++ dec i ++ lit ")")))
  end.
Definition pretty_const (p : pool) (i : Z) : res (option (str * pretty_val)) :=
  c <- get_const p i ;; pretty_entry c.
(** tuple(pretty_constants()), __init__.py:316-325, without the numbering *)
Definition pretty_constants (p : pool) : res (list (option (str * pretty_val))) := mapM pretty_entry (tl p).

(** _pretty_annotation_val, __init__.py:2051-2080, with pretty_type and
    pretty_elements, 1933-1944, of an annotation within a value *)
Fixpoint pretty_aval (p : pool) (a : aval) : res str :=
  match a with
  | AConst t i => Ok (t :: lit "#" ++ dec i)
  | AEnum t n => Ok (lit "e#" ++ dec t ++ lit ".#" ++ dec n)
  | AClass i => Ok (lit "c#" ++ dec i)
  | AAnno t es =>
      tv <- deref_const p t ;; tn <- pretty_type_v tv ;;
      l <- (fix loop (es : list (pyval * aval)) : res (list str) :=
              match es with
              | [] => Ok []
              | (k, v) :: es' => s <- pretty_aval p v ;; r <- loop es' ;; Ok ((pct_s k ++ lit "=" ++ s) :: r)
              end) es ;;
      Ok (lit "@" ++ tn ++ lit "(" ++ concat_with (lit ", ") l ++ lit ")")
  | AArr vs =>
      l <- (fix loop (vs : list aval) : res (list str) :=
              match vs with
              | [] => Ok []
              | v :: vs' => s <- pretty_aval p v ;; r <- loop vs' ;; Ok (s :: r)
              end) vs ;;
      Ok (lit "[" ++ concat_with (lit ", ") l ++ lit "]")
  end.
(** pretty_annotation of a whole annotation, __init__.py:1947-1950: as within a
    value (2068) but without the "@" *)
Definition pretty_annotation (p : pool) (a : annotation) : res str :=
  s <- pretty_aval p (AAnno (fst a) (snd a)) ;; Ok (skipn 1 s).

(** ** Comparison of data *)

(** Python's == of two tuples whose elements are compared by [f]: the first
    unequal pair decides, then the lengths. *)
Fixpoint tuple_eq {A B} (f : A -> B -> res bool) (l : list A) (r : list B) : res bool :=
  match l, r with
  | x :: l', y :: r' => b <- f x y ;; if b then tuple_eq f l' r' else Ok false
  | [], [] => Ok true
  | _, _ => Ok false
  end.
Definition pure2 {A B} (f : A -> B -> bool) : A -> B -> res bool := fun x y => Ok (f x y).
(** None or a value *)
Definition opt_eqb {A} (f : A -> A -> bool) (a b : option A) : bool :=
  match a, b with None, None => true | Some x, Some y => f x y | _, _ => false end.
(** pairs of integers: line table entries, versions, lookupswitch pairs *)
Definition pair_eqb (a b : Z * Z) : bool := (fst a =? fst b) && (snd a =? snd b).
(** [set(l) == set(r)] *)
Definition set_eqb (l r : list pyval) : bool :=
  forallb (fun x => existsb (py_eq x) r) l && forallb (fun y => existsb (py_eq y) l) r.

(** One element of consts against another: tuples (tag, value) *)
Definition const_eqb (a b : const) : bool :=
  match a, b with
  | KNone, KNone => true
  | KUtf8 s, KUtf8 s' => seqb s s'
  | KInt z, KInt z' => z =? z'
  | KFloat x, KFloat y => py_eq (PF32 x) (PF32 y)
  | KLong z, KLong z' => z =? z'
  | KDouble x, KDouble y => py_eq (PF64 x) (PF64 y)
  | KRef t i, KRef t' i' => (t =? t') && (i =? i')
  | KRef2 t a b, KRef2 t' a' b' => (t =? t') && (a =? a') && (b =? b')
  | KHandle k i, KHandle k' i' => (k =? k') && (i =? i')
  | _, _ => false
  end.
(** JavaConstantPool.__eq__, __init__.py:183-185 *)
Definition pool_eqb (l r : pool) : res bool := tuple_eq (pure2 const_eqb) l r.

(** Python's == of the args of two instructions *)
Definition opargs_eqb (a b : opargs) : bool :=
  match a, b with
  | AInts l, AInts r => seqb l r
  | ALookup d l, ALookup d' r =>
      (d =? d') && (length l =? length r)%nat && forallb (fun xy => pair_eqb (fst xy) (snd xy)) (combine l r)
  | ATable d lo hi l, ATable d' lo' hi' r => (d =? d') && (lo =? lo') && (hi =? hi') && seqb l r
  | _, _ => false
  end.

(** get_catch_type, __init__.py:1821-1830 *)
Definition get_catch_type (p : pool) (e : exinfo) : res (option pyval) :=
  if ex_type_ref e =? 0 then Ok None else v <- deref_const p (ex_type_ref e) ;; Ok (Some v).
(** JavaExceptionInfo.__eq__ with info, __init__.py:1850-1861 *)
Definition exinfo_eq (lp rp : pool) (l r : exinfo) : res bool :=
  lt <- get_catch_type lp l ;; rt <- get_catch_type rp r ;;
  Ok ((ex_start l =? ex_start r) && (ex_end l =? ex_end r) && (ex_handler l =? ex_handler r) &&
      opt_eqb py_eq lt rt).
(** pretty_catch_type, __init__.py:1833-1847 *)
Definition pretty_catch_type (p : pool) (e : exinfo) : res str :=
  ct <- get_catch_type p e ;;
  match ct with
  | None => Ok (lit "any")
  | Some (PStr []) => Ok (lit "any")
  | Some v => s <- pretty_class_v v ;; Ok (lit "Class " ++ s)
  end.

(** ** Change objects *)

(** A value formatted with "%s" *)
Definition pct (m : res pyobj) : res str := o <- m ;; Ok (str_o o).

(** GenericChange.check_impl, change.py:331-352, given get_ldata(), get_rdata(),
    the equality of the data and pretty_ldata_desc(), pretty_rdata_desc() *)
Definition generic_check {A} (label : str) (ld rd : res A) (eqf : A -> A -> res bool) (lp rp : res str)
  : res (bool * option str) :=
  l <- ld ;; r <- rd ;; e <- eqf l r ;;
  if e then Ok (false, None)
  else a <- lp ;; b <- rp ;; Ok (true, Some (label ++ lit " changed: " ++ a ++ lit " to " ++ b)).

(** is_ignored of Change, change.py:165-171: False unless overridden *)
Definition never (o : options) : bool := false.

(** A GenericChange that is not a SuperChange, given the outcome of check_impl
    and pretty_ldata(), pretty_rdata(). *)
Definition leaf (name label : String.string) (own : options -> bool) (r : res (bool * option str)) (lp rp : res pyobj) : change :=
  Node (mkcls (lit name) (lit label) false false false None own false (CheckOwn r) false false false None None None []
          (not_none lp) (not_none rp))
       false None [] [].
(** One with its own fn_pretty_desc (change.py:263-269), giving the texts [lt], [rt] *)
Definition leaf_text {A} (name label : String.string) (own : options -> bool)
  (ld rd : res A) (eqf : A -> A -> res bool) (lt rt : res str) (lp rp : res pyobj) : change :=
  leaf name label own (generic_check (lit label) ld rd eqf lt rt) lp rp.
(** One described by the values of fn_pretty *)
Definition leaf_of {A} (name label : String.string) (own : options -> bool)
  (ld rd : res A) (eqf : A -> A -> res bool) (lp rp : res pyobj) : change :=
  leaf_text name label own ld rd eqf (pct lp) (pct rp) lp rp.
(** A SuperChange with the default check_impl and is_ignored; [raises] is what
    constructing the children raises. *)
Definition super (name label : String.string) (text : option (bool -> res str)) (raises : option exn) (kids : list change) : change :=
  Node (mkcls (lit name) (lit label) false false false text never true CheckParts true false false raises None None [] no_data no_data)
       false None [] kids.

(** lver < rver, lver > rver on version tuples *)
Definition ver_lt (a b : Z * Z) : bool := (fst a <? fst b) || ((fst a =? fst b) && (snd a <? snd b)).
(** is_ignored of ClassVersionChange and ClassPlatformChange, classdiff.py:113-118, 130-135 *)
Definition version_own (l r : classinfo) (o : options) : bool :=
  (ignore_version_up o && ver_lt (c_version l) (c_version r)) ||
  (ignore_version_down o && ver_lt (c_version r) (c_version l)).

(** get_annotations, get_invisible_annotations, __init__.py:733-754, 1293-1314 *)
Definition A_vis := lit "RuntimeVisibleAnnotations".
Definition A_invis := lit "RuntimeInvisibleAnnotations".
(** AnnotationsChange and InvisibleAnnotationsChange, classdiff.py:203-227 *)
Definition annos_leaf (name label : String.string) (attr : str) (lp rp : pool) (la ra : attrs) : change :=
  leaf_of name label never (annotations_of lp la attr) (annotations_of rp ra attr)
    (tuple_eq (annotation_eq lp rp))
    (l <- annotations_of lp la attr ;; ts <- mapM (pretty_annotation lp) l ;; Ok (OList (strs ts)))
    (l <- annotations_of rp ra attr ;; ts <- mapM (pretty_annotation rp) l ;; Ok (OList (strs ts))).

(** fn_pretty of the parts of ClassInfoChange, classdiff.py:98-196; of
    ClassVersionChange and ClassPlatformChange it is fn_data (107, 124) *)
Definition obj_version (c : classinfo) : pyobj := OTuple [OInt (fst (c_version c)); OInt (snd (c_version c))].
Definition obj_platform (c : classinfo) : pyobj :=
  match platform_from_version (fst (c_version c)) (snd (c_version c)) with Some s => OStr s | None => ONone end.
Definition obj_signature (p : pool) (d : attrs) : res pyobj := v <- get_signature p d ;; Ok (obj_opt v).
(** ClassInfoChange and its change_types, classdiff.py:90-196, 240-252 *)
Definition class_info (l r : classinfo) : change :=
  super "ClassInfoChange" "Class information" None None [
    leaf_of "ClassNameChange" "Class name" never (get_this l) (get_this r) (pure2 py_eq)
      (n <- pretty_this l ;; Ok (OStr n)) (n <- pretty_this r ;; Ok (OStr n));
    leaf_of "ClassVersionChange" "Java class verison" (version_own l r)
      (Ok (c_version l)) (Ok (c_version r)) (pure2 pair_eqb) (Ok (obj_version l)) (Ok (obj_version r));
    leaf_of "ClassPlatformChange" "Java platform" (version_own l r)
      (Ok (platform_from_version (fst (c_version l)) (snd (c_version l))))
      (Ok (platform_from_version (fst (c_version r)) (snd (c_version r))))
      (pure2 (opt_eqb seqb)) (Ok (obj_platform l)) (Ok (obj_platform r));
    leaf_of "ClassSuperclassChange" "Superclass" never (get_super l) (get_super r) (pure2 py_eq)
      (n <- pretty_super l ;; Ok (OStr n)) (n <- pretty_super r ;; Ok (OStr n));
    leaf_of "ClassInterfacesChange" "Interfaces" never (get_interfaces l) (get_interfaces r) (pure2 set_eqb)
      (ns <- pretty_interfaces l ;; Ok (OTuple (strs ns))) (ns <- pretty_interfaces r ;; Ok (OTuple (strs ns)));
    leaf_of "ClassAccessflagsChange" "Access flags" never (Ok (c_flags l)) (Ok (c_flags r)) (pure2 Z.eqb)
      (Ok (OTuple (strs (class_access_flags (c_flags l))))) (Ok (OTuple (strs (class_access_flags (c_flags r)))));
    leaf_of "ClassDeprecationChange" "Deprecation" ignore_deprecated
      (Ok (is_deprecated (c_attrs l))) (Ok (is_deprecated (c_attrs r))) (pure2 Bool.eqb)
      (Ok (OBool (is_deprecated (c_attrs l)))) (Ok (OBool (is_deprecated (c_attrs r))));
    leaf_of "ClassSignatureChange" "Generics Signature" never
      (get_signature (c_pool l) (c_attrs l)) (get_signature (c_pool r) (c_attrs r)) (pure2 (opt_eqb py_eq))
      (obj_signature (c_pool l) (c_attrs l)) (obj_signature (c_pool r) (c_attrs r))
  ].

(** *** Code *)

(** The comparison of the arguments of two instructions with equal opcodes in
    CodeConstantsChange.check_impl, classdiff.py:446-453 *)
Definition args_eq (lp rp : pool) (c : Z) (la ra : opargs) : res bool :=
  k <- has_const_arg c ;;
  if k then
    match la, ra with
    | AInts (i :: l), AInts (j :: r) => e <- const_eq lp rp i j ;; Ok (e && seqb l r)
    | _, _ => Err IndexError
    end
  else Ok (opargs_eqb la ra).
(** The loop of CodeConstantsChange.check_impl, classdiff.py:439-453: None for the
    early [return True], else the offsets of differing instructions. *)
Fixpoint const_loop (lp rp : pool) (l r : list insn) : res (option (list nat)) :=
  match l, r with
  | a :: l', b :: r' =>
      if negb ((i_off a =? i_off b)%nat && (i_code a =? i_code b)) then Ok None
      else
        e <- args_eq lp rp (i_code a) (i_args a) (i_args b) ;;
        rest <- const_loop lp rp l' r' ;;
        Ok (match rest with None => None | Some o => Some (if e then o else i_off a :: o) end)
  | _, _ => Ok (Some [])
  end.
(** CodeConstantsChange.check_impl, classdiff.py:426-456: the offsets it stores,
    None at an early [return True] *)
Definition code_offsets (lp rp : pool) (lc rc : option code) : res (option (list nat)) :=
  match lc, rc with
  | Some l, Some r =>
      if negb (length (k_code l) =? length (k_code r))%nat then Ok None
      else
        dl <- disassemble_all (k_code l) ;; dr <- disassemble_all (k_code r) ;;
        const_loop lp rp dl dr
  | _, _ => Ok None
  end.
Definition code_constants_check (lp rp : pool) (lc rc : option code) : res (bool * option str) :=
  x <- code_offsets lp rp lc rc ;;
  Ok (match x with None => true | Some [] => false | Some _ => true end, None).
(** CodeConstantsChange.fn_pretty after check_impl, classdiff.py:409-423, of one
    side [p], [c] *)
Definition constants_obj (offsets : res (option (list nat))) (p : pool) (c : option code) : res pyobj :=
  match offsets, c with
  | Ok (Some (x :: xs)), Some k =>
      ds <- disassemble_all (k_code k) ;;
      rows <- mapM (fun i =>
        if existsb (Nat.eqb (i_off i)) (x :: xs) then
          h <- has_const_arg (i_code i) ;;
          if h then
            n <- get_opname_by_code (i_code i) ;;
            match i_args i with
            | AInts (a :: _) => v <- pretty_deref_const (fun v => repr_o (obj v)) p a ;; Ok [OTuple [OInt (Z.of_nat (i_off i)); OStr n; obj v]]
            | _ => Err IndexError
            end
          else Ok []
        else Ok []) ds ;;
      Ok (OList (concat rows))
  | _, _ => Ok ONone
  end.
(** The arguments of an instruction as a value, opcodes.py:131-206 *)
Definition obj_args (a : opargs) : pyobj :=
  let ints l := map OInt l in
  match a with
  | AInts l => OTuple (ints l)
  | ALookup d l => OTuple [OInt d; OList (map (fun xy => OTuple [OInt (fst xy); OInt (snd xy)]) l)]
  | ATable d lo hi l => OTuple [OInt d; OInt lo; OInt hi; OList (ints l)]
  end.
(** CodeBodyChange.fn_pretty, classdiff.py:470-477 *)
Definition body_obj (c : option code) : res pyobj :=
  match c with
  | None => Ok (OList [])
  | Some k =>
      ds <- disassemble_all (k_code k) ;;
      rows <- mapM (fun i => n <- get_opname_by_code (i_code i) ;; Ok (OTuple [OInt (Z.of_nat (i_off i)); OStr n; obj_args (i_args i)])) ds ;;
      Ok (OList rows)
  end.
(** The loop of CodeBodyChange.check_impl, classdiff.py:492-494: False if every pair agrees *)
Fixpoint body_loop (l r : list insn) : bool :=
  match l, r with
  | a :: l', b :: r' =>
      if negb ((i_off a =? i_off b)%nat && (i_code a =? i_code b)) then true else body_loop l' r'
  | _, _ => false
  end.
(** CodeBodyChange.check_impl, classdiff.py:480-496 *)
Definition code_body_check (lc rc : option code) : res (bool * option str) :=
  match lc, rc with
  | Some l, Some r =>
      if negb (length (k_code l) =? length (k_code r))%nat then
        Ok (true, Some (lit "Code length changed from " ++ dec (Z.of_nat (length (k_code l))) ++
                        lit " to " ++ dec (Z.of_nat (length (k_code r)))))
      else
        dl <- disassemble_all (k_code l) ;; dr <- disassemble_all (k_code r) ;;
        Ok (body_loop dl dr, None)
  | _, _ => Ok (true, None)
  end.

(** [(c and f(c)) or default] *)
Definition on_code {A} (c : option code) (default : A) (f : code -> res A) : res A :=
  match c with None => Ok default | Some k => f k end.

(** The values shown for line tables and sizes (fn_data), and for exception
    tables (CodeExceptionChange.fn_pretty, classdiff.py:381-388) *)
Definition obj_lines (t : list (Z * Z)) : pyobj := OTuple (map (fun xy => OTuple [OInt (fst xy); OInt (snd xy)]) t).
Definition obj_handlers (p : pool) (c : option code) : res pyobj :=
  l <- on_code c [] (fun k => Ok (k_exceptions k)) ;;
  es <- mapM (fun e => t <- pretty_catch_type p e ;; Ok (OTuple [OInt (ex_start e); OInt (ex_end e); OInt (ex_handler e); OStr t])) l ;;
  Ok (OStr (repr_o (OList es))).
(** The change_types of MethodCodeChange, classdiff.py:324-496, 584-590 *)
Definition code_parts (lp rp : pool) (lc rc : option code) : list change := [
  leaf_of "CodeAbsoluteLinesChange" "Absolute line numbers" ignore_absolute_lines
    (on_code lc [] get_linenumbertable) (on_code rc [] get_linenumbertable)
    (tuple_eq (pure2 pair_eqb))
    (t <- on_code lc [] get_linenumbertable ;; Ok (obj_lines t)) (t <- on_code rc [] get_linenumbertable ;; Ok (obj_lines t));
  leaf_of "CodeRelativeLinesChange" "Relative line numbers" ignore_relative_lines
    (on_code lc [] (fun k => t <- get_linenumbertable k ;; Ok (relative_lines t)))
    (on_code rc [] (fun k => t <- get_linenumbertable k ;; Ok (relative_lines t)))
    (tuple_eq (pure2 pair_eqb))
    (t <- on_code lc [] (fun k => t <- get_linenumbertable k ;; Ok (relative_lines t)) ;; Ok (obj_lines t))
    (t <- on_code rc [] (fun k => t <- get_linenumbertable k ;; Ok (relative_lines t)) ;; Ok (obj_lines t));
  leaf_of "CodeStackChange" "Stack size" never
    (on_code lc 0 (fun k => Ok (k_max_stack k))) (on_code rc 0 (fun k => Ok (k_max_stack k)))
    (pure2 Z.eqb)
    (z <- on_code lc 0 (fun k => Ok (k_max_stack k)) ;; Ok (OInt z)) (z <- on_code rc 0 (fun k => Ok (k_max_stack k)) ;; Ok (OInt z));
  leaf_of "CodeLocalsChange" "Locals" never
    (on_code lc 0 (fun k => Ok (k_max_locals k))) (on_code rc 0 (fun k => Ok (k_max_locals k)))
    (pure2 Z.eqb)
    (z <- on_code lc 0 (fun k => Ok (k_max_locals k)) ;; Ok (OInt z)) (z <- on_code rc 0 (fun k => Ok (k_max_locals k)) ;; Ok (OInt z));
  leaf_of "CodeExceptionChange" "Exception table" never
    (on_code lc [] (fun k => Ok (k_exceptions k))) (on_code rc [] (fun k => Ok (k_exceptions k)))
    (tuple_eq (exinfo_eq lp rp))
    (obj_handlers lp lc) (obj_handlers rp rc);
  leaf "CodeConstantsChange" "Code constants" never (code_constants_check lp rp lc rc)
    (constants_obj (code_offsets lp rp lc rc) lp lc) (constants_obj (code_offsets lp rp lc rc) rp rc);
  leaf "CodeBodyChange" "Code body" never (code_body_check lc rc) (body_obj lc) (body_obj rc)
].

(** MethodCodeChange, classdiff.py:580-616, given l.get_code() and r.get_code() *)
Definition method_code (lp rp : pool) (lc rc : option code) : change :=
  Node (mkcls (lit "MethodCodeChange") (lit "Method Code") false false false None never true
          (match lc, rc with
           | Some _, Some _ => CheckParts
           | None, None => CheckOwn (Ok (false, None))
           | _, _ => CheckOwn (Ok (true, None))
           end)
          true false false None None None [] no_data no_data)
       false None []
       (match lc, rc with None, None => [] | _, _ => code_parts lp rp lc rc end).

(** *** Members *)

(** get_identifier, __init__.py:1570-1590 *)
Definition get_identifier (p : pool) (m : member) : res pyval :=
  n <- m_name p m ;;
  if m_is_method m then
    args <- m_arg_types p m ;;
    let a := concat_with (lit ",") args in
    if flag ACC_BRIDGE (m_flags m)
    then d <- m_descriptor p m ;; Ok (PStr (pct_s n ++ lit "(" ++ a ++ lit "):" ++ pct_s d))
    else Ok (PStr (pct_s n ++ lit "(" ++ a ++ lit ")"))
  else Ok n.

(** MethodChange and its change_types, classdiff.py:499-577, 619-658.  The
    constructor of MethodCodeChange (593-595) calls get_code while MethodChange
    collects. *)
Definition method_change (lp rp : pool) (l r : member) : change :=
  let codes := (lc <- get_code lp l ;; rc <- get_code rp r ;; Ok (lc, rc)) in
  let abstract p m := (c <- get_code p m ;; Ok (match c with None => true | Some _ => false end)) in
  let words p m := (b <- abstract p m ;; Ok (if b : bool then lit "Method is abstract" else lit "Method is concrete")) in
  super "MethodChange" "Method" (Some (fun _ => d <- member_descriptor lp l ;; Ok (lit "Method: " ++ d)))
    (match codes with Err e => Some e | Ok _ => None end) [
    leaf_of "MethodNameChange" "Method name" never (m_name lp l) (m_name rp r) (pure2 py_eq)
      (v <- m_name lp l ;; Ok (obj v)) (v <- m_name rp r ;; Ok (obj v));
    leaf_of "MethodTypeChange" "Method type" never (m_type lp l) (m_type rp r) (pure2 seqb)
      (t <- m_pretty_type lp l ;; Ok (OStr t)) (t <- m_pretty_type rp r ;; Ok (OStr t));
    leaf_of "MethodSignatureChange" "Method generic signature" never
      (get_signature lp (m_attrs l)) (get_signature rp (m_attrs r)) (pure2 (opt_eqb py_eq))
      (obj_signature lp (m_attrs l)) (obj_signature rp (m_attrs r));
    annos_leaf "MethodAnnotationsChange" "Method runtime annotations" A_vis lp rp (m_attrs l) (m_attrs r);
    annos_leaf "MethodInvisibleAnnotationsChange" "Method runtime invisible annotations" A_invis lp rp (m_attrs l) (m_attrs r);
    leaf_of "MethodParametersChange" "Method parameters" never (m_arg_types lp l) (m_arg_types rp r)
      (tuple_eq (pure2 seqb)) (ts <- m_pretty_arg_types lp l ;; Ok (OTuple (strs ts))) (ts <- m_pretty_arg_types rp r ;; Ok (OTuple (strs ts)));
    leaf_of "MethodAccessflagsChange" "Method accessflags" never (Ok (m_flags l)) (Ok (m_flags r)) (pure2 Z.eqb)
      (Ok (OTuple (strs (member_access_flags false l)))) (Ok (OTuple (strs (member_access_flags false r))));
    leaf_of "MethodExceptionsChange" "Method exceptions" never (get_exceptions lp l) (get_exceptions rp r)
      (tuple_eq (pure2 py_eq))
      (ts <- pretty_exceptions lp l ;; Ok (OTuple (strs ts))) (ts <- pretty_exceptions rp r ;; Ok (OTuple (strs ts)));
    leaf_text "MethodAbstractChange" "Method abstract" never
      (abstract lp l) (abstract rp r) (pure2 Bool.eqb) (words lp l) (words rp r)
      (b <- abstract lp l ;; Ok (OBool b)) (b <- abstract rp r ;; Ok (OBool b));
    leaf_of "MethodDeprecationChange" "Method deprecation" ignore_deprecated
      (Ok (is_deprecated (m_attrs l))) (Ok (is_deprecated (m_attrs r))) (pure2 Bool.eqb)
      (Ok (OBool (is_deprecated (m_attrs l)))) (Ok (OBool (is_deprecated (m_attrs r))));
    match codes with Ok (lc, rc) => method_code lp rp lc rc | Err _ => method_code lp rp None None end
  ].

(** FieldChange and its change_types, classdiff.py:661-765 *)
Definition field_change (lp rp : pool) (l r : member) : change :=
  let value p m := (v <- deref_constantvalue p m ;; Ok (OStr (repr_o (obj_opt v)))) in
  super "FieldChange" "Field" (Some (fun _ => d <- member_descriptor lp l ;; Ok (lit "Field: " ++ d))) None [
    leaf_of "FieldNameChange" "Field name" never (m_name lp l) (m_name rp r) (pure2 py_eq)
      (v <- m_name lp l ;; Ok (obj v)) (v <- m_name rp r ;; Ok (obj v));
    leaf_of "FieldTypeChange" "Field type" never (m_descriptor lp l) (m_descriptor rp r) (pure2 py_eq)
      (t <- m_pretty_type lp l ;; Ok (OStr t)) (t <- m_pretty_type rp r ;; Ok (OStr t));
    leaf_of "FieldSignatureChange" "Field Generic Signature" never
      (get_signature lp (m_attrs l)) (get_signature rp (m_attrs r)) (pure2 (opt_eqb py_eq))
      (obj_signature lp (m_attrs l)) (obj_signature rp (m_attrs r));
    annos_leaf "FieldAnnotationsChange" "Field runtime annotations" A_vis lp rp (m_attrs l) (m_attrs r);
    annos_leaf "FieldInvisibleAnnotationsChange" "Field runtime invisible annotations" A_invis lp rp (m_attrs l) (m_attrs r);
    leaf_text "FieldAccessflagsChange" "Field accessflags" never (Ok (m_flags l)) (Ok (m_flags r)) (pure2 Z.eqb)
      (Ok (concat_with (lit ",") (member_access_flags false l))) (Ok (concat_with (lit ",") (member_access_flags false r)))
      (Ok (OTuple (strs (member_access_flags false l)))) (Ok (OTuple (strs (member_access_flags false r))));
    leaf_of "FieldConstvalueChange" "Field constvalue" never
      (deref_constantvalue lp l) (deref_constantvalue rp r) (pure2 (opt_eqb py_eq)) (value lp l) (value rp r);
    leaf_of "FieldDeprecationChange" "Field deprecation" ignore_deprecated
      (Ok (is_deprecated (m_attrs l))) (Ok (is_deprecated (m_attrs r))) (pure2 Bool.eqb)
      (Ok (OBool (is_deprecated (m_attrs l)))) (Ok (OBool (is_deprecated (m_attrs r))))
  ].

(** The dict [li] of ClassMembersChange.collect_impl.  Keys compare as Python
    dict keys; simplification: the identity shortcut for NaN is not modelled. *)
Definition mdict := list (pyval * member).
Fixpoint mset (d : mdict) (k : pyval) (v : member) : mdict :=
  match d with
  | [] => [(k, v)]
  | (k', v') :: d' => if py_eq k k' then (k', v) :: d' else (k', v') :: mset d' k v
  end.
Fixpoint mget (d : mdict) (k : pyval) : option member :=
  match d with
  | [] => None
  | (k', v) :: d' => if py_eq k k' then Some v else mget d' k
  end.
Fixpoint mdel (d : mdict) (k : pyval) : mdict :=
  match d with
  | [] => []
  | (k', v) :: d' => if py_eq k k' then d' else (k', v) :: mdel d' k
  end.

(** What collect_impl yields: member_added(None, r), member_removed(l, None),
    member_changed(l, r) *)
Inductive mevent := MAdded (r : member) | MRemoved (l : member) | MChanged (l r : member).

(** ClassMembersChange.collect_impl, classdiff.py:304-321 *)
Fixpoint members_left (p : pool) (ls : list member) (li : mdict) : res mdict :=
  match ls with
  | [] => Ok li
  | m :: ls' => k <- get_identifier p m ;; members_left p ls' (mset li k m)
  end.
Fixpoint members_right (p : pool) (rs : list member) (li : mdict) : res (list mevent) :=
  match rs with
  | [] => Ok (map (fun kv => MRemoved (snd kv)) li)
  | m :: rs' =>
      k <- get_identifier p m ;;
      match mget li k with
      | Some lf => ev <- members_right p rs' (mdel li k) ;; Ok (MChanged lf m :: ev)
      | None => ev <- members_right p rs' li ;; Ok (MAdded m :: ev)
      end
  end.
Definition collect_members (lp rp : pool) (ls rs : list member) : res (list mevent) :=
  li <- members_left lp ls [] ;; members_right rp rs li.

(** MemberAdded, MemberRemoved and their subclasses, classdiff.py:264-289, 768-775, 801-808 *)
Definition member_added (name label : String.string) (p : pool) (m : member) : change :=
  Node (mkcls (lit name) (lit label) true true false (Some (fun _ => d <- member_descriptor p m ;; Ok (lit label ++ lit ": " ++ d)))
          never false CheckNothing false false false None None None [] no_data no_data) false None [] [].
Definition member_removed (name label : String.string) (p : pool) (m : member) : change :=
  Node (mkcls (lit name) (lit label) true false true (Some (fun _ => d <- member_descriptor p m ;; Ok (lit label ++ lit ": " ++ d)))
          never false CheckNothing false false false None None None [] no_data no_data) false None [] [].

(** ClassFieldsChange and ClassMethodsChange, classdiff.py:778-798, 811-831, with
    yield_sorted_by_type *)
Definition fields_change (l r : classinfo) : change :=
  let ev := collect_members (c_pool l) (c_pool r) (c_fields l) (c_fields r) in
  super "ClassFieldsChange" "Fields" None (match ev with Err e => Some e | Ok _ => None end)
    (match ev with
     | Err _ => []
     | Ok evs =>
         iterate_by_type (fun c => k_name (k_of c))
           (map (fun e => match e with
                          | MAdded b => member_added "FieldAdded" "Field added" (c_pool r) b
                          | MRemoved a => member_removed "FieldRemoved" "Field removed" (c_pool l) a
                          | MChanged a b => field_change (c_pool l) (c_pool r) a b
                          end) evs)
           [lit "FieldAdded"; lit "FieldRemoved"; lit "FieldChange"]
     end).
Definition methods_change (l r : classinfo) : change :=
  let ev := collect_members (c_pool l) (c_pool r) (c_methods l) (c_methods r) in
  super "ClassMethodsChange" "Methods" None (match ev with Err e => Some e | Ok _ => None end)
    (match ev with
     | Err _ => []
     | Ok evs =>
         iterate_by_type (fun c => k_name (k_of c))
           (map (fun e => match e with
                          | MAdded b => member_added "MethodAdded" "Method added" (c_pool r) b
                          | MRemoved a => member_removed "MethodRemoved" "Method removed" (c_pool l) a
                          | MChanged a b => method_change (c_pool l) (c_pool r) a b
                          end) evs)
           [lit "MethodAdded"; lit "MethodRemoved"; lit "MethodChange"]
     end).

(** ClassConstantPoolChange.fn_pretty, classdiff.py:842-843: the entries with
    their indices *)
Definition pool_obj (p : pool) : res pyobj :=
  l <- pretty_constants p ;;
  Ok (OTuple (concat (map (fun xy => match snd xy with
                       | Some (t, v) => [OTuple [OInt (Z.of_nat (fst xy)); OStr t; match v with PText s => OStr s | PNum z => OInt z end]]
                       | None => []
                       end) (combine (seq 1 (length l)) l)))).
(** ClassConstantPoolChange, classdiff.py:834-853 *)
Definition pool_change (l r : classinfo) : change :=
  Node (mkcls (lit "ClassConstantPoolChange") (lit "Constant pool") false false false
          (Some (fun b : bool => Ok (lit "Constant pool" ++ (if b then lit " altered" else lit " unaltered"))))
          ignore_pool false
          (CheckOwn (generic_check (lit "Constant pool") (Ok (c_pool l)) (Ok (c_pool r)) pool_eqb
             (pct (pool_obj (c_pool l))) (pct (pool_obj (c_pool r)))))
          false false false None None None [] (not_none (pool_obj (c_pool l))) (not_none (pool_obj (c_pool r))))
       false None [] [].

(** JavaClassChange, classdiff.py:856-870 *)
Definition class_change (l r : classinfo) : change :=
  super "JavaClassChange" "Java Class" (Some (fun _ => n <- pretty_this l ;; Ok (lit "Java Class " ++ n))) None [
    class_info l r;
    annos_leaf "ClassAnnotationsChange" "Class runtime annotations" A_vis (c_pool l) (c_pool r) (c_attrs l) (c_attrs r);
    annos_leaf "ClassInvisibleAnnotationsChange" "Class runtime invisible annotations" A_invis (c_pool l) (c_pool r) (c_attrs l) (c_attrs r);
    pool_change l r;
    fields_change l r;
    methods_change l r
  ].

(** cli_classes_diff, classdiff.py:949-975: the exit status.  Simplification: the
    reports written before are left out (see Change_Model). *)
Definition classdiff (o : options) (l r : classinfo) : res Z := c <- check (class_change l r) ;; exit_status o c.

(** ** Merged listings *)

(** pretty_merge_constants, classdiff.py:889-914, consumed.  [range(a, b)] is
    [seq]; after the first loop [index] is the last index visited, or 1. *)
Definition zrange (a b : Z) : list Z := map (fun n => a + Z.of_nat n) (seq 0 (Z.to_nat (b - a))).
Definition merge_entry := (Z * option (str * pretty_val) * option (str * pretty_val))%type.
Definition pretty_merge_constants (lp rp : pool) : res (list merge_entry) :=
  let ls := Z.of_nat (length lp) in
  let rs := Z.of_nat (length rp) in
  let common := zrange 1 (Z.min ls rs) in
  let index := last common 1 in
  both <- mapM (fun i => a <- pretty_const lp i ;; b <- pretty_const rp i ;; Ok ((i, a, b) : merge_entry)) common ;;
  rest <- (if rs <? ls then mapM (fun i => a <- pretty_const lp i ;; Ok ((i, a, None) : merge_entry)) (zrange index ls)
           else if ls <? rs then mapM (fun i => b <- pretty_const rp i ;; Ok ((i, None, b) : merge_entry)) (zrange index rs)
           else Ok []) ;;
  Ok (both ++ rest).

(** merge_code, classdiff.py:917-944: relative line -> left and right groups *)
Definition group := (Z * list insn)%type.
Definition merged := list (Z * (option group * option group)).
(** setting and looking up dict keys, classdiff.py:925-942 *)
Fixpoint zset {V} (d : list (Z * V)) (k : Z) (v : V) : list (Z * V) :=
  match d with
  | [] => [(k, v)]
  | (k', v') :: d' => if k =? k' then (k', v) :: d' else (k', v') :: zset d' k v
  end.
Fixpoint zget {V} (d : list (Z * V)) (k : Z) : option V :=
  match d with
  | [] => None
  | (k', v) :: d' => if k =? k' then Some v else zget d' k
  end.
(** code.iter_code_by_lines() if code else (), classdiff.py:925-926, 933-934 *)
Definition code_lines (c : option code) : res (list (Z * Z * list insn)) :=
  match c with
  | None => Ok []
  | Some k => t <- get_linenumbertable k ;; iter_code_by_lines t (k_code k)
  end.
(** the bodies of the two loops, classdiff.py:925-942 *)
Definition merge_left (d : merged) (g : Z * Z * list insn) : merged :=
  let '(a, rel, dis) := g in zset d rel (Some (a, dis), None).
Definition merge_right (d : merged) (g : Z * Z * list insn) : merged :=
  let '(a, rel, dis) := g in
  match zget d rel with
  | None => zset d rel (None, Some (a, dis))
  | Some (found, _) => zset d rel (found, Some (a, dis))
  end.
Definition merge_code (lc rc : option code) : res merged :=
  ll <- code_lines lc ;; rl <- code_lines rc ;;
  Ok (fold_left merge_right rl (fold_left merge_left ll [])).

End Classdiff.

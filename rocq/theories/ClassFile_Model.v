(** Model of the class file parser of /repo/javatools/__init__.py: attribute
    tables, members, classes, code attributes, class detection. *)
From Verif Require Import Base Pack_Model ConstPool_Model.

(** JavaAttributes, __init__.py:421-445: a dict from dereferenced names (any
    constant value) to buffers.  Keys are compared as Python dict keys;
    simplification: the identity shortcut for a NaN key is not modelled. *)
Definition attrs := list (pyval * bytes).

Fixpoint aset (d : attrs) (k : pyval) (v : bytes) : attrs :=
  match d with
  | [] => [(k, v)]
  | (k', v') :: d' => if py_eq k k' then (k', v) :: d' else (k', v') :: aset d' k v
  end.

(** self.attribs.get(name), __init__.py:483-488, 1049-1054, 1636-1641 *)
Fixpoint aget (d : attrs) (k : pyval) : option bytes :=
  match d with
  | [] => None
  | (k', v) :: d' => if py_eq k k' then Some v else aget d' k
  end.
Definition get_attribute (d : attrs) (name : str) : option bytes := aget d (PStr name).

(** JavaAttributes.unpack, __init__.py:433-445.  [self[cval(name)] = unpacker.read(size)]
    reads before it dereferences. *)
Fixpoint p_attr_loop (p : pool) (n : nat) (d : attrs) : prog attrs :=
  match n with
  | O => PRet d
  | S m =>
      ns <<- p_unpack2 cH cI ;;;
      buf <<- p_read (Z.to_nat (snd ns)) ;;;
      k <<- p_lift (deref_const p (fst ns)) ;;;
      p_attr_loop p m (aset d k buf)
  end.
Definition p_attrs (p : pool) : prog attrs :=
  n <<- p_unpack1 cH ;;; p_attr_loop p (Z.to_nat n) [].

(** JavaMemberInfo, __init__.py:1023-1038, fields set by unpack *)
Record member := mkmember {
  m_flags : Z; m_name_ref : Z; m_desc_ref : Z; m_attrs : attrs; m_is_method : bool }.

(** JavaMemberInfo.unpack, __init__.py:1096-1106 *)
Definition p_member (p : pool) (is_method : bool) : prog member :=
  abc <<- p_unpack3 cH cH cH ;;;
  d <<- p_attrs p ;;;
  PRet (mkmember (fst (fst abc)) (snd (fst abc)) (snd abc) d is_method).

(** JavaClassInfo, __init__.py:448-472 *)
Record classinfo := mkclass {
  c_version : Z * Z;           (* (major, minor) *)
  c_pool : pool;
  c_flags : Z; c_this_ref : Z; c_super_ref : Z;
  c_interfaces : list Z;
  c_fields : list member; c_methods : list member;
  c_attrs : attrs }.

(** JavaClassInfo.unpack after the magic, __init__.py:513-540 *)
Definition p_class_body : prog classinfo :=
  v <<- p_unpack2 cH cH ;;;
  pl <<- p_pool ;;;
  abc <<- p_unpack3 cH cH cH ;;;
  n <<- p_unpack1 cH ;;;
  ifs <<- p_unpack (repeat cH (Z.to_nat n)) ;;;
  fs <<- p_objects (p_member pl false) ;;;
  ms <<- p_objects (p_member pl true) ;;;
  d <<- p_attrs pl ;;;
  PRet (mkclass (snd v, fst v) pl (fst (fst abc)) (snd (fst abc)) (snd abc) ifs fs ms d).

(** JAVA_CLASS_MAGIC, __init__.py:74 *)
Definition JAVA_CLASS_MAGIC : list Z := [202; 254; 186; 190].

(** The optional magic argument of unpack_class / JavaClassInfo.unpack: absent,
    a tuple of integers, a bytes object or a str. *)
Inductive pymagic := MNone | MTuple (l : list Z) | MBytes (l : bytes) | MStr (l : str).

(** [magic = magic or up.unpack_struct(_BBBB)] then [magic != JAVA_CLASS_MAGIC]
    (equality with a tuple holds for tuples only), __init__.py:2449-2451.  The
    second test in JavaClassInfo.unpack (501-510) sees the same tuple again. *)
Definition p_unpack_class (magic : pymagic) : prog classinfo :=
  m <<- match magic with
        | MTuple (_ :: _) | MBytes (_ :: _) | MStr (_ :: _) => PRet magic
        | _ => l <<- p_unpack [cB; cB; cB; cB] ;;; PRet (MTuple l)
        end ;;;
  match m with
  | MTuple l => if seqb l JAVA_CLASS_MAGIC then p_class_body else PRaise ClassUnpackException
  | _ => PRaise ClassUnpackException
  end.

(** unpack_class(data, magic), __init__.py:2432-2456, on bytes and on a stream *)
Definition unpack_class (data : bytes) (magic : pymagic) : res classinfo :=
  fst (run_buf (p_unpack_class magic) (open_buf data)).
Definition unpack_class_stream (data : bytes) (magic : pymagic) : res classinfo :=
  fst (run_str (p_unpack_class magic) (open_stream data)).

(** is_class, __init__.py:2401-2416 on bytes and on a stream *)
Definition is_class_of (r : res (list Z)) : res bool :=
  match r with
  | Ok m => Ok (seqb m JAVA_CLASS_MAGIC)
  | Err (UnpackException _ _) => Ok false
  | Err e => Err e
  end.
Definition is_class (data : bytes) : res bool :=
  is_class_of (fst (run_buf (p_unpack [cB; cB; cB; cB]) (open_buf data))).
Definition is_class_stream (data : bytes) : res bool :=
  is_class_of (fst (run_str (p_unpack [cB; cB; cB; cB]) (open_stream data))).
(** is_class_file, __init__.py:2419-2429: on the content of the file *)
Definition is_class_file (content : bytes) : bool :=
  seqb (firstn 4 content) JAVA_CLASS_MAGIC.

(** ** Attribute accessors *)

(** [with unpack(buff) as up: ...] on an attribute buffer (a bytes object). *)
Definition parse_buf {A} (p : prog A) (buff : bytes) : res A := fst (run_buf p (open_buf buff)).

(** is_deprecated of a class (688-695) or member (1256-1263): bool of the buffer;
    bool(None) and bool(b"") are False *)
Definition truthy_buf (b : option bytes) : bool :=
  match b with Some (_ :: _) => true | _ => false end.
Definition is_deprecated (d : attrs) : bool := truthy_buf (get_attribute d (lit "Deprecated")).

(** Flag tests [self.access_flags & FLAG], __init__.py:621-677, 1125-1253; the
    result is used for its truth value only. *)
Definition flag (m : Z) (f : Z) : bool := negb (Z.land f m =? 0).
Definition ACC_PUBLIC := 1.        Definition ACC_PRIVATE := 2.     Definition ACC_PROTECTED := 4.
Definition ACC_STATIC := 8.        Definition ACC_FINAL := 16.      Definition ACC_SYNCHRONIZED := 32.
Definition ACC_SUPER := 32.        Definition ACC_VOLATILE := 64.   Definition ACC_BRIDGE := 64.
Definition ACC_TRANSIENT := 128.   Definition ACC_VARARGS := 128.   Definition ACC_NATIVE := 256.
Definition ACC_INTERFACE := 512.   Definition ACC_ABSTRACT := 1024. Definition ACC_STRICT := 2048.
Definition ACC_SYNTHETIC := 4096.  Definition ACC_ANNOTATION := 8192.
Definition ACC_ENUM := 16384.      Definition ACC_MODULE := 32768.  (* __init__.py:103-121 *)

(** JavaMemberInfo.is_synthetic, __init__.py:1229-1237 (truth value) *)
Definition is_synthetic (m : member) : bool :=
  flag ACC_SYNTHETIC (m_flags m) || truthy_buf (get_attribute (m_attrs m) (lit "Synthetic")).

(** Attributes holding one u2 index: get_sourcefile (757-772), get_signature
    (801-815, 1057-1070), get_constantvalue (1407-1422), get_annotationdefault
    (1341-1357) *)
Definition u2_attribute (d : attrs) (name : str) : res (option Z) :=
  match get_attribute d name with
  | None => Ok None
  | Some buff => i <- parse_buf (p_unpack1 cH) buff ;; Ok (Some i)
  end.
Definition u2_attribute_deref (p : pool) (d : attrs) (name : str) : res (option pyval) :=
  o <- u2_attribute d name ;;
  match o with None => Ok None | Some i => v <- deref_const p i ;; Ok (Some v) end.
Definition get_sourcefile (c : classinfo) := u2_attribute_deref (c_pool c) (c_attrs c) (lit "SourceFile").
Definition get_signature (p : pool) (d : attrs) := u2_attribute_deref p d (lit "Signature").
Definition get_constantvalue (m : member) := u2_attribute (m_attrs m) (lit "ConstantValue").
(** deref_constantvalue, __init__.py:1425-1434 *)
Definition deref_constantvalue (p : pool) (m : member) :=
  u2_attribute_deref p (m_attrs m) (lit "ConstantValue").
(** get_annotationdefault, __init__.py:1341-1357 *)
Definition get_annotationdefault (m : member) := u2_attribute (m_attrs m) (lit "AnnotationDefault").
Definition deref_annotationdefault (p : pool) (m : member) :=
  u2_attribute_deref p (m_attrs m) (lit "AnnotationDefault").

(** get_exceptions, __init__.py:1390-1404.  The generator dereferences each
    entry as it is read. *)
Fixpoint p_deref_each (p : pool) (n : nat) : prog (list pyval) :=
  match n with
  | O => PRet []
  | S m => i <<- p_unpack1 cH ;;; v <<- p_lift (deref_const p i) ;;;
           l <<- p_deref_each p m ;;; PRet (v :: l)
  end.
Definition get_exceptions (p : pool) (m : member) : res (list pyval) :=
  match get_attribute (m_attrs m) (lit "Exceptions") with
  | None => Ok []
  | Some buff => parse_buf (n <<- p_unpack1 cH ;;; p_deref_each p (Z.to_nat n)) buff
  end.

(** JavaExceptionInfo, __init__.py:1792-1818 *)
Record exinfo := mkex { ex_start : Z; ex_end : Z; ex_handler : Z; ex_type_ref : Z }.
Definition p_exinfo : prog exinfo :=
  abcd <<- p_unpack4 cH cH cH cH ;;;
  let '(a, b, c, d) := abcd in PRet (mkex a b c d).

(** JavaInnerClassInfo, __init__.py:1872-1898 *)
Record innerinfo := mkinner { in_inner : Z; in_outer : Z; in_name : Z; in_flags : Z }.
Definition p_innerinfo : prog innerinfo :=
  abcd <<- p_unpack4 cH cH cH cH ;;;
  let '(a, b, c, d) := abcd in PRet (mkinner a b c d).
(** get_innerclasses, __init__.py:785-798 *)
Definition get_innerclasses (c : classinfo) : res (list innerinfo) :=
  match get_attribute (c_attrs c) (lit "InnerClasses") with
  | None => Ok []
  | Some buff => parse_buf (p_objects p_innerinfo) buff
  end.

(** JavaCodeInfo, __init__.py:1606-1625 *)
Record code := mkcode {
  k_max_stack : Z; k_max_locals : Z; k_code : bytes; k_exceptions : list exinfo; k_attrs : attrs }.

(** JavaCodeInfo.unpack, __init__.py:1644-1659 *)
Definition p_code (p : pool) : prog code :=
  abc <<- p_unpack3 cH cH cI ;;;
  bc <<- p_read (Z.to_nat (snd abc)) ;;;
  exs <<- p_objects p_exinfo ;;;
  d <<- p_attrs p ;;;
  PRet (mkcode (fst (fst abc)) (snd (fst abc)) bc exs d).

(** JavaMemberInfo.get_code, __init__.py:1371-1387 *)
Definition get_code (p : pool) (m : member) : res (option code) :=
  match get_attribute (m_attrs m) (lit "Code") with
  | None => Ok None
  | Some buff => k <- parse_buf (p_code p) buff ;; Ok (Some k)
  end.

(** get_linenumbertable, __init__.py:1662-1678 *)
Definition p_pair_array : prog (list (Z * Z)) := p_objects (p_unpack2 cH cH).
Definition get_linenumbertable (k : code) : res (list (Z * Z)) :=
  match get_attribute (k_attrs k) (lit "LineNumberTable") with
  | None => Ok []
  | Some buff => parse_buf p_pair_array buff
  end.

(** get_localvariabletable, get_localvariabletypetable, __init__.py:1696-1725 *)
Definition p_var_array : prog (list (list Z)) := p_struct_array [cH; cH; cH; cH; cH].
Definition var_table (k : code) (name : str) : res (list (list Z)) :=
  match get_attribute (k_attrs k) name with
  | None => Ok []
  | Some buff => parse_buf p_var_array buff
  end.
Definition get_localvariabletable (k : code) := var_table k (lit "LocalVariableTable").
Definition get_localvariabletypetable (k : code) := var_table k (lit "LocalVariableTypeTable").

(** get_this, __init__.py:680-685 *)
Definition get_this (c : classinfo) : res pyval := deref_const (c_pool c) (c_this_ref c).
(** get_super, __init__.py:698-703 *)
Definition get_super (c : classinfo) : res pyval :=
  if c_super_ref c =? 0 then Ok (PStr []) else deref_const (c_pool c) (c_super_ref c).
(** get_interfaces, __init__.py:706-711 *)
Definition get_interfaces (c : classinfo) : res (list pyval) :=
  mapM (deref_const (c_pool c)) (c_interfaces c).
(** get_name, get_descriptor, __init__.py:1109-1122 *)
Definition m_name (p : pool) (m : member) : res pyval := deref_const p (m_name_ref m).
Definition m_descriptor (p : pool) (m : member) : res pyval := deref_const p (m_desc_ref m).

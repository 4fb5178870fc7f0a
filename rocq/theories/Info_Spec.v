(** Specification of what a class, a jar and a distribution provide and require,
    in terms of class files (ClassFile_Spec) and of Java types (Descr_Spec),
    independently of the model. *)
From Verif Require Import Base ConstPool_Spec ClassFile_Spec Descr_Spec.
From Verif Require Zip_Model Zip_Spec Dir_Spec.

(** ** Names as a user reads them *)
Definition dotted (n : str) : str := map (fun c => if c =? 47 then 46 else c) n.
(** The type of a field, or the types of a method *)
Inductive jsig := SField (t : jtype) | SMethod (args : list jtype) (ret : option jtype).
Definition sig_desc (s : jsig) : str :=
  match s with SField t => desc t | SMethod a r => method_desc a r end.
Definition sig_ok (s : jsig) : bool :=
  match s with
  | SField t => jtype_ok t
  | SMethod a r => forallb jtype_ok a && forallb no_paren a && ret_ok r
  end.
Definition sig_name (s : jsig) : str :=
  match s with
  | SField t => lit ":" ++ type_name t
  | SMethod a r => lit "(" ++ concat_with (lit ",") (map type_name a) ++ lit "):" ++ ret_name r
  end.
(** "pkg.Class.name:type" and "pkg.Class.name(type,type):type" *)
Definition member_symbol (cls name : str) (s : jsig) : str := dotted cls ++ lit "." ++ name ++ sig_name s.

Section Class.
Variable c : jclassfile.
Let l := jc_pool c.

(** The class declares a member with this name and type *)
Inductive declares : jmember -> str -> jsig -> Prop :=
| dc_field m n t : In m (jc_fields c) -> jutf8_at l (jm_name m) = Some n ->
    jutf8_at l (jm_desc m) = Some (desc t) -> jtype_ok t = true -> declares m n (SField t)
| dc_method m n a r : In m (jc_methods c) -> jutf8_at l (jm_name m) = Some n ->
    jutf8_at l (jm_desc m) = Some (method_desc a r) -> sig_ok (SMethod a r) = true ->
    declares m n (SMethod a r).

(** The symbols the class provides: itself and its members; only the public ones
    if [private] is false *)
Inductive provided (private : bool) : str -> Prop :=
| pv_class n : jclass_at l (jc_this c) = Some n -> provided private (dotted n)
| pv_member n m nm s : jclass_at l (jc_this c) = Some n -> declares m nm s ->
    (private = true \/ Z.testbit (jm_flags m) 0 = true) -> provided private (member_symbol n nm s).

(** A member of class [cls] is named by the constant pool *)
Definition refers_to (k : jconst) (cls name : str) (s : jsig) : Prop :=
  exists a b, (match s with SField _ => k = JFieldref a b | SMethod _ _ => k = JMethodref a b \/ k = JInterfaceMethodref a b end) /\
    jclass_at l a = Some cls /\ jnt_at l b = Some (name, sig_desc s) /\ sig_ok s = true.

(** The symbols the constant pool names: classes, the classes whose arrays it
    names, fields and methods of classes; without [deep] not the classes of which it
    names only arrays of arrays *)
Inductive mentioned (deep : bool) : str -> Prop :=
| mn_class i n : jclass_at l i = Some n -> class_name n = true -> mentioned deep (dotted n)
| mn_array i t n : jclass_at l i = Some (desc (TArr t)) -> jtype_ok t = true -> elem t = TObj n -> deep = true \/ t = TObj n -> mentioned deep (dotted n)
| mn_member k cls nm s : In k l -> refers_to k cls nm s -> class_name cls = true -> mentioned deep (member_symbol cls nm s).

(** Well-formed class files (JVMS 4.3, 4.4.1, 4.4.2, 4.6) *)
Definition class_ref_ok (n : str) : Prop := class_name n = true \/ exists t, n = desc (TArr t) /\ jtype_ok t = true.
Record api_wf : Prop := {
  aw_pool : jpool_wf l = true;
  aw_this : exists n, jclass_at l (jc_this c) = Some n /\ class_name n = true;
  aw_fields : forall m, In m (jc_fields c) -> exists n t, declares m n (SField t);
  aw_methods : forall m, In m (jc_methods c) -> exists n a r, declares m n (SMethod a r);
  aw_classes : forall i n, jclass_at l i = Some n -> class_ref_ok n;
  aw_fieldrefs : forall a b, In (JFieldref a b) l -> exists cls n t, refers_to (JFieldref a b) cls n (SField t);
  aw_methodrefs : forall k a b, (k = JMethodref a b \/ k = JInterfaceMethodref a b) -> In k l ->
    exists cls n x r, refers_to k cls n (SMethod x r) }.
(** A method of this name with these argument descriptors, a bridge or not *)
Definition method_named (jm : jmember) (name : str) (args : list str) (bridge : bool) : Prop :=
  exists a ret, declares jm name (SMethod a ret) /\ map desc a = args /\ Z.testbit (jm_flags jm) 6 = bridge.
End Class.
(** No array of arrays of objects is named, if [deep] *)
Definition flat_arrays (deep : bool) (c : jclassfile) : Prop :=
  deep = true -> forall i t n, jclass_at (jc_pool c) i = Some (desc (TArr (TArr t))) -> elem t = TObj n -> False.

(** What a class requires: what it names and does not itself provide *)
Definition required (deep : bool) (c : jclassfile) (s : str) : Prop := mentioned c deep s /\ ~ provided c true s.

(** [first_of P l i]: the first element of [l] that satisfies [P] has position [i] *)
Definition first_of {A} (P : A -> Prop) (l : list A) (o : option nat) : Prop :=
  match o with
  | Some i => (exists x, nth_error l i = Some x /\ P x) /\ forall j x, (j < i)%nat -> nth_error l j = Some x -> ~ P x
  | None => forall x, In x l -> ~ P x
  end.

(** ** Jars *)

(** [picks P l r]: [r] are the elements of [l] that satisfy [P], in order *)
Inductive picks {A} (P : A -> Prop) : list A -> list A -> Prop :=
| picks_nil : picks P [] []
| picks_yes x l r : P x -> picks P l r -> picks P (x :: l) (x :: r)
| picks_no x l r : ~ P x -> picks P l r -> picks P (x :: l) r.

(** The classes of a jar, in the order of its entries: entry name and content *)
Definition jclasses := list (str * jclassfile).
Definition jar_provides_spec (cs : jclasses) (s : str) (by_ : list str) : Prop :=
  exists r, picks (fun ec => provided (snd ec) false s) cs r /\ r <> [] /\ by_ = map fst r.
Definition jar_requires_spec (deep : bool) (cs : jclasses) (s : str) (by_ : list str) : Prop :=
  (exists r, picks (fun ec => required deep (snd ec) s) cs r /\ r <> [] /\ by_ = map fst r) /\
  (forall e c, In (e, c) cs -> ~ provided c true s).

(** ** Distributions *)

(** The jars of a distribution and the class files that are in no jar *)
Record jdist := mkjdist { jd_jars : list (str * jclasses); jd_loose : jclasses }.

(** Where a symbol is required or provided *)
Inductive origin := InJar (entry : str) (by_ : list str) | Loose (entry : str).
(** The jars concerned, in order, each with its classes concerned *)
Inductive origins (P : jclasses -> list str -> Prop) : list (str * jclasses) -> list origin -> Prop :=
| or_nil : origins P [] []
| or_yes e cs by_ l r : P cs by_ -> origins P l r -> origins P ((e, cs) :: l) (InJar e by_ :: r)
| or_no e cs l r : (forall by_, ~ P cs by_) -> origins P l r -> origins P ((e, cs) :: l) r.
Definition all_origins (P : jclasses -> list str -> Prop) (Q : jclassfile -> Prop) (jd : jdist) (o : list origin) : Prop :=
  exists r1 r2, origins P (jd_jars jd) r1 /\ picks (fun ec => Q (snd ec)) (jd_loose jd) r2 /\
    o = r1 ++ map (fun ec => Loose (fst ec)) r2 /\ o <> [].
Definition dist_provides_spec (jd : jdist) (s : str) (o : list origin) : Prop :=
  all_origins (fun cs by_ => jar_provides_spec cs s by_) (fun c => provided c false s) jd o.
Definition dist_requires_spec (deep : bool) (jd : jdist) (s : str) (o : list origin) : Prop :=
  all_origins (fun cs by_ => jar_requires_spec deep cs s by_) (fun c => required deep c s) jd o /\
  (forall e cs e' c, In (e, cs) (jd_jars jd) -> In (e', c) cs -> ~ provided c false s) /\
  (forall e c, In (e, c) (jd_loose jd) -> ~ provided c true s).

(** ** Where the classes are *)
Definition class_entry (n : str) : Prop := exists p, n = p ++ lit ".class".
Definition jar_entry (n : str) : Prop :=
  exists p e, In e [lit ".ear"; lit ".jar"; lit ".rar"; lit ".sar"; lit ".war"] /\ n = p ++ e.
Definition class_ok (c : jclassfile) : Prop := jclassfile_ok c = true /\ api_wf c.
(** The class entries of an open zip file are the classes [cs], in this order. *)
Record jar_holds (a : Zip_Model.archive) (cs : jclasses) : Prop := {
  jh_kind : Zip_Model.a_kind a = Zip_Model.Zip;
  jh_open : Zip_Model.a_open a = true;
  jh_names : picks class_entry (Zip_Spec.names a) (map fst cs);
  jh_data : forall e c, In (e, c) cs -> Zip_Spec.content a e (enc_class c) /\ class_ok c }.
(** The jars and the class files of a directory tree are those of [jd]; the order
    in which a directory lists its files is not determined. *)
Record dist_holds (unzip : bytes -> res Zip_Model.archive) (t : Zip_Model.node) (jd : jdist) : Prop := {
  dh_jar_names : NoDup (map fst (jd_jars jd));
  dh_loose_names : NoDup (map fst (jd_loose jd));
  dh_jars_all : forall p, Dir_Spec.file_at t p -> jar_entry (Zip_Model.slashes p) -> In (Zip_Model.slashes p) (map fst (jd_jars jd));
  dh_loose_all : forall p, Dir_Spec.file_at t p -> class_entry (Zip_Model.slashes p) -> In (Zip_Model.slashes p) (map fst (jd_loose jd));
  dh_jars : forall e cs, In (e, cs) (jd_jars jd) -> jar_entry e /\
    exists p d a, e = Zip_Model.slashes p /\ Dir_Spec.data_at t p d /\ unzip d = Ok a /\ jar_holds a cs;
  dh_loose : forall e c, In (e, c) (jd_loose jd) -> class_entry e /\
    exists p, e = Zip_Model.slashes p /\ Dir_Spec.data_at t p (enc_class c) /\ class_ok c }.
(** All classes, in jars and outside *)
Definition dist_class (jd : jdist) (c : jclassfile) : Prop :=
  (exists e cs e', In (e, cs) (jd_jars jd) /\ In (e', c) cs) \/ exists e, In (e, c) (jd_loose jd).

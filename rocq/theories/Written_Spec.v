(** Specification of the classes of which a JSON document can always be written:
    conditions on the class file alone. *)
From Verif Require Import Base Pack_Model ConstPool_Model ConstPool_Spec ClassFile_Model Descr_Spec Opcodes_Model Opcodes_Spec Classdiff_Spec Classdiff_Model Info_Spec Anno_Model Anno_Spec Text_Spec Zip_Spec Jardiff_Spec.
From Verif Require Zip_Model.

(** Constants that an instruction names and that can be written: classes, strings,
    numbers, fields, methods and call sites; not method handles and method types. *)
Inductive writable_const (l : list jconst) (i : Z) : Prop :=
| wc_class n : jclass_at l i = Some n -> writable_const l i
| wc_string j s : jat l i = Some (JString j) -> jutf8_at l j = Some s -> writable_const l i
| wc_int z : jat l i = Some (JInteger z) -> writable_const l i
| wc_long z : jat l i = Some (JLong z) -> writable_const l i
| wc_float b : jat l i = Some (JFloat b) -> writable_const l i
| wc_double b : jat l i = Some (JDouble b) -> writable_const l i
| wc_field a b cls n t : jat l i = Some (JFieldref a b) -> jclass_at l a = Some cls -> jnt_at l b = Some (n, desc t) -> jtype_ok t = true -> writable_const l i
| wc_method k a b cls n args ret : jat l i = Some k -> k = JMethodref a b \/ k = JInterfaceMethodref a b -> jclass_at l a = Some cls ->
    jnt_at l b = Some (n, sig_desc (SMethod args ret)) -> sig_ok (SMethod args ret) = true -> writable_const l i
| wc_call a b nt : jat l i = Some (JInvokeDynamic a b) -> jnt_at l b = Some nt -> writable_const l i.

(** The code of every method can be disassembled, its instructions name such
    constants, and the pool has no dynamic constant. *)
Definition writable_code (l : list jconst) (bc : bytes) : Prop :=
  exists is, disassemble bc = (is, None) /\
    forall i a rest, In i is -> tool_resolved (i_code i) = true -> i_args i = AInts (a :: rest) -> writable_const l a.
Definition writable (c : classinfo) : Prop :=
  exists l, pool_shows l (c_pool c) /\ (forall a b, ~ In (JDynamic a b) l) /\
    forall m k, In m (c_methods c) -> get_code (c_pool c) m = Ok (Some k) -> writable_code l (k_code k).

(** Every constant that the annotations of the class name is in the pool, and no
    annotation gives an element twice. *)
Definition resolved_annos (p : pool) (d : attrs) (attr : str) : Prop :=
  forall l, annotations_of p d attr = Ok l -> Forall (fun a => exists v, means p (AAnno (fst a) (snd a)) v) l.
Definition resolved (c : classinfo) : Prop :=
  forall d, d = c_attrs c \/ (exists m, In m (c_fields c ++ c_methods c) /\ d = m_attrs m) ->
    resolved_annos (c_pool c) d A_vis /\ resolved_annos (c_pool c) d A_invis.

(** Entries of two jars that jardiff can compare and describe *)
Section Jars.
Variable fmt : pyval -> str.
Variable up : Z -> str.
Definition fine_class (c : classinfo) : Prop := (exists D, class_is fmt c D) /\ writable c /\ resolved c.
Inductive fine_entry (n : str) (d d' : bytes) : Prop :=
| fe_manifest l r : the_manifest n \/ sig_file up n -> parses d l -> parses d' r -> fine_entry n d d'
| fe_class l r : ~ the_manifest n -> ~ signature up n -> class_file n -> unpack_class d MNone = Ok l -> unpack_class d' MNone = Ok r ->
    fine_class l -> fine_class r -> fine_entry n d d'
| fe_block : ~ the_manifest n -> ~ sig_file up n -> sig_block up n -> fine_entry n d d'
| fe_data : ~ the_manifest n -> ~ signature up n -> ~ class_file n -> fine_entry n d d'.
(** All entries of both jars; directories have no content to compare *)
Definition fine_jars (l r : Zip_Model.archive) : Prop := forall n d d', ~ directory n -> content l n d -> content r n d' -> fine_entry n d d'.
End Jars.

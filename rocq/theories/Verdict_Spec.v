(** Vocabulary for comparisons with the sides exchanged, and for chains of comparisons. *)
From Verif Require Import Base Pack_Model ConstPool_Model ClassFile_Model Change_Model Classdiff_Spec Jardiff_Spec Zip_Spec Dir_Spec Distdiff_Spec.
From Verif Require Import Zip_Model.

(** What "up" is for one order of the sides is "down" for the other. *)
Definition swapped (o : options) : options :=
  mkopts (show_unchanged o) (show_ignored o) (ignore_version_down o) (ignore_version_up o) (ignore_platform_down o) (ignore_platform_up o)
    (ignore_absolute_lines o) (ignore_relative_lines o) (ignore_deprecated o) (ignore_added o) (ignore_pool o) (ignore_lines o)
    (ignore_jar_entry o) (ignore_jar_signature o) (ignore_manifest o) (ignore_manifest_subsections o) (ignore_manifest_key o)
    (ignore_filenames o) (ignore_trailing_whitespace o).

Section Proper.
Variable fmt : pyval -> str.
(** No two fields of one name, no two methods of one name and argument types *)
Definition proper_class (c : classinfo) : Prop := distinct_ids fmt (c_pool c) (c_fields c) /\ distinct_ids fmt (c_pool c) (c_methods c).
(** A zip file, open, with the sizes and checksums right, and its classes proper *)
Definition proper_jar (a : archive) : Prop :=
  a_kind a = Zip /\ a_open a = true /\ Forall sound (a_entries a) /\
  forall n d c, class_file n -> content a n d -> unpack_class d MNone = Ok c -> proper_class c.
(** A tree the comparison of directories can handle, its classes and jars proper *)
Definition proper_tree (unzip : bytes -> res archive) (t : node) : Prop :=
  plain t /\ names_ok t /\
  forall p d, data_at t p d ->
    (is_kind (name_of p) KClass -> forall c, unpack_class d MNone = Ok c -> proper_class c) /\
    (is_kind (name_of p) KJar -> forall a, unzip d = Ok a -> proper_jar a).
End Proper.

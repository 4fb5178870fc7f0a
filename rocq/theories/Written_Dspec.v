(** Specification of the files that distdiff can compare and describe: conditions on
    the files alone. *)
From Verif Require Import Base Pack_Model ConstPool_Model ClassFile_Model Change_Model Jardiff_Model Jardiff_Spec Zip_Spec Dir_Spec Distdiff_Spec Written_Spec.
From Verif Require Zip_Model Jtext_Spec.

Section Dists.
Variable fmt : pyval -> str.
Variable text : bytes -> res str.
Variable up : Z -> str.
Variable unzip : bytes -> jar.
Variable o : options.

(** A jar of regular files that can be read *)
Definition whole_jar (a : Zip_Model.archive) : Prop :=
  Zip_Model.a_kind a = Zip_Model.Zip /\ Zip_Model.a_open a = true /\ Forall sound (Zip_Model.a_entries a).
(** The file [n] with the different contents [d] and [d'] *)
Inductive fine_file (n : str) (d d' : bytes) : Prop :=
| ff_jar l r : is_kind n KJar -> unzip d = Ok l -> unzip d' = Ok r -> whole_jar l -> whole_jar r -> fine_jars fmt up l r ->
    (show_unchanged o = true -> Jtext_Spec.some_entry l r) -> fine_file n d d'
| ff_class l r : is_kind n KClass -> unpack_class d MNone = Ok l -> unpack_class d' MNone = Ok r -> fine_class fmt l -> fine_class fmt r -> fine_file n d d'
| ff_text l r : is_kind n KText -> text d = Ok l -> text d' = Ok r -> fine_file n d d'
| ff_manifest l r : is_kind n KManifest -> parses d l -> parses d' r -> fine_file n d d'
| ff_data : is_kind n KData -> fine_file n d d'.
End Dists.

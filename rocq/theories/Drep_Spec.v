(** Specification of the reports of distdiff --report: which reports are due, and
    in which directory. *)
From Verif Require Import Base Pack_Model ConstPool_Model ClassFile_Model Manifest_Model Change_Model Classdiff_Model Jardiff_Model Distdiff_Model
  Distdiff_Spec Report_Model Report_Spec Report_Written.
From Verif Require Zip_Model Dir_Spec Zip_Spec.
Import Dir_Spec (data_at).

(** What a report is about: the distributions, a file in both, an entry of a jar
    in both. *)
Inductive subject := Whole | OfFile (p : list str) | OfEntry (p : list str) (n : str).

(** A readable jar. *)
Definition readable_jar (a : Zip_Model.archive) : Prop :=
  Zip_Model.a_kind a = Zip_Model.Zip /\ Zip_Model.a_open a = true /\ Forall Zip_Spec.sound (Zip_Model.a_entries a).

Section Due.
Variable fmt : pyval -> str.
Variable reprs : str -> str.
Variable ffmt : pyval -> str.
Variable text : bytes -> res str.
Variable order : list str -> list str.
Variable up : Z -> str.
Variable unzip : bytes -> jar.
Variable o : options.
Variable shallow : bool.
Variables l r : Zip_Model.node.
(** The directory for the reports *)
Variable D : list str.

(** A file of the kind [k] is in both and differs, and more than its presence is
    asked for. *)
Definition changed_file (k : kind) (p : list str) (d d' : bytes) : Prop :=
  shallow = false /\ data_at l p d /\ data_at r p d' /\ d <> d' /\ is_kind (name_of p) k.
(** The jars in a tree are readable if they can be opened at all. *)
Definition readable_jars (n : Zip_Model.node) : Prop :=
  forall p d a, data_at n p d -> is_kind (name_of p) KJar -> unzip d = Ok a -> readable_jar a.

(** A report is due on the subject: its directory, its name, and the outcome of
    the comparison that it presents. *)
Inductive due : subject -> list str -> str -> change -> Prop :=
| due_whole ks : sequential_check fmt reprs ffmt text order up unzip l r o shallow = Ok ks ->
    due Whole D (lit "DistReport") (dist_report fmt reprs ffmt text order up unzip l r shallow ks)
| due_class p d d' D' a b cc : changed_file KClass p d d' -> leads D (name_of p) D' ->
    unpack_class d MNone = Ok a -> unpack_class d' MNone = Ok b -> check (class_change fmt reprs ffmt a b) = Ok cc ->
    due (OfFile p) D' (lit "JavaClassReport") (named "JavaClassReport" cc)
| due_jar p d d' D' a b j : changed_file KJar p d d' -> leads D (name_of p) D' ->
    unzip d = Ok a -> unzip d' = Ok b -> jar_report_check fmt reprs ffmt text order up o (Ok a) (Ok b) = Ok j ->
    due (OfFile p) D' (lit "JarReport") j
| due_entry p d d' D' a b n D'' c : changed_file KJar p d d' -> leads D (name_of p) D' ->
    unzip d = Ok a -> unzip d' = Ok b -> class_delta fmt reprs ffmt up a b n c -> leads D' n D'' ->
    due (OfEntry p n) D'' (lit "JavaClassReport") c.
End Due.

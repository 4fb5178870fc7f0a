(** Specification of the comparison of manifests and jars, independent of the
    change trees. *)
From Verif Require Export Glob_Spec.
From Verif Require Import Base Pack_Model ConstPool_Model ClassFile_Model Manifest_Model Sign_Spec
  Change_Model Classdiff_Model.
From Verif Require Zip_Model.
From Verif Require Import Zip_Spec.

(** ** Manifests *)

(** The sections differ in the attribute [k]: an item with this key is on one side only. *)
Definition differs_in (l r : section) (k : str) : Prop :=
  exists v, (In (k, v) l /\ ~ In (k, v) r) \/ (In (k, v) r /\ ~ In (k, v) l).
(** Keys to ignore were given, and the sections differ in such attributes only. *)
Definition only_ignored_keys (o : options) (l r : section) : Prop :=
  ignore_manifest_key o <> [] /\ forall k, differs_in l r k -> In k (ignore_manifest_key o).

(** What the main sections and the sub-sections may differ in. *)
Definition main_ok (o : options) (l r : section) : Prop := l = r \/ only_ignored_keys o l r.
Definition subs_ok (o : options) (l r : dict section) : Prop :=
  forall n, match dget l n, dget r n with
    | Some a, Some b => a = b \/ ignore_manifest_subsections o = true \/ only_ignored_keys o a b
    | None, None => True
    | _, _ => ignore_manifest_subsections o = true
    end.
Definition manifest_ok (o : options) (l r : manifest) : Prop :=
  ignore_manifest o = true \/ (main_ok o (m_main l) (m_main r) /\ subs_ok o (m_subs l) (m_subs r)).
(** The same attributes in the same order, and the same sub-sections. *)
Definition manifest_same (l r : manifest) : Prop :=
  m_main l = m_main r /\ forall n, dget (m_subs l) n = dget (m_subs r) n.

(** ** Entries *)

(** Signature files and signature blocks, directly in META-INF. *)
Definition in_meta_inf (n x : str) : Prop := n = lit "META-INF/" ++ x /\ ~ In 47 x.
Definition sig_file (up : Z -> str) (n : str) : Prop :=
  (exists x, in_meta_inf n x) /\ exists y, uppercase up n = y ++ lit ".SF".
Definition sig_block (up : Z -> str) (n : str) : Prop :=
  exists x, in_meta_inf n x /\
    ((exists y, uppercase up x = y ++ lit ".RSA") \/ (exists y, uppercase up x = y ++ lit ".DSA") \/
     (exists y, uppercase up x = y ++ lit ".EC") \/ (exists y, uppercase up x = lit "SIG-" ++ y)).
Definition signature (up : Z -> str) (n : str) : Prop := sig_file up n \/ sig_block up n.
Definition the_manifest (n : str) : Prop := n = lit "META-INF/MANIFEST.MF".
Definition class_file (n : str) : Prop := exists p, n = p ++ lit ".class".
(** One of the patterns given with --ignore-jar-entry matches. *)
Definition matched (o : options) (n : str) : Prop := matched_by (ignore_jar_entry o) n.

Section Jars.
Variable fmt : pyval -> str.
Variable reprs : str -> str.
Variable ffmt : pyval -> str.
Variable up : Z -> str.
Variable o : options.

(** An entry on one side only may be ignored. *)
Definition one_sided_ok (n : str) : Prop :=
  (signature up n /\ ignore_jar_signature o = true) \/ (~ signature up n /\ matched o n).

(** The entry [n] with the contents [d] and [d'] can be compared. *)
Definition parses (d : bytes) (m : manifest) : Prop := man_parse (new_manifest None) d = Ok m.
Inductive comparable (n : str) (d d' : bytes) : Prop :=
| cmp_manifest l r : the_manifest n \/ sig_file up n -> parses d l -> parses d' r -> comparable n d d'
| cmp_class l r s : ~ the_manifest n -> ~ signature up n -> class_file n ->
    unpack_class d MNone = Ok l -> unpack_class d' MNone = Ok r -> classdiff fmt reprs ffmt o l r = Ok s -> comparable n d d'
| cmp_block : ~ the_manifest n -> ~ sig_file up n -> sig_block up n -> comparable n d d'
| cmp_data : ~ the_manifest n -> ~ signature up n -> ~ class_file n -> comparable n d d'.

(** The entry [n] with the different contents [d] and [d'] is not a reason to
    report a change. *)
Inductive acceptable (n : str) (d d' : bytes) : Prop :=
| acc_manifest l r : the_manifest n -> parses d l -> parses d' r -> matched o n \/ manifest_ok o l r -> acceptable n d d'
| acc_sigfile l r : ~ the_manifest n -> sig_file up n -> parses d l -> parses d' r ->
    ignore_jar_signature o = true \/ manifest_same l r -> acceptable n d d'
| acc_sigblock : ~ the_manifest n -> ~ sig_file up n -> sig_block up n -> ignore_jar_signature o = true -> acceptable n d d'
| acc_class l r s : ~ the_manifest n -> ~ signature up n -> class_file n ->
    unpack_class d MNone = Ok l -> unpack_class d' MNone = Ok r -> classdiff fmt reprs ffmt o l r = Ok s ->
    matched o n \/ s = 0 -> acceptable n d d'
| acc_data : ~ the_manifest n -> ~ signature up n -> ~ class_file n -> matched o n -> acceptable n d d'.

(** All differing entries; directories are not compared. *)
Definition on_differing (P : str -> bytes -> bytes -> Prop) (l r : Zip_Model.archive) : Prop :=
  forall n d d', ~ directory n -> content l n d -> content r n d' -> d <> d' -> P n d d'.

Definition jars_ok (l r : Zip_Model.archive) : Prop :=
  (forall n, In n (names l) -> ~ In n (names r) -> one_sided_ok n) /\
  (forall n, In n (names r) -> ~ In n (names l) -> one_sided_ok n) /\
  on_differing acceptable l r.
End Jars.

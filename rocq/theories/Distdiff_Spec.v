(** Specification of the comparison of distributions, independent of the change
    trees. *)
From Verif Require Export Glob_Spec.
From Verif Require Import Base Pack_Model ConstPool_Model ClassFile_Model Manifest_Model
  Change_Model Classdiff_Model Jardiff_Model Jardiff_Spec Zip_Model Dir_Spec.

(** File names as they occur in directories. *)
Definition name_ok (k : str) : Prop := k <> [] /\ k <> [46] /\ ~ In 47 k.
Definition names_ok (n : node) : Prop := forall p m, found n p m -> Forall name_ok p.

(** ** Kinds of files, by extension *)
Inductive kind := KJar | KClass | KText | KManifest | KData.
Definition extensions (k : kind) : list str :=
  match k with
  | KJar => [lit ".ear"; lit ".jar"; lit ".rar"; lit ".sar"; lit ".war"]
  | KClass => [lit ".class"]
  | KText => [lit ".bat"; lit ".cert"; lit ".cfg"; lit ".conf"; lit ".dtd"; lit ".html"; lit ".ini"; lit ".properties"; lit ".sh"; lit ".text"; lit ".txt"; lit ".xml"]
  | KManifest => [lit "/MANIFEST.MF"]
  | KData => []
  end.
Definition ends_in (n : str) (k : kind) : Prop := exists p e, In e (extensions k) /\ n = p ++ e.
Definition is_kind (n : str) (k : kind) : Prop :=
  match k with
  | KData => forall k', ~ ends_in n k'
  | _ => ends_in n k
  end.

(** ** Texts that differ in trailing white space only *)
(** [ls] are the lines of [t]: each ends with its only newline, but the last may
    have none. *)
Inductive lines_of : str -> list str -> Prop :=
| lines_none : lines_of [] []
| lines_last l : l <> [] -> ~ In 10 l -> lines_of l [l]
| lines_more l t ls : ~ In 10 l -> lines_of t ls -> lines_of (l ++ 10 :: t) ((l ++ [10]) :: ls).
Definition white (c : Z) : Prop :=
  9 <= c <= 13 \/ 28 <= c <= 32 \/ c = 133 \/ c = 160 \/ c = 5760 \/ 8192 <= c <= 8202 \/ In c [8232; 8233; 8239; 8287; 12288].
(** [u] is [s] without its trailing white space. *)
Definition stripped (s u : str) : Prop :=
  exists w, s = u ++ w /\ Forall white w /\ forall v c, u = v ++ [c] -> ~ white c.
Definition trailing_only (a b : str) : Prop :=
  exists ls rs, lines_of a ls /\ lines_of b rs /\
    forall i, exists u, stripped (nth i ls []) u /\ stripped (nth i rs []) u.

Section Dist.
Variable fmt : pyval -> str.
Variable reprs : str -> str.
Variable ffmt : pyval -> str.
Variable text : bytes -> res str.
Variable order : list str -> list str.
Variable up : Z -> str.
Variable unzip : bytes -> jar.
Variable o : options.

(** One of the patterns given with --ignore-filenames matches. *)
Definition fmatched (n : str) : Prop := matched_by (ignore_filenames o) n.

Notation jardiff := (jardiff fmt reprs ffmt text order up o).

(** The file [n] with the different contents [d] and [d'] can be compared. *)
Inductive file_comparable (n : str) (d d' : bytes) : Prop :=
| fcmp_jar s : is_kind n KJar -> jardiff (unzip d) (unzip d') = Ok s -> file_comparable n d d'
| fcmp_class a b s : is_kind n KClass -> unpack_class d MNone = Ok a -> unpack_class d' MNone = Ok b ->
    classdiff fmt reprs ffmt o a b = Ok s -> file_comparable n d d'
| fcmp_text a b : is_kind n KText -> text d = Ok a -> text d' = Ok b -> file_comparable n d d'
| fcmp_manifest a b : is_kind n KManifest -> parses d a -> parses d' b -> file_comparable n d d'
| fcmp_data : is_kind n KData -> file_comparable n d d'.

(** The file [n] with the different contents [d] and [d'] is not a reason to
    report a change. *)
Inductive file_acceptable (n : str) (d d' : bytes) : Prop :=
| facc_jar s : is_kind n KJar -> jardiff (unzip d) (unzip d') = Ok s -> fmatched n \/ s = 0 -> file_acceptable n d d'
| facc_class a b s : is_kind n KClass -> unpack_class d MNone = Ok a -> unpack_class d' MNone = Ok b ->
    classdiff fmt reprs ffmt o a b = Ok s -> fmatched n \/ s = 0 -> file_acceptable n d d'
| facc_text a b : is_kind n KText -> text d = Ok a -> text d' = Ok b ->
    a = b \/ fmatched n \/ (ignore_trailing_whitespace o = true /\ trailing_only a b) -> file_acceptable n d d'
| facc_manifest a b : is_kind n KManifest -> parses d a -> parses d' b -> fmatched n \/ manifest_ok o a b -> file_acceptable n d d'
| facc_data : is_kind n KData -> file_acceptable n d d'.

(** The name of a file in both directories, and of one on one side only. *)
Definition name_of (p : list str) : str := match p with [f] => [46; 47] ++ f | _ => slashes p end.

(** All common files, unless only their presence is checked (--shallow). *)
Definition on_common (shallow : bool) (P : str -> bytes -> bytes -> Prop) (l r : node) : Prop :=
  shallow = true \/
  forall p d d', data_at l p d -> data_at r p d' ->
    (d <> d' -> P (name_of p) d d') /\ (d = d' -> is_kind (name_of p) KText -> exists t, text d = Ok t).
Definition dists_ok (shallow : bool) (l r : node) : Prop :=
  (forall p, file_at l p -> ~ file_at r p -> fmatched (slashes p)) /\
  (forall p, file_at r p -> ~ file_at l p -> fmatched (slashes p)) /\
  on_common shallow file_acceptable l r.
End Dist.

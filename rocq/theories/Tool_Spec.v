(** What the command line tools for manifests and jars are for, independent of
    the model. *)
From Verif Require Import Base Manifest_Model Manifest_Spec Glob_Spec Zip_Model Dir_Spec Sign_Model Sign_Spec.
From Verif Require Tool_Model.
Import Tool_Model (create_args, a_digest, a_ignore).

(** ** Manifests of archives *)

(** [listed z pats f]: the archive has a file [f] that no pattern matches. *)
Definition listed (z : zip) (pats : list str) (f : str) : Prop :=
  In f (map fst z) /\ (forall x, f <> x ++ [47]) /\ ~ matched_by pats f.
(** The section of a file: its name and one digest for each algorithm asked for,
    nothing else. *)
Definition describes (hash : str -> bytes -> str) (z : zip) (asked : list str) (f : str) (s : section) : Prop :=
  exists b, holds z f b /\ NoDup (map fst s) /\
    forall k v, In (k, v) s <-> (k = lit "Name" /\ v = f) \/ exists A, In A asked /\ k = A ++ lit "-Digest" /\ v = hash A b.

(** The algorithms asked for by -d, and the patterns of -i. *)
Definition asked_for (a : create_args) (asked : list str) : Prop :=
  (a_digest a = None /\ asked = [lit "MD5"; lit "SHA1"]) \/ (asked <> [] /\ a_digest a = Some (concat_with [44] asked)).
Definition ignoring (a : create_args) (pats : list str) : Prop :=
  (a_ignore a = [] /\ pats = [lit "META-INF/*"]) \/ (exists l, a_ignore a = [l] /\ pats = lit "META-INF/*" :: l).

(** [same_files z z' x]: apart from [x], the same entries with the same contents. *)
Definition same_files (z z' : zip) (x : str) : Prop :=
  forall f, f <> x -> forall b, holds z f b <-> holds z' f b.

(** ** Paths *)

(** The name of a step down a directory tree. *)
Definition step (c : str) : Prop := c <> [] /\ ~ In 47 c /\ c <> lit "." /\ c <> lit "..".
(** [path_to p q]: the path p, absolute or not, leads down the steps q; empty
    parts and "." do not count, and it never goes up. *)
Definition path_to (p : str) (q : list str) : Prop :=
  exists parts, p = concat_with [47] parts /\ Forall (fun c => ~ In 47 c /\ c <> lit "..") parts /\
    picks (fun c => c <> [] /\ c <> lit ".") parts q.

(** ** Jars *)

(** A tree of regular files and directories, without links to directories, under
    proper names that differ from each other. *)
Inductive tree : node -> Prop :=
| tree_file l d m : tree (File l d m)
| tree_dir kids : NoDup (map fst kids) -> Forall (fun k => step (fst k) /\ tree (snd k)) kids -> tree (Dir false kids).

(** What belongs into a jar for the tree found at the steps q: the files with
    their contents, and an empty entry with a trailing slash for each directory. *)
Fixpoint contents (q : list str) (n : node) : zip :=
  match n with
  | File _ d _ => [(concat_with [47] q, d)]
  | Dir _ kids => (concat_with [47] q ++ [47], []) :: concat (map (fun k => contents (q ++ [fst k]) (snd k)) kids)
  | Other _ => []
  end.

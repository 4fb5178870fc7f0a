(** Specification of how the entries of jars and distributions are listed:
    heading of each entry and order of the entries. *)
From Verif Require Import Base Change_Model Jardiff_Spec Distdiff_Spec Zip_Spec Dir_Spec.
From Verif Require Import Zip_Model.

(** An entry is added, removed or common. *)
Definition heading (base : String.string) (e : event) (changed : bool) (n : str) : str :=
  lit base ++
  match e with
  | LEFT => lit " Removed: "
  | RIGHT => lit " Added: "
  | SAME | DIFF => if changed then lit " has changed: " else lit " is unchanged: "
  end ++ n.
(** The change [c] is listed for the entry [n], under this heading. *)
Definition listed (base : String.string) (e : event) (n : str) (c : change) : Prop :=
  k_entry (k_of c) = Some n /\ (k_removal (k_of c) = true <-> e = LEFT) /\ (k_addition (k_of c) = true <-> e = RIGHT) /\
  (e = LEFT \/ e = RIGHT -> is_change c = true) /\ get_description c = Ok (heading base e (is_change c) n).

(** ** Jars *)
Inductive jkind := JManifest | JSigFile | JSigBlock | JData | JClass.
Definition common (e : event) : Prop := e = SAME \/ e = DIFF.
(** A manifest on one side only counts as other file. *)
Definition manifests (e : event) (n : str) : Prop := the_manifest n /\ common e.
Definition jar_kind (up : Z -> str) (e : event) (n : str) (k : jkind) : Prop :=
  match k with
  | JManifest => manifests e n
  | JSigFile => ~ manifests e n /\ sig_file up n
  | JSigBlock => ~ manifests e n /\ sig_block up n /\ ~ sig_file up n
  | JClass => ~ manifests e n /\ class_file n /\ ~ signature up n
  | JData => ~ manifests e n /\ ~ class_file n /\ ~ signature up n
  end.
Definition jar_base (e : event) (k : jkind) : String.string :=
  match k with
  | JManifest => "Jar Manifest"
  | JSigFile => "Jar Signature File"
  | JSigBlock => "Jar Signature Block File"
  | JClass => "Java Class"
  | JData => match e with DIFF => "Jar Generic File" | _ => "Jar Content" end
  end.
(** The manifest, signature files, signature blocks, other files, classes; of each
    kind those added, those removed, the others, but of other files those with
    different content first. *)
Definition jar_position (e : event) (k : jkind) : nat :=
  match k, e with
  | JManifest, _ => 0
  | JSigFile, RIGHT => 1 | JSigFile, LEFT => 2 | JSigFile, _ => 3
  | JSigBlock, RIGHT => 4 | JSigBlock, LEFT => 5 | JSigBlock, _ => 6
  | JData, DIFF => 7 | JData, RIGHT => 8 | JData, LEFT => 9 | JData, SAME => 10
  | JClass, RIGHT => 11 | JClass, LEFT => 12 | JClass, _ => 13
  end.

(** ** Distributions *)
Definition dist_kind (shallow : bool) (e : event) (n : str) (k : kind) : Prop :=
  if shallow then k = KData else
  match e with
  | SAME | DIFF => is_kind n k
  | LEFT | RIGHT =>
      match k with
      | KJar | KClass => is_kind n k
      | KText | KManifest => False
      | KData => ~ ends_in n KJar /\ ~ ends_in n KClass
      end
  end.
Definition dist_base (k : kind) : String.string :=
  match k with
  | KJar => "Distributed JAR" | KClass => "Distributed Java Class" | KText => "Distributed Text"
  | KManifest => "Distributed Manifest" | KData => "Distributed Content"
  end.
Definition dist_position (e : event) (k : kind) : nat :=
  match k, e with
  | KClass, RIGHT => 0 | KClass, LEFT => 1 | KClass, _ => 2
  | KJar, RIGHT => 3 | KJar, LEFT => 4 | KJar, _ => 5
  | KText, _ => 6 | KManifest, _ => 7
  | KData, RIGHT => 8 | KData, LEFT => 9 | KData, _ => 10
  end.

(** Nothing comes before something with a smaller position. *)
Definition in_order {A} (pos : A -> nat -> Prop) (l : list A) : Prop :=
  forall i j a b p q, (i <= j)%nat -> nth_error l i = Some a -> nth_error l j = Some b -> pos a p -> pos b q -> (p <= q)%nat.

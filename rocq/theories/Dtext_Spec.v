(** Specification of the text report of distdiff: which lines it has, as a
    function of the two directories, without reference to change trees. *)
From Verif Require Import Base Pack_Model ConstPool_Model ClassFile_Model Manifest_Model Change_Model Classdiff_Model Jardiff_Model Jardiff_Spec Zip_Spec
  Dir_Spec Distdiff_Spec Text_Spec.
From Verif Require Zip_Model Jtext_Spec.
Import Zip_Model (node, event, LEFT, RIGHT, SAME, DIFF, slashes).

(** In the order in which they are reported *)
Inductive dkind := DClassAdded | DClassRemoved | DClass | DJarAdded | DJarRemoved | DJar | DText | DManifest | DAdded | DRemoved | DContent.
Definition dkinds : list dkind := [DClassAdded; DClassRemoved; DClass; DJarAdded; DJarRemoved; DJar; DText; DManifest; DAdded; DRemoved; DContent].
Definition dkind_label (k : dkind) : String.string :=
  match k with
  | DClassAdded => "Distributed Java Class Added" | DClassRemoved => "Distributed Java Class Removed" | DClass => "Distributed Java Class"
  | DJarAdded => "Distributed JAR Added" | DJarRemoved => "Distributed JAR Removed" | DJar => "Distributed JAR"
  | DText => "Distributed Text" | DManifest => "Distributed Manifest"
  | DAdded => "Distributed Content Added" | DRemoved => "Distributed Content Removed" | DContent => "Distributed Content"
  end.

Section Dist.
Variable fmt : pyval -> str.
Variable reprs : str -> str.
Variable text : bytes -> res str.
Variable up : Z -> str.
Variable unzip : bytes -> jar.
Variable o : options.
Variable shallow : bool.

(** [x] says on which of the sides the file is, and whether it has the same content;
    with --shallow all files are of no special kind *)
Definition is_dkind (x : event) (n : str) (k : dkind) : Prop :=
  let both := x = SAME \/ x = DIFF in
  let special j := shallow = false /\ ends_in n j in
  match k with
  | DClassAdded => x = RIGHT /\ special KClass
  | DClassRemoved => x = LEFT /\ special KClass
  | DClass => both /\ special KClass
  | DJarAdded => x = RIGHT /\ special KJar
  | DJarRemoved => x = LEFT /\ special KJar
  | DJar => both /\ special KJar
  | DText => both /\ special KText
  | DManifest => both /\ special KManifest
  | DAdded => x = RIGHT /\ ~ special KClass /\ ~ special KJar
  | DRemoved => x = LEFT /\ ~ special KClass /\ ~ special KJar
  | DContent => both /\ forall j, ~ special j
  end.

(** What is below a file with two different contents.  Texts may be the same though
    the contents differ (other line ends). *)
Inductive dinside (n : nat) : dkind -> bytes -> bytes -> list (standing * str) -> Prop :=
| dinside_class x y l r t : unpack_class x MNone = Ok l -> unpack_class y MNone = Ok r -> class_block fmt reprs o n l r t -> dinside n DClass x y [t]
| dinside_jar x y l r t : unzip x = Ok l -> unzip y = Ok r -> Jtext_Spec.jar_block fmt reprs up o n l r t -> dinside n DJar x y [t]
| dinside_manifest x y l r t : parses x l -> parses y r -> Jtext_Spec.manifest_block o n "Manifest" (ignore_manifest o = true) l r t -> dinside n DManifest x y [t]
| dinside_text x y l r : text x = Ok l -> text y = Ok r -> l <> r -> dinside n DText x y [written o n Told (turns "Generic Change" l r) [] []]
| dinside_same x y l : text x = Ok l -> text y = Ok l -> dinside n DText x y [].
(** Ignored by name, or for its trailing white space *)
Definition dhidden (k : dkind) (n : str) (x y : bytes) : Prop :=
  fmatched o n \/ (k = DText /\ ignore_trailing_whitespace o = true /\ exists l r, text x = Ok l /\ text y = Ok r /\ trailing_only l r).

(** A file: of one side only, of both with the same content, of both with different
    contents.  Different contents of no special kind are not reported. *)
Inductive file_block (n : nat) (l r : node) (x : event) (p : list str) : standing * str -> Prop :=
| file_one k t : x = LEFT \/ x = RIGHT -> is_dkind x (slashes p) k ->
    entry o n (mksays (lit (dkind_label k) ++ lit ": " ++ slashes p) [] False (fmatched o (slashes p))) t -> file_block n l r x p t
| file_same k : x = SAME \/ (x = DIFF /\ k = DContent) -> is_dkind x (name_of p) k ->
    file_block n l r x p (written o n Same [] (lit (dkind_label k) ++ lit " is unchanged: " ++ name_of p) [])
| file_both k a b ps t : x = DIFF -> is_dkind x (name_of p) k -> data_at l p a -> data_at r p b -> dinside (S n) k a b ps ->
    Jtext_Spec.over o n (lit (dkind_label k) ++ lit " has changed: " ++ name_of p) (lit (dkind_label k) ++ lit " is unchanged: " ++ name_of p) (dhidden k (name_of p) a b) False ps t ->
    file_block n l r x p t.

(** The report: the files of each kind together, and every file once *)
Definition dist_report_of (lname rname : str) (l r : node) (t : str) : Prop :=
  exists groups ts,
    Forall2 (fun k g => Forall (fun xp => is_dkind (fst xp) (snd (Dir_Spec.written xp)) k) g) dkinds groups /\
    NoDup (map snd (concat groups)) /\ (forall x p, In (x, p) (concat groups) <-> dclass l r x p) /\
    Forall2 (fun xp => file_block 1 l r (fst xp) (snd xp)) (concat groups) ts /\
    t = snd (block_text o 0 (lit "Distribution changed from " ++ lname ++ lit " to " ++ rname) (lit "Distribution unchanged from " ++ lname ++ lit " to " ++ rname) ts).

(** The classes to be compared are such as classdiff can describe, the jars such as
    jardiff can *)
Record jars_known (l r : Zip_Model.archive) : Prop := {
  jk_left : Zip_Model.a_kind l = Zip_Model.Zip /\ Zip_Model.a_open l = true /\ Forall sound (Zip_Model.a_entries l);
  jk_right : Zip_Model.a_kind r = Zip_Model.Zip /\ Zip_Model.a_open r = true /\ Forall sound (Zip_Model.a_entries r);
  jk_classes : Jtext_Spec.classes_known fmt up l r;
  jk_some : show_unchanged o = true -> Jtext_Spec.some_entry l r }.
Definition files_known (l r : node) : Prop := forall p x y, data_at l p x -> data_at r p y -> x <> y -> shallow = false ->
  (ends_in (name_of p) KClass -> forall a b, unpack_class x MNone = Ok a -> unpack_class y MNone = Ok b -> (exists A, class_is fmt a A) /\ exists B, class_is fmt b B) /\
  (ends_in (name_of p) KJar -> forall a b, unzip x = Ok a -> unzip y = Ok b -> jars_known a b).
End Dist.

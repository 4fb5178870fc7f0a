(** Specification of the JSON document of distdiff: which objects it has, as a
    function of the two directories, without reference to change trees. *)
From Verif Require Import Base Pack_Model ConstPool_Model ClassFile_Model Manifest_Model Change_Model Classdiff_Model Jardiff_Model Jardiff_Spec Zip_Spec
  Dir_Spec Distdiff_Spec Text_Spec Dtext_Spec Doc_Spec Jdoc_Spec.
From Verif Require Zip_Model Jtext_Spec.
Import Zip_Model (node, event, LEFT, RIGHT, SAME, DIFF, slashes).

Definition dkind_class (k : dkind) : String.string :=
  match k with
  | DClassAdded => "DistClassAdded" | DClassRemoved => "DistClassRemoved" | DClass => "DistClassChange"
  | DJarAdded => "DistJarAdded" | DJarRemoved => "DistJarRemoved" | DJar => "DistJarChange"
  | DText => "DistTextChange" | DManifest => "DistManifestChange"
  | DAdded => "DistContentAdded" | DRemoved => "DistContentRemoved" | DContent => "DistContentChange"
  end.

Section Dist.
Variable fmt : pyval -> str.
Variable reprs : str -> str.
Variable ffmt : pyval -> str.
Variable text : bytes -> res str.
Variable up : Z -> str.
Variable unzip : bytes -> jar.
Variable o : options.
Variable shallow : bool.

(** The children of the object of a file with two different contents *)
Inductive dinside_doc : dkind -> bytes -> bytes -> list piece -> Prop :=
| ddoc_class x y l r t : unpack_class x MNone = Ok l -> unpack_class y MNone = Ok r -> class_piece fmt reprs ffmt o l r t -> dinside_doc DClass x y [t]
| ddoc_jar x y l r t : unzip x = Ok l -> unzip y = Ok r -> jar_piece fmt reprs ffmt up o l r t -> dinside_doc DJar x y [t]
| ddoc_manifest x y l r t : parses x l -> parses y r -> manifest_doc o "ManifestChange" "Manifest" (ignore_manifest o = true) l r t -> dinside_doc DManifest x y [t]
| ddoc_text x y l r : text x = Ok l -> text y = Ok r -> l <> r ->
    dinside_doc DText x y [(Told, single (value "GenericChange" "Generic Change" (OStr l) (OStr r)) true false (turns "Generic Change" l r))]
| ddoc_equal x y l : text x = Ok l -> text y = Ok l -> dinside_doc DText x y [].

Definition the_data (l r : node) (p : list str) (a b : bytes) : Prop := data_at l p a /\ data_at r p b.
(** A file: of one side only, of both with the same content, of both with different
    contents.  Different contents of no special kind are not reported. *)
Inductive file_doc (l r : node) (x : event) (p : list str) : piece -> Prop :=
| fdoc_removed k t : x = LEFT -> is_dkind shallow x (slashes p) k ->
    lone (dkind_class k) (dkind_label k) false (lit (dkind_label k) ++ lit ": " ++ slashes p) (entry_name (slashes p)) (fmatched o (slashes p)) None None (Some []) t -> file_doc l r x p t
| fdoc_added k t : x = RIGHT -> is_dkind shallow x (slashes p) k ->
    lone (dkind_class k) (dkind_label k) true (lit (dkind_label k) ++ lit ": " ++ slashes p) (entry_name (slashes p)) (fmatched o (slashes p)) None None (Some []) t -> file_doc l r x p t
| fdoc_same k a b ign : x = SAME \/ (x = DIFF /\ k = DContent) -> is_dkind shallow x (name_of p) k -> the_data l r p a b ->
    (ign = true <-> dhidden text o k (name_of p) a b) ->
    file_doc l r x p (Same, parent o (dkind_class k) (dkind_label k) (lit (dkind_label k) ++ lit " is unchanged: " ++ name_of p) false ign (entry_name (name_of p)) [])
| fdoc_both k a b ps t : x = DIFF -> is_dkind shallow x (name_of p) k -> the_data l r p a b -> dinside_doc k a b ps ->
    over_doc o (dkind_class k) (dkind_label k) (lit (dkind_label k) ++ lit " has changed: " ++ name_of p) (lit (dkind_label k) ++ lit " is unchanged: " ++ name_of p) (entry_name (name_of p))
      (dhidden text o k (name_of p) a b) False ps t -> file_doc l r x p t.

(** The document: the files of each kind together, and every file once *)
Definition dist_doc (lname rname : str) (l r : node) (j : json) : Prop :=
  exists groups ts,
    Forall2 (fun k g => Forall (fun xp => is_dkind shallow (fst xp) (snd (Dir_Spec.written xp)) k) g) dkinds groups /\
    NoDup (map snd (concat groups)) /\ (forall x p, In (x, p) (concat groups) <-> dclass l r x p) /\
    Forall2 (fun xp => file_doc l r (fst xp) (snd xp)) (concat groups) ts /\
    snd (group o "DistChange" "Distribution" (lit "Distribution changed from " ++ lname ++ lit " to " ++ rname) (lit "Distribution unchanged from " ++ lname ++ lit " to " ++ rname) ts) j.

(** The classes to be compared are such as classdiff can describe, the jars such as
    jardiff can *)
Record jars_readable (l r : Zip_Model.archive) : Prop := {
  jr_left : Zip_Model.a_kind l = Zip_Model.Zip /\ Zip_Model.a_open l = true /\ Forall sound (Zip_Model.a_entries l);
  jr_right : Zip_Model.a_kind r = Zip_Model.Zip /\ Zip_Model.a_open r = true /\ Forall sound (Zip_Model.a_entries r);
  jr_classes : Jtext_Spec.classes_known fmt up l r }.
Definition files_readable (l r : node) : Prop := forall p x y, data_at l p x -> data_at r p y -> x <> y -> shallow = false ->
  (ends_in (name_of p) KClass -> forall a b, unpack_class x MNone = Ok a -> unpack_class y MNone = Ok b -> (exists A, class_is fmt a A) /\ exists B, class_is fmt b B) /\
  (ends_in (name_of p) KJar -> forall a b, unzip x = Ok a -> unzip y = Ok b -> jars_readable a b).
End Dist.

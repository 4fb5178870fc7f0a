(** Specification of the JSON document of jardiff: which objects it has, as a
    function of the two jars, without reference to change trees. *)
From Verif Require Import Base Pack_Model ConstPool_Model ClassFile_Model Manifest_Model Change_Model Classdiff_Model Jardiff_Spec Text_Spec Jtext_Spec Doc_Spec.
From Verif Require Zip_Model.
From Verif Require Import Zip_Spec.

Section Objects.
Variable o : options.
(** ** Objects *)
(** An object with children; [e] is the entry of the jar it is about *)
Definition parent (cls label : String.string) (desc : str) (changed ignored : bool) (e : option str) (ps : list piece) (j : json) : Prop :=
  exists js, Forall2 (fun (p : piece) j => snd p j) (filter (fun p => listed_too o (fst p)) ps) js /\
    j = J (lit cls) changed desc (lit label) ignored false false e None None None (Some js).
(** One which the options may hide.  What is to be ignored below it is to be ignored
    with it, except where it [counts].  The option that hides it marks the object
    also where nothing differs. *)
Inductive over_doc (cls label : String.string) (heading still : str) (e : option str) (hidden counts : Prop) (ps : list piece) : piece -> Prop :=
| odoc_same ign : together (map fst ps) = Same -> (ign = true <-> hidden) -> over_doc cls label heading still e hidden counts ps (Same, parent cls label still false ign e ps)
| odoc_hidden : together (map fst ps) <> Same -> hidden -> over_doc cls label heading still e hidden counts ps (Aside, parent cls label heading true true e ps)
| odoc_aside : together (map fst ps) = Aside -> ~ hidden -> ~ counts -> over_doc cls label heading still e hidden counts ps (Aside, parent cls label heading true true e ps)
| odoc_told : together (map fst ps) = Told \/ together (map fst ps) = Aside /\ counts -> ~ hidden ->
    over_doc cls label heading still e hidden counts ps (Told, parent cls label heading true false e ps).
(** An object about something of one side only, with the data given *)
Inductive lone (cls label : String.string) (added : bool) (desc : str) (e : option str) (hidden : Prop) (old new : option pyobj) (kids : option (list json)) : piece -> Prop :=
| lone_told : ~ hidden -> lone cls label added desc e hidden old new kids
    (Told, fun j => j = J (lit cls) true desc (lit label) false added (negb added) e None old new kids)
| lone_aside : hidden -> lone cls label added desc e hidden old new kids
    (Aside, fun j => j = J (lit cls) true desc (lit label) true added (negb added) e None old new kids).

(** ** Manifests *)
Definition section_shown (s : section) : pyobj := ODict (map (fun kv => (fst kv, OStr (snd kv))) s).
Definition manifest_doc (cls label : String.string) (hidden : Prop) (l r : manifest) (t : piece) : Prop :=
  exists both gone new tm tb tg tn,
    NoDup both /\ (forall s, In s both <-> dget (m_subs l) s <> None /\ dget (m_subs r) s <> None) /\
    NoDup gone /\ (forall s, In s gone <-> dget (m_subs l) s <> None /\ dget (m_subs r) s = None) /\
    NoDup new /\ (forall s, In s new <-> dget (m_subs l) s = None /\ dget (m_subs r) s <> None) /\
    item (value "ManifestMainChange" "Manifest Main Section" (section_shown (m_main l)) (section_shown (m_main r))) (main_says o l r) tm /\
    Forall2 (fun s p => exists a b, dget (m_subs l) s = Some a /\ dget (m_subs r) s = Some b /\
      item (value "ManifestSectionChange" "Manifest Subsection" (section_shown a) (section_shown b)) (both_says o s a b) p) both tb /\
    Forall2 (fun s p => exists a, dget (m_subs l) s = Some a /\
      lone "ManifestSectionRemoved" "Manifest Subsection Removed" false (lit "Manifest Subsection Removed: " ++ s) None (ignore_manifest_subsections o = true) (Some (section_shown a)) None None p) gone tg /\
    Forall2 (fun s p => exists b, dget (m_subs r) s = Some b /\
      lone "ManifestSectionAdded" "Manifest Subsection Added" true (lit "Manifest Subsection Added: " ++ s) None (ignore_manifest_subsections o = true) None (Some (section_shown b)) None p) new tn /\
    over_doc cls label (lit label ++ lit " changed") (stays label) None hidden False (tm :: tb ++ tg ++ tn) t.
End Objects.

(** ** Entries *)
Definition kind_class (k : kind) : String.string :=
  match k with
  | KManifest => "JarManifestChange"
  | KSigAdded => "JarSignatureFileAdded" | KSigRemoved => "JarSignatureFileRemoved" | KSigFile => "JarSignatureFileChange"
  | KBlockAdded => "JarSignatureBlockFileAdded" | KBlockRemoved => "JarSignatureBlockFileRemoved" | KBlock => "JarSignatureBlockFileChange"
  | KData => "JarGenericFileChange" | KAdded => "JarContentAdded" | KRemoved => "JarContentRemoved" | KContent => "JarContentChange"
  | KClassAdded => "JarClassAdded" | KClassRemoved => "JarClassRemoved" | KClass => "JarClassChange"
  end.
(** The name of the entry is given unless it is empty *)
Definition entry_name (e : str) : option str := match e with [] => None | _ => Some e end.
Section Jar.
Variable fmt : pyval -> str.
Variable reprs : str -> str.
Variable ffmt : pyval -> str.
Variable up : Z -> str.
Variable o : options.

Definition opaque (cls label shown desc : String.string) : piece := (Told, single (value cls label (OStr (lit shown)) (OStr (lit shown))) true false (lit desc)).
(** The child of the object of an entry with two different contents *)
Inductive inside_doc : kind -> bytes -> bytes -> piece -> Prop :=
| idoc_manifest x y l r t : parses x l -> parses y r -> manifest_doc o "ManifestChange" "Manifest" (ignore_manifest o = true) l r t -> inside_doc KManifest x y t
| idoc_sigfile x y l r t : parses x l -> parses y r -> manifest_doc o "SignatureManifestChange" "Signature File" (ignore_jar_signature o = true) l r t -> inside_doc KSigFile x y t
| idoc_block x y : inside_doc KBlock x y (opaque "SignatureBlockFileChange" "Signature Block File" "[binary data]" "[binary data change]")
| idoc_data x y : inside_doc KData x y (opaque "GenericFileChange" "Generic File" "[data]" "[generic file change]")
| idoc_class x y l r t : unpack_class x MNone = Ok l -> unpack_class y MNone = Ok r -> class_piece fmt reprs ffmt o l r t -> inside_doc KClass x y t.

Inductive entry_doc (l r : Zip_Model.archive) (x : Zip_Model.event) (e : str) : piece -> Prop :=
| edoc_removed k t : x = Zip_Model.LEFT -> is_kind up x e k ->
    lone (kind_class k) (kind_label k) false (lit (kind_label k) ++ lit ": " ++ e) (entry_name e) (entry_hidden o k e) None None (Some []) t -> entry_doc l r x e t
| edoc_added k t : x = Zip_Model.RIGHT -> is_kind up x e k ->
    lone (kind_class k) (kind_label k) true (lit (kind_label k) ++ lit ": " ++ e) (entry_name e) (entry_hidden o k e) None None (Some []) t -> entry_doc l r x e t
| edoc_same k ign : x = Zip_Model.SAME -> is_kind up x e k -> (ign = true <-> entry_hidden o k e) ->
    entry_doc l r x e (Same, parent o (kind_class k) (kind_label k) (lit (kind_label k) ++ lit " is unchanged: " ++ e) false ign (entry_name e) [])
| edoc_both k a b p t : x = Zip_Model.DIFF -> is_kind up x e k -> content l e a -> content r e b -> inside_doc k a b p ->
    over_doc o (kind_class k) (kind_label k) (lit (kind_label k) ++ lit " has changed: " ++ e) (lit (kind_label k) ++ lit " is unchanged: " ++ e) (entry_name e)
      (entry_hidden o k e) (of_signature k) [p] t -> entry_doc l r x e t.

(** The entries of each kind together, and every entry once *)
Definition type_piece : piece :=
  (Same, single (value "JarTypeChange" "Jar type" (OStr (lit "zipped JAR file")) (OStr (lit "zipped JAR file"))) false false (stays "Jar type")).
Definition jar_piece (l r : Zip_Model.archive) (t : piece) : Prop :=
  exists groups ts,
    Forall2 (fun k g => Forall (fun xe => is_kind up (fst xe) (snd xe) k) g) kinds groups /\
    classified (concat groups) l r /\
    Forall2 (fun xe => entry_doc l r (fst xe) (snd xe)) (concat groups) ts /\
    t = plain_group o "JarChange" "JAR" [type_piece; plain_group o "JarContentsChange" "JAR Contents" ts].
(** The document of two jars alone *)
Definition jar_doc (l r : Zip_Model.archive) (j : json) : Prop := exists t, jar_piece l r t /\ snd t j.
End Jar.

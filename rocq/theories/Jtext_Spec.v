(** Specification of the text report of jardiff: which lines it has, as a
    function of the two jars, without reference to change trees. *)
From Verif Require Import Base Pack_Model ConstPool_Model ClassFile_Model Manifest_Model Change_Model Classdiff_Model Jardiff_Spec Text_Spec.
From Verif Require Zip_Model.
From Verif Require Import Zip_Spec.

Section Over.
Variable o : options.
(** A heading which the options may hide.  What is to be ignored below it is to be
    ignored with it, except where it [counts]: then any difference is one. *)
Inductive over (n : nat) (heading still : str) (hidden counts : Prop) (ps : list (standing * str)) : standing * str -> Prop :=
| over_same : together (map fst ps) = Same -> over n heading still hidden counts ps (written o n Same heading still (concat (map snd ps)))
| over_hidden : together (map fst ps) <> Same -> hidden -> over n heading still hidden counts ps (written o n Aside heading still (concat (map snd ps)))
| over_aside : together (map fst ps) = Aside -> ~ hidden -> ~ counts -> over n heading still hidden counts ps (written o n Aside heading still (concat (map snd ps)))
| over_told : together (map fst ps) = Told \/ together (map fst ps) = Aside /\ counts -> ~ hidden ->
    over n heading still hidden counts ps (written o n Told heading still (concat (map snd ps))).

(** ** Manifests *)
Definition main_says (l r : manifest) : says :=
  mksays (lit "Manifest Main Section has changed") (lit "Manifest Main Section is unchanged") (m_main l = m_main r) (only_ignored_keys o (m_main l) (m_main r)).
Definition both_says (n : str) (a b : section) : says :=
  mksays (lit "Manifest Subsection Changed: " ++ n) (lit "Manifest Subsection Unchanged: " ++ n) (a = b) (ignore_manifest_subsections o = true \/ only_ignored_keys o a b).
Definition one_says (word : String.string) (n : str) : says :=
  mksays (lit "Manifest Subsection " ++ lit word ++ lit ": " ++ n) [] False (ignore_manifest_subsections o = true).
(** The main section, the sections of both, those of the first only, those of the
    second only *)
Definition manifest_block (n : nat) (heading : String.string) (hidden : Prop) (l r : manifest) (t : standing * str) : Prop :=
  exists both gone new tm tb tg tn,
    NoDup both /\ (forall s, In s both <-> dget (m_subs l) s <> None /\ dget (m_subs r) s <> None) /\
    NoDup gone /\ (forall s, In s gone <-> dget (m_subs l) s <> None /\ dget (m_subs r) s = None) /\
    NoDup new /\ (forall s, In s new <-> dget (m_subs l) s = None /\ dget (m_subs r) s <> None) /\
    entry o (S n) (main_says l r) tm /\
    Forall2 (fun s p => exists a b, dget (m_subs l) s = Some a /\ dget (m_subs r) s = Some b /\ entry o (S n) (both_says s a b) p) both tb /\
    Forall2 (fun s => entry o (S n) (one_says "Removed" s)) gone tg /\
    Forall2 (fun s => entry o (S n) (one_says "Added" s)) new tn /\
    over n (lit heading ++ lit " changed") (stays heading) hidden False (tm :: tb ++ tg ++ tn) t.
End Over.

(** ** Entries *)
(** In the order in which they are reported *)
Inductive kind := KManifest | KSigAdded | KSigRemoved | KSigFile | KBlockAdded | KBlockRemoved | KBlock
  | KData | KAdded | KRemoved | KContent | KClassAdded | KClassRemoved | KClass.
Definition kinds : list kind := [KManifest; KSigAdded; KSigRemoved; KSigFile; KBlockAdded; KBlockRemoved; KBlock;
  KData; KAdded; KRemoved; KContent; KClassAdded; KClassRemoved; KClass].
Section Jar.
Variable fmt : pyval -> str.
Variable reprs : str -> str.
Variable up : Z -> str.
Variable o : options.

Definition other (n : str) : Prop := ~ signature up n /\ ~ class_file n.
(** [x] says in which of the jars the entry is, and whether it has the same content *)
Definition is_kind (x : Zip_Model.event) (n : str) (k : kind) : Prop :=
  let both := x = Zip_Model.SAME \/ x = Zip_Model.DIFF in
  let file := ~ the_manifest n /\ sig_file up n in
  let block := ~ the_manifest n /\ ~ sig_file up n /\ sig_block up n in
  let class := ~ the_manifest n /\ ~ signature up n /\ class_file n in
  match k with
  | KManifest => both /\ the_manifest n
  | KSigAdded => x = Zip_Model.RIGHT /\ sig_file up n
  | KSigRemoved => x = Zip_Model.LEFT /\ sig_file up n
  | KSigFile => both /\ file
  | KBlockAdded => x = Zip_Model.RIGHT /\ ~ sig_file up n /\ sig_block up n
  | KBlockRemoved => x = Zip_Model.LEFT /\ ~ sig_file up n /\ sig_block up n
  | KBlock => both /\ block
  | KData => x = Zip_Model.DIFF /\ ~ the_manifest n /\ other n
  | KAdded => x = Zip_Model.RIGHT /\ other n
  | KRemoved => x = Zip_Model.LEFT /\ other n
  | KContent => x = Zip_Model.SAME /\ ~ the_manifest n /\ other n
  | KClassAdded => x = Zip_Model.RIGHT /\ ~ signature up n /\ class_file n
  | KClassRemoved => x = Zip_Model.LEFT /\ ~ signature up n /\ class_file n
  | KClass => both /\ class
  end.
Definition kind_label (k : kind) : String.string :=
  match k with
  | KManifest => "Jar Manifest"
  | KSigAdded => "Jar Signature File Added" | KSigRemoved => "Jar Signature File Removed" | KSigFile => "Jar Signature File"
  | KBlockAdded => "Jar Signature Block File Added" | KBlockRemoved => "Jar Signature Block File Removed" | KBlock => "Jar Signature Block File"
  | KData => "Jar Generic File" | KAdded => "Jar Content Added" | KRemoved => "Jar Content Removed" | KContent => "Jar Content"
  | KClassAdded => "Java Class Added" | KClassRemoved => "Java Class Removed" | KClass => "Java Class"
  end.
Definition of_signature (k : kind) : Prop :=
  match k with KSigAdded | KSigRemoved | KSigFile | KBlockAdded | KBlockRemoved | KBlock => True | _ => False end.
Definition entry_hidden (k : kind) (n : str) : Prop := (of_signature k /\ ignore_jar_signature o = true) \/ (~ of_signature k /\ matched o n).

(** What is below an entry with two different contents *)
Inductive inside (n : nat) : kind -> bytes -> bytes -> standing * str -> Prop :=
| inside_manifest x y l r t : parses x l -> parses y r -> manifest_block o n "Manifest" (ignore_manifest o = true) l r t -> inside n KManifest x y t
| inside_sigfile x y l r t : parses x l -> parses y r -> manifest_block o n "Signature File" (ignore_jar_signature o = true) l r t -> inside n KSigFile x y t
| inside_block x y : inside n KBlock x y (written o n Told (lit "[binary data change]") [] [])
| inside_data x y : inside n KData x y (written o n Told (lit "[generic file change]") [] [])
| inside_class x y l r t : unpack_class x MNone = Ok l -> unpack_class y MNone = Ok r -> class_block fmt reprs o n l r t -> inside n KClass x y t.

(** An entry: of one jar only, of both with the same content, of both with different
    contents *)
Inductive entry_block (n : nat) (l r : Zip_Model.archive) (x : Zip_Model.event) (e : str) : standing * str -> Prop :=
| entry_one k t : x = Zip_Model.LEFT \/ x = Zip_Model.RIGHT -> is_kind x e k ->
    entry o n (mksays (lit (kind_label k) ++ lit ": " ++ e) [] False (entry_hidden k e)) t -> entry_block n l r x e t
| entry_both_same k : x = Zip_Model.SAME -> is_kind x e k ->
    entry_block n l r x e (written o n Same [] (lit (kind_label k) ++ lit " is unchanged: " ++ e) [])
| entry_both k a b p t : x = Zip_Model.DIFF -> is_kind x e k -> content l e a -> content r e b -> inside (S n) k a b p ->
    over o n (lit (kind_label k) ++ lit " has changed: " ++ e) (lit (kind_label k) ++ lit " is unchanged: " ++ e) (entry_hidden k e) (of_signature k) [p] t ->
    entry_block n l r x e t.

(** The jars at depth [n]: the entries of each kind together, and every entry once *)
Definition jar_block (n : nat) (l r : Zip_Model.archive) (t : standing * str) : Prop :=
  exists groups ts,
    Forall2 (fun k g => Forall (fun xe => is_kind (fst xe) (snd xe) k) g) kinds groups /\
    classified (concat groups) l r /\
    Forall2 (fun xe => entry_block (S (S n)) l r (fst xe) (snd xe)) (concat groups) ts /\
    t = block_text o n (lit "JAR changed") (stays "JAR")
          [written o (S n) Same [] (stays "Jar type") []; block_text o (S n) (lit "JAR Contents changed") (stays "JAR Contents") ts].
(** The report of two jars alone *)
Definition jar_report_of (l r : Zip_Model.archive) (t : str) : Prop := exists st, jar_block 0 l r (st, t).

(** There is something to compare *)
Definition some_entry (l r : Zip_Model.archive) : Prop :=
  exists n, (In n (names l) /\ ~ In n (names r)) \/ (In n (names r) /\ ~ In n (names l)) \/ (~ directory n /\ In n (names l) /\ In n (names r)).
(** The classes to be compared are such as classdiff can describe *)
Definition classes_known (l r : Zip_Model.archive) : Prop :=
  on_differing (fun n x y => ~ the_manifest n -> ~ signature up n -> class_file n -> forall a b,
    unpack_class x MNone = Ok a -> unpack_class y MNone = Ok b -> (exists A, class_is fmt a A) /\ exists B, class_is fmt b B) l r.
End Jar.

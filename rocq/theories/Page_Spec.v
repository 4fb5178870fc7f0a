(** Specification of the HTML pages of jar and distribution comparisons,
    independently of the templates: which entries are listed, under which heading,
    in which order, and how each is shown. *)
From Verif Require Import Base Pack_Model ConstPool_Model ClassFile_Model Change_Model Html_Model Html_Spec Jinfo_Spec Kinds_Spec Jardiff_Spec Distdiff_Spec Zip_Spec Dir_Spec.
From Verif Require Import Zip_Model.
From Coq Require Import Sorting.Sorted.

(** ** Groups under headings *)
(** Each item: the name of the entry and its part of the page *)
Record group := mkgroup { g_heading : str; g_items : list (str * list html) }.
Definition group_html (g : group) : list html :=
  [Open (lit "div") [(lit "class", lit "change-category")]; Open (lit "h2") []; Chars (g_heading g); Close (lit "h2")] ++
  concat (map snd (g_items g)) ++ [Close (lit "div")].
Definition opens_group (t : html) : bool :=
  match t with Open _ a => existsb (fun x => seqb (fst x) (lit "class") && seqb (snd x) (lit "change-category")) a | _ => false end.
(** The page has these groups one after another, and none elsewhere. *)
Definition lists_groups (page : list html) (gs : list group) : Prop :=
  exists a b, page = a ++ flat_map group_html gs ++ b /\ existsb opens_group (a ++ b) = false.
(** [l] goes through [all] in order, each at most once. *)
Definition in_sequence (all l : list str) : Prop :=
  Forall (fun x => In x all) l /\ StronglySorted (fun x y => exists p q s, all = p ++ x :: q ++ y :: s) l.
(** All names in the groups, and the order of those of one group *)
Definition listed_names (gs : list group) : list str := flat_map (fun g => map fst (g_items g)) gs.
Definition tidy (g : group) : Prop := g_items g <> [] /\ StronglySorted before (map fst (g_items g)).

(** ** Items *)
Inductive state := Unchanged | Changed | Ignored.
Definition words (s : state) : str :=
  match s with Unchanged => lit " is_unchanged" | Changed => lit " is_changed" | Ignored => lit " is_changed is_ignored" end.
(** An entry that is a reason to report a change is marked as changed and not
    ignored, and no other; one on a single side is never unchanged, and one that
    is the same on both sides always. *)
Definition state_fits (e : event) (ok : Prop) (s : state) : Prop :=
  (s = Changed <-> ~ ok) /\ (e = LEFT \/ e = RIGHT -> s <> Unchanged) /\ (e = SAME -> s = Unchanged).
Definition item_html (classes n : str) (more : list html) : list html :=
  [Open (lit "div") [(lit "class", lit "Change " ++ classes)]; Chars (esc n)] ++ more ++ [Close (lit "div")].
Definition link_html (href : str) : list html :=
  [Open (lit "span") [(lit "class", lit "moreinfo")]; Chars (lit "["); Open (lit "a") [(lit "href", href)]; Chars (lit "details"); Close (lit "a");
   Chars (lit "]"); Close (lit "span")].
(** Added, removed or common *)
Definition suffix (e : event) : str := match e with LEFT => lit " Removed" | RIGHT => lit " Added" | _ => [] end.

(** ** Jars *)
Definition jar_heading (e : event) (k : jkind) : str := lit (jar_base e k) ++ suffix e.
Definition jar_headings : list str := map lit [
  "Jar Manifest"; "Jar Signature File Added"; "Jar Signature File Removed"; "Jar Signature File";
  "Jar Signature Block File Added"; "Jar Signature Block File Removed"; "Jar Signature Block File";
  "Jar Content Added"; "Jar Content Removed"; "Jar Content"; "Java Class Added"; "Java Class Removed"; "Java Class"; "Jar Generic File"]%string.
(** The names of the kinds in the class attribute, to which style sheets refer *)
Definition jar_class (e : event) (k : jkind) : str :=
  lit "Jar" ++
  match k with
  | JManifest => lit "Manifest" | JSigFile => lit "SignatureFile" | JSigBlock => lit "SignatureBlockFile" | JClass => lit "Class"
  | JData => match e with DIFF => lit "GenericFile" | _ => lit "Content" end
  end ++
  match e with LEFT => lit "Removed" | RIGHT => lit "Added" | _ => lit "Change" end.
(** A class that differs leads to its own page; of the other entries that differ
    more is shown. *)
Definition jar_item (e : event) (k : jkind) (n : str) (s : state) (h : list html) : Prop :=
  match e, k with
  | DIFF, JClass => h = item_html (lit "SquashedChange JarClassReport" ++ words s) n (link_html (n ++ lit "/JavaClassReport.html"))
  | DIFF, _ => exists more, h = item_html (jar_class e k ++ words s) n more
  | _, _ => h = item_html (jar_class e k ++ words s) n []
  end.
Section Jars.
Variable fmt : pyval -> str.
Variable reprs : str -> str.
Variable ffmt : pyval -> str.
Variable up : Z -> str.
Variable o : options.
Variables l r : archive.
Definition entry_ok (e : event) (n : str) : Prop :=
  match e with
  | LEFT | RIGHT => one_sided_ok up o n
  | SAME => True
  | DIFF => forall d d', content l n d -> content r n d' -> acceptable fmt reprs ffmt up o n d d'
  end.
Definition jar_item_fits (rows : list (event * str)) (heading : str) (it : str * list html) : Prop :=
  exists e k s, In (e, fst it) rows /\ jar_kind up e (fst it) k /\ heading = jar_heading e k /\
    state_fits e (entry_ok e (fst it)) s /\ jar_item e k (fst it) s (snd it).
End Jars.

(** ** Distributions *)
Definition dist_heading (e : event) (k : kind) : str := lit (dist_base k) ++ suffix e.
Definition dist_headings : list str := map lit [
  "Distributed Java Class Added"; "Distributed Java Class Removed"; "Distributed Java Class";
  "Distributed JAR Added"; "Distributed JAR Removed"; "Distributed JAR"; "Distributed Text"; "Distributed Manifest";
  "Distributed Content Added"; "Distributed Content Removed"; "Distributed Content"]%string.
Definition dist_class (e : event) (k : kind) : str :=
  lit "Dist" ++
  match k with
  | KJar => lit "Jar" | KClass => lit "Class" | KText => lit "Text" | KManifest => lit "Manifest" | KData => lit "Content"
  end ++
  match e with LEFT => lit "Removed" | RIGHT => lit "Added" | _ => lit "Change" end.
Definition dist_item (e : event) (k : kind) (n : str) (s : state) (h : list html) : Prop :=
  match e, k with
  | DIFF, KClass => h = item_html (lit "SquashedChange DistClassReport" ++ words s) n (link_html (n ++ lit "/JavaClassReport.html"))
  | DIFF, KJar => h = item_html (lit "SquashedChange DistJarReport" ++ words s) n (link_html (n ++ lit "/JarReport.html"))
  | DIFF, _ => exists more, h = item_html (dist_class e k ++ words s) n more
  | _, _ => h = item_html (dist_class e k ++ words s) n []
  end.
Section Dists.
Variable fmt : pyval -> str.
Variable reprs : str -> str.
Variable ffmt : pyval -> str.
Variable text : bytes -> res str.
Variable order : list str -> list str.
Variable up : Z -> str.
Variable unzip : bytes -> Jardiff_Model.jar.
Variable o : options.
Variable shallow : bool.
Variables l r : node.
Definition file_ok (e : event) (n : str) : Prop :=
  match e with
  | LEFT | RIGHT => fmatched o n
  | SAME => True
  | DIFF => shallow = true \/
      forall p d d', n = name_of p -> data_at l p d -> data_at r p d' -> file_acceptable fmt reprs ffmt text order up unzip o n d d'
  end.
Definition dist_item_fits (rows : list (event * str)) (heading : str) (it : str * list html) : Prop :=
  exists e k s, In (e, fst it) rows /\ dist_kind shallow e (fst it) k /\ heading = dist_heading e k /\
    state_fits e (file_ok e (fst it)) s /\ dist_item e k (fst it) s (snd it).
End Dists.

(** Model of the comparison of manifests (/repo/javatools/manifest.py, the change
    classes) and of jars (/repo/javatools/jardiff.py): for two jars, the tree of
    change objects that jardiff builds, its check, and the exit status. *)
From Verif Require Import Base Pack_Model ConstPool_Model ClassFile_Model Manifest_Model
  Change_Model Classdiff_Model.
From Verif Require Sign_Model Zip_Model.

Section Jardiff.
(** As in Classdiff_Model: rendering of constants. *)
Variable fmt : pyval -> str.
Variable reprs : str -> str.
Variable ffmt : pyval -> str.
(** As in Zip_Model: decoding of text files, iteration order of sets. *)
Variable text : bytes -> res str.
Variable order : list str -> list str.
(** As in Sign_Model: upper case of a character. *)
Variable up : Z -> str.

(** ** Manifests *)

(** [l == r] of two sections (OrderedDict): the same items in the same order *)
Definition section_eqb (l r : section) : bool :=
  (length l =? length r)%nat &&
  forallb (fun xy => seqb (fst (fst xy)) (fst (snd xy)) && seqb (snd (fst xy)) (snd (snd xy))) (combine l r).
(** [(k, v) in set(d.items())] *)
Definition has_item (d : section) (i : str * str) : bool :=
  existsb (fun j => seqb (fst i) (fst j) && seqb (snd i) (snd j)) d.
(** manifest.py:142-144: the keys of the symmetric difference of the items *)
Definition changed_keys (l r : section) : list str :=
  map fst (filter (fun i => negb (has_item r i)) l ++ filter (fun i => negb (has_item l i)) r).
(** manifest.py:140-148, 189-197: ignored by key *)
Definition keys_own (l r : section) (o : options) : bool :=
  match ignore_manifest_key o with
  | [] => false
  | ikeys => forallb (fun k => smem k ikeys) (changed_keys l r)
  end.
(** [m.primary()]; sections of parsed manifests have a Name (the model gives ""
    for others) *)
Definition sec_name (s : section) : str := match dget s K_Name with Some n => n | None => [] end.

(** A section as data: the dict itself (fn_pretty is fn_data, change.py:234-258) *)
Definition obj_section (s : section) : pyobj := ODict (map (fun kv => (fst kv, OStr (snd kv))) s).
(** GenericChange on two sections, with overridden get_description; the data
    shown in the description of change.py:343-345, which is never shown, are left out *)
Definition section_node (name label : str) (always add rem : bool) (txt : bool -> str) (own : options -> bool) (same : bool)
  (old new : option section) : change :=
  Node (mkcls name label always add rem (Some (fun b => Ok (txt b))) own false
          (CheckOwn (Ok (if same then (false, None) else (true, Some (label ++ lit " changed: ")))))
          false false false None None None [] (Ok (option_map obj_section old)) (Ok (option_map obj_section new)))
       false None [] [].
(** ManifestMainChange, manifest.py:176-200 *)
Definition manifest_main (l r : manifest) : change :=
  section_node (lit "ManifestMainChange") (lit "Manifest Main Section") false false false
    (fun b : bool => lit "Manifest Main Section" ++ (if b then lit " has changed" else lit " is unchanged"))
    (keys_own (m_main l) (m_main r)) (section_eqb (m_main l) (m_main r)) (Some (m_main l)) (Some (m_main r)).
(** ManifestSectionChange, manifest.py:123-148 *)
Definition section_change (l r : section) : change :=
  section_node (lit "ManifestSectionChange") (lit "Manifest Subsection") false false false
    (fun b : bool => lit "Manifest Subsection" ++ (if b then lit " Changed: " else lit " Unchanged: ") ++ sec_name l)
    (fun o => ignore_manifest_subsections o || keys_own l r o) (section_eqb l r) (Some l) (Some r).
(** ManifestSectionAdded, manifest.py:151-161: compared with None, always a change *)
Definition section_added (r : section) : change :=
  section_node (lit "ManifestSectionAdded") (lit "Manifest Subsection Added") true true false
    (fun _ => lit "Manifest Subsection Added: " ++ sec_name r) ignore_manifest_subsections false None (Some r).
(** ManifestSectionRemoved, manifest.py:164-173 *)
Definition section_removed (l : section) : change :=
  section_node (lit "ManifestSectionRemoved") (lit "Manifest Subsection Removed") true false true
    (fun _ => lit "Manifest Subsection Removed: " ++ sec_name l) ignore_manifest_subsections false (Some l) None.

(** ManifestChange.collect_impl, manifest.py:208-222 *)
Definition sub_of (m : manifest) (s : str) : section := match dget (m_subs m) s with Some x => x | None => [] end.
Definition manifest_parts (l r : manifest) : list change :=
  let ls := dkeys (m_subs l) in
  let rs := dkeys (m_subs r) in
  manifest_main l r ::
  map (fun s => section_change (sub_of l s) (sub_of r s)) (order (filter (fun s => smem s rs) ls)) ++
  map (fun s => section_removed (sub_of l s)) (order (filter (fun s => negb (smem s rs)) ls)) ++
  map (fun s => section_added (sub_of r s)) (order (filter (fun s => negb (smem s ls)) rs)).
(** ManifestChange, manifest.py:203-227, and SignatureManifestChange, 654-659 *)
Definition manifest_change (l r : manifest) : change :=
  Node (mkcls (lit "ManifestChange") (lit "Manifest") false false false None ignore_manifest true CheckParts
          true false false None None None [] no_data no_data) false None [] (manifest_parts l r).
Definition signature_change (l r : manifest) : change :=
  Node (mkcls (lit "SignatureManifestChange") (lit "Signature File") false false false None ignore_jar_signature true CheckParts
          true false false None None None [] no_data no_data) false None [] (manifest_parts l r).

(** ** Entries of jars *)

(** [open_zip_entry(zip, entry)] and [.read()], ziputils.py:333-345, 291-292:
    bytes from a zip file, text from a directory (see Zip_Model) *)
Definition read_entry (a : Zip_Model.archive) (name : str) : res Zip_Model.piece :=
  match Zip_Model.a_kind a with
  | Zip_Model.Zip =>
      if Zip_Model.a_open a then e <- Zip_Model.getinfo a name ;; Ok (Zip_Model.PBytes (Zip_Model.e_data e)) else Err ValueError
  | Zip_Model.Exploded =>
      match Zip_Model.find_entry (Zip_Model.a_entries a) name with
      | Some e => t <- text (Zip_Model.e_data e) ;; Ok (Zip_Model.PText t)
      | None => Err FileNotFoundError
      end
  end.
(** unpack_class of what was read: a str is neither bytes nor a stream
    (pack.py:347-355) *)
Definition unpack_piece (p : Zip_Model.piece) : res classinfo :=
  match p with Zip_Model.PBytes b => unpack_class b MNone | Zip_Model.PText _ => Err TypeError end.
(** Manifest().parse of what was read: a str has no decode (manifest.py:378) *)
Definition parse_piece (p : Zip_Model.piece) : res manifest :=
  match p with Zip_Model.PBytes b => man_parse (new_manifest None) b | Zip_Model.PText _ => Err AttributeError end.

(** A JarContentChange or subclass, jardiff.py:79-122: [changed] is the argument
    is_change; [sub] is what collect_impl yields when is_change(), if anything. *)
Definition jar_node (name label : str) (always add rem : bool) (own : options -> bool) (parts changed : bool)
  (sub : option (res change)) (entry : str) : change :=
  Node (mkcls name label always add rem
          (Some (fun b : bool => Ok (label ++ (if always then lit ": " else if b then lit " has changed: " else lit " is unchanged: ") ++ entry)))
          own parts CheckParts true true false
          (match sub with Some (Err e) => Some e | _ => None end) (Some entry) None [] no_data no_data)
       changed None [] (match sub with Some (Ok c) => [c] | _ => [] end).
(** JarContentChange.is_ignored, jardiff.py:120-122: the part decided by name *)
Definition entry_own (entry : str) (o : options) : bool := fnmatches entry (ignore_jar_entry o).

(** GenericFileChange, jardiff.py:266-275, and SignatureBlockFileChange,
    manifest.py:662-669: the data read compared with !=; [shown] for both sides *)
Definition data_node (name label txt shown : str) (l r : Zip_Model.piece) : change :=
  Node (mkcls name label false false false (Some (fun _ => Ok txt)) never false
          (CheckOwn (Ok (if Zip_Model.peqb l r then (false, None) else (true, Some (label ++ lit " changed: " ++ shown ++ lit " to " ++ shown)))))
          false false false None None None [] (Ok (Some (OStr shown))) (Ok (Some (OStr shown))))
       false None [] [].

Section Archives.
Variables left right : Zip_Model.archive.

(** JarClassChange.collect_impl, jardiff.py:154-162 *)
Definition class_sub (entry : str) : res change :=
  lp <- read_entry left entry ;; l <- unpack_piece lp ;;
  rp <- read_entry right entry ;; r <- unpack_piece rp ;;
  Ok (class_change fmt reprs ffmt l r).
(** JarManifestChange.collect_impl and JarSignatureFileChange.collect_impl,
    jardiff.py:190-200, 210-220 *)
Definition manifest_sub (mk : manifest -> manifest -> change) (entry : str) : res change :=
  lp <- read_entry left entry ;; l <- parse_piece lp ;;
  rp <- read_entry right entry ;; r <- parse_piece rp ;;
  Ok (mk l r).
(** JarSignatureBlockFileChange.collect_impl and JarGenericFileChange.collect_impl,
    jardiff.py:246-251, 282-287 *)
Definition data_sub (mk : Zip_Model.piece -> Zip_Model.piece -> change) (entry : str) : res change :=
  lp <- read_entry left entry ;; rp <- read_entry right entry ;; Ok (mk lp rp).

Definition block_change (l r : Zip_Model.piece) : change :=
  data_node (lit "SignatureBlockFileChange") (lit "Signature Block File") (lit "[binary data change]") (lit "[binary data]") l r.
Definition generic_file_change (l r : Zip_Model.piece) : change :=
  data_node (lit "GenericFileChange") (lit "Generic File") (lit "[generic file change]") (lit "[data]") l r.

(** file_matches_sigfile, file_matches_sigblock, fnmatches(entry, "*.class") *)
Definition is_sigfile (e : str) : bool := Sign_Model.file_matches_sigfile up e.
Definition is_sigblock (e : str) : bool := Sign_Model.file_matches_sigblock up e.
Definition is_classfile (e : str) : bool := fnmatches e [lit "*.class"].

(** jardiff.py:331-394: the change for an event of compare_zips, with the classes
    at 79-287 *)
Definition jar_event (ev : Zip_Model.event * str) : change :=
  let '(event, entry) := ev in
  match event with
  | Zip_Model.SAME | Zip_Model.DIFF =>
      let d := match event with Zip_Model.DIFF => true | _ => false end in
      if seqb entry Sign_Model.MANIFEST_NAME then
        jar_node (lit "JarManifestChange") (lit "Jar Manifest") false false false (entry_own entry) true d
          (Some (manifest_sub manifest_change entry)) entry
      else if is_sigfile entry then
        jar_node (lit "JarSignatureFileChange") (lit "Jar Signature File") false false false ignore_jar_signature false d
          (Some (manifest_sub signature_change entry)) entry
      else if is_sigblock entry then
        jar_node (lit "JarSignatureBlockFileChange") (lit "Jar Signature Block File") false false false ignore_jar_signature false d
          (Some (data_sub block_change entry)) entry
      else if is_classfile entry then
        jar_node (lit "JarClassChange") (lit "Java Class") false false false (entry_own entry) true d
          (Some (class_sub entry)) entry
      else if d then
        jar_node (lit "JarGenericFileChange") (lit "Jar Generic File") false false false (entry_own entry) true true
          (Some (data_sub generic_file_change entry)) entry
      else
        jar_node (lit "JarContentChange") (lit "Jar Content") false false false (entry_own entry) true false None entry
  | Zip_Model.LEFT =>
      if is_sigfile entry then
        jar_node (lit "JarSignatureFileRemoved") (lit "Jar Signature File Removed") true false true ignore_jar_signature false true None entry
      else if is_sigblock entry then
        jar_node (lit "JarSignatureBlockFileRemoved") (lit "Jar Signature Block File Removed") true false true ignore_jar_signature false true None entry
      else if is_classfile entry then
        jar_node (lit "JarClassRemoved") (lit "Java Class Removed") true false true (entry_own entry) true true None entry
      else
        jar_node (lit "JarContentRemoved") (lit "Jar Content Removed") true false true (entry_own entry) true true None entry
  | Zip_Model.RIGHT =>
      if is_sigfile entry then
        jar_node (lit "JarSignatureFileAdded") (lit "Jar Signature File Added") true true false ignore_jar_signature false true None entry
      else if is_sigblock entry then
        jar_node (lit "JarSignatureBlockFileAdded") (lit "Jar Signature Block File Added") true true false ignore_jar_signature false true None entry
      else if is_classfile entry then
        jar_node (lit "JarClassAdded") (lit "Java Class Added") true true false (entry_own entry) true true None entry
      else
        jar_node (lit "JarContentAdded") (lit "Jar Content Added") true true false (entry_own entry) true true None entry
  end.
End Archives.

(** The types given to yield_sorted_by_type, jardiff.py:307-320 *)
Definition jar_types : list str := [
  lit "JarManifestChange"; lit "JarSignatureFileAdded"; lit "JarSignatureFileRemoved"; lit "JarSignatureFileChange";
  lit "JarSignatureBlockFileAdded"; lit "JarSignatureBlockFileRemoved"; lit "JarSignatureBlockFileChange";
  lit "JarGenericFileChange"; lit "JarContentAdded"; lit "JarContentRemoved"; lit "JarContentChange";
  lit "JarClassAdded"; lit "JarClassRemoved"; lit "JarClassChange"].

(** ** Jars *)
(** A path: what zip_file (ziputils.py:304-317) makes of it.  An ExplodedZipFile
    for a directory, a ZipFile, or an exception (not a zip file, unreadable). *)
Definition jar := res Zip_Model.archive.
(** [isdir(path)] *)
Definition is_exploded (j : jar) : bool :=
  match j with Ok a => match Zip_Model.a_kind a with Zip_Model.Exploded => true | Zip_Model.Zip => false end | Err _ => false end.

(** JarTypeChange, jardiff.py:57-76 *)
Definition jar_type_name (j : jar) : str := if is_exploded j then lit "exploded JAR" else lit "zipped JAR file".
Definition jar_type (l r : jar) : change :=
  leaf_text "JarTypeChange" "Jar type" never (Ok (is_exploded l)) (Ok (is_exploded r)) (pure2 Bool.eqb)
    (Ok (jar_type_name l)) (Ok (jar_type_name r)) (Ok (OStr (jar_type_name l))) (Ok (OStr (jar_type_name r))).

(** JarContentsChange, jardiff.py:290-418: the events of the two opened archives
    (the chunk size is ziputils._CHUNKSIZE); all are collected, in the order of
    the types, before the first is checked *)
Definition jar_events (l r : jar) : res (Zip_Model.archive * Zip_Model.archive * list (Zip_Model.event * str)) :=
  a <- l ;; b <- r ;;
  match Zip_Model.compare_zips text order Zip_Model.CHUNKSIZE a b with
  | (_, Some e) => Err e
  | (evs, None) => Ok (a, b, evs)
  end.
Definition jar_entries (l r : jar) : list change :=
  match jar_events l r with
  | Err _ => []
  | Ok (a, b, evs) => iterate_by_type (fun c => k_name (k_of c)) (map (jar_event a b) evs) jar_types
  end.
Definition contents_cls (name : String.string) (raises : option exn) : cls :=
  mkcls (lit name) (lit "JAR Contents") false false false None never true CheckParts true false true raises None None [] no_data no_data.
Definition jar_contents (l r : jar) : change :=
  Node (contents_cls "JarContentsChange" (match jar_events l r with Err e => Some e | Ok _ => None end))
       false None [] (jar_entries l r).

(** JarChange, jardiff.py:421-427 *)
Definition jar_change (l r : jar) : change := super "JarChange" "JAR" None None [jar_type l r; jar_contents l r].

(** cli_jars_diff without --report, jardiff.py:519-545: the exit status (what is
    written to standard output is in Change_Model) *)
Definition jardiff (o : options) (l r : jar) : res Z := c <- check (jar_change l r) ;; exit_status o c.

(** ** With --report *)
(** jardiff.py:450-460: a changed JarClassChange is replaced by a JarClassReport
    (167-184).  Here is how it is checked; the reports written are in
    Report_Model. *)
Definition is_class_report (c : change) : bool := seqb (k_name (k_of c)) (lit "JarClassChange") && is_change c.
(** The same change as an instance of a subclass with another name *)
Definition named (n : String.string) (c : change) : change :=
  let 'Node k chg d cs im := c in
  Node (mkcls (lit n) (k_label k) (k_always k) (k_addition k) (k_removal k) (k_text k) (k_own k) (k_parts k) (k_check k)
          (k_super k) (k_gate k) (k_incheck k) (k_raises k) (k_entry k) (k_orig k) (k_refs k) (k_old k) (k_new k)) chg d cs im.
(** JarContentsReport.check_impl, jardiff.py:463-486: [squash] after each check *)
Definition report_entry (o : options) (c : change) : res change :=
  c' <- check c ;; if is_class_report c then squash (named "JarClassReport" c') false (Some o) else Ok c'.
(** The JarReport (jardiff.py:484-503) after check, with the JarTypeChange and
    the sub-changes of the JarContentsReport *)
Definition jar_report_node (l r : jar) (t : change) (ks : list change) : change :=
  let c := Node (contents_cls "JarContentsReport" None) (existsb is_change ks) None ks (jar_entries l r) in
  Node (mkcls (lit "JarReport") (lit "JAR") false false false None never true CheckParts true false false None None None [] no_data no_data)
    (existsb is_change [t; c]) None [t; c] [jar_type l r; jar_contents l r].
(** JarReport.check, jardiff.py:489-514, up to reporter.run *)
Definition jar_report_check (o : options) (l r : jar) : res change :=
  t <- check (jar_type l r) ;;
  kids <- collect_in (jar_contents l r) ;;
  ks <- mapM (report_entry o) kids ;;
  Ok (jar_report_node l r t ks).
(** cli_jars_diff with --report: the exit status *)
Definition jardiff_report (o : options) (l r : jar) : res Z := c <- jar_report_check o l r ;; exit_status o c.
End Jardiff.

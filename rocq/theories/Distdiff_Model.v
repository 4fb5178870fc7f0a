(** Model of /repo/javatools/distdiff.py: for two directory trees, the tree of
    change objects that distdiff builds, its check, and the exit status; and the
    sequential check of DistReport.  The parallel one is in Parallel_Model.v. *)
From Verif Require Import Base Pack_Model ConstPool_Model ClassFile_Model Manifest_Model
  Change_Model Classdiff_Model Jardiff_Model.
From Verif Require Zip_Model Dir_Model.

(** ** Files by name *)

(** The components of a relative path name, without "." and empty ones *)
Fixpoint split_at (sep : Z) (s : str) : list str :=
  match s with
  | [] => [[]]
  | c :: s' => match split_at sep s' with
               | x :: xs => if c =? sep then [] :: x :: xs else (c :: x) :: xs
               | [] => [[]]
               end
  end.
Definition components (name : str) : list str :=
  filter (fun x => negb (seqb x []) && negb (seqb x [46])) (split_at 47 name).
Fixpoint lookup (n : Zip_Model.node) (p : list str) : option Zip_Model.node :=
  match p with
  | [] => Some n
  | k :: p' => match n with
               | Zip_Model.Dir _ kids => match Dir_Model.kid k kids with Some m => lookup m p' | None => None end
               | _ => None
               end
  end.
(** open(join(dir, entry)) and read(), distdiff.py:86-99: of a regular file.
    What is not one fails to open (the kind of the exception is not modelled). *)
Definition read_file (dir : Zip_Model.node) (entry : str) : res bytes :=
  match lookup dir (components entry) with Some (Zip_Model.File _ d _) => Ok d | _ => Err FileNotFoundError end.

(** ** Lines of text *)

(** Iteration over a text file: lines with their newline *)
Fixpoint text_lines (t : str) : list str :=
  match t with
  | [] => []
  | c :: t' =>
      if c =? 10 then [c] :: text_lines t'
      else match text_lines t' with [] => [[c]] | l :: ls => (c :: l) :: ls end
  end.
(** str.isspace of a character (Unicode 13) *)
Definition is_space (c : Z) : bool :=
  ((9 <=? c) && (c <=? 13)) || ((28 <=? c) && (c <=? 32)) || (c =? 133) || (c =? 160) || (c =? 5760) ||
  ((8192 <=? c) && (c <=? 8202)) || (c =? 8232) || (c =? 8233) || (c =? 8239) || (c =? 8287) || (c =? 12288).
(** str.rstrip() *)
Fixpoint rstrip (s : str) : str :=
  match s with
  | [] => []
  | c :: s' => match rstrip s' with [] => if is_space c then [] else [c] | r => c :: r end
  end.
(** distdiff.py:145-153: the loop over zip_longest(lfd, rfd, fillvalue="") *)
Fixpoint same_stripped (l r : list str) : bool :=
  match l, r with
  | a :: l', b :: r' => seqb (rstrip a) (rstrip b) && same_stripped l' r'
  | [], _ => forallb (fun b => seqb [] (rstrip b)) r
  | _, [] => forallb (fun a => seqb (rstrip a) []) l
  end.

(** jarinfo.py:51-57 *)
Definition JAR_PATTERNS : list str := [lit "*.ear"; lit "*.jar"; lit "*.rar"; lit "*.sar"; lit "*.war"].
(** distdiff.py:61-73 *)
Definition TEXT_PATTERNS : list str :=
  [lit "*.bat"; lit "*.cert"; lit "*.cfg"; lit "*.conf"; lit "*.dtd"; lit "*.html"; lit "*.ini"; lit "*.properties"; lit "*.sh"; lit "*.text"; lit "*.txt"; lit "*.xml"].

Section Distdiff.
(** As in Jardiff_Model. *)
Variable fmt : pyval -> str.
Variable reprs : str -> str.
Variable ffmt : pyval -> str.
Variable text : bytes -> res str.
Variable order : list str -> list str.
Variable up : Z -> str.
(** zip_file(path), ziputils.py:304-317, for a regular file with this content *)
Variable unzip : bytes -> jar.

(** ** Entries *)
(** A DistContentChange or subclass, distdiff.py:76-117: built like a
    JarContentChange *)
Definition dist_node := jar_node.
(** DistContentChange.is_ignored, distdiff.py:115-117: the part decided by name *)
Definition dist_own (entry : str) (o : options) : bool := fnmatches entry (ignore_filenames o).

Section Dirs.
Variables left right : Zip_Model.node.

(** Both contents *)
Definition both (entry : str) : res (bytes * bytes) := l <- read_file left entry ;; r <- read_file right entry ;; Ok (l, r).
(** DistClassChange.collect_impl, distdiff.py:243-248 *)
Definition dist_class_sub (entry : str) : res change :=
  l <- read_file left entry ;; a <- unpack_class l MNone ;;
  r <- read_file right entry ;; b <- unpack_class r MNone ;;
  Ok (class_change fmt reprs ffmt a b).
(** DistManifestChange.collect_impl, distdiff.py:186-193 *)
Definition dist_manifest_sub (entry : str) : res change :=
  l <- read_file left entry ;; a <- man_parse (new_manifest None) l ;;
  r <- read_file right entry ;; b <- man_parse (new_manifest None) r ;;
  Ok (manifest_change order a b).
(** DistJarChange.collect_impl, distdiff.py:201-203: the files are opened by the
    check of the JarChange *)
Definition dist_jar_sub (entry : str) : res change :=
  '(l, r) <- both entry ;; Ok (jar_change fmt reprs ffmt text order up (unzip l) (unzip r)).
(** DistTextChange, distdiff.py:134-175: not gated by is_change().  check()
    reads both files by lines, collect_impl reads them as a whole; where decoding
    fails, both fail.  [lineending] is decided by check() alone; the children by
    collect_impl. *)
Definition texts (entry : str) : res (str * str) :=
  '(l, r) <- both entry ;; a <- text l ;; b <- text r ;; Ok (a, b).
Definition text_change (a b : str) : change :=
  leaf_text "GenericChange" "Generic Change" never (Ok a) (Ok b) (pure2 seqb) (Ok a) (Ok b) (Ok (OStr a)) (Ok (OStr b)).
Definition dist_text (changed : bool) (entry : str) : change :=
  let lineending := match texts entry with Ok (a, b) => same_stripped (text_lines a) (text_lines b) | Err _ => false end in
  Node (mkcls (lit "DistTextChange") (lit "Distributed Text") false false false
          (Some (fun b : bool => Ok (lit "Distributed Text" ++ (if b then lit " has changed: " else lit " is unchanged: ") ++ entry)))
          (fun o => dist_own entry o || (lineending && ignore_trailing_whitespace o)) true CheckParts true false false
          (match texts entry with Err e => Some e | Ok _ => None end) (Some entry) None [] no_data no_data)
       changed None [] (match texts entry with Ok (a, b) => if seqb a b then [] else [text_change a b] | Err _ => [] end).

(** DistContentRemoved, DistJarRemoved, ..., distdiff.py:120-131, 227-234, 271-278 *)
Definition dist_removed (name label : String.string) (entry : str) : change :=
  dist_node (lit name) (lit label) true false true (dist_own entry) true true None entry.
Definition dist_added (name label : String.string) (entry : str) : change :=
  dist_node (lit name) (lit label) true true false (dist_own entry) true true None entry.

(** distdiff.py:320-371: the change for an event of compare *)
Definition dist_event (shallow : bool) (ev : Zip_Model.event * str) : change :=
  let '(event, entry) := ev in
  let d := match event with Zip_Model.DIFF => true | _ => false end in
  let is ps := negb shallow && fnmatches entry ps in
  let gone := match event with Zip_Model.LEFT => true | _ => false end in
  let new := match event with Zip_Model.RIGHT => true | _ => false end in
  if is JAR_PATTERNS then
    if gone then dist_removed "DistJarRemoved" "Distributed JAR Removed" entry
    else if new then dist_added "DistJarAdded" "Distributed JAR Added" entry
    else dist_node (lit "DistJarChange") (lit "Distributed JAR") false false false (dist_own entry) true d (Some (dist_jar_sub entry)) entry
  else if is [lit "*.class"] then
    if gone then dist_removed "DistClassRemoved" "Distributed Java Class Removed" entry
    else if new then dist_added "DistClassAdded" "Distributed Java Class Added" entry
    else dist_node (lit "DistClassChange") (lit "Distributed Java Class") false false false (dist_own entry) true d (Some (dist_class_sub entry)) entry
  else if gone then dist_removed "DistContentRemoved" "Distributed Content Removed" entry
  else if new then dist_added "DistContentAdded" "Distributed Content Added" entry
  else if is TEXT_PATTERNS then dist_text d entry
  else if is [lit "*/MANIFEST.MF"] then
    dist_node (lit "DistManifestChange") (lit "Distributed Manifest") false false false (dist_own entry) true d (Some (dist_manifest_sub entry)) entry
  else dist_node (lit "DistContentChange") (lit "Distributed Content") false false false (dist_own entry) true d None entry.

(** distdiff.py:300-310 *)
Definition dist_types : list str := [
  lit "DistClassAdded"; lit "DistClassRemoved"; lit "DistClassChange"; lit "DistJarAdded"; lit "DistJarRemoved"; lit "DistJarChange";
  lit "DistTextChange"; lit "DistManifestChange"; lit "DistContentAdded"; lit "DistContentRemoved"; lit "DistContentChange"].
(** The events in the order of the types of their changes, distdiff.py:300-320 *)
Definition dist_events (shallow : bool) : res (list (Zip_Model.event * str)) :=
  match Dir_Model.dir_compare left right with
  | (_, Some e) => Err e
  | (evs, None) => Ok (iterate_by_type (fun ev => k_name (k_of (dist_event shallow ev))) evs dist_types)
  end.
(** DistChange, distdiff.py:281-297; the names of the directories in the
    description are left out *)
Definition dist_change (shallow : bool) : change :=
  super "DistChange" "Distribution" (Some (fun b : bool => Ok (lit "Distribution" ++ (if b then lit " changed" else lit " unchanged"))))
    (match dist_events shallow with Err e => Some e | Ok _ => None end)
    (match dist_events shallow with Ok evs => map (dist_event shallow) evs | Err _ => [] end).

(** cli_dist_diff without --report, distdiff.py:558-585: the exit status *)
Definition distdiff (o : options) (shallow : bool) : res Z := c <- check (dist_change shallow) ;; exit_status o c.

(** ** With --report *)
(** DistReport.collect_impl, distdiff.py:392-410: which events get a DistJarReport
    or a DistClassReport *)
Definition is_report (shallow : bool) (ev : Zip_Model.event * str) : bool :=
  let n := k_name (k_of (dist_event shallow ev)) in
  (seqb n (lit "DistJarChange") || seqb n (lit "DistClassChange")) && is_change (dist_event shallow ev).
(** check() of a DistJarReport (distdiff.py:206-224: the child is a JarReport) or
    a DistClassReport (251-268: a JavaClassReport, which is checked like a
    JavaClassChange); writing the reports is not modelled *)
Definition report_check (o : options) (shallow : bool) (ev : Zip_Model.event * str) : res change :=
  if seqb (k_name (k_of (dist_event shallow ev))) (lit "DistJarChange") then
    '(l, r) <- both (snd ev) ;;
    j <- jar_report_check fmt reprs ffmt text order up o (unzip l) (unzip r) ;;
    let 'Node k _ _ _ im := dist_event shallow ev in Ok (Node k (is_change j) None [j] im)
  else check (dist_event shallow ev).
(** The class of the report, distdiff.py:206, 251 *)
Definition report_class (shallow : bool) (ev : Zip_Model.event * str) : String.string :=
  if seqb (k_name (k_of (dist_event shallow ev))) (lit "DistJarChange") then "DistJarReport" else "DistClassReport".
(** The work on a report: check, then squash (distdiff.py:501-509, 536-546) *)
Definition report_task (o : options) (shallow : bool) (ev : Zip_Model.event * str) : res change :=
  c <- report_check o shallow ev ;; squash (named (report_class shallow ev) c) false (Some o).
(** DistReport.check_impl without processes, distdiff.py:494-516 *)
Definition sequential_check (o : options) (shallow : bool) : res (list change) :=
  evs <- dist_events shallow ;;
  mapM (fun ev => if is_report shallow ev then report_task o shallow ev else check (dist_event shallow ev)) evs.
(** The DistReport (distdiff.py:368) after check, with the given sub-changes *)
Definition dist_report (shallow : bool) (ks : list change) : change :=
  let 'Node k _ _ _ im := dist_change shallow in named "DistReport" (Node k (existsb is_change ks) None ks im).
(** cli_dist_diff with --report and --processes=0: the exit status *)
Definition distdiff_report (o : options) (shallow : bool) : res Z :=
  ks <- sequential_check o shallow ;; exit_status o (dist_report shallow ks).
End Dirs.
End Distdiff.

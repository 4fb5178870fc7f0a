(** Model of the command line tools jarinfo and distinfo (jarinfo.py:178-340,
    distinfo.py:203-290) and of ziputils.is_zipstream.  The output is a text, or for
    --json the data handed to json.dump. *)
From Verif Require Import Base Pack_Model ConstPool_Model ClassFile_Model Manifest_Model Sign_Model Glob_Model Zip_Model Jardiff_Model Info_Model Print_Model.

(** [sorted] of the items of a dict, jarinfo.py:187, 190, 193: the keys are
    distinct, so that only they are compared *)
Fixpoint insert_item {V} (x : str * V) (l : dict V) : dict V :=
  match l with [] => [x] | y :: l' => if sle (fst x) (fst y) then x :: l else y :: insert_item x l' end.
Definition sorted_items {V} (d : dict V) : dict V := fold_right insert_item [] d.
(** print("  %s: %s" % (k, v)), jarinfo.py:187-188, 193-194 *)
Definition pair_lines (d : dict str) : str :=
  concat (map (fun kv => line (lit "  " ++ fst kv ++ lit ": " ++ snd kv)) (sorted_items d)).
(** cli_jar_manifest_info, jarinfo.py:178-196, of the manifest; a Manifest is false
    if its main section has no entries *)
Definition manifest_text (m : manifest) : str :=
  match m_main m with
  | [] => line (lit "Manifest not present.") ++ line []
  | _ =>
      line (lit "Manifest main section:") ++ pair_lines (m_main m) ++
      concat (map (fun ns => line [] ++ line (lit "Manifest sub-section:") ++ pair_lines (snd ns)) (sorted_items (m_subs m))) ++
      line []
  end.
(** ZipFile(jarfile), manifest.py:362: the entries; a directory is not accepted (the
    exception is really IsADirectoryError) *)
Definition zip_of (a : archive) : res zip :=
  match a_kind a with
  | Zip => Ok (map (fun e => (e_name e, e_data e)) (a_entries a))
  | Exploded => Err FileNotFoundError
  end.
(** JarInfo.get_manifest, jarinfo.py:166-169; the file is opened anew *)
Definition jar_manifest (j : jar) : res manifest :=
  a <- j ;; z <- zip_of a ;; load_from_jar (new_manifest None) z.

(** The options of add_jarinfo_optgroup, --json, jarinfo.py:301-331, and those of
    classinfo *)
Record jopts := mkjopts { jo_zip : bool; jo_manifest : bool; jo_provides : bool; jo_requires : bool; jo_classes : bool; jo_json : bool; jo_class : popts }.

(** The values of the data handed to dump *)
Inductive jvalue :=
| VSymbols (kind : str) (d : dict (list str))   (* symbol -> [[kind, entry], ...] *)
| VSources (d : dict (list source))             (* symbol -> [[kind, entry, data] or [kind, entry], ...] *)
| VName (s : str)
| VCount (n : Z)
| VPercent (comp uncomp : Z).                   (* (float(comp) / float(uncomp)) * 100 *)
Definition doc := list (str * jvalue).
Inductive output := OText (s : str) | OJson (d : doc).

Section Jinfo.
Variable fmt : pyval -> str.
Variable repr : pyval -> str.
Variable reprs : str -> str.
Variable ffmt : pyval -> str.
Variable text : bytes -> res str.
Variable order : list str -> list str.
(** "%0.1f" % ((float(comp) / float(uncomp)) * 100) *)
Variable percent : Z -> Z -> str.

(** cli_jar_manifest_info, jarinfo.py:178-196 *)
Definition print_manifest (j : jar) : res str := m <- jar_manifest j ;; Ok (manifest_text m).
(** cli_jar_zip_info, jarinfo.py:199-208 *)
Definition print_zip (j : jar) : res str :=
  a <- j ;; x <- jar_zip_info a ;;
  let '(files, dirs, comp, uncomp) := x in
  Ok (line (lit "Contains " ++ dec files ++ lit " files, " ++ dec dirs ++ lit " directories") ++
      line (lit "Uncompressed size is " ++ dec uncomp) ++
      line (lit "Compressed size is " ++ dec comp ++ lit " (" ++ percent comp uncomp ++ lit "%)") ++ line []).
(** cli_jar_classes, jarinfo.py:211-216; print puts a blank between its arguments *)
Fixpoint class_entries (o : popts) (a : archive) (es : list str) : res str :=
  match es with
  | [] => Ok []
  | e :: es' =>
      c <- jar_classinfo text a e ;; s <- print_classinfo fmt repr reprs ffmt order o c ;; rest <- class_entries o a es' ;;
      Ok (line (lit "Entry:  " ++ e) ++ s ++ line [] ++ rest)
  end.
Definition print_classes (o : popts) (j : jar) : res str := a <- j ;; es <- jar_classes a ;; class_entries o a es.
(** cli_jar_provides, cli_jar_requires, jarinfo.py:219-234 *)
Definition symbol_lines (title : String.string) (syms : list str) : str :=
  line (lit title) ++ concat (map (fun s => line (lit "  " ++ s)) syms) ++ line [].
Definition print_jar_provides (ignore : list str) (j : jar) : res str :=
  d <- jar_provides fmt repr text order j [] ;; Ok (symbol_lines "jar provides:" (filter (not_ignored ignore) (sort_names (dkeys d)))).
Definition print_jar_requires (ignore : list str) (j : jar) : res str :=
  d <- jar_requires fmt repr text order j [] ;; Ok (symbol_lines "jar requires:" (filter (not_ignored ignore) (sort_names (dkeys d)))).
Definition wanted (b : bool) (x : res str) : res str := if b then x else Ok [].
(** cli_jarinfo, jarinfo.py:237-251 *)
Definition print_jar (o : jopts) (j : jar) : res str :=
  z <- wanted (jo_zip o) (print_zip j) ;; m <- wanted (jo_manifest o) (print_manifest j) ;;
  p <- wanted (jo_provides o) (print_jar_provides (o_api_ignore (jo_class o)) j) ;;
  r <- wanted (jo_requires o) (print_jar_requires (o_api_ignore (jo_class o)) j) ;;
  c <- wanted (jo_classes o) (print_classes (jo_class o) j) ;;
  Ok (z ++ m ++ p ++ r ++ c).
Definition kind_name (a : archive) : str := match a_kind a with Zip => lit "ZipFile" | Exploded => lit "ExplodedZipFile" end.
Definition some_data (b : bool) (x : res doc) : res doc := if b then x else Ok [].
(** cli_jarinfo_json, jarinfo.py:254-275; data before it is sorted by dump *)
Definition json_jar (o : jopts) (j : jar) : res doc :=
  let ignore := o_api_ignore (jo_class o) in
  p <- some_data (jo_provides o) (d <- jar_provides fmt repr text order j ignore ;; Ok [(lit "jar.provides", VSymbols (lit "class.provides") d)]) ;;
  r <- some_data (jo_requires o) (d <- jar_requires fmt repr text order j ignore ;; Ok [(lit "jar.requires", VSymbols (lit "class.requires") d)]) ;;
  z <- some_data (jo_zip o) (
    a <- j ;; x <- jar_zip_info a ;;
    let '(files, dirs, comp, uncomp) := x in
    Ok [(lit "zip.type", VName (kind_name a)); (lit "zip.file_count", VCount files); (lit "zip.dir_count", VCount dirs);
        (lit "zip.uncompressed_size", VCount uncomp); (lit "zip.compressed_size", VCount comp); (lit "zip.compress_percent", VPercent comp uncomp)]) ;;
  Ok (p ++ r ++ z).
(** The start of cli, jarinfo.py:278-289: what verbose implies, and indent *)
Definition jar_options (o : jopts) : jopts :=
  mkjopts (jo_zip o || o_verbose (jo_class o)) (jo_manifest o) (jo_provides o) (jo_requires o) (jo_classes o) (jo_json o) (cli_options (jo_class o)).
(** cli, jarinfo.py:278-298: status and output.  [open] is zip_file of a path, made
    when first needed (a path that is no archive goes unnoticed if nothing is asked
    of it). *)
Definition jarinfo_cli (open : str -> jar) (o : jopts) (files : list str) : res (Z * list output) :=
  let o' := jar_options o in
  outs <- mapM (fun f => if jo_json o' then d <- json_jar o' (open f) ;; Ok (OJson d) else s <- print_jar o' (open f) ;; Ok (OText s)) files ;;
  Ok (0, outs).

(** ** distinfo *)
Variable unzip : bytes -> jar.
(** The options of distinfo, distinfo.py:258-283: its own, and all those of jarinfo
    and classinfo *)
Record dopts := mkdopts { do_provides : bool; do_requires : bool; do_jar : jopts }.
(** cli_dist_provides, cli_dist_requires, distinfo.py:203-216 *)
Definition print_dist_provides (ignore : list str) (d : dist) : res str :=
  x <- dist_provides fmt repr text order unzip d ignore ;; Ok (symbol_lines "distribution provides:" (sort_names (dkeys x))).
Definition print_dist_requires (ignore : list str) (d : dist) : res str :=
  x <- dist_requires fmt repr text order unzip d ignore ;; Ok (symbol_lines "distribution requires:" (sort_names (dkeys x))).
(** cli_distinfo, distinfo.py:219-227 *)
Definition print_dist (o : dopts) (d : dist) : res str :=
  let ignore := o_api_ignore (jo_class (do_jar o)) in
  p <- wanted (do_provides o) (print_dist_provides ignore d) ;; r <- wanted (do_requires o) (print_dist_requires ignore d) ;; Ok (p ++ r).
(** cli_distinfo_json, distinfo.py:230-239 *)
Definition json_dist (o : dopts) (d : dist) : res doc :=
  let ignore := o_api_ignore (jo_class (do_jar o)) in
  p <- some_data (do_provides o) (x <- dist_provides fmt repr text order unzip d ignore ;; Ok [(lit "dist.provides", VSources x)]) ;;
  r <- some_data (do_requires o) (x <- dist_requires fmt repr text order unzip d ignore ;; Ok [(lit "dist.requires", VSources x)]) ;;
  Ok (p ++ r).
(** cli, distinfo.py:242-255 *)
Definition distinfo_cli (o : dopts) (d : dist) : res (Z * output) :=
  if jo_json (do_jar o) then x <- json_dist o d ;; Ok (0, OJson x) else s <- print_dist o d ;; Ok (0, OText s).
End Jinfo.

(** ** is_zipstream *)

(** What can be passed: str, memoryview ([buffer] in Python 3, ziputils.py:40-43),
    bytes, a stream with or without tell and seek, anything else *)
Record stream := mkstream { s_data : bytes; s_pos : Z; s_tell : bool; s_seek : bool }.
Inductive zarg := ZStr (s : str) | ZView (b : bytes) | ZBytes (b : bytes) | ZStream (s : stream) | ZOther.
Section Zipstream.
(** zipfile._EndRecData of content and position: the result, false or true or an
    OSError or another exception, and the position it leaves *)
Inductive found := FYes | FNo | FOSError | FOther (e : exn).
Variable end_rec : bytes -> Z -> found * Z.
(** is_zipstream, ziputils.py:181-212: the result, and the stream afterwards *)
Definition test_stream (s : stream) : res bool * stream :=
  let tell := if s_tell s then s_pos s else 0 in
  let '(f, pos) := end_rec (s_data s) (s_pos s) in
  let back := mkstream (s_data s) (if s_seek s then tell else pos) (s_tell s) (s_seek s) in
  match f with
  | FYes => (Ok true, back)
  | FNo | FOSError => (Ok false, back)
  | FOther e => (Err e, mkstream (s_data s) pos (s_tell s) (s_seek s))
  end.
Definition is_zipstream (d : zarg) : res bool * zarg :=
  match d with
  | ZStr _ => (Err TypeError, d)                (* BytesIO of a str *)
  | ZView b => (fst (test_stream (mkstream b 0 true true)), d)
  | ZStream s => let '(r, s') := test_stream s in (r, ZStream s')
  | ZBytes _ | ZOther => (Err TypeError, d)
  end.
End Zipstream.

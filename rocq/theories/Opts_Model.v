(** Model of the command line options of classdiff, jardiff and distdiff: the
    argparse tables (classdiff.py:985-1124, jardiff.py:554-601,
    distdiff.py:593-642, report.py:246-272, 305-312, 609-624), the callbacks, and
    the namespace that results.

    argparse itself is a library.  What is modelled of it: the namespace starts
    with the defaults; the actions run in the order of the options on the command
    line; an unknown option, a missing or a superfluous argument, or a wrong
    number of positional arguments end the program with status 2.
    Simplifications: an occurrence names the option in full (no abbreviations)
    and has its argument attached; a usage error is found before any action runs;
    the conversion type=int is left out. *)
From Verif Require Import Base Change_Model Distdiff_Model.
From Verif Require Report_Model ConstPool_Model ClassFile_Model Classdiff_Model Jardiff_Model Zip_Model.

(** ** Namespaces *)

(** Values of the attributes *)
Inductive optval := VNone | VTrue | VFalse | VStr (s : str) | VList (l : list str).
(** bool(value) *)
Definition truthy (v : optval) : bool :=
  match v with VTrue => true | VStr (_ :: _) => true | VList (_ :: _) => true | _ => false end.
Definition namespace := dict optval.
(** bool(getattr(options, name, False)) *)
Definition truth (n : namespace) (name : str) : bool :=
  match dget n name with Some v => truthy v | None => false end.

(** ** Tables *)

(** The actions; Cb... are the classes _opt_cb_... *)
Inductive action := StoreTrue | Store | Append | CbIgnore | CbLines | CbVersion | CbPlatform | CbVerbose | CbReport.
(** [nargs]: whether the action takes an argument *)
Definition takes_arg (a : action) : bool :=
  match a with Store | Append | CbIgnore | CbReport => true | _ => false end.
Record optspec := mkopt { o_strings : list str; o_dest : str; o_action : action; o_default : optval }.
(** add_argument("--x-y", ...): dest is the name with the dashes replaced *)
Definition underscores (s : str) : str := map (fun c => if c =? 45 then 95 else c) s.
Definition plain (name : String.string) (a : action) (default : optval) : optspec :=
  mkopt [lit "--" ++ lit name] (underscores (lit name)) a default.
(** action="store_true", default=False *)
Definition switch (name : String.string) : optspec := plain name StoreTrue VFalse.

(** add_general_optgroup, classdiff.py:1084-1105 *)
Definition general_optgroup : list optspec := [
  mkopt [lit "-q"; lit "--quiet"] (lit "silent") StoreTrue VFalse;
  mkopt [lit "-v"; lit "--verbose"] (lit "verbose") CbVerbose VNone;
  mkopt [lit "-o"; lit "--output"] (lit "output") Store VNone;
  mkopt [lit "-j"; lit "--json"] (lit "json") StoreTrue VFalse;
  switch "show-ignored"; switch "show-unchanged";
  plain "ignore" CbIgnore VNone ].
(** add_classdiff_optgroup, classdiff.py:985-1016 *)
Definition classdiff_optgroup : list optspec := [
  switch "ignore-version-up"; switch "ignore-version-down"; switch "ignore-platform-up"; switch "ignore-platform-down";
  switch "ignore-absolute-lines"; switch "ignore-relative-lines"; switch "ignore-deprecated"; switch "ignore-added";
  switch "ignore-pool";
  plain "ignore-lines" CbLines VNone; plain "ignore-platform" CbPlatform VNone; plain "ignore-version" CbVersion VNone ].
(** add_jardiff_optgroup, jardiff.py:554-577 *)
Definition jardiff_optgroup : list optspec := [
  plain "ignore-jar-entry" Append (VList []); switch "ignore-jar-signature"; switch "ignore-manifest";
  switch "ignore-manifest-subsections"; plain "ignore-manifest-key" Append (VList []) ].
(** add_distdiff_optgroup, distdiff.py:593-619.  [cpus] stands for the number of processors *)
Definition distdiff_optgroup : list optspec := [
  plain "processes" Store (VStr (lit "cpus")); switch "shallow"; plain "ignore-filenames" Append (VList []);
  switch "ignore-trailing-whitespace" ].
(** report.py:262-272, 305-312, 609-624 *)
Definition report_optgroups : list optspec := [
  plain "report-dir" Store VNone; plain "report" CbReport VNone; plain "json-indent" Store (VStr (lit "2"));
  mkopt [lit "--html-stylesheet"] (lit "html_stylesheets") Append (VList []);
  mkopt [lit "--html-javascript"] (lit "html_javascripts") Append (VList []);
  plain "html-copy-data" Store VNone ].
(** create_optparser, classdiff.py:1108-1124, jardiff.py:580-601, distdiff.py:622-642.
    All three take two positional arguments. *)
Definition classdiff_parser := general_optgroup ++ classdiff_optgroup ++ report_optgroups.
Definition jardiff_parser := general_optgroup ++ jardiff_optgroup ++ classdiff_optgroup ++ report_optgroups.
Definition distdiff_parser :=
  general_optgroup ++ distdiff_optgroup ++ jardiff_optgroup ++ classdiff_optgroup ++ report_optgroups.

(** ** Actions *)

(** str.strip() *)
Fixpoint lstrip (s : str) : str :=
  match s with [] => [] | c :: s' => if is_space c then lstrip s' else s end.
Definition strip (s : str) : str := rstrip (lstrip s).
(** [i.strip() for i in values.split(",")] without the empty ones, classdiff.py:1033-1034 *)
Definition ignore_words (values : str) : list str :=
  filter (fun i => negb (seqb i [])) (map strip (split_at 44 values)).
(** setattr(options, name, True) *)
Definition set_true (n : namespace) (name : str) : namespace := dset n name VTrue.

(** The actions: argparse's own, _opt_cb_ignore classdiff.py:1019-1037,
    _opt_cb_ign_lines 1040-1048, _opt_cb_ign_version 1051-1059, _opt_cb_ign_platform
    1062-1070, _opt_cb_verbose 1073-1081, _opt_cb_report report.py:246-259.
    Appending to an attribute that is no list: AttributeError. *)
Definition act (sp : optspec) (v : str) (n : namespace) : res namespace :=
  match o_action sp with
  | StoreTrue => Ok (set_true n (o_dest sp))
  | Store => Ok (dset n (o_dest sp) (VStr v))
  | Append =>
      match dget n (o_dest sp) with
      | None | Some VNone => Ok (dset n (o_dest sp) (VList [v]))
      | Some (VList l) => Ok (dset n (o_dest sp) (VList (l ++ [v])))
      | Some _ => Err AttributeError
      end
  | CbIgnore =>
      if seqb v [] then Ok n
      else
        l <- match dget n (lit "ignore") with
             | None | Some VNone => Ok [] | Some (VList l) => Ok l | Some _ => Err AttributeError
             end ;;
        let n1 := dset n (lit "ignore") (VList (l ++ ignore_words v)) in
        Ok (fold_left (fun m i => set_true m (lit "ignore_" ++ underscores i)) (ignore_words v) n1)
  | CbLines => Ok (fold_left set_true [lit "ignore_lines"; lit "ignore_absolute_lines"; lit "ignore_relative_lines"] n)
  | CbVersion => Ok (fold_left set_true [lit "ignore_version"; lit "ignore_version_up"; lit "ignore_version_down"] n)
  | CbPlatform => Ok (fold_left set_true [lit "ignore_platform"; lit "ignore_platform_up"; lit "ignore_platform_down"] n)
  | CbVerbose => Ok (fold_left set_true [lit "verbose"; lit "show_unchanged"; lit "show_ignored"] n)
  | CbReport =>
      match dget n (lit "reports") with
      | None => Ok (dset n (lit "reports") (VList (Report_Model.add_report_option [] v)))
      | Some (VList l) => Ok (dset n (lit "reports") (VList (Report_Model.add_report_option l v)))
      | Some _ => Err AttributeError
      end
  end.

(** ** Parsing *)

(** An option on the command line, with its argument *)
Definition occurrence := (str * option str)%type.
Definition find_opt (p : list optspec) (s : str) : option optspec := find (fun sp => smem s (o_strings sp)) p.
Definition usable (p : list optspec) (o : occurrence) : bool :=
  match find_opt p (fst o) with
  | None => false
  | Some sp => Bool.eqb (takes_arg (o_action sp)) (match snd o with Some _ => true | None => false end)
  end.
Definition step (p : list optspec) (o : occurrence) (n : namespace) : res namespace :=
  match find_opt p (fst o) with
  | None => Ok n
  | Some sp => act sp (match snd o with Some v => v | None => [] end) n
  end.
Fixpoint steps (p : list optspec) (os : list occurrence) (n : namespace) : res namespace :=
  match os with [] => Ok n | o :: os' => n' <- step p o n ;; steps p os' n' end.
(** The defaults, for each dest the first one *)
Definition defaults (p : list optspec) : namespace :=
  fold_left (fun n sp => if dhas n (o_dest sp) then n else dset n (o_dest sp) (o_default sp)) p [].

(** parse_args ends with a namespace, with SystemExit, or with another exception *)
Inductive parsed := Parsed (n : namespace) | Exits (status : Z) | Raises (e : exn).
(** parser.parse_args, with the number of positional arguments given *)
Definition parse_args (p : list optspec) (positionals : nat) (os : list occurrence) : parsed :=
  if negb (forallb (usable p) os && (positionals =? 2)%nat) then Exits 2
  else match steps p os (defaults p) with Ok n => Parsed n | Err e => Raises e end.

(** default_classdiff_options, default_jardiff_options, classdiff.py:1127-1142,
    jardiff.py:604-619: parse_args of an empty list, whose result is taken apart
    into two (a namespace is not iterable) and updated by a method
    _update_careful that namespaces do not have. *)
Definition default_options (p : list optspec) (updates : bool) : parsed :=
  match parse_args p 0 [] with
  | Parsed n => Raises TypeError
  | r => r
  end.
(** default_distdiff_options, distdiff.py:645-660: without taking apart *)
Definition default_distdiff_options (updates : bool) : parsed :=
  match parse_args distdiff_parser 0 [] with
  | Parsed n => if updates then Raises AttributeError else Parsed n
  | r => r
  end.

(** ** What the comparison reads *)

(** An attribute used as a sequence of patterns or keys: jardiff.py:116-118,
    distdiff.py:77-79 ([fnmatches(entry, *options.ignore_jar_entry)]),
    manifest.py:144, 192 ([set(getattr(...))]): True is not iterable.
    Simplification: raised when the options are read, not only when an entry of
    that kind is met. *)
Definition as_list (n : namespace) (name : str) : res (list str) :=
  match dget n name with
  | None => Ok []
  | Some (VList l) => Ok l
  | Some (VStr s) => Ok (map (fun c => [c]) s)
  | Some _ => Err TypeError
  end.
(** The options record of Change_Model.v as seen through the namespace *)
Definition options_of (n : namespace) : res options :=
  je <- as_list n (lit "ignore_jar_entry") ;;
  mk <- as_list n (lit "ignore_manifest_key") ;;
  fs <- as_list n (lit "ignore_filenames") ;;
  let t := truth n in
  Ok (mkopts (t (lit "show_unchanged")) (t (lit "show_ignored"))
        (t (lit "ignore_version_up")) (t (lit "ignore_version_down"))
        (t (lit "ignore_platform_up")) (t (lit "ignore_platform_down"))
        (t (lit "ignore_absolute_lines")) (t (lit "ignore_relative_lines"))
        (t (lit "ignore_deprecated")) (t (lit "ignore_added")) (t (lit "ignore_pool")) (t (lit "ignore_lines"))
        je (t (lit "ignore_jar_signature")) (t (lit "ignore_manifest")) (t (lit "ignore_manifest_subsections"))
        mk fs (t (lit "ignore_trailing_whitespace"))).

(** ** The programs *)

(** main: a returned exit status, SystemExit from the parser, or an exception *)
Inductive ending := Returns (status : Z) | SystemExit (status : Z) | Fails (e : exn).
(** main of classdiff.py:1145-1151, jardiff.py:622-628, distdiff.py:663-669, from
    the parsed options to the comparison.  What is written before the end (unless
    --quiet) and --report are in Change_Model and Report_Model. *)
Definition main (p : list optspec) (positionals : nat) (os : list occurrence) (compare : namespace -> options -> res Z) : ending :=
  match parse_args p positionals os with
  | Parsed n => match (o <- options_of n ;; compare n o) with Ok z => Returns z | Err e => Fails e end
  | Exits z => SystemExit z
  | Raises e => Fails e
  end.
Section Mains.
(** As in Distdiff_Model. *)
Variable fmt : ConstPool_Model.pyval -> str.
Variable reprs : str -> str.
Variable ffmt : ConstPool_Model.pyval -> str.
Variable text : bytes -> res str.
Variable order : list str -> list str.
Variable up : Z -> str.
Variable unzip : bytes -> Jardiff_Model.jar.
(** classdiff.py:977-982, 1145-1151: of two readable class files *)
Definition classdiff_main (k : nat) (os : list occurrence) (l r : ClassFile_Model.classinfo) : ending :=
  main classdiff_parser k os (fun _ o => Classdiff_Model.classdiff fmt reprs ffmt o l r).
(** jardiff.py:548-551, 622-628 *)
Definition jardiff_main (k : nat) (os : list occurrence) (l r : Jardiff_Model.jar) : ending :=
  main jardiff_parser k os (fun _ o => Jardiff_Model.jardiff fmt reprs ffmt text order up o l r).
(** distdiff.py:588-590, 663-669: of two directories; options.shallow at 572 *)
Definition distdiff_main (k : nat) (os : list occurrence) (l r : Zip_Model.node) : ending :=
  main distdiff_parser k os (fun n o => distdiff fmt reprs ffmt text order up unzip l r o (truth n (lit "shallow"))).
End Mains.

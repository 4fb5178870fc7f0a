(** What the options of classdiff, jardiff and distdiff mean, written without the
    tables and callbacks. *)
From Verif Require Import Base Change_Model Opts_Model.
From Verif Require Distdiff_Spec Report_Spec.

(** [w] is a word of the comma separated list [v]: a field less the space
    around it, and not empty *)
Definition spaces (s : str) : Prop := Forall Distdiff_Spec.white s.
Definition word_of (v w : str) : Prop :=
  exists pre post, Report_Spec.field v (pre ++ w ++ post) /\ spaces pre /\ spaces post /\ w <> [] /\ (forall c w', w = c :: w' -> ~ Distdiff_Spec.white c) /\ (forall c w', w = w' ++ [c] -> ~ Distdiff_Spec.white c).

(** The dashes of an option become underscores in the name of the attribute *)
Definition attribute_of (s f : str) : Prop :=
  Forall2 (fun c d => (c = 45 /\ d = 95) \/ (c <> 45 /\ d = c)) s f.

(** An option on the command line asks for the attribute [f] *)
Inductive asks : occurrence -> str -> Prop :=
| asks_itself s f : attribute_of s f -> asks (lit "--" ++ s, None) f
| asks_lines f : In f [lit "ignore_absolute_lines"; lit "ignore_relative_lines"] -> asks (lit "--ignore-lines", None) f
| asks_version f : In f [lit "ignore_version_up"; lit "ignore_version_down"] -> asks (lit "--ignore-version", None) f
| asks_platform f : In f [lit "ignore_platform_up"; lit "ignore_platform_down"] -> asks (lit "--ignore-platform", None) f
| asks_verbose s f : In s [lit "-v"; lit "--verbose"] -> In f [lit "show_unchanged"; lit "show_ignored"] -> asks (s, None) f
| asks_ignore v w g : word_of v w -> attribute_of w g -> asks (lit "--ignore", Some v) (lit "ignore_" ++ g).

(** The on/off options that the comparison of classes reads, with the fields of
    the options record; and those which jardiff and distdiff have in addition *)
Definition class_flags : list (str * (options -> bool)) := [
  (lit "show_unchanged", show_unchanged); (lit "show_ignored", show_ignored);
  (lit "ignore_version_up", ignore_version_up); (lit "ignore_version_down", ignore_version_down);
  (lit "ignore_platform_up", ignore_platform_up); (lit "ignore_platform_down", ignore_platform_down);
  (lit "ignore_absolute_lines", ignore_absolute_lines); (lit "ignore_relative_lines", ignore_relative_lines);
  (lit "ignore_deprecated", ignore_deprecated); (lit "ignore_added", ignore_added); (lit "ignore_pool", ignore_pool);
  (lit "ignore_lines", ignore_lines)].
Definition jar_flags : list (str * (options -> bool)) := [
  (lit "ignore_jar_signature", ignore_jar_signature); (lit "ignore_manifest", ignore_manifest);
  (lit "ignore_manifest_subsections", ignore_manifest_subsections)].
Definition dist_flags : list (str * (options -> bool)) := [
  (lit "ignore_trailing_whitespace", ignore_trailing_whitespace)].
(** The options that collect patterns or keys *)
Definition jar_lists : list (str * (options -> list str)) := [
  (lit "ignore_jar_entry", ignore_jar_entry); (lit "ignore_manifest_key", ignore_manifest_key)].
Definition dist_lists : list (str * (options -> list str)) := [(lit "ignore_filenames", ignore_filenames)].

(** The three programs, with what they offer *)
Inductive program := Classdiff | Jardiff | Distdiff.
Definition parser_of (p : program) : list optspec :=
  match p with Classdiff => classdiff_parser | Jardiff => jardiff_parser | Distdiff => distdiff_parser end.
Definition flags_of (p : program) : list (str * (options -> bool)) :=
  match p with Classdiff => class_flags | Jardiff => class_flags ++ jar_flags | Distdiff => class_flags ++ jar_flags ++ dist_flags end.
Definition lists_of (p : program) : list (str * (options -> list str)) :=
  match p with Classdiff => [] | Jardiff => jar_lists | Distdiff => jar_lists ++ dist_lists end.

(** The options offered, and whether they take an argument, as --help shows them *)
Definition class_offers : list (str * bool) := [
  (lit "-q", false); (lit "--quiet", false); (lit "-v", false); (lit "--verbose", false); (lit "-o", true); (lit "--output", true);
  (lit "-j", false); (lit "--json", false); (lit "--show-ignored", false); (lit "--show-unchanged", false); (lit "--ignore", true);
  (lit "--ignore-version-up", false); (lit "--ignore-version-down", false); (lit "--ignore-platform-up", false); (lit "--ignore-platform-down", false);
  (lit "--ignore-absolute-lines", false); (lit "--ignore-relative-lines", false); (lit "--ignore-deprecated", false); (lit "--ignore-added", false);
  (lit "--ignore-pool", false); (lit "--ignore-lines", false); (lit "--ignore-platform", false); (lit "--ignore-version", false);
  (lit "--report-dir", true); (lit "--report", true); (lit "--json-indent", true); (lit "--html-stylesheet", true); (lit "--html-javascript", true);
  (lit "--html-copy-data", true)].
Definition jar_offers : list (str * bool) := [
  (lit "--ignore-jar-entry", true); (lit "--ignore-jar-signature", false); (lit "--ignore-manifest", false);
  (lit "--ignore-manifest-subsections", false); (lit "--ignore-manifest-key", true)].
Definition dist_offers : list (str * bool) := [
  (lit "--processes", true); (lit "--shallow", false); (lit "--ignore-filenames", true); (lit "--ignore-trailing-whitespace", false)].
Definition offers (p : program) : list (str * bool) :=
  match p with Classdiff => class_offers | Jardiff => class_offers ++ jar_offers | Distdiff => class_offers ++ jar_offers ++ dist_offers end.
Definition offered (p : program) (oc : occurrence) : Prop :=
  In (fst oc, match snd oc with Some _ => true | None => false end) (offers p).

(** The arguments given for a collecting option, in order *)
Fixpoint given (f : str) (os : list occurrence) : list str :=
  match os with
  | [] => []
  | (s, Some v) :: os' =>
      if seqb s (lit "--" ++ map (fun c => if c =? 95 then 45 else c) f) then v :: given f os' else given f os'
  | _ :: os' => given f os'
  end.
(** No collecting option is named in a value of --ignore *)
Definition sensible (os : list occurrence) : Prop :=
  forall v w f, In (lit "--ignore", Some v) os -> word_of v w ->
    In f [lit "ignore_jar_entry"; lit "ignore_manifest_key"; lit "ignore_filenames"] -> attribute_of (lit "ignore-" ++ w) f -> False.

(** The command line [os], with two files, gives the options [o] *)
Definition runs (p : program) (os : list occurrence) (o : options) : Prop :=
  exists n, parse_args (parser_of p) 2 os = Parsed n /\ options_of n = Ok o.
(** The command line asks for [f] *)
Definition asked (os : list occurrence) (f : str) : Prop := exists oc, In oc os /\ asks oc f.

(** ** More options *)

Definition weaker (b b' : bool) : Prop := b = true -> b' = true.
(** [o'] ignores whatever [o] ignores; nothing is said of the show options *)
Record more (o o' : options) : Prop := {
  more_flags : Forall (fun f : options -> bool => weaker (f o) (f o'))
    [ignore_version_up; ignore_version_down; ignore_platform_up; ignore_platform_down;
     ignore_absolute_lines; ignore_relative_lines; ignore_deprecated; ignore_added; ignore_pool;
     ignore_jar_signature; ignore_manifest; ignore_manifest_subsections; ignore_trailing_whitespace];
  more_lists : Forall (fun f : options -> list str => incl (f o) (f o')) [ignore_jar_entry; ignore_manifest_key; ignore_filenames] }.

(** Model of the writing of reports: /repo/javatools/report.py (Reporter,
    ReportFormat and the choice of formats), and of the report side of
    jardiff.py.  Paths are those of a POSIX system. *)
From Verif Require Import Base Pack_Model ConstPool_Model ClassFile_Model Manifest_Model Change_Model Classdiff_Model Jardiff_Model.
From Verif Require Zip_Model.

(** ** Paths: os.path.join and os.path.relpath, as imported at report.py:34 *)

(** [p.startswith("/")] *)
Definition is_abs (p : str) : bool := starts_with [47] p.
(** os.path.join with two arguments, used at report.py:112, 217 *)
Definition join (a b : str) : str :=
  if is_abs b then b
  else match a with
       | [] => b
       | _ => if ends_with [47] a then a ++ b else a ++ 47 :: b
       end.
(** [s.split("/")], inside os.path.relpath (report.py:78) *)
Fixpoint split_slash (s : str) : list str :=
  match s with
  | [] => [[]]
  | c :: r =>
      if c =? 47 then [] :: split_slash r
      else match split_slash r with w :: ws => (c :: w) :: ws | [] => [[c]] end
  end.
(** One round of the loop of os.path.normpath on an absolute path (through
    relpath, report.py:78) *)
Definition norm_step (acc : list str) (comp : str) : list str :=
  if seqb comp [] || seqb comp (lit ".") then acc
  else if seqb comp (lit "..") then removelast acc
  else acc ++ [comp].
(** os.path.commonprefix of two lists, its length (through relpath, report.py:78) *)
Fixpoint common (a b : list str) : nat :=
  match a, b with
  | x :: a', y :: b' => if seqb x y then S (common a' b') else O
  | _, _ => O
  end.

Section Paths.
(** os.getcwd() *)
Variable cwd : str.
(** The components of os.path.abspath(p) (through relpath, report.py:78) *)
Definition abs_comps (p : str) : list str := fold_left norm_step (split_slash (join cwd p)) [].
(** os.path.relpath(path, start), called at report.py:78 *)
Definition relpath (path start : str) : res str :=
  match path with
  | [] => Err ValueError
  | _ =>
      let s := abs_comps start in
      let p := abs_comps path in
      let i := common s p in
      match repeat (lit "..") (length s - i) ++ skipn i p with
      | [] => Ok (lit ".")
      | c :: cs => Ok (fold_left join cs c)
      end
  end.
End Paths.

(** ** Formats *)

(** JSONReportFormat (report.py:275), TextReportFormat (346), CheetahReportFormat (401) *)
Inductive format := FJson | FText | FHtml.
(** extension, report.py:281, 351, 406 *)
Definition extension (f : format) : str :=
  match f with FJson => lit ".json" | FText => lit ".text" | FHtml => lit ".html" end.
Definition format_eqb (f g : format) : bool :=
  match f, g with FJson, FJson | FText, FText | FHtml, FHtml => true | _, _ => false end.
(** self.formats.add, report.py:103: a set, kept as the list of its elements in
    the order of their addition *)
Definition add_format (fs : list format) (f : format) : list format :=
  if existsb (format_eqb f) fs then fs else fs ++ [f].
(** Reporter.add_formats_by_name, report.py:87-93: other names are passed over *)
Definition add_by_name (fs : list format) (name : str) : list format :=
  if seqb name (lit "json") then add_format fs FJson
  else if seqb name (lit "txt") || seqb name (lit "text") then add_format fs FText
  else if seqb name (lit "htm") || seqb name (lit "html") then add_format fs FHtml
  else fs.
Definition add_formats_by_name (fs : list format) (names : list str) : list format := fold_left add_by_name names fs.

(** [values.split(",")], report.py:257 *)
Fixpoint split_comma (s : str) : list str :=
  match s with
  | [] => [[]]
  | c :: r =>
      if c =? 44 then [] :: split_comma r
      else match split_comma r with w :: ws => (c :: w) :: ws | [] => [[c]] end
  end.
(** _opt_cb_report, report.py:246-259, for each occurrence of --report *)
Definition add_report_option (reports : list str) (values : str) : list str :=
  if existsb (Z.eqb 44) values then reports ++ filter (fun v => negb (seqb v [])) (split_comma values)
  else reports ++ [values].
Definition reports_of (occurrences : list str) : list str := fold_left add_report_option occurrences [].

(** ** Reporters *)

(** A format instance made by setup: report.py:185-188 *)
Record inst := mkinst { i_fmt : format; i_base : str; i_crumbs : list (str * str) }.
(** Reporter.__init__, report.py:58-67.  [r_live] is self._formats. *)
Record reporter := mkrep { r_base : str; r_entry : str; r_crumbs : list (str * str); r_formats : list format; r_live : option (list inst) }.
Definition new_reporter (base entry : str) : reporter := mkrep base entry [] [] None.

(** What happens: calls of setup and clear of an instance, and output.  A target
    of None is standard output; the outcome of writing is the whole text, or the
    exception with which run_impl ended. *)
Inductive event :=
| ESetup (i : inst)
| EWrite (target : option str) (i : inst) (c : change) (outcome : res str)
| EClear (i : inst).

Section Reporters.
Variable cwd : str.
(** The order of iteration over a set of format classes *)
Variable forder : list format -> list format.
(** The setup method of an instance (report.py:226-232, 435-472): the exception
    it raises, if any.  The copying of style sheets by the HTML format and the flag
    for it in the options are in Resource_Model. *)
Variable sets_up : inst -> option exn.
(** makedirsp and open for a file name (report.py:214-217): the exception *)
Variable opens : str -> option exn.
(** run_impl of an instance on a change and entry (report.py:284-302, 354-356, 475-528) *)
Variable render : inst -> str -> change -> res str.

(** report.py:70-78 *)
Definition get_relative_breadcrumbs (r : reporter) : res (list (str * str)) :=
  mapM (fun be => b <- relpath cwd (fst be) (r_base r) ;; Ok (b, snd be)) (r_crumbs r).

(** report.py:106-120; set(self.formats) is filled in the order of iteration *)
Definition subreporter (r : reporter) (subpath entry : str) : reporter :=
  mkrep (join (r_base r) subpath) entry (r_crumbs r ++ [(r_base r, r_entry r)]) (forder (r_formats r)) None.

(** The loop at report.py:138-141 *)
Fixpoint setup_all (is : list inst) : list event * option exn :=
  match is with
  | [] => ([], None)
  | i :: is' =>
      match sets_up i with
      | Some e => ([ESetup i], Some e)
      | None => let '(ev, e) := setup_all is' in (ESetup i :: ev, e)
      end
  end.
(** Reporter.setup, report.py:123-143 *)
Definition setup (r : reporter) : list event * reporter * option exn :=
  match r_live r with
  | Some (_ :: _) => ([], r, None)
  | _ =>
      match get_relative_breadcrumbs r with
      | Err e => ([], r, Some e)
      | Ok crumbs =>
          let is := map (fun f => mkinst f (r_base r) crumbs) (forder (r_formats r)) in
          match setup_all is with
          | (ev, Some e) => (ev, r, Some e)
          | (ev, None) => (ev, mkrep (r_base r) (r_entry r) (r_crumbs r) (r_formats r) (Some is), None)
          end
      end
  end.

(** ReportFormat.run without [out], report.py:200-223 *)
Definition run_format (i : inst) (c : change) (entry : str) : list event * option exn :=
  let out t := let s := render i entry c in ([EWrite t i c s], match s with Ok _ => None | Err e => Some e end) in
  match entry with
  | [] => out None
  | _ =>
      let basedir := match i_base i with [] => lit "./" | b => b end in
      let fn := join basedir (entry ++ extension (i_fmt i)) in
      match opens fn with
      | Some e => ([], Some e)
      | None => out (Some fn)
      end
  end.
(** The loop at report.py:157-158 *)
Fixpoint run_all (is : list inst) (c : change) (entry : str) : list event * option exn :=
  match is with
  | [] => ([], None)
  | i :: is' =>
      match run_format i c entry with
      | (ev, Some e) => (ev, Some e)
      | (ev, None) => let '(ev', e) := run_all is' c entry in (ev ++ ev', e)
      end
  end.
(** Reporter.clear, report.py:163-171, 235-243 *)
Definition clear_reporter (r : reporter) : list event * reporter :=
  (map EClear (match r_live r with Some is => is | None => [] end), mkrep (r_base r) (r_entry r) (r_crumbs r) (r_formats r) None).
(** Reporter.run, report.py:146-160 *)
Definition run (r : reporter) (c : change) : list event * reporter * option exn :=
  let '(ev, r1, e) := match r_live r with None => setup r | Some _ => ([], r, None) end in
  match e with
  | Some _ => (ev, r1, e)
  | None =>
      match run_all (match r_live r1 with Some is => is | None => [] end) c (r_entry r1) with
      | (ev', Some e') => (ev ++ ev', r1, Some e')
      | (ev', None) => let '(ev'', r2) := clear_reporter r1 in (ev ++ ev' ++ ev'', r2, None)
      end
  end.

(** ** Comparisons that write reports *)

(** A computation that writes reports: what happens, and how it ends *)
Definition eff (A : Type) := (list event * res A)%type.
Definition silent {A} (m : res A) : eff A := ([], m).
Definition ebind {A B} (m : eff A) (k : A -> eff B) : eff B :=
  match m with
  | (ev, Err e) => (ev, Err e)
  | (ev, Ok a) => let '(ev', b) := k a in (ev ++ ev', b)
  end.
Fixpoint emap {A B} (f : A -> eff B) (l : list A) : eff (list B) :=
  match l with
  | [] => silent (Ok [])
  | x :: l' => ebind (f x) (fun y => ebind (emap f l') (fun ys => silent (Ok (y :: ys))))
  end.
(** [self.reporter.run(self)], for a reporter that is not used afterwards *)
Definition reported (r : reporter) (c : change) : eff unit :=
  let '(ev, _, e) := run r c in (ev, match e with Some x => Err x | None => Ok tt end).

Section Jars.
(** As in Jardiff_Model *)
Variable fmt : pyval -> str.
Variable reprs : str -> str.
Variable ffmt : pyval -> str.
Variable text : bytes -> res str.
Variable order : list str -> list str.
Variable up : Z -> str.

(** JarContentsReport.collect_impl and check_impl for one entry,
    jardiff.py:447-453, 467-475, with JarClassReport.collect_impl (175-183) and
    JavaClassReport.check (classdiff.py:880-882): the comparison of the two
    classes is checked and reported on before the entry's own check ends.  A
    class entry that differs has exactly one sub-change. *)
Definition report_entry_run (o : options) (r : reporter) (c : change) : eff change :=
  if is_class_report c then
    let entry := match k_entry (k_of c) with Some e => e | None => [] end in
    let sub := subreporter r entry (lit "JavaClassReport") in
    ebind (silent (check c)) (fun c' =>
    let 'Node _ _ _ cs _ := c' in
    ebind (emap (fun kid => reported sub (named "JavaClassReport" kid)) cs) (fun _ =>
    silent (squash (named "JarClassReport" c') false (Some o))))
  else silent (check c).
(** JarReport.check, jardiff.py:494-511, with JarContentsReport.check_impl (456-481) *)
Definition jar_report_run (o : options) (r : reporter) (l r' : jar) : eff change :=
  ebind (silent (check (jar_type l r'))) (fun t =>
  ebind (silent (collect_in (jar_contents fmt reprs ffmt text order up l r'))) (fun kids =>
  ebind (emap (report_entry_run o r) kids) (fun ks =>
  let j := jar_report_node fmt reprs ffmt text order up l r' t ks in
  ebind (reported r j) (fun _ => silent (Ok j))))).
(** cli_jars_diff with --report given at least once, jardiff.py:522-545: the
    reports written and the exit status.  What goes to standard output without
    --silent is in Change_Model. *)
Definition jardiff_report_run (o : options) (report_dir : str) (reports : list str) (l r : jar) : eff Z :=
  let rdir := match report_dir with [] => lit "./" | d => d end in
  let rpt := mkrep rdir (lit "JarReport") [] (add_formats_by_name [] reports) None in
  ebind (jar_report_run o rpt l r) (fun c => silent (exit_status o c)).
End Jars.
End Reporters.

(** run_impl of the three formats: text (report.py:354-356), JSON (284-302: the
    dict with the runtime options beside the report is not modelled, [dump] makes
    the text of the report), HTML (475-528, not modelled further) *)
Definition render_of (o : options) (dump : json -> str) (html : list (str * str) -> str -> change -> res str)
  (i : inst) (entry : str) (c : change) : res str :=
  match i_fmt i with
  | FText => text_report o c
  | FJson => j <- json_of o c ;; Ok (dump j)
  | FHtml => html (i_crumbs i) entry c
  end.

(** ** Links in the HTML reports *)

(** cheetah/report.tmpl:61-63: the target of a breadcrumb *)
Definition crumb_href (pt : str * str) : str := join (fst pt) (snd pt ++ lit ".html").
(** cheetah/change_SquashedChange.tmpl:27-33: the target of "details", with the
    report_name of the original class (jardiff.py:167, 491, distdiff.py:212, 249) *)
Definition report_name (orig : str) : option str :=
  if seqb orig (lit "JarClassReport") || seqb orig (lit "DistClassReport") then Some (lit "JavaClassReport")
  else if seqb orig (lit "DistJarReport") || seqb orig (lit "JarReport") then Some (lit "JarReport")
  else if seqb orig (lit "DistReport") then Some (lit "DistReport")
  else None.
Definition details_href (c : change) : res str :=
  match k_orig (k_of c) with
  | Some orig =>
      match report_name orig with
      | Some n => Ok ((match k_entry (k_of c) with Some e => e | None => lit "None" end) ++ 47 :: n ++ lit ".html")
      | None => Err AttributeError
      end
  | None => Err AttributeError
  end.

(** str.replace for a one-character pattern, used in cheetah/__init__.py:61-63 *)
Definition replace_char (c : Z) (new s : str) : str := flat_map (fun x => if x =? c then new else [x]) s.
(** xml_entity_escape, cheetah/__init__.py:56-64 *)
Definition xml_entity_escape (data : str) : str :=
  replace_char 60 (lit "&lt;") (replace_char 62 (lit "&gt;") (replace_char 38 (lit "&amp;") data)).
(** The description block of change_SquashedChange.tmpl:26-34: the entry, and the link *)
Definition details_html (c : change) : res str :=
  uri <- details_href c ;;
  match k_entry (k_of c) with
  | Some e => Ok (xml_entity_escape e ++ [10] ++ lit "<span class=""moreinfo"">[<a href=""" ++ uri ++ lit """>details</a>]</span>" ++ [10])
  | None => Err AttributeError
  end.

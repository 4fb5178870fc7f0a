(** Model of the style sheets and scripts of HTML reports: CheetahReportFormat in
    /repo/javatools/report.py (setup, _relative, _relative_uris and the start of
    run_impl), along the events of Report_Model. *)
From Verif Require Import Base Report_Model Html_Model.

(** The options concerned, report.py:610-624 and 472: html_javascripts,
    html_stylesheets, html_copy_data, html_data_copied (absent at first) *)
Record hopts := mkhopts { h_scripts : list str; h_styles : list str; h_copy : option str; h_copied : bool }.
(** The options, and the files and directories there are, by their names from the
    root.  Symbolic links are left aside. *)
Record world := mkworld { w_opts : hopts; w_there : list str -> bool }.

(** [a] is [b] or above it *)
Fixpoint leading (a b : list str) : bool :=
  match a, b with
  | [], _ => true
  | x :: a', y :: b' => seqb x y && leading a' b'
  | _ :: _, [] => false
  end.

Section Resources.
Variable cwd : str.
(** The names of the files in javatools/cheetah/data, in the order of os.walk; there
    are two of them, report.js and report.css, and no directories *)
Variable data : list str.

(** A file is written, its directory having been made: report.py:214-218,
    dirutils.py:68-78.  Errors of the file system are not modelled here (sets_up and
    opens in Report_Model). *)
Definition create (there : list str -> bool) (p : str) : list str -> bool :=
  fun q => there q || leading q (abs_comps cwd p).
(** copydir(datasrc, datadir), dirutils.py:60-81: the names of the copies *)
Definition copies (dir : str) : list str := map (join dir) data.
(** CheetahReportFormat.setup, report.py:435-472 *)
Definition html_setup (w : world) : world :=
  let o := w_opts w in
  match h_copy o with
  | None | Some [] => w
  | Some dir =>
      if h_copied o then w
      else
        let cs := copies dir in
        mkworld (mkhopts (filter (ends_with (lit ".js")) cs ++ h_scripts o)
                         (filter (fun c => negb (ends_with (lit ".js") c) && ends_with (lit ".css") c) cs ++ h_styles o) (h_copy o) true)
                (fold_left create cs (w_there w))
  end.

(** os.path.exists, report.py:420; a slash at the end is not distinguished *)
Definition exists_ (there : list str -> bool) (uri : str) : bool :=
  match uri with [] => false | _ => there (abs_comps cwd uri) end.
(** CheetahReportFormat._relative, report.py:409-424 *)
Definition relative (there : list str -> bool) (basedir uri : str) : res str :=
  if starts_with (lit "http:") uri || starts_with (lit "https:") uri || starts_with (lit "file:") uri || starts_with (lit "/") uri then Ok uri
  else if exists_ there uri then relpath cwd uri basedir
  else Ok uri.
(** CheetahReportFormat._relative_uris, report.py:427-432 *)
Definition relative_uris (there : list str -> bool) (basedir : str) (uris : list str) : res (list str) :=
  us <- mapM (relative there basedir) uris ;; Ok (filter (fun u => match u with [] => false | _ => true end) us).
(** What run_impl hands to the templates, report.py:494-513: breadcrumbs, style
    sheets, scripts, and html_no_jquery *)
Definition page_env_of (w : world) (nojquery : bool) (i : inst) : res page_env :=
  js <- relative_uris (w_there w) (i_base i) (h_scripts (w_opts w)) ;;
  css <- relative_uris (w_there w) (i_base i) (h_styles (w_opts w)) ;;
  Ok (mkenv (i_crumbs i) css js nojquery).

(** What an event of Report_Model does to options and files: report.py:435-472,
    and 214-218 for any format (226-232: the other formats have no setup of their own) *)
Definition step (w : world) (e : event) : world :=
  match e with
  | ESetup i => match i_fmt i with FHtml => html_setup w | _ => w end
  | EWrite (Some fn) _ _ _ => mkworld (w_opts w) (create (w_there w) fn)
  | EWrite None _ _ _ => w
  | EClear _ => w
  end.
(** All events one after the other *)
Definition replay (w : world) (es : list event) : world := fold_left step es w.
End Resources.

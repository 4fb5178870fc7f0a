(** Property C119: the style sheets and scripts of HTML reports. *)
From Verif Require Import Base Pack_Model ConstPool_Model ConstPool_Spec ClassFile_Model ClassFile_Spec Manifest_Model
  Change_Model Classdiff_Model Jardiff_Model Distdiff_Model Drep_Model Html_Model Html_Page Page_Model
  Report_Model Report_Spec Report_Paths Report_Proofs Report_Written Resource_Model Resource_Spec Resource_Proofs
  P_ClassFile P_Classdiff P_Jardiff P_Distdiff P_Report P_Drep.
From Verif Require Zip_Model Html_Values.
From Coq Require Import Permutation.
Import Zip_Model (archive, DIFF).

(** ** Example data *)
Definition in_data : list str := [lit "report.js"; lit "report.css"].
(** --html-stylesheet=style.css --html-stylesheet=http://x/y.css
    --html-copy-data=[dir], with style.css in the directory of the command *)
Definition two_styles (dir : option str) : hopts := mkhopts [] [lit "style.css"; lit "http://x/y.css"] dir false.
Definition only (f : list str) : list str -> bool := fun g => if list_eq_dec (list_eq_dec Z.eq_dec) f g then true else false.
Definition at_home : list str -> bool := only [lit "home"; lit "u"; lit "style.css"].
(** The HTML pages written and what their templates are given *)
Fixpoint envs (cwd : str) (data : list str) (nj : bool) (w : world) (es : list event) : list (str * res page_env) :=
  match es with
  | [] => []
  | ev :: r => match ev with EWrite (Some fn) i _ _ => match i_fmt i with FHtml => [(fn, page_env_of cwd w nj i)] | _ => [] end | _ => [] end ++ envs cwd data nj (step cwd data w ev) r
  end.
Lemma envs_in cwd data nj fn e es : forall w, In (fn, e) (envs cwd data nj w es) ->
  exists pre i c out post, es = pre ++ EWrite (Some fn) i c out :: post /\ i_fmt i = FHtml /\ page_env_of cwd (replay cwd data w pre) nj i = e.
Proof.
  induction es as [|ev es IH]; intros w HI; [destruct HI|]. cbn [envs] in HI. apply in_app_iff in HI as [HI|HI].
  - destruct ev as [i|[fn'|] i c out|i]; try contradiction. destruct (i_fmt i) eqn:EF; try contradiction. destruct HI as [HI|[]]. injection HI as -> HE. exists [], i, c, out, es. split; [reflexivity|]. split; [exact EF|]. exact HE.
  - destruct (IH _ HI) as (pre & i & c & out & post & E & F & P). exists (ev :: pre), i, c, out, post. split; [now rewrite E|]. split; [exact F|]. exact P.
Qed.

Lemma class_page_starts env t kids : exists a rest, page_html env t kids = Prolog :: Open (lit "html") a :: head_html env t ++ rest.
Proof. unfold page_html. unfold el at 1. rewrite <- app_assoc. eexists _, _. reflexivity. Qed.
Lemma jar_page_starts env t b : exists a rest, page_with env t b = Prolog :: Open (lit "html") a :: head_html env t ++ rest.
Proof. unfold page_with. unfold el at 1. rewrite <- app_assoc. eexists _, _. reflexivity. Qed.

(** ** C119 *)

(** Every HTML page that jardiff --report writes can be given its links; those are
    the copied files of the matching suffix followed by the style sheets (scripts)
    asked for, in order.  A link to a URL or absolute path is as given.  Any other
    leads, from the directory [D] of the page, to the very file named, seen from the
    directory [H] of the command, if that file was there or is one of the copies; and
    it is as given if there is no such file. *)
Theorem C119_jar : forall cwd forder sets_up opens render fmt reprs ffmt text order up o dir reports l r data ho there nj H pre fn i c out post,
  leads [] cwd H -> Forall plain_name data -> h_copied ho = false ->
  fst (jardiff_report_run cwd forder sets_up opens render fmt reprs ffmt text order up o dir reports l r) = pre ++ EWrite (Some fn) i c out :: post -> i_fmt i = FHtml ->
  exists e D name, page_env_of cwd (replay cwd data (mkworld ho there) pre) nj i = Ok e /\ leads H fn (D ++ [name]) /\
    furnished H D data (h_copy ho) (h_styles ho) (h_scripts ho) (fun F => there F = true) pre e.
Proof. intros. eapply page_links; try eassumption. apply staged_jardiff. Qed.
Print Assumptions C119_jar.
(** The same for every HTML page of distdiff --report with --processes=0. *)
Theorem C119_dist : forall cwd forder sets_up opens render fmt reprs ffmt text order up unzip l r o sh dir reports data ho there nj H pre fn i c out post,
  leads [] cwd H -> Forall plain_name data -> h_copied ho = false ->
  fst (distdiff_report_run cwd forder sets_up opens render fmt reprs ffmt text order up unzip l r o sh dir reports) = pre ++ EWrite (Some fn) i c out :: post -> i_fmt i = FHtml ->
  exists e D name, page_env_of cwd (replay cwd data (mkworld ho there) pre) nj i = Ok e /\ leads H fn (D ++ [name]) /\
    furnished H D data (h_copy ho) (h_styles ho) (h_scripts ho) (fun F => there F = true) pre e.
Proof. intros. eapply page_links; try eassumption. apply staged_distdiff. Qed.
Print Assumptions C119_dist.
(** The same with --processes, in whatever order the helper processes write: the
    reporter is set up first ([ev]), then the tasks write ([done] is what each wrote
    and found, [mid] is what happens in the end), then the reporter runs.  Options
    reach the helpers as they are after the setup; an HTML page in [done] needs the
    HTML format and so has the copies made in [ev]. *)
Theorem C119_parallel : forall cwd forder sets_up opens render fmt reprs ffmt text order up unzip l r o sh rp ev r1 done mid c' data ho there nj H pre fn i c out post,
  leads [] cwd H -> Forall plain_name data -> h_copied ho = false -> r_live rp = None -> plain_name (r_entry rp) ->
  setup cwd forder sets_up rp = (ev, r1, None) ->
  Forall (fun d => exists e, dist_work cwd forder sets_up opens render fmt reprs ffmt text order up unzip l r o sh rp e = Ok d) done -> interleaved (map fst done) mid ->
  ev ++ mid ++ fst (reported cwd forder sets_up opens render r1 c') = pre ++ EWrite (Some fn) i c out :: post -> i_fmt i = FHtml ->
  exists e D name, page_env_of cwd (replay cwd data (mkworld ho there) pre) nj i = Ok e /\ leads H fn (D ++ [name]) /\
    furnished H D data (h_copy ho) (h_styles ho) (h_scripts ho) (fun F => there F = true) pre e.
Proof. intros. eapply page_links; try eassumption. eapply staged_parallel; eassumption. Qed.
Print Assumptions C119_parallel.
(** With --html-copy-data (to a directory not spelled like a URL) every page of
    either command has, for each copied style sheet and script, a link that leads to
    the copy. *)
Theorem C119_copied : forall cwd forder sets_up opens render fmt reprs ffmt text order up unzip jl jr dl dr o sh dir reports data ho there nj H to C es pre fn i c out post,
  leads [] cwd H -> Forall plain_name data -> h_copied ho = false ->
  es = fst (jardiff_report_run cwd forder sets_up opens render fmt reprs ffmt text order up o dir reports jl jr) \/
  es = fst (distdiff_report_run cwd forder sets_up opens render fmt reprs ffmt text order up unzip dl dr o sh dir reports) ->
  es = pre ++ EWrite (Some fn) i c out :: post -> i_fmt i = FHtml ->
  h_copy ho = Some to -> to <> [] -> (forall p s, In p [lit "http:"; lit "https:"; lit "file:"] -> to <> p ++ s) -> leads H to C ->
  exists e D name, page_env_of cwd (replay cwd data (mkworld ho there) pre) nj i = Ok e /\ leads H fn (D ++ [name]) /\
    forall n, In n data -> (has_suffix (lit ".css") n -> exists v, In v (e_styles e) /\ leads D v (C ++ [n])) /\
                           (has_suffix (lit ".js") n -> exists v, In v (e_scripts e) /\ leads D v (C ++ [n])).
Proof.
  intros until 3. intros HE. intros. eapply page_copies; try eassumption. destruct HE as [->| ->]; [apply staged_jardiff|apply staged_distdiff].
Qed.
Print Assumptions C119_copied.
(** The head of each page has these links and scripts, and jQuery unless it is
    switched off. *)
Theorem C119_page : forall fmt repr reprs ffmt env o p,
  (forall l r, class_html fmt repr reprs ffmt env o l r = Ok p -> sheets p = e_styles env /\ scripts p = (if e_nojquery env then [] else [jquery]) ++ e_scripts env) /\
  (forall c, page env o c = Ok p -> sheets p = e_styles env /\ scripts p = (if e_nojquery env then [] else [jquery]) ++ e_scripts env).
Proof.
  intros. split.
  - intros l r E. apply class_parts in E as (info & va & ia & po & fs & ms & n & _ & _ & ->). destruct (class_page_starts env (xml_entity_escape (lit "JavaClassReport " ++ last_part n)) [info; va; ia; po; fs; ms]) as (a & rest & ->). apply head_refs.
  - intros c E. unfold page in E. destruct (template (k_name (k_of c))) as [t|]; [|discriminate E]. cbn [rbind] in E. destruct (collect c) as [kids|]; [|discriminate E]. cbn [rbind] in E.
    assert (G : forall b, sheets (page_with env (k_name (k_of c)) b) = e_styles env /\ scripts (page_with env (k_name (k_of c)) b) = (if e_nojquery env then [] else [jquery]) ++ e_scripts env) by (intro b; destruct (jar_page_starts env (k_name (k_of c)) b) as (a & rest & ->); apply head_refs).
    destruct (seqb t (lit "jardiff_JarReport")).
    + destruct (mapM (render o) kids) as [hs|]; [|discriminate E]. cbn [rbind] in E. apply Html_Values.ok_inj in E. subst p. apply G.
    + destruct (seqb t (lit "distdiff_DistReport")); [|discriminate E]. destruct (listing _ _ _) as [b|]; [|discriminate E]. cbn [rbind] in E. apply Html_Values.ok_inj in E. subst p. apply G.
Qed.
Print Assumptions C119_page.

(** A style sheet in the directory of the command, a URL, and copied data: *)
Example C119_ex : map (fun x => (fst x, match snd x with Ok e => (e_styles e, e_scripts e) | Err _ => ([], []) end))
    (envs (lit "/home/u") in_data true (mkworld (two_styles (Some (lit "out/data"))) at_home) (fst report_ex)) =
  [(lit "out/A.class/JavaClassReport.html", ([lit "../data/report.css"; lit "../../style.css"; lit "http://x/y.css"], [lit "../data/report.js"]));
   (lit "out/JarReport.html", ([lit "data/report.css"; lit "../style.css"; lit "http://x/y.css"], [lit "data/report.js"]))].
Proof. vm_compute. reflexivity. Qed.
Example C119_ex_dist : map (fun x => (fst x, match snd x with Ok e => (e_styles e, e_scripts e) | Err _ => ([], []) end))
    (envs (lit "/home/u") in_data true (mkworld (two_styles (Some (lit "/srv/d"))) at_home) (fst (drun [lit "html"] d_one d_two))) =
  map (fun x => (lit (fst x), ([lit "/srv/d/report.css"; lit (snd x); lit "http://x/y.css"], [lit "/srv/d/report.js"])))
  [("out/./A.class/JavaClassReport.html", "../../style.css"); ("out/META-INF/lib.jar/A.class/JavaClassReport.html", "../../../../style.css");
   ("out/META-INF/lib.jar/JarReport.html", "../../../style.css"); ("out/DistReport.html", "../style.css")]%string.
Proof. vm_compute. reflexivity. Qed.
(** Two tasks, the events of the second one first: *)
Example C119_ex_parallel : let rp := mkrep (lit "out") (lit "DistReport") [] [FHtml] None in
  let work := dist_work (lit "/home/u") keep no_exn no_exn (render_of strict show_json show_html) no_fmt (fun s => s) no_fmt ascii_text (fun s => s) ascii_up some_jars d_one d_two strict false rp in
  exists ev r1 e1 d1 e2 d2, setup (lit "/home/u") keep no_exn rp = (ev, r1, None) /\ work e1 = Ok d1 /\ work e2 = Ok d2 /\ interleaved (map fst [d1; d2]) (fst d2 ++ fst d1) /\
  map (fun x => (fst x, match snd x with Ok e => e_styles e | Err _ => [] end)) (envs (lit "/home/u") in_data true (mkworld (two_styles (Some (lit "out/data"))) at_home)
    (ev ++ (fst d2 ++ fst d1) ++ fst (reported (lit "/home/u") keep no_exn no_exn (render_of strict show_json show_html) r1 some_change))) =
  map (fun x => (lit (fst x), [lit (fst (snd x)); lit (snd (snd x)); lit "http://x/y.css"]))
  [("out/META-INF/lib.jar/A.class/JavaClassReport.html", ("../../../data/report.css", "../../../../style.css")); ("out/META-INF/lib.jar/JarReport.html", ("../../data/report.css", "../../../style.css"));
   ("out/./A.class/JavaClassReport.html", ("../data/report.css", "../../style.css")); ("out/DistReport.html", ("data/report.css", "../style.css"))]%string.
Proof.
  intros rp work. set (s := setup (lit "/home/u") keep no_exn rp). set (got := fun e => match work e with Ok d => d | Err _ => ([], some_change) end).
  exists (fst (fst s)), (snd (fst s)), (DIFF, lit "./A.class"), (got (DIFF, lit "./A.class")), (DIFF, lit "META-INF/lib.jar"), (got (DIFF, lit "META-INF/lib.jar")).
  split; [vm_compute; reflexivity|]. split; [vm_compute; reflexivity|]. split; [vm_compute; reflexivity|]. split.
  - cbn [map]. generalize (fst (got (DIFF, lit "./A.class"))) (fst (got (DIFF, lit "META-INF/lib.jar"))). intros a b. induction b as [|x b IH]; cbn [app].
    + induction a as [|x a IH]; [apply il_done; repeat constructor|]. exact (il_take [] x a [[]] a IH).
    + exact (il_take [a] x b [] _ IH).
  - vm_compute. reflexivity.
Qed.
Example C119_ex_page : exists c p, jar_report_check no_fmt (fun s => s) no_fmt P_Zip.no_text (fun s => s) ascii_up strict (Ok j_one) (Ok j_class) = Ok c /\
  page (mkenv [] [lit "../style.css"] [lit "a.js"] false) strict c = Ok p /\
  sheets p = [lit "../style.css"] /\ scripts p = [jquery; lit "a.js"].
Proof.
  assert (E : exists c, jar_report_check no_fmt (fun s => s) no_fmt P_Zip.no_text (fun s => s) ascii_up strict (Ok j_one) (Ok j_class) = Ok c /\
    is_ok (page (mkenv [] [lit "../style.css"] [lit "a.js"] false) strict c) = true) by (eexists; split; [vm_compute; reflexivity|vm_compute; reflexivity]).
  destruct E as (c & E1 & E2). exists c. destruct (page (mkenv [] [lit "../style.css"] [lit "a.js"] false) strict c) as [p|] eqn:EP; [|discriminate E2].
  exists p. split; [exact E1|]. split; [reflexivity|]. exact (proj2 (C119_page no_fmt (fun _ => []) (fun s => s) no_fmt _ _ p) c EP).
Qed.

(** A style sheet given by its name in the report directory reaches the main page
    only: the page of a class has the same link, and no file is there. *)
Theorem C119_kept_refuted : exists es ho there pre1 i1 c1 out1 post1 e1 pre2 i2 c2 out2 post2 e2,
  es = fst report_ex /\ h_copy ho = None /\
  es = pre1 ++ EWrite (Some (lit "out/JarReport.html")) i1 c1 out1 :: post1 /\ page_env_of (lit "/home/u") (replay (lit "/home/u") in_data (mkworld ho there) pre1) true i1 = Ok e1 /\
  es = pre2 ++ EWrite (Some (lit "out/A.class/JavaClassReport.html")) i2 c2 out2 :: post2 /\ page_env_of (lit "/home/u") (replay (lit "/home/u") in_data (mkworld ho there) pre2) true i2 = Ok e2 /\
  e_styles e1 = [lit "style.css"] /\ (forall F, leads [lit "home"; lit "u"; lit "out"] (lit "style.css") F -> there F = true) /\
  e_styles e2 = [lit "style.css"] /\ (forall F, leads [lit "home"; lit "u"; lit "out"; lit "A.class"] (lit "style.css") F -> there F = false).
Proof.
  set (ho := mkhopts [] [lit "style.css"] None false). set (there := only [lit "home"; lit "u"; lit "out"; lit "style.css"]).
  assert (E : exists a b, envs (lit "/home/u") in_data true (mkworld ho there) (fst report_ex) = [(lit "out/A.class/JavaClassReport.html", Ok (mkenv a [lit "style.css"] [] true)); (lit "out/JarReport.html", Ok (mkenv b [lit "style.css"] [] true))]) by (eexists _, _; vm_compute; reflexivity).
  destruct E as (a & b & E).
  destruct (envs_in (lit "/home/u") in_data true (lit "out/JarReport.html") (Ok (mkenv b [lit "style.css"] [] true)) (fst report_ex) (mkworld ho there)) as (pre1 & i1 & c1 & out1 & post1 & A1 & _ & A2); [rewrite E; right; now left|].
  destruct (envs_in (lit "/home/u") in_data true (lit "out/A.class/JavaClassReport.html") (Ok (mkenv a [lit "style.css"] [] true)) (fst report_ex) (mkworld ho there)) as (pre2 & i2 & c2 & out2 & post2 & B1 & _ & B2); [rewrite E; now left|].
  exists (fst report_ex), ho, there, pre1, i1, c1, out1, post1, (mkenv b [lit "style.css"] [] true), pre2, i2, c2, out2, post2, (mkenv a [lit "style.css"] [] true).
  repeat (split; [assumption || reflexivity|]). split; [intros F L; apply leads_iff in L; subst F; vm_compute; reflexivity|]. split; [reflexivity|]. intros F L. apply leads_iff in L. subst F. vm_compute. reflexivity.
Qed.
Print Assumptions C119_kept_refuted.
(** Links are not encoded: copies in a directory with a # in its name are not what a
    browser follows the link to. *)
Theorem C119_fragment_refuted : exists pre i c out post e v,
  fst report_ex = pre ++ EWrite (Some (lit "out/JarReport.html")) i c out :: post /\
  page_env_of (lit "/home/u") (replay (lit "/home/u") in_data (mkworld (mkhopts [] [] (Some (lit "out/c#")) false) (fun _ => false)) pre) true i = Ok e /\
  In v (e_styles e) /\ leads [lit "home"; lit "u"; lit "out"] v [lit "home"; lit "u"; lit "out"; lit "c#"; lit "report.css"] /\
  ~ leads [lit "home"; lit "u"; lit "out"] (path_part v) [lit "home"; lit "u"; lit "out"; lit "c#"; lit "report.css"].
Proof.
  set (ho := mkhopts [] [] (Some (lit "out/c#")) false).
  assert (E : exists a b x, envs (lit "/home/u") in_data true (mkworld ho (fun _ => false)) (fst report_ex) = [x; (lit "out/JarReport.html", Ok (mkenv a [lit "c#/report.css"] b true))]) by (eexists _, _, _; vm_compute; reflexivity).
  destruct E as (a & b & x & E).
  destruct (envs_in (lit "/home/u") in_data true (lit "out/JarReport.html") (Ok (mkenv a [lit "c#/report.css"] b true)) (fst report_ex) (mkworld ho (fun _ => false))) as (pre & i & c & out & post & A1 & _ & A2); [rewrite E; right; now left|].
  exists pre, i, c, out, post, (mkenv a [lit "c#/report.css"] b true), (lit "c#/report.css"). split; [exact A1|]. split; [exact A2|]. split; [now left|]. split; [apply leads_by; vm_compute; reflexivity|].
  intro L. apply leads_iff in L. vm_compute in L. discriminate L.
Qed.
Print Assumptions C119_fragment_refuted.

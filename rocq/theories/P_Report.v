(** Properties C60, C78-C80: reporters, the files they write, links between the
    reports, escaping in HTML. *)
From Verif Require Import Base Pack_Model ConstPool_Model ConstPool_Spec ClassFile_Model ClassFile_Spec Manifest_Model
  Change_Model Change_Spec Change_Proofs Change_Report Classdiff_Model Classdiff_Spec
  Zip_Spec Zip_Proofs Jardiff_Model Jardiff_Spec Jardiff_Proofs Jardiff_Jar Jardiff_Report Report_Model Report_Spec Report_Paths Report_Proofs Report_Jar Report_Written
  P_ClassFile P_Classdiff P_Jardiff.
From Verif Require Zip_Model P_Zip.
From Coq Require Import Permutation.
Import Zip_Model (archive, mka, Zip, a_kind, a_open, a_entries).

(** ** Example data *)
Definition keep (fs : list format) : list format := fs.
Lemma keep_perm fs : Permutation (keep fs) fs.
Proof. reflexivity. Qed.
Definition no_exn {A} (_ : A) : option exn := None.
(** A format that writes its own extension *)
Definition plain_render (i : inst) (entry : str) (c : change) : res str := Ok (extension (i_fmt i)).
(** A format that fails on HTML *)
Definition html_fails (i : inst) (entry : str) (c : change) : res str :=
  match i_fmt i with FHtml => Err TypeError | _ => Ok (lit "x") end.
Definition some_change : change := jar_type (Ok j_one) (Ok j_class).
Definition top_reporter (fs : list format) : reporter := mkrep (lit "out") (lit "JarReport") [] fs None.
Lemma leads_by d p d' : resolve d p = d' -> leads d p d'.
Proof. apply leads_iff. Qed.

(** ** C60 *)

(** A run that completes sets up, runs and clears each requested format exactly
    once, in this order, touches no other format, and leaves the reporter as it
    was. *)
Theorem C60_protocol : forall cwd forder sets_up opens render r c ev r', (forall fs, Permutation (forder fs) fs) ->
  r_live r = None -> NoDup (r_formats r) -> run cwd forder sets_up opens render r c = (ev, r', None) ->
  r' = r /\ forall f, (In f (r_formats r) -> history f ev = [DidSetup; DidRun; DidClear]) /\ (~ In f (r_formats r) -> history f ev = []).
Proof.
  intros cwd forder sets_up opens render r c ev r' P HL HN HR. split; [now apply (run_ok cwd forder sets_up opens render r c ev r')|]. eapply run_history; eassumption.
Qed.
Print Assumptions C60_protocol.
(** It writes, for each requested format, the given change to the file named by
    the entry and the format's suffix in the reporter's directory [D] (to
    standard output without an entry), and nothing else. *)
Theorem C60_writes : forall cwd forder sets_up opens render r c ev r' H D, (forall fs, Permutation (forder fs) fs) ->
  r_live r = None -> run cwd forder sets_up opens render r c = (ev, r', None) -> leads [] cwd H -> leads H (r_base r) D ->
  (forall f t c' out, wrote ev f t c' out -> In f (r_formats r) /\ c' = c /\ (exists s, out = Ok s) /\ (t = None <-> r_entry r = []) /\
     forall fn x F, t = Some fn -> suffix f x -> (leads H fn F <-> leads D (r_entry r ++ x) F)) /\
  (forall f, In f (r_formats r) -> exists t s, wrote ev f t c (Ok s)).
Proof.
  intros cwd forder sets_up opens render r c ev r' H D P HL HR LH LD. destruct (run_wrote cwd forder sets_up opens render P r c ev r' HL HR H D LH LD) as [W1 W2]. split; [|exact W2].
  intros f t c' out HW. destruct (W1 _ _ _ _ HW) as (A & B & [C1 C2] & E). auto 6.
Qed.
Print Assumptions C60_writes.
(** A run completes unless a setup, a file or a format fails. *)
Theorem C60_completes : forall cwd forder sets_up opens render r c, r_live r = None -> Forall (fun be => fst be <> []) (r_crumbs r) ->
  (forall i, sets_up i = None) -> (forall t, opens t = None) -> (forall i, exists s, render i (r_entry r) c = Ok s) ->
  exists ev, run cwd forder sets_up opens render r c = (ev, r, None).
Proof. intros. now apply run_total. Qed.
Print Assumptions C60_completes.
(** Calling setup before makes no difference to the run, and calling it twice
    none at all. *)
Theorem C60_setup_once : forall cwd forder sets_up opens render r c ev1 r1, r_live r = None -> setup cwd forder sets_up r = (ev1, r1, None) ->
  setup cwd forder sets_up r1 = ([], r1, None) /\
  forall ev2 r2 e, run cwd forder sets_up opens render r1 c = (ev2, r2, e) -> run cwd forder sets_up opens render r c = (ev1 ++ ev2, r2, e).
Proof.
  intros cwd forder sets_up opens render r c ev1 r1 HL HS. destruct (setup_once cwd forder sets_up opens render r c ev1 r1 HL HS) as [A B]. split; [exact A|]. intros ev2 r2 e E. now rewrite E in B.
Qed.
Print Assumptions C60_setup_once.
(** The formats of a command are those named in a comma separated field of some
    --report option, each once. *)
Theorem C60_requested : forall occ,
  (forall f, In f (add_formats_by_name [] (reports_of occ)) <-> exists v n, In v occ /\ field v n /\ names_format n f) /\
  NoDup (add_formats_by_name [] (reports_of occ)).
Proof. intro occ. split; [apply requested|]. apply formats_by_name. constructor. Qed.
Print Assumptions C60_requested.
Example C60_ex_requested : add_formats_by_name [] (reports_of [lit "html,json"; lit "text"; lit "htm"]) = [FHtml; FJson; FText].
Proof. reflexivity. Qed.
Example C60_ex : exists ev, run (lit "/home/u") keep no_exn no_exn plain_render (top_reporter [FHtml; FText]) some_change = (ev, top_reporter [FHtml; FText], None) /\
  history FHtml ev = [DidSetup; DidRun; DidClear] /\ history FJson ev = [] /\
  wrote ev FText (Some (lit "out/JarReport.text")) some_change (Ok (lit ".text")) /\
  leads [lit "home"; lit "u"] (lit "out/JarReport.text") [lit "home"; lit "u"; lit "out"; lit "JarReport.text"].
Proof.
  eexists. split; [reflexivity|]. split; [reflexivity|]. split; [reflexivity|]. split.
  - eexists (mkinst FText (lit "out") []). split; [reflexivity|]. right. right. right. left. reflexivity.
  - apply leads_by. reflexivity.
Qed.
Example C60_ex_completes : exists ev, run (lit "/home/u") keep no_exn no_exn plain_render (subreporter keep (top_reporter [FHtml; FText]) (lit "a/B.class") (lit "JavaClassReport")) some_change =
  (ev, subreporter keep (top_reporter [FHtml; FText]) (lit "a/B.class") (lit "JavaClassReport"), None).
Proof. apply C60_completes; try reflexivity; [|eexists; reflexivity]. constructor; [discriminate|constructor]. Qed.
Example C60_ex_setup : exists r1, setup (lit "/") keep no_exn (top_reporter [FJson]) = ([ESetup (mkinst FJson (lit "out") [])], r1, None) /\ r_live r1 <> None.
Proof. eexists. split; [reflexivity|discriminate]. Qed.
(** Finding: other names are passed over.  With --report=xml the comparison is
    run in report mode and writes nothing, without any message. *)
Theorem C60_unknown_refuted : exists occ, reports_of occ <> [] /\ ~ (exists f, In f (add_formats_by_name [] (reports_of occ))) /\
  forall cwd forder sets_up opens render base entry c ev r', (forall fs, Permutation (forder fs) fs) ->
    run cwd forder sets_up opens render (mkrep base entry [] (add_formats_by_name [] (reports_of occ)) None) c = (ev, r', None) -> forall f t c' out, ~ wrote ev f t c' out.
Proof.
  exists [lit "xml"]. split; [discriminate|]. split; [intros [f []]|]. intros cwd forder sets_up opens render base entry c ev r' P HR f t c' out (i & <- & Hi).
  destruct (run_writes cwd forder sets_up opens render P (mkrep base entry [] _ None) c ev r' eq_refl HR) as (crumbs & _ & HW). apply HW in Hi as [[] _].
Qed.
Print Assumptions C60_unknown_refuted.
(** Finding: if one format fails, the others before it are neither cleared then
    nor by the next run, which sets nothing up. *)
Theorem C60_failed_refuted : exists r c ev r' e ev' e', run (lit "/") keep no_exn no_exn html_fails r c = (ev, r', Some e) /\ r_live r = None /\ In FText (r_formats r) /\
  history FText ev = [DidSetup; DidRun] /\ run (lit "/") keep no_exn no_exn html_fails r' c = (ev', r', e') /\ history FText ev' = [DidRun].
Proof. exists (top_reporter [FText; FHtml]), some_change. do 5 eexists. repeat split; try reflexivity. now left. Qed.
Print Assumptions C60_failed_refuted.

(** The directory of a sub-reporter is where its sub-path leads from the
    directory of the reporter, and it has the same formats. *)
Theorem C60_nested : forall cwd forder r sub entry H D D', (forall fs, Permutation (forder fs) fs) -> leads [] cwd H -> leads H (r_base r) D ->
  (leads H (r_base (subreporter forder r sub entry)) D' <-> leads D sub D') /\
  (forall f, In f (r_formats (subreporter forder r sub entry)) <-> In f (r_formats r)) /\
  r_entry (subreporter forder r sub entry) = entry /\ r_live (subreporter forder r sub entry) = None.
Proof.
  intros cwd forder r sub entry H D D' P LH LD. apply leads_here in LH as ->. apply leads_iff in LD as <-. split.
  - rewrite !leads_iff. now rewrite sub_base.
  - split; [|split; reflexivity]. intro f. cbn [subreporter r_formats]. split; apply Permutation_in; [|symmetry]; apply P.
Qed.
Print Assumptions C60_nested.
(** With sub-paths of ordinary names the reports lie below the directory of the
    reporter, and those of different sub-paths, entries or formats in different
    files. *)
Theorem C60_inside : forall cwd forder sets_up opens render r sub ns entry c ev r' H D f fn c' out, (forall fs, Permutation (forder fs) fs) -> r_live r = None ->
  ordinary sub ns -> plain_name entry -> leads [] cwd H -> leads H (r_base r) D ->
  run cwd forder sets_up opens render (subreporter forder r sub entry) c = (ev, r', None) -> wrote ev f (Some fn) c' out ->
  exists x F, suffix f x /\ F = D ++ ns ++ [entry ++ x] /\ leads H fn F /\ below D F /\
  forall r2 sub2 ns2 entry2 c2 ev2 r2' f2 fn2 c2' out2 D2, ordinary sub2 ns2 -> plain_name entry2 -> leads H (r_base r2) D2 -> D2 = D ->
    run cwd forder sets_up opens render (subreporter forder r2 sub2 entry2) c2 = (ev2, r2', None) -> wrote ev2 f2 (Some fn2) c2' out2 -> leads H fn2 F ->
    sub2 = sub /\ exists x2, suffix f2 x2 /\ entry2 ++ x2 = entry ++ x.
Proof.
  assert (G : forall cwd forder sets_up opens render r sub ns entry c ev r' H D f fn c' out, (forall fs, Permutation (forder fs) fs) ->
    ordinary sub ns -> plain_name entry -> leads [] cwd H -> leads H (r_base r) D ->
    run cwd forder sets_up opens render (subreporter forder r sub entry) c = (ev, r', None) -> wrote ev f (Some fn) c' out ->
    exists x, suffix f x /\ leads H fn (D ++ ns ++ [entry ++ x])).
  { intros cwd forder sets_up opens render r sub ns entry c ev r' H D f fn c' out P HO HE LH LD HR HW. exists (extension f). split; [now apply suffix_iff|].
    destruct (run_wrote cwd forder sets_up opens render P (subreporter forder r sub entry) c ev r' eq_refl HR H (D ++ ns) LH) as [W _].
    { pose proof LH as LH'. apply leads_here in LH' as ->. apply leads_iff in LD as <-. apply leads_iff. rewrite sub_base. now apply resolve_ordinary. }
    destruct (W _ _ _ _ HW) as (_ & _ & [_ HG] & _). apply (HG fn (extension f)); [reflexivity|now apply suffix_iff|]. apply leads_iff. cbn [subreporter r_entry]. rewrite app_assoc. apply resolve_ordinary.
    destruct HE as (E1 & E2 & E3 & E4). assert (HS : ~ In 47 (entry ++ extension f)). { intro Hin. apply in_app_iff in Hin as [Hin|Hin]; [now apply E4|]. destruct f; cbn in Hin; intuition discriminate. }
    assert (HX : length (extension f) = 5%nat) by (destruct f; reflexivity).
    split; [now constructor|]. constructor; [|constructor]. split; [|split; [|split; [|exact HS]]]; intro E; apply (f_equal (@length Z)) in E; rewrite app_length, HX in E;
      [change (length (@nil Z)) with O in E|change (length (lit ".")) with 1%nat in E|change (length (lit "..")) with 2%nat in E]; lia. }
  intros cwd forder sets_up opens render r sub ns entry c ev r' H D f fn c' out P HL HO HE LH LD HR HW. destruct (G _ _ _ _ _ _ _ _ _ _ _ _ _ _ _ _ _ _ P HO HE LH LD HR HW) as (x & Hx & HF).
  exists x, (D ++ ns ++ [entry ++ x]). split; [exact Hx|]. split; [reflexivity|]. split; [exact HF|]. split; [exists (ns ++ [entry ++ x]); split; [destruct ns; discriminate|reflexivity]|].
  intros r2 sub2 ns2 entry2 c2 ev2 r2' f2 fn2 c2' out2 D2 HO2 HE2 LD2 -> HR2 HW2 HF2. destruct (G _ _ _ _ _ _ _ _ _ _ _ _ _ _ _ _ _ _ P HO2 HE2 LH LD2 HR2 HW2) as (x2 & Hx2 & HF2').
  apply leads_iff in HF2, HF2'. rewrite HF2 in HF2'. apply app_inv_head in HF2'. apply app_inj_tail in HF2' as [E1 E2]. subst ns2. split; [now apply (ordinary_fun sub2 sub ns)|]. exists x2. auto.
Qed.
Print Assumptions C60_inside.
Lemma ordinary_ex : ordinary (lit "a/B.class") [lit "a"; lit "B.class"].
Proof.
  split; [apply parts_iff; reflexivity|]. repeat constructor; try discriminate; cbn; intuition discriminate.
Qed.
Example C60_ex_inside : exists ev r', run (lit "/home/u") keep no_exn no_exn plain_render (subreporter keep (top_reporter [FHtml; FText]) (lit "a/B.class") (lit "JavaClassReport")) some_change = (ev, r', None) /\
  ordinary (lit "a/B.class") [lit "a"; lit "B.class"] /\ plain_name (lit "JavaClassReport") /\ wrote ev FHtml (Some (lit "out/a/B.class/JavaClassReport.html")) some_change (Ok (lit ".html")) /\
  leads [lit "home"; lit "u"] (lit "out/a/B.class/JavaClassReport.html") [lit "home"; lit "u"; lit "out"; lit "a"; lit "B.class"; lit "JavaClassReport.html"].
Proof.
  do 2 eexists. split; [reflexivity|]. split; [apply ordinary_ex|]. split; [repeat split; try discriminate; cbn; intuition discriminate|]. split.
  - eexists (mkinst FHtml (lit "out/a/B.class") [(lit "../..", lit "JarReport")]). split; [reflexivity|]. right. right. left. reflexivity.
  - apply leads_by. reflexivity.
Qed.
(** Finding: a sub-path with ".." or an absolute one leaves the directory. *)
Theorem C60_escape_refuted : exists r sub1 sub2 H D D1 D2, leads [] (lit "/home/u") H /\ leads H (r_base r) D /\
  leads H (r_base (subreporter keep r sub1 (lit "JavaClassReport"))) D1 /\ leads H (r_base (subreporter keep r sub2 (lit "JavaClassReport"))) D2 /\
  is_abs sub1 = false /\ ~ below D (D1 ++ [lit "JavaClassReport.html"]) /\ ~ below D (D2 ++ [lit "JavaClassReport.html"]).
Proof.
  exists (top_reporter [FHtml]), (lit "../../x.class"), (lit "/etc/x.class"). do 4 eexists. split; [apply leads_by; reflexivity|]. split; [apply leads_by; reflexivity|]. split; [apply leads_by; reflexivity|]. split; [apply leads_by; reflexivity|].
  split; [reflexivity|]. split; intros (rest & _ & E); apply (f_equal (fun l => nth 1 l [])) in E; vm_compute in E; discriminate.
Qed.
Print Assumptions C60_escape_refuted.

(** ** C78 *)

(** The breadcrumbs of a report nested to any depth are one link for each
    reporter above it, in order from the top.  Followed from the directory [D]
    of the report, each leads to the file that the reporter above writes in HTML. *)
Theorem C78_breadcrumbs : forall cwd forder base entry fs steps H D, base <> [] -> leads [] cwd H ->
  let top := mkrep base entry [] fs None in let above k := nested forder top (firstn k steps) in
  leads H (r_base (nested forder top steps)) D ->
  exists crumbs, get_relative_breadcrumbs cwd (nested forder top steps) = Ok crumbs /\ length crumbs = length steps /\
  forall k, (k < length steps)%nat -> exists crumb, nth_error crumbs k = Some crumb /\ snd crumb = r_entry (above k) /\
    forall Dk F, leads H (r_base (above k)) Dk -> (leads D (crumb_href crumb) F <-> leads Dk (r_entry (above k) ++ lit ".html") F).
Proof.
  intros cwd forder base entry fs steps H D HB LH top above LD. destruct (crumbs_lead cwd forder base entry fs steps HB) as (crumbs & E1 & E2 & E3). exists crumbs. split; [exact E1|]. split; [exact E2|].
  intros k Hk. destruct (E3 k Hk) as (rel & N & E). eexists. split; [exact N|]. split; [reflexivity|]. intros Dk F LDk. unfold crumb_href. cbn [fst snd]. rewrite !leads_iff. apply leads_iff in LD, LDk. rewrite (leads_here cwd H LH) in LD, LDk.
  unfold top in LD. rewrite <- LD, E. unfold above, top in LDk. rewrite LDk. reflexivity.
Qed.
Print Assumptions C78_breadcrumbs.
(** That file is the one written when the reporter above runs. *)
Theorem C78_target : forall cwd forder sets_up opens render r c ev r' H D fn c' out F, (forall fs, Permutation (forder fs) fs) ->
  leads [] cwd H -> leads H (r_base r) D -> r_live r = None -> run cwd forder sets_up opens render r c = (ev, r', None) -> wrote ev FHtml (Some fn) c' out ->
  (leads H fn F <-> leads D (r_entry r ++ lit ".html") F).
Proof.
  intros cwd forder sets_up opens render r c ev r' H D fn c' out F P LH LD HL HR HW. destruct (run_wrote cwd forder sets_up opens render P r c ev r' HL HR H D LH LD) as [W _]. destruct (W _ _ _ _ HW) as (_ & _ & [_ G] & _). apply (G fn); [reflexivity|constructor].
Qed.
Print Assumptions C78_target.
Definition two_steps := [(lit "lib/x.jar", lit "JarReport"); (lit "a/../B.class", lit "JavaClassReport")].
Example C78_ex : let top := mkrep (lit "../out") (lit "DistReport") [] [FHtml] None in
  get_relative_breadcrumbs (lit "/home/u") (nested keep top two_steps) = Ok [(lit "../../..", lit "DistReport"); (lit "..", lit "JarReport")] /\
  leads [lit "home"; lit "u"] (r_base (nested keep top two_steps)) [lit "home"; lit "out"; lit "lib"; lit "x.jar"; lit "B.class"] /\
  leads [lit "home"; lit "out"; lit "lib"; lit "x.jar"; lit "B.class"] (crumb_href (lit "../../..", lit "DistReport")) [lit "home"; lit "out"; lit "DistReport.html"].
Proof. split; [reflexivity|]. split; apply leads_by; reflexivity. Qed.
(** Finding: with an empty base directory, which ReportFormat.run provides for,
    every sub-reporter fails when it is set up. *)
Theorem C78_empty_base_refuted : exists r, r_base r = [] /\ exists ev, run (lit "/") keep no_exn no_exn plain_render r some_change = (ev, r, None) /\
  forall render sub entry c, run (lit "/") keep no_exn no_exn render (subreporter keep r sub entry) c = ([], subreporter keep r sub entry, Some ValueError).
Proof. exists (mkrep [] (lit "JarReport") [] [FHtml] None). split; [reflexivity|]. eexists. split; [reflexivity|]. intros. reflexivity. Qed.
Print Assumptions C78_empty_base_refuted.

(** The link "details" in a jar's report, followed from the directory of the
    report, leads to the HTML report on the class. *)
Theorem C78_details : forall cwd forder sets_up opens render r o c s n rendered ev r' H D fn c' out F, (forall fs, Permutation (forder fs) fs) ->
  leads [] cwd H -> leads H (r_base r) D -> n <> [] -> k_entry (k_of c) = Some n -> squash (named "JarClassReport" c) false (Some o) = Ok s ->
  run cwd forder sets_up opens render (subreporter forder r n (lit "JavaClassReport")) rendered = (ev, r', None) -> wrote ev FHtml (Some fn) c' out ->
  exists href, details_href s = Ok href /\ (leads D href F <-> leads H fn F).
Proof.
  intros cwd forder sets_up opens render r o c s n rendered ev r' H D fn c' out F P LH LD Hn HE HS HR HW. exists (n ++ 47 :: lit "JavaClassReport.html"). split.
  - assert (E1 : k_entry (k_of s) = Some n /\ k_orig (k_of s) = Some (lit "JarClassReport")).
    { unfold squash in HS. destruct (is_ignored o _) as [ig|]; [|discriminate]. cbn [rbind] in HS. destruct (get_description _); [|discriminate]. cbn [rbind] in HS. injection HS as <-. destruct c as [k chg d cs im]. cbn [named k_of k_removal k_addition] in *. destruct (k_removal k); [|destruct (k_addition k)]; (split; [exact HE|reflexivity]). }
    unfold details_href. destruct E1 as [-> ->]. reflexivity.
  - destruct (C60_nested cwd forder r n (lit "JavaClassReport") H D (resolve D n) P LH LD) as [B _].
    assert (LB : leads H (r_base (subreporter forder r n (lit "JavaClassReport"))) (resolve D n)) by (apply B; now apply leads_iff).
    rewrite (C78_target cwd forder sets_up opens render (subreporter forder r n (lit "JavaClassReport")) rendered ev r' H _ fn c' out F P LH LB eq_refl HR HW). cbn [subreporter r_entry]. rewrite !leads_iff.
    assert (E : resolve D (n ++ 47 :: lit "JavaClassReport.html") = resolve (resolve D n) (lit "JavaClassReport.html")).
    { unfold resolve at 1. rewrite (is_abs_app n _ Hn), split_app, fold_left_app. reflexivity. }
    rewrite E. reflexivity.
Qed.
Print Assumptions C78_details.
Definition show_json (j : json) : str := lit "{}".
Definition show_html (crumbs : list (str * str)) (entry : str) (c : change) : res str := Ok (lit "<html>").
Definition run_report (o : options) (dir : str) (occ : list str) (l r : archive) : eff Z :=
  jardiff_report_run (lit "/home/u") keep no_exn no_exn (render_of o show_json show_html) no_fmt (fun s => s) no_fmt P_Zip.no_text (fun s => s) ascii_up o dir (reports_of occ) (Ok l) (Ok r).
(** File, format and first characters of each output *)
Definition files_of (ev : list event) : list (option str * format * res str) :=
  concat (map (fun e => match e with EWrite t i c out => [(t, i_fmt i, s <- out ;; Ok (firstn 20 s))] | _ => [] end) ev).

Definition report_ex := run_report strict (lit "out") [lit "html,text"] j_one j_class.
Example C78_ex_details : exists s href, details_href s = Ok href /\ href = lit "A.class/JavaClassReport.html" /\
  (exists c t, squash (named "JarClassReport" c) false (Some strict) = Ok s /\ k_entry (k_of c) = Some (lit "A.class") /\
   In (Some t, FHtml, Ok (lit "<html>")) (files_of (fst report_ex)) /\ leads [lit "home"; lit "u"] t [lit "home"; lit "u"; lit "out"; lit "A.class"; lit "JavaClassReport.html"]) /\
  leads [lit "home"; lit "u"; lit "out"] href [lit "home"; lit "u"; lit "out"; lit "A.class"; lit "JavaClassReport.html"].
Proof.
  set (c := jar_node (lit "JarClassChange") (lit "Java Class") false false false (fun _ => false) true true None (lit "A.class")).
  destruct (squash (named "JarClassReport" c) false (Some strict)) as [s|] eqn:E; [|vm_compute in E; discriminate].
  exists s. eexists. split; [|split; [reflexivity|split]].
  - revert E. vm_compute. intro E. injection E as <-. reflexivity.
  - exists c, (lit "out/A.class/JavaClassReport.html"). split; [exact E|]. split; [reflexivity|]. split; [vm_compute; left; reflexivity|apply leads_by; reflexivity].
  - apply leads_by. reflexivity.
Qed.

(** ** C79 *)

Definition asked (occ : list str) (f : format) : Prop := exists v n, In v occ /\ field v n /\ names_format n f.

(** When jardiff --report completes, the output is exactly: in each requested
    format, the report on the jars, JarReport in the report directory [D]; and
    for each class in both jars with different bytes the report on its
    comparison, JavaClassReport in the directory named like the entry, from [D].
    There is one output for each of these. *)
Theorem C79_written : forall cwd forder sets_up opens render fmt reprs ffmt text order up o dir occ l r ev z H D,
  (forall fs, Permutation (forder fs) fs) -> (forall s, Permutation (order s) s) ->
  a_kind l = Zip -> a_kind r = Zip -> a_open l = true -> a_open r = true -> Forall sound (a_entries l) -> Forall sound (a_entries r) ->
  jardiff_report_run cwd forder sets_up opens render fmt reprs ffmt text order up o dir (reports_of occ) (Ok l) (Ok r) = (ev, Ok z) ->
  leads [] cwd H -> leads H dir D ->
  exists j, jar_report_check fmt reprs ffmt text order up o (Ok l) (Ok r) = Ok j /\
  (forall f t c out, wrote ev f t c out -> asked occ f /\ (exists s, out = Ok s) /\
     ((c = j /\ goes_to H D (lit "JarReport") f t) \/
      exists n D', class_delta fmt reprs ffmt up l r n c /\ leads D n D' /\ goes_to H D' (lit "JavaClassReport") f t)) /\
  (forall f, asked occ f -> (exists t s, goes_to H D (lit "JarReport") f t /\ wrote ev f t j (Ok s)) /\
     forall n d d' D', class_pair up l r n d d' -> leads D n D' ->
       exists t c s, class_delta fmt reprs ffmt up l r n c /\ goes_to H D' (lit "JavaClassReport") f t /\ wrote ev f t c (Ok s)) /\
  exists fs es, NoDup fs /\ (forall f, In f fs <-> asked occ f) /\ NoDup es /\ (forall n, In n es <-> exists d d', class_pair up l r n d d') /\
    outputs ev = (length fs * S (length es))%nat.
Proof.
  intros cwd forder sets_up opens render fmt reprs ffmt text order up o dir occ l r ev z H D P PO K1 K2 O1 O2 S1 S2 HR LH LD. unfold jardiff_report_run in HR. cbv zeta in HR.
  set (rpt := mkrep _ _ _ _ _) in HR. apply ebind_ok in HR as (ev1 & j & ev2 & HJ & HE & ->). apply silent_ok in HE as [-> _]. rewrite app_nil_r. exists j.
  assert (LD' : leads H (r_base rpt) D). { unfold rpt. cbn [r_base]. destruct dir as [|x dir]; [|exact LD]. apply leads_iff in LD. apply leads_iff. exact LD. }
  destruct (jar_wrote cwd forder sets_up opens render P fmt reprs ffmt text order up PO l r K1 K2 O1 O2 S1 S2 o rpt ev1 j eq_refl eq_refl HJ H D LH LD') as (A1 & A2 & A3 & es & A4 & A5 & A6).
  assert (RQ : forall f, In f (r_formats rpt) <-> asked occ f) by apply requested.
  split; [exact A1|]. split; [|split].
  - intros f t c out HW. destruct (A2 _ _ _ _ HW) as (B1 & B2 & B3). apply RQ in B1. auto.
  - intros f Hf. apply RQ in Hf. now apply A3.
  - exists (r_formats rpt), es. split; [apply formats_by_name; constructor|]. auto.
Qed.
Print Assumptions C79_written.
(** What is written is what the format makes of the change: the text report, the
    JSON report. *)
Theorem C79_content : forall cwd forder sets_up opens dump html fmt reprs ffmt text order up o dir reports l r f t c out,
  wrote (fst (jardiff_report_run cwd forder sets_up opens (render_of o dump html) fmt reprs ffmt text order up o dir reports l r)) f t c out ->
  (f = FText -> out = text_report o c) /\ (f = FJson -> forall j, json_of o c = Ok j -> out = Ok (dump j)).
Proof.
  intros cwd forder sets_up opens dump html fmt reprs ffmt text order up o dir reports l r f t c out (i & <- & Hi). apply honest_jardiff in Hi as [entry ->]. unfold render_of. split.
  - now intros ->.
  - intros -> j ->. reflexivity.
Qed.
Print Assumptions C79_content.
(** If no setup, no file and no format fails, jardiff --report ends like jardiff,
    whatever the jars. *)
Theorem C79_status : forall cwd forder sets_up opens render fmt reprs ffmt text order up o dir reports l r, (forall s, Permutation (order s) s) ->
  (forall i, sets_up i = None) -> (forall t, opens t = None) ->
  (forall f t c e, ~ wrote (fst (jardiff_report_run cwd forder sets_up opens render fmt reprs ffmt text order up o dir reports l r)) f t c (Err e)) ->
  snd (jardiff_report_run cwd forder sets_up opens render fmt reprs ffmt text order up o dir reports l r) = jardiff fmt reprs ffmt text order up o l r.
Proof.
  intros cwd forder sets_up opens render fmt reprs ffmt text order up o dir reports l r PO S1 S2 HW. apply report_status; auto. intros t i c e Hi. apply (HW (i_fmt i) t c e). exists i. auto.
Qed.
Print Assumptions C79_status.
Example C79_ex : map (fun x => (fst (fst x), snd (fst x))) (files_of (fst report_ex)) =
  [(Some (lit "out/A.class/JavaClassReport.html"), FHtml); (Some (lit "out/A.class/JavaClassReport.text"), FText);
   (Some (lit "out/JarReport.html"), FHtml); (Some (lit "out/JarReport.text"), FText)] /\
  snd report_ex = Ok 1 /\ outputs (fst report_ex) = 4%nat /\ class_pair ascii_up j_one j_class (lit "A.class") class_bytes class_bytes2.
Proof.
  split; [vm_compute; reflexivity|]. split; [vm_compute; reflexivity|]. split; [vm_compute; reflexivity|]. split; [intros [x E]; apply (f_equal (@rev Z)) in E; rewrite rev_app_distr in E; discriminate|].
  assert (HC : forall cl, content (jar_of (mf_text "ann") cl []) (lit "A.class") cl).
  { intro cl. exists [P_Zip.zfile (lit "META-INF/MANIFEST.MF") (mf_text "ann"); P_Zip.zdir (lit "d/")], (P_Zip.zfile (lit "A.class") cl), [P_Zip.zfile (lit "d/r.txt") [1; 2]].
    split; [reflexivity|]. split; [reflexivity|]. split; [reflexivity|]. intros [H|[]]. discriminate. }
  split; [apply HC|]. split; [apply HC|]. split; [vm_compute; discriminate|]. split; [exists (lit "A"); reflexivity|].
  unfold signature. rewrite <- is_sigfile_iff, <- is_sigblock_iff. vm_compute. intros [H|H]; discriminate.
Qed.

(** Finding: the names of the entries of the jars are taken as they are.  A class
    entry "../../evil.class" makes jardiff write outside the report directory. *)
Definition evil (cl : bytes) : archive := mka Zip true [P_Zip.zfile (lit "../../evil.class") cl].
Theorem C79_escape_refuted : exists l r ev z t F, Forall sound (a_entries l) /\ Forall sound (a_entries r) /\
  run_report strict (lit "out") [lit "text"] l r = (ev, Ok z) /\ (exists c s, wrote ev FText (Some t) c (Ok s)) /\
  leads [lit "home"; lit "u"] t F /\ F = [lit "home"; lit "evil.class"; lit "JavaClassReport.text"] /\ ~ below [lit "home"; lit "u"; lit "out"] F.
Proof.
  exists (evil class_bytes), (evil class_bytes2). destruct (run_report strict (lit "out") [lit "text"] (evil class_bytes) (evil class_bytes2)) as [ev z] eqn:E.
  exists ev, 1, (lit "out/../../evil.class/JavaClassReport.text"). eexists. split; [apply soundb_sound; vm_compute; reflexivity|]. split; [apply soundb_sound; vm_compute; reflexivity|].
  assert (EZ : z = Ok 1) by (change z with (snd (ev, z)); rewrite <- E; vm_compute; reflexivity). split; [now rewrite EZ|].
  assert (EF : map (fun x => (fst (fst x), snd (fst x))) (files_of ev) = [(Some (lit "out/../../evil.class/JavaClassReport.text"), FText); (Some (lit "out/JarReport.text"), FText)]).
  { change ev with (fst (ev, z)). rewrite <- E. vm_compute. reflexivity. }
  assert (EO : forallb (fun x => match snd x with Ok _ => true | Err _ => false end) (files_of ev) = true) by (change ev with (fst (ev, z)); rewrite <- E; vm_compute; reflexivity).
  split; [|split; [apply leads_by; reflexivity|split; [reflexivity|]]].
  - clear E EZ. set (x := lit "out/../../evil.class/JavaClassReport.text") in *. assert (HI : In (Some x, FText) (map (fun x => (fst (fst x), snd (fst x))) (files_of ev))) by (rewrite EF; now left).
    apply in_map_iff in HI as ([[t f] out] & E & HI). cbn [fst snd] in E. injection E as -> ->. rewrite forallb_forall in EO. pose proof (EO _ HI) as HO. cbn [snd] in HO. destruct out as [so|]; [|discriminate].
    unfold files_of in HI. apply in_concat in HI as (w & Hw & HI). apply in_map_iff in Hw as ([i|t i c out|i] & <- & Hw); try contradiction. destruct HI as [HI|[]]. injection HI as -> Hf Hout. exists c. destruct out as [s|]; [|discriminate]. exists s, i. auto.
  - intros (rest & _ & E'). apply (f_equal (fun l => nth 1 l [])) in E'. vm_compute in E'. discriminate.
Qed.
Print Assumptions C79_escape_refuted.

(** ** C80 *)

(** Text put through xml_entity_escape is read in a browser as it was, and has no
    markup. *)
Lemma escape_cons c s : xml_entity_escape (c :: s) = xml_entity_escape [c] ++ xml_entity_escape s.
Proof. unfold xml_entity_escape, replace_char. change (c :: s) with ([c] ++ s). now rewrite !flat_map_app. Qed.
Theorem C80_text : forall s, Reads (xml_entity_escape s) s /\ ~ In 60 (xml_entity_escape s) /\ ~ In 62 (xml_entity_escape s) /\ forall s', Reads (xml_entity_escape s) s' -> s' = s.
Proof.
  assert (F : forall h s, Reads h s -> forall s', Reads h s' -> s' = s).
  { induction 1 as [|c h s N1 N2 N3 H IH|h s H IH|h s H IH|h s H IH]; intros s' H'; inversion H'; subst; try contradiction; try reflexivity; try (f_equal; now apply IH); try discriminate. }
  assert (G : forall s, Reads (xml_entity_escape s) s).
  { induction s as [|c s IH]; [constructor|]. rewrite escape_cons. unfold xml_entity_escape at 1, replace_char. cbn [flat_map app].
    destruct (Z.eqb_spec c 38) as [->|N1]; [exact (reads_amp _ _ IH)|]. cbn [flat_map app]. destruct (Z.eqb_spec c 62) as [->|N2]; [exact (reads_gt _ _ IH)|]. cbn [flat_map app]. destruct (Z.eqb_spec c 60) as [->|N3]; [exact (reads_lt _ _ IH)|]. cbn [app]. now constructor. }
  assert (N : forall h s, Reads h s -> ~ In 60 h /\ ~ In 62 h).
  { induction 1 as [|c h s N1 N2 N3 H IH|h s H IH|h s H IH|h s H IH]; [split; intros []|destruct IH; split; (intros [E|E]; [congruence|tauto])| | |]; destruct IH; split; intro E; apply in_app_iff in E as [E|E]; try tauto; cbn in E; intuition discriminate. }
  intro s. split; [apply G|]. split; [apply (N _ _ (G s))|]. split; [apply (N _ _ (G s))|]. intros s' H. exact (F _ _ (G s) _ H).
Qed.
Print Assumptions C80_text.
Example C80_ex : xml_entity_escape (lit "<init>&x") = lit "&lt;init&gt;&amp;x".
Proof. reflexivity. Qed.

Lemma no_char_prefix (c : Z) x : ~ In c x -> forall y p t, x ++ y = p ++ c :: t -> exists p', y = p' ++ c :: t.
Proof.
  induction x as [|a x IH]; intros H y p t E; [exists p; exact E|]. destruct p as [|b p]; cbn [app] in E; injection E as E1 E2; [exfalso; apply H; now left|]. apply (IH (fun h => H (or_intror h)) y p t E2).
Qed.
Definition before_link : str := 10 :: lit "<span class=""moreinfo"">[".
Lemma before_link_no p q : before_link <> p ++ lit "<a" ++ q.
Proof.
  intro E. assert (H : forall n, skipn n before_link = lit "<a" ++ q -> (n <= length before_link)%nat -> False).
  { intros n Hn L. change (length before_link) with 25%nat in L. do 26 (destruct n as [|n]; [vm_compute in Hn; discriminate|]). lia. }
  apply (H (length p)); [rewrite E, skipn_app, skipn_all, Nat.sub_diag; reflexivity|]. rewrite E, app_length. lia.
Qed.
(** The link of a class whose entry name has no quote is the one meant, and the
    name shown beside it is the entry's. *)
Theorem C80_link : forall c e orig m, k_entry (k_of c) = Some e -> k_orig (k_of c) = Some orig -> details_html c = Ok m -> ~ In 34 e ->
  exists uri shown rest, details_href c = Ok uri /\ m = shown ++ rest /\ Reads shown e /\ first_link m uri /\ forall v, first_link m v -> v = uri.
Proof.
  intros c e orig m HE HO HM HQ. unfold details_html in HM. destruct (details_href c) as [uri|] eqn:HU; [|discriminate]. cbn [rbind] in HM. rewrite HE in HM. injection HM as HM.
  assert (HQU : ~ In 34 uri).
  { unfold details_href in HU. rewrite HO, HE in HU. destruct (report_name orig) as [n|] eqn:HN; [|discriminate]. injection HU as <-. intro Hi. apply in_app_iff in Hi as [Hi|[Hi|Hi]]; [contradiction|discriminate|]. apply in_app_iff in Hi as [Hi|Hi]; [|cbn in Hi; intuition discriminate].
    unfold report_name in HN. destruct (_ || _); [injection HN as <-; cbn in Hi; intuition discriminate|]. destruct (_ || _); [injection HN as <-; cbn in Hi; intuition discriminate|]. destruct (seqb _ _); [injection HN as <-; cbn in Hi; intuition discriminate|discriminate]. }
  destruct (C80_text e) as (R & N60 & _). set (x := xml_entity_escape e) in *.
  assert (EM : m = (x ++ before_link) ++ lit "<a href=""" ++ uri ++ 34 :: (lit ">details</a>]</span>" ++ [10])).
  { rewrite <- HM, <- app_assoc. reflexivity. }
  exists uri, x. eexists. split; [reflexivity|]. split; [symmetry; exact HM|]. split; [exact R|]. rewrite EM.
  assert (NA : forall p q, x ++ before_link <> p ++ lit "<a" ++ q).
  { intros p q E. destruct (no_char_prefix 60 x N60 before_link p (97 :: q) E) as [p' E']. exact (before_link_no p' q E'). }
  split; [exists (x ++ before_link); eexists; split; [reflexivity|]; auto|].
  intros v (a & b & E & NV & NB). assert (EA : a = x ++ before_link).
  { remember (x ++ before_link) as w eqn:Ew. clear -E NA NB. revert a E NA NB. induction w as [|y w IH]; intros [|z a] E NA NB; [reflexivity| | |].
    - exfalso. cbn [app] in E. change (lit "<a href=""") with ([60; 97] ++ lit " href=""") in E. cbn [app] in E. destruct a as [|z' a].
      + change (lit "<a href=""") with (60 :: 97 :: lit " href=""") in E. cbn [app] in E. injection E as _ E _. discriminate.
      + injection E as <- <- _. apply (NB [] a). reflexivity.
    - exfalso. cbn [app] in E. change (lit "<a href=""") with (60 :: 97 :: lit " href=""") in E. cbn [app] in E. destruct w as [|y' w]; cbn [app] in E.
      + injection E as _ E _. discriminate.
      + injection E as -> -> _. apply (NA [] w). reflexivity.
    - cbn [app] in E. injection E as -> E. f_equal. apply IH; [exact E| |].
      + intros p q E'. apply (NA (z :: p) q). cbn [app]. now f_equal.
      + intros p q E'. apply (NB (z :: p) q). cbn [app]. now f_equal. }
  subst a. apply app_inv_head in E. apply app_inv_head in E. clear -E HQU NV. revert v E NV. induction uri as [|y uri IH]; intros [|z v] E NV; cbn [app] in E; [reflexivity| | |]; injection E as E1 E2.
  - exfalso. apply NV. left. auto.
  - exfalso. apply HQU. left. auto.
  - subst z. f_equal. apply IH; [intro; apply HQU; now right|exact E2|intro; apply NV; now right].
Qed.
Print Assumptions C80_link.
Definition squashed_class (e : str) : change := squashed N_Squashed false false (named "JarClassReport" (jar_node (lit "JarClassChange") (lit "Java Class") false false false (fun _ => false) true true None e)) (lit "Java Class has changed: " ++ e) false.
Example C80_ex_link : exists m, details_html (squashed_class (lit "a<b>.class")) = Ok m /\ first_link m (lit "a<b>.class/JavaClassReport.html").
Proof.
  eexists. split; [reflexivity|]. destruct (C80_link (squashed_class (lit "a<b>.class")) (lit "a<b>.class") (lit "JarClassReport") _ eq_refl eq_refl eq_refl) as (uri & shown & rest & HU & _ & _ & HL & _); [cbn; intuition discriminate|].
  injection HU as <-. exact HL.
Qed.
(** Finding: links are not escaped.  A quote in the name of an entry ends the
    attribute, and what follows it becomes markup. *)
Theorem C80_link_refuted : exists e m uri v, details_html (squashed_class e) = Ok m /\ details_href (squashed_class e) = Ok uri /\ first_link m v /\ v <> uri /\
  exists a b, m = a ++ lit "<script>" ++ b /\ forall p q, a <> p ++ lit "</a>" ++ q.
Proof.
  exists (lit "x""><script>.class"). eexists. exists (lit "x""><script>.class/JavaClassReport.html"), (lit "x"). split; [reflexivity|]. split; [reflexivity|]. split; [|split].
  - exists (xml_entity_escape (lit "x""><script>.class") ++ before_link). exists (lit "><script>.class/JavaClassReport.html"">details</a>]</span>" ++ [10]). split; [reflexivity|]. split; [cbn; intuition discriminate|].
    intros p q E. destruct (no_char_prefix 60 _ (proj1 (proj2 (C80_text _))) before_link p (97 :: q) E) as [p' E']. exact (before_link_no p' q E').
  - discriminate.
  - exists (xml_entity_escape (lit "x""><script>.class") ++ before_link ++ lit "<a href=""x"">"), (lit ".class/JavaClassReport.html"">details</a>]</span>" ++ [10]). split; [reflexivity|]. intros p q E.
    destruct (no_char_prefix 60 _ (proj1 (proj2 (C80_text _))) _ p (lit "/a>" ++ q) E) as [p' E'].
    assert (H : forall n, skipn n (before_link ++ lit "<a href=""x"">") = lit "</a>" ++ q -> (n <= 37)%nat -> False).
    { intros n Hn L. do 38 (destruct n as [|n]; [vm_compute in Hn; discriminate|]). lia. }
    apply (H (length p')); [rewrite E', skipn_app, skipn_all, Nat.sub_diag; reflexivity|]. apply (f_equal (@length Z)) in E'. change (length (before_link ++ lit "<a href=""x"">")) with 37%nat in E'. rewrite app_length in E'. lia.
Qed.
Print Assumptions C80_link_refuted.

(** Property C114: the files that distdiff --report writes. *)
From Verif Require Import Base Pack_Model ConstPool_Model ConstPool_Spec ClassFile_Model ClassFile_Spec Manifest_Model
  Change_Model Change_Spec Change_Proofs Change_Report Classdiff_Model Classdiff_Spec
  Zip_Spec Zip_Proofs Jardiff_Model Jardiff_Spec Jardiff_Proofs Jardiff_Jar Jardiff_Report Distdiff_Model Distdiff_Spec Report_Model Report_Spec Report_Paths Report_Proofs Report_Jar Report_Written
  Drep_Model Drep_Spec Drep_Proofs Parallel_Model Parallel_Proofs P_ClassFile P_Classdiff P_Jardiff P_Distdiff P_Report P_Parallel.
From Verif Require Zip_Model Dir_Spec P_Zip.
From Coq Require Import Permutation.
Import Zip_Model (node, DIFF).
Import Dir_Spec (plain, data_at).

(** ** Example data *)
(** The jar and the loose class differ *)
Definition d_two := dist (lit "one") [2] class_bytes2 [0] "ann" [] 2.
Lemma d_two_fine : plain d_two /\ names_ok d_two /\ Dir_Spec.comparable d_one d_two.
Proof.
  assert (H : plainb 4 d_two && names_okb 4 d_two && comparableb 4 d_one d_two = true) by (vm_compute; reflexivity).
  apply andb_true_iff in H as [H H3]. apply andb_true_iff in H as [H1 H2]. split; [exact (plainb_plain _ _ H1)|]. split; [exact (names_okb_ok _ _ H2)|exact (comparableb_ok _ _ _ H3)].
Qed.
Lemma some_jars_fine n : readable_jars some_jars n.
Proof.
  intros p d a _ _ E. unfold some_jars in E. assert (HX : forallb (fun a => forallb soundb (Zip_Model.a_entries a)) [j_one; j_class] = true) by (vm_compute; reflexivity). cbn [forallb] in HX. apply andb_true_iff in HX as [X1 X2]. rewrite andb_true_r in X2. apply soundb_sound in X1, X2.
  destruct d as [|x d]; [discriminate E|]. destruct x as [|[q|q|]|]; try discriminate E; [destruct q; try discriminate E|]; destruct d as [|y d]; try discriminate E; injection E as <-; (split; [reflexivity|]; split; [reflexivity|]; assumption).
Qed.
Definition drun (occ : list str) (l r : node) : eff Z :=
  distdiff_report_run (lit "/home/u") keep no_exn no_exn (render_of strict show_json show_html) no_fmt (fun s => s) no_fmt ascii_text (fun s => s) ascii_up some_jars l r strict false (lit "out") (reports_of occ).

(** ** C114 *)

(** When distdiff --report completes, the output is exactly the reports that are
    due, in each requested format: DistReport in the report directory [D]; for
    each class file in both with different bytes JavaClassReport, and for each jar
    JarReport, in the directory named like the file, from [D]; and for each class
    in both of such jars with different bytes JavaClassReport in the directory
    named like the entry, from there.  There is one output for each of these. *)
Theorem C114_written : forall cwd forder sets_up opens render fmt reprs ffmt text order up unzip o shallow dir occ l r ev z H D,
  (forall fs, Permutation (forder fs) fs) -> (forall s, Permutation (order s) s) ->
  plain l -> plain r -> names_ok l -> names_ok r -> Dir_Spec.comparable l r -> readable_jars unzip l -> readable_jars unzip r ->
  distdiff_report_run cwd forder sets_up opens render fmt reprs ffmt text order up unzip l r o shallow dir (reports_of occ) = (ev, Ok z) ->
  leads [] cwd H -> leads H dir D ->
  let due := due fmt reprs ffmt text order up unzip o shallow l r D in
  (forall f t c out, wrote ev f t c out -> asked occ f /\ (exists x, out = Ok x) /\ exists s D' n, due s D' n c /\ goes_to H D' n f t) /\
  (forall f s D' n c, asked occ f -> due s D' n c -> exists t x, goes_to H D' n f t /\ wrote ev f t c (Ok x)) /\
  exists fs ss, NoDup fs /\ (forall f, In f fs <-> asked occ f) /\ NoDup ss /\ (forall s, In s ss <-> exists D' n c, due s D' n c) /\
    In Whole ss /\ outputs ev = (length fs * length ss)%nat.
Proof.
  intros cwd forder sets_up opens render fmt reprs ffmt text order up unzip o shallow dir occ l r ev z H D P PO Pl Pr Nl Nr HC Jl Jr HR LH LD due. unfold distdiff_report_run in HR. cbv zeta in HR.
  set (rpt := mkrep _ _ _ _ _) in HR. apply ebind_ok in HR as (ev1 & c0 & ev2 & HJ & HE & ->). apply silent_ok in HE as [-> _]. rewrite app_nil_r.
  assert (LD' : leads H (r_base rpt) D). { unfold rpt. cbn [r_base]. destruct dir as [|x dir]; [|exact LD]. apply leads_iff in LD. apply leads_iff. exact LD. }
  destruct (dist_wrote cwd forder sets_up opens render P fmt reprs ffmt text order up unzip PO l r Pl Pr Nl Nr HC Jl Jr o shallow H D LH rpt eq_refl LD' eq_refl ev1 c0 HJ) as (A0 & A1 & A2 & ss & A3 & A4 & A5).
  assert (RQ : forall f, In f (r_formats rpt) <-> asked occ f) by apply requested. split; [|split].
  - intros f t c out HW. destruct (A1 _ _ _ _ HW) as (B1 & B2 & B3). apply RQ in B1. auto.
  - intros f s D' n c Hf. apply RQ in Hf. now apply A2.
  - exists (r_formats rpt), ss. split; [apply formats_by_name; constructor|]. split; [exact RQ|]. split; [exact A3|]. split; [exact A4|]. split; [apply A4; eauto|exact A5].
Qed.
Print Assumptions C114_written.

(** What is written is what the format makes of the outcome. *)
Theorem C114_content : forall cwd forder sets_up opens dump html fmt reprs ffmt text order up unzip o shallow dir reports l r f t c out,
  wrote (fst (distdiff_report_run cwd forder sets_up opens (render_of o dump html) fmt reprs ffmt text order up unzip l r o shallow dir reports)) f t c out ->
  (f = FText -> out = text_report o c) /\ (f = FJson -> forall j, json_of o c = Ok j -> out = Ok (dump j)).
Proof.
  intros cwd forder sets_up opens dump html fmt reprs ffmt text order up unzip o shallow dir reports l r f t c out (i & <- & Hi). apply honest_distdiff in Hi as [entry ->]. unfold render_of. split.
  - now intros ->.
  - intros -> j ->. reflexivity.
Qed.
Print Assumptions C114_content.

(** If no setup, no file and no format fails, distdiff --report ends like
    distdiff, whatever the trees. *)
Theorem C114_status : forall cwd forder sets_up opens render fmt reprs ffmt text order up unzip o shallow dir reports l r, (forall s, Permutation (order s) s) ->
  (forall i, sets_up i = None) -> (forall t, opens t = None) ->
  (forall f t c e, ~ wrote (fst (distdiff_report_run cwd forder sets_up opens render fmt reprs ffmt text order up unzip l r o shallow dir reports)) f t c (Err e)) ->
  snd (distdiff_report_run cwd forder sets_up opens render fmt reprs ffmt text order up unzip l r o shallow dir reports) = distdiff fmt reprs ffmt text order up unzip l r o shallow.
Proof.
  intros cwd forder sets_up opens render fmt reprs ffmt text order up unzip o shallow dir reports l r PO S1 S2 HW. apply dist_status; auto. intros t i c e Hi. apply (HW (i_fmt i) t c e). exists i. auto.
Qed.
Print Assumptions C114_status.
Example C114_ex : let res := drun [lit "html,text"] d_one d_two in
  map (fun x => (fst (fst x), snd (fst x))) (files_of (fst res)) =
  [(Some (lit "out/./A.class/JavaClassReport.html"), FHtml); (Some (lit "out/./A.class/JavaClassReport.text"), FText);
   (Some (lit "out/META-INF/lib.jar/A.class/JavaClassReport.html"), FHtml); (Some (lit "out/META-INF/lib.jar/A.class/JavaClassReport.text"), FText);
   (Some (lit "out/META-INF/lib.jar/JarReport.html"), FHtml); (Some (lit "out/META-INF/lib.jar/JarReport.text"), FText);
   (Some (lit "out/DistReport.html"), FHtml); (Some (lit "out/DistReport.text"), FText)] /\
  snd res = Ok 1 /\ outputs (fst res) = 8%nat /\ plain d_two /\ names_ok d_two /\ Dir_Spec.comparable d_one d_two /\ readable_jars some_jars d_two /\
  changed_file false d_one d_two KClass [lit "A.class"] class_bytes class_bytes2.
Proof.
  cbv zeta. split; [vm_compute; reflexivity|]. split; [vm_compute; reflexivity|]. split; [vm_compute; reflexivity|]. destruct d_two_fine as (A & B & C). split; [exact A|]. split; [exact B|]. split; [exact C|]. split; [apply some_jars_fine|].
  split; [reflexivity|]. split; [exists false, 1; eapply Dir_Spec.found_down; [right; right; now left|constructor]|]. split; [exists false, 2; eapply Dir_Spec.found_down; [right; right; now left|constructor]|]. split; [vm_compute; discriminate|]. exists (lit "./A"), (lit ".class"). split; [now left|reflexivity].
Qed.

(** With --processes: whatever the schedule of the helpers, if the sequential run
    completes then the processes do, each report is written exactly once, and in
    the end the same has been written as by the sequential run. *)
Theorem C114_parallel : forall cwd forder sets_up opens render fmt reprs ffmt text order up unzip o shallow l r rp n ev c s,
  0 < n -> r_live rp = None -> dist_report_run cwd forder sets_up opens render fmt reprs ffmt text order up unzip l r o shallow rp = (ev, Ok c) ->
  exists evs, dist_events fmt reprs ffmt text order up unzip l r shallow = Ok evs /\
  let is_task := is_report fmt reprs ffmt text order up unzip l r shallow in
  let work := dist_work cwd forder sets_up opens render fmt reprs ffmt text order up unzip l r o shallow rp in
  (reachable _ _ evs is_task work work n s ->
   (exists s', step _ _ evs is_task work work s s') \/
   (s_parent _ _ s = Returned /\ Permutation (s_log _ _ s) (map fst (all_tasks _ evs is_task)) /\
    exists done ev', s_slots _ _ s = map Some done /\
      dist_parallel_end cwd forder sets_up opens render fmt reprs ffmt text order up unzip l r shallow rp done = (ev', Ok c) /\
      (forall f t c' out, wrote ev' f t c' out <-> wrote ev f t c' out) /\ outputs ev' = outputs ev)).
Proof.
  intros cwd forder sets_up opens render fmt reprs ffmt text order up unzip o shallow l r rp n ev c s Hn RL HR.
  destruct (parallel_same cwd forder sets_up opens render fmt reprs ffmt text order up unzip l r o shallow rp ev c RL HR) as (evs & done & ev' & E1 & E2 & E3 & E4 & E5). exists evs. split; [exact E1|]. intros is_task work HS.
  assert (HQ : sequential _ _ evs is_task work work = Ok done). { unfold sequential. rewrite <- E2. apply mapM_ext. intros x _. now destruct (is_task x). }
  destruct (C56_complete _ _ evs is_task work work n done s Hn HQ HS) as [X|(X1 & X2 & _ & X3)]; [now left|right]. split; [exact X1|]. split; [exact X3|]. exists done, ev'. auto.
Qed.
Print Assumptions C114_parallel.
Example C114_parallel_ex : let rp := mkrep (lit "out") (lit "DistReport") [] [FText] None in
  let m := dist_report_run (lit "/home/u") keep no_exn no_exn (render_of strict show_json show_html) no_fmt (fun s => s) no_fmt ascii_text (fun s => s) ascii_up some_jars d_one d_two strict false rp in
  (exists c, snd m = Ok c) /\ outputs (fst m) = 4%nat /\
  (evs <- dist_events no_fmt (fun s => s) no_fmt ascii_text (fun s => s) ascii_up some_jars d_one d_two false ;; Ok (all_tasks _ evs (is_report no_fmt (fun s => s) no_fmt ascii_text (fun s => s) ascii_up some_jars d_one d_two false)))
    = Ok [(0%nat, (DIFF, lit "./A.class")); (1%nat, (DIFF, lit "META-INF/lib.jar"))].
Proof.
  cbv zeta. split; [|split; vm_compute; reflexivity].
  match goal with |- exists c, snd ?m = Ok c => assert (X : match snd m with Ok _ => true | Err _ => false end = true) by (vm_compute; reflexivity); destruct (snd m) as [c|]; [eauto|discriminate X] end.
Qed.
(** A report that fails, e.g. since its file cannot be written, ends the sequential
    run; with --processes, distdiff never returns: every schedule comes to where the
    parent waits for a result that no helper will send. *)
Theorem C114_parallel_waits : forall cwd forder sets_up opens render fmt reprs ffmt text order up unzip o shallow l r rp n evs e x s,
  let is_task := is_report fmt reprs ffmt text order up unzip l r shallow in
  let entry := dist_entry_run cwd forder sets_up opens render fmt reprs ffmt text order up unzip l r o shallow rp in
  let work := dist_work cwd forder sets_up opens render fmt reprs ffmt text order up unzip l r o shallow rp in
  In e evs -> is_task e = true -> snd (entry e) = Err x -> (forall e', In e' evs -> is_task e' = false -> exists c, snd (entry e') = Ok c) ->
  reachable _ _ evs is_task work work n s ->
  s_parent _ _ s <> Returned /\ ((exists s', step _ _ evs is_task work work s s') \/ exists m, s_parent _ _ s = Collecting (S m) /\ s_results _ _ s = []).
Proof.
  intros cwd forder sets_up opens render fmt reprs ffmt text order up unzip o shallow l r rp n evs e x s is_task entry work HI HT HE HL HR.
  assert (HW : work e = Err x) by (unfold work, dist_work; fold entry; destruct (entry e) as [ev [c|y]]; cbn [snd] in HE; [discriminate HE|injection HE as ->; reflexivity]). split.
  - intro HP. destruct (C56_sound _ _ evs is_task work work n s HR HP) as (ks & HQ & _). unfold sequential in HQ. apply In_nth_error in HI as [i Hi].
    destruct (mapM_nth _ _ _ _ _ HQ Hi) as [b Hb]. cbn beta in Hb. rewrite HT in Hb. congruence.
  - refine (C56_task_fails _ _ evs is_task work work n e x s HI HT HW _ HR). intros e' He' Ht'. destruct (HL e' He' Ht') as [c Hc]. unfold work, dist_work. fold entry.
    destruct (entry e') as [ev [c'|y]]; cbn [snd] in Hc; [eexists; reflexivity|discriminate Hc].
Qed.
Print Assumptions C114_parallel_waits.
Example C114_parallel_waits_ex : let rp := mkrep (lit "out") (lit "DistReport") [] [FText] None in let e := (DIFF, lit "./A.class") in
  let full (t : str) := Some FileNotFoundError in
  let entry := dist_entry_run (lit "/home/u") keep no_exn full (render_of strict show_json show_html) no_fmt (fun s => s) no_fmt ascii_text (fun s => s) ascii_up some_jars d_one d_two strict false rp in
  let is_task := is_report no_fmt (fun s => s) no_fmt ascii_text (fun s => s) ascii_up some_jars d_one d_two false in
  exists evs x, dist_events no_fmt (fun s => s) no_fmt ascii_text (fun s => s) ascii_up some_jars d_one d_two false = Ok evs /\
    In e evs /\ is_task e = true /\ snd (entry e) = Err x /\ forall e', In e' evs -> is_task e' = false -> exists c, snd (entry e') = Ok c.
Proof.
  cbv zeta. set (is_task := is_report _ _ _ _ _ _ _ _ _ _). set (entry := dist_entry_run _ _ _ _ _ _ _ _ _ _ _ _ _ _ _ _ _).
  exists [(DIFF, lit "./A.class"); (DIFF, lit "META-INF/lib.jar"); (Zip_Model.SAME, lit "./README.txt"); (Zip_Model.SAME, lit "META-INF/MANIFEST.MF"); (Zip_Model.SAME, lit "./data.bin")], FileNotFoundError.
  split; [vm_compute; reflexivity|]. split; [now left|]. split; [vm_compute; reflexivity|]. split.
  - assert (X : match snd (entry (DIFF, lit "./A.class")) with Err FileNotFoundError => true | _ => false end = true) by (vm_compute; reflexivity). destruct (snd (entry _)) as [c|[]]; try discriminate X; reflexivity.
  - assert (X : forallb (fun e => is_task e || match snd (entry e) with Ok _ => true | Err _ => false end)
      [(DIFF, lit "./A.class"); (DIFF, lit "META-INF/lib.jar"); (Zip_Model.SAME, lit "./README.txt"); (Zip_Model.SAME, lit "META-INF/MANIFEST.MF"); (Zip_Model.SAME, lit "./data.bin")] = true) by (vm_compute; reflexivity).
    intros e' He' Ht'. apply (proj1 (forallb_forall _ _) X) in He'. rewrite Ht' in He'. destruct (snd (entry e')) as [c|]; [now exists c|discriminate He'].
Qed.

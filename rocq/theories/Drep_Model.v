(** Model of distdiff --report: the report side of /repo/javatools/distdiff.py,
    for --processes=0. *)
From Verif Require Import Base Pack_Model ConstPool_Model ClassFile_Model Manifest_Model Change_Model Classdiff_Model Jardiff_Model Distdiff_Model Report_Model.
From Verif Require Zip_Model.

Section Reporters.
(** As in Report_Model *)
Variable cwd : str.
Variable forder : list format -> list format.
Variable sets_up : inst -> option exn.
Variable opens : str -> option exn.
Variable render : inst -> str -> change -> res str.
(** As in Distdiff_Model *)
Variable fmt : pyval -> str.
Variable reprs : str -> str.
Variable ffmt : pyval -> str.
Variable text : bytes -> res str.
Variable order : list str -> list str.
Variable up : Z -> str.
Variable unzip : bytes -> jar.
Variables left right : Zip_Model.node.
Notation dist_event := (dist_event fmt reprs ffmt text order up unzip left right).

(** The check of a DistJarReport (distdiff.py:206-224), whose child is a JarReport,
    or of a DistClassReport (251-268), whose child is a JavaClassReport that is
    reported on when it has been checked (classdiff.py:880-882), with the
    sub-reporter made at distdiff.py:398-409. *)
Definition report_check_run (o : options) (shallow : bool) (r : reporter) (ev : Zip_Model.event * str) : eff change :=
  if seqb (k_name (k_of (dist_event shallow ev))) (lit "DistJarChange") then
    let sub := subreporter forder r (snd ev) (lit "JarReport") in
    ebind (silent (both left right (snd ev))) (fun '(a, b) =>
    ebind (jar_report_run cwd forder sets_up opens render fmt reprs ffmt text order up o sub (unzip a) (unzip b)) (fun j =>
    silent (let 'Node k _ _ _ im := dist_event shallow ev in Ok (Node k (is_change j) None [j] im))))
  else
    let sub := subreporter forder r (snd ev) (lit "JavaClassReport") in
    ebind (silent (check (dist_event shallow ev))) (fun c =>
    let 'Node _ _ _ cs _ := c in
    ebind (emap (fun kid => reported cwd forder sets_up opens render sub (named "JavaClassReport" kid)) cs) (fun _ =>
    silent (Ok c))).
(** DistReport.check_impl without processes, distdiff.py:494-516, for one change:
    its check, and squash for the two kinds of reports *)
Definition dist_entry_run (o : options) (shallow : bool) (r : reporter) (ev : Zip_Model.event * str) : eff change :=
  if is_report fmt reprs ffmt text order up unzip left right shallow ev then
    ebind (report_check_run o shallow r ev) (fun c =>
    silent (squash (named (report_class fmt reprs ffmt text order up unzip left right shallow ev) c) false (Some o)))
  else silent (check (dist_event shallow ev)).
(** DistReport.check, distdiff.py:519-524: all events are collected before the
    first change is made (they are sorted by type, change.py:71-118) *)
Definition dist_report_run (o : options) (shallow : bool) (r : reporter) : eff change :=
  ebind (silent (dist_events fmt reprs ffmt text order up unzip left right shallow)) (fun evs =>
  ebind (emap (dist_entry_run o shallow r) evs) (fun ks =>
  let c := dist_report fmt reprs ffmt text order up unzip left right shallow ks in
  ebind (reported cwd forder sets_up opens render r c) (fun _ => silent (Ok c)))).
(** cli_dist_diff with --report given at least once, distdiff.py:558-585: the
    reports written and the exit status.  What goes to standard output without
    --silent is in Change_Model. *)
Definition distdiff_report_run (o : options) (shallow : bool) (report_dir : str) (reports : list str) : eff Z :=
  let rdir := match report_dir with [] => lit "./" | d => d end in
  let rpt := mkrep rdir (lit "DistReport") [] (add_formats_by_name [] reports) None in
  ebind (dist_report_run o shallow rpt) (fun c => silent (exit_status o c)).

(** With --processes: what a task gives, for the model of the processes
    (Parallel_Model): what it writes and the change (distdiff.py:533-546), and what
    the parent does with the other changes (473-475) *)
Definition dist_work (o : options) (shallow : bool) (r : reporter) (ev : Zip_Model.event * str) : res (list event * change) :=
  match dist_entry_run o shallow r ev with (e, Ok c) => Ok (e, c) | (_, Err x) => Err x end.
(** DistReport.mp_check_impl and check (distdiff.py:412-496, 519-524), given what
    the tasks have written and found: the reporter is set up before (431), and
    runs at the end.  The helpers write at the same time; here their events are in
    the order of the changes. *)
Definition dist_parallel_end (shallow : bool) (r : reporter) (done : list (list event * change)) : eff change :=
  match setup cwd forder sets_up r with
  | (ev, _, Some e) => (ev, Err e)
  | (ev, r1, None) =>
      ebind (ev ++ concat (map fst done), Ok (dist_report fmt reprs ffmt text order up unzip left right shallow (map snd done))) (fun c =>
      ebind (reported cwd forder sets_up opens render r1 c) (fun _ => silent (Ok c)))
  end.
End Reporters.

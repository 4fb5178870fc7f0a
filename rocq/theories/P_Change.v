(** Properties C36-C40 and C64: changes, ignoring, squashing, reports. *)
From Verif Require Import Base Change_Model Change_Spec Change_Proofs Change_Report.
From Coq Require Import Permutation.

(** ** Example changes *)
Definition leaf (name : str) (own : options -> bool) (b : bool) : change :=
  Node (mkcls name name false false false None own false (CheckOwn (Ok (b, None))) false false false None None None [1; 2] (Ok (Some (OStr name))) no_data) false None [] [].
Definition added (name : str) : change :=
  Node (mkcls name name true true false None (fun _ => false) false CheckNothing false false false None (Some (lit "e")) None [3] no_data no_data) false None [] [].
Definition composite (name : str) (parts : list change) : change :=
  Node (mkcls name name false false false None (fun _ => false) true CheckParts true false false None None None [1; 2] no_data no_data) false None [] parts.
Definition opts0 : options := mkopts false false false false false false false false false false false false [] false false false [] [] false.
Definition opts_pool : options := mkopts false false false false false false false false false false true false [] false false false [] [] false.
Definition opts_all : options := mkopts true true false false false false false false false false true false [] false false false [] [] false.
Definition pool_leaf (b : bool) := leaf (lit "Pool") ignore_pool b.
Definition tree0 : change := composite (lit "Class") [pool_leaf true; composite (lit "Fields") [leaf (lit "Field") (fun _ => false) false; added (lit "Added")]; leaf (lit "Name") (fun _ => false) false].
Definition tree_pool : change := composite (lit "Class") [pool_leaf true; leaf (lit "Name") (fun _ => false) false].
Definition checked (c : change) : change := match check c with Ok c' => c' | Err _ => c end.

(** ** C36 *)
Theorem C36_permutation : forall A (tyof : A -> str) objs typelist, Permutation (iterate_by_type tyof objs typelist) objs.
Proof. intros A tyof objs ts. apply iterate_spec. Qed.
Print Assumptions C36_permutation.
Theorem C36_stable : forall A (tyof : A -> str) objs typelist t,
  filter (fun v => seqb (tyof v) t) (iterate_by_type tyof objs typelist) = filter (fun v => seqb (tyof v) t) objs.
Proof. intros A tyof objs ts. apply iterate_spec. Qed.
Print Assumptions C36_stable.
Theorem C36_order : forall A (tyof : A -> str) objs typelist,
  ordered tyof typelist (iterate_by_type tyof objs typelist) /\ grouped tyof (iterate_by_type tyof objs typelist).
Proof. intros A tyof objs ts. apply iterate_spec. Qed.
Print Assumptions C36_order.
Example C36_ex : iterate_by_type (fun p : str * Z => fst p)
  [(lit "X", 1); (lit "B", 2); (lit "A", 3); (lit "Y", 4); (lit "B", 5); (lit "X", 6)] [lit "A"; lit "B"; lit "C"] =
  [(lit "A", 3); (lit "B", 2); (lit "B", 5); (lit "X", 1); (lit "X", 6); (lit "Y", 4)].
Proof. reflexivity. Qed.

(** ** C37 *)
Theorem C37_composite : forall c c', k_check (k_of c) = CheckParts -> check c = Ok c' ->
  exists before after, collect_in c = Ok before /\ collect_in c' = Ok after /\ Forall2 (fun a b => check a = Ok b) before after /\
    (is_change c' = true <-> k_always (k_of c) = true \/ exists p, In p after /\ is_change p = true).
Proof. exact check_composite. Qed.
Print Assumptions C37_composite.
(** The same down to the leaves. *)
Theorem C37_real : forall c c', check c = Ok c' -> (is_change c' = true <-> real c).
Proof. exact check_real. Qed.
Print Assumptions C37_real.
(** Checking again changes nothing. *)
Theorem C37_idempotent : forall c c', check c = Ok c' -> check c' = Ok c'.
Proof. exact check_idempotent. Qed.
Print Assumptions C37_idempotent.
(** Exit status: 1 exactly if there is a change which no rule covers. *)
Theorem C37_exit_status : forall o c c' t, proper c -> check c = Ok c' -> unfolds c' t ->
  (real c /\ exposed o t -> exit_status o c' = Ok 1) /\ (~ (real c /\ exposed o t) -> exit_status o c' = Ok 0).
Proof.
  intros o c c' t HP HC HU. pose proof (check_real _ _ HC) as HR. pose proof (check_founded _ _ _ HP HC HU) as HF.
  destruct (is_ignored_total o _ _ HU) as (b & Hb). unfold exit_status. destruct (is_change c') eqn:E; cbn [negb].
  - pose proof (exposed_iff o _ _ HU HF E) as HX. rewrite Hb. cbn [rbind]. destruct b; split; try reflexivity.
    + intros [_ H]. apply HX in H. congruence.
    + intro H. exfalso. apply H. split; [now apply HR|now apply HX].
  - split; [|reflexivity]. intros [H _]. apply HR in H. discriminate.
Qed.
Print Assumptions C37_exit_status.
Lemma tree0_proper : proper tree0.
Proof. repeat (constructor; cbn; try discriminate; auto). Qed.
Example C37_ex : proper tree0 /\ exists c', check tree0 = Ok c' /\ is_change c' = true /\ exit_status opts_pool c' = Ok 1 /\
  exists c'', check tree_pool = Ok c'' /\ is_change c'' = true /\ exit_status opts_pool c'' = Ok 0 /\ exit_status opts0 c'' = Ok 1.
Proof.
  split; [exact tree0_proper|]. eexists. split; [reflexivity|]. split; [reflexivity|]. split; [reflexivity|]. eexists. split; [reflexivity|]. repeat split.
Qed.

(** ** C38 *)
Theorem C38_exact : forall o c ks, collect c = Ok ks -> Forall (fun p => exists b, is_ignored o p = Ok b) ks ->
  k_own (k_of c) o = false -> k_parts (k_of c) = true ->
  (is_ignored o c = Ok true <-> is_change c = true /\ ks <> [] /\ Forall (fun p => is_change p = true -> is_ignored o p = Ok true) ks).
Proof. exact ignored_exact. Qed.
Print Assumptions C38_exact.
(** Down to the leaves: a change is not ignored exactly if some innermost change
    is covered by no rule on the way. *)
Theorem C38_exposed : forall o c c' t, proper c -> check c = Ok c' -> unfolds c' t -> is_change c' = true ->
  (is_ignored o c' = Ok false <-> exposed o t).
Proof. intros o c c' t HP HC HU HI. exact (exposed_iff o t c' HU (check_founded _ _ _ HP HC HU) HI). Qed.
Print Assumptions C38_exposed.
Theorem C38_total : forall o c t, unfolds c t -> exists b, is_ignored o c = Ok b.
Proof. intros o c t HU. exact (is_ignored_total o t c HU). Qed.
Print Assumptions C38_total.
Example C38_ex : is_ignored opts_pool (checked tree0) = Ok false /\ is_ignored opts_pool (checked tree_pool) = Ok true /\
  is_ignored opts0 (checked tree_pool) = Ok false.
Proof. repeat split; reflexivity. Qed.
Example C38_exposed_ex : exists t, unfolds (checked tree0) t /\ exposed opts_pool t.
Proof.
  eexists. split.
  - eapply unfolds_node; [reflexivity|discriminate|]. constructor; [eapply unfolds_node; [reflexivity|reflexivity|constructor]|].
    constructor; [|constructor; [eapply unfolds_node; [reflexivity|reflexivity|constructor]|constructor]].
    eapply unfolds_node; [reflexivity|discriminate|]. constructor; [eapply unfolds_node; [reflexivity|reflexivity|constructor]|].
    constructor; [eapply unfolds_node; [reflexivity|reflexivity|constructor]|constructor].
  - eapply exposed_part; try reflexivity; [right; left; reflexivity|]. eapply exposed_part; try reflexivity; [right; left; reflexivity|].
    apply exposed_leaf; try reflexivity. now left.
Qed.

(** ** C39 *)
Theorem C39_squash : forall o c ig s, is_ignored o c = Ok ig -> squash c false (Some o) = Ok s ->
  is_change s = is_change c /\ is_ignored o s = is_ignored o c /\ k_label (k_of s) = k_label (k_of c) /\
  (get_description c <> Ok [] -> get_description s = get_description c) /\ k_entry (k_of s) = k_entry (k_of c) /\
  refs s = [] /\ collect s = Ok [] /\ check s = Ok s.
Proof.
  intros o c ig s H1 H2. destruct (squash_facts c o ig s H1 H2) as (S1 & S2 & S3 & S4 & S5 & S6 & S7 & S8 & S9 & S10 & S11).
  repeat (split; [first [assumption | now rewrite S2, H1]|]). exact S11.
Qed.
Print Assumptions C39_squash.
(** Squashing succeeds exactly if the change can be speaks. *)
Theorem C39_total : forall o c t, unfolds c t -> ((exists s, squash c false (Some o) = Ok s) <-> exists d, get_description c = Ok d).
Proof.
  intros o c t H. destruct (is_ignored_total o t c H) as (b & Hb). unfold squash. rewrite Hb. cbn [rbind]. destruct (get_description c) as [d|]; cbn [rbind]; [split; eauto|].
  split; intros [x E]; discriminate E.
Qed.
Print Assumptions C39_total.
(** Replacing the sub-changes by squashed ones keeps the verdicts and what is reported for the change itself. *)
Theorem C39_children : forall o c s ks, collect c = Ok ks -> ks <> [] -> Forall (fun p => exists b, is_ignored o p = Ok b) ks ->
  squash_children c o = Ok s ->
  is_change s = is_change c /\ is_ignored o s = is_ignored o c /\ get_description s = get_description c /\
  exists ks', collect s = Ok ks' /\ Forall2 (fun a b => squash a false (Some o) = Ok b) ks ks'.
Proof. intros o c s ks. exact (squash_children_facts c o s ks). Qed.
Print Assumptions C39_children.
(** Clearing a change: it refers to nothing any more, is no
    change unless its kind always is; its kind and label remain.  A squashed
    change is not affected, so that clearing the original leaves it intact. *)
Theorem C39_clear : forall o c, (forall s ig, is_ignored o c = Ok ig -> squash c false (Some o) = Ok s -> clear s = s) /\
  (k_orig (k_of c) = None -> refs (clear c) = [] /\ is_change (clear c) = k_always (k_of c) /\
     k_name (k_of (clear c)) = k_name (k_of c) /\ k_label (k_of (clear c)) = k_label (k_of c) /\ k_entry (k_of (clear c)) = None /\ clear (clear c) = clear c).
Proof.
  intros o [k chg d cs im]. split.
  - intros s ig Hig HS. unfold squash in HS. rewrite Hig in HS. cbn [rbind] in HS. destruct (get_description _) as [de|]; [|discriminate HS]. cbn [rbind] in HS. injection HS as <-. destruct (k_removal _); [|destruct (k_addition _)]; reflexivity.
  - intro HO. cbn [k_of] in HO. cbn [clear]. rewrite HO. cbn [k_of k_name k_label k_entry]. repeat (split; [reflexivity|]). split; [|split; [reflexivity|]].
    + unfold is_change. cbn. destruct (k_always k); reflexivity.
    + repeat split; reflexivity.
Qed.
Print Assumptions C39_clear.
Example C39_clear_ex : refs (checked tree0) <> [] /\ k_orig (k_of (checked tree0)) = None /\ is_change (checked tree0) = true /\ is_change (clear (checked tree0)) = false /\ refs (clear (checked tree0)) = [].
Proof. repeat split; try reflexivity. discriminate. Qed.
Example C39_ex : exists s, squash (checked tree0) false (Some opts_pool) = Ok s /\ is_change s = true /\ refs s = [] /\
  refs (checked tree0) <> [] /\ get_description s = Ok (lit "Class changed").
Proof. eexists. repeat split; try reflexivity. discriminate. Qed.
Example C39_children_ex : exists s ks', squash_children (checked tree0) opts_pool = Ok s /\ collect s = Ok ks' /\
  map get_description ks' = [Ok (lit "Pool changed"); Ok (lit "Fields changed"); Ok (lit "Name unchanged")] /\ map is_change ks' = [true; true; false].
Proof. eexists _, _. repeat split; reflexivity. Qed.

(** ** C40 *)
(** The text report is written exactly if every node that it comes to can be
    speaks; it then has the lines of the shown nodes. *)
Theorem C40_text_report : forall o c t out, unfolds c t ->
  (text_report o c = Ok out <-> tellable o t /\ out = concat (map (line o) (filter (shown o) (chains t)))).
Proof.
  intros o c t out H. unfold text_report. split.
  - intro HR. pose proof (report_tells o t 0%nat c out H HR) as HT. split; [exact HT|]. rewrite (report_spec o t 0 c H HT) in HR. now injection HR as <-.
  - intros [HT ->]. now rewrite (report_spec o t 0 c H HT).
Qed.
Print Assumptions C40_text_report.
(** One line per shown node, if no description contains a line end. *)
Theorem C40_one_line_each : forall o c t out, unfolds c t ->
  (forall ch x, In ch (chains t) -> In x ch -> Forall (fun y => 0 <= y) (said x) /\ ~ In 10 (said x)) ->
  text_report o c = Ok out -> length (filter (Z.eqb 10) out) = length (filter (shown o) (chains t)).
Proof. intros o c t out. exact (report_lines o t c out). Qed.
Print Assumptions C40_one_line_each.
(** Nodes that are not shown count: a hidden one that cannot be described is
    enough for the report to fail. *)
Definition mute (b : bool) : change :=
  Node (mkcls (lit "Mute") (lit "Mute") false false false (Some (fun _ => Err ValueError)) (fun _ => false) false (CheckOwn (Ok (b, None)))
          false false false None None None [] no_data no_data) false None [] [].
Theorem C40_hidden_refuted : exists o c t, unfolds c t /\ text_report o c = Err ValueError /\
  (forall ch, In ch (chains t) -> shown o ch = true -> speaks (tip ch)) /\ exists j, json_of o c = Ok j.
Proof.
  exists opts0, (checked (composite (lit "Class") [pool_leaf true; mute false])), (R (checked (composite (lit "Class") [pool_leaf true; mute false])) [R (checked (pool_leaf true)) []; R (checked (mute false)) []]).
  split; [|split; [reflexivity|split]].
  - eapply unfolds_node; [reflexivity|discriminate|]. constructor; [eapply unfolds_node; [reflexivity|reflexivity|constructor]|]. constructor; [eapply unfolds_node; [reflexivity|reflexivity|constructor]|constructor].
  - intros ch [<-|[<-|[<-|[]]]] H; [eexists; reflexivity..|discriminate H].
  - eexists. reflexivity.
Qed.
Print Assumptions C40_hidden_refuted.
(** Only ASCII is written, and ASCII descriptions are written as they are. *)
Theorem C40_escape : forall s, Forall (fun x => 0 <= x) s -> Forall (fun x => 0 <= x < 128) (escape s) /\ (Forall (fun x => x < 128) s -> escape s = s).
Proof. intros s H. split; [apply (escape_ascii s H)|apply escape_id]. Qed.
Print Assumptions C40_escape.
(** A description containing a line end (file names may) forges a line. *)
Theorem C40_newline_refuted : exists o c t out, unfolds c t /\ text_report o c = Ok out /\
  length (filter (Z.eqb 10) out) <> length (filter (shown o) (chains t)).
Proof.
  exists opts0, (added (lit "a" ++ [10] ++ lit "b")), (R (added (lit "a" ++ [10] ++ lit "b")) []). eexists. split; [|split; [reflexivity|]].
  - eapply unfolds_node; [reflexivity|reflexivity|constructor].
  - vm_compute. discriminate.
Qed.
Print Assumptions C40_newline_refuted.
Example C40_ex : text_report opts_pool (checked tree0) = Ok (lit "Class changed" ++ [10] ++ lit "  Fields changed" ++ [10] ++ lit "    Added changed" ++ [10]) /\
  text_report opts_all (checked tree0) = Ok (lit "Class changed" ++ [10] ++ lit "  Pool changed [IGNORED]" ++ [10] ++ lit "  Fields changed" ++ [10] ++
    lit "    Field unchanged" ++ [10] ++ lit "    Added changed" ++ [10] ++ lit "  Name unchanged" ++ [10]).
Proof. split; reflexivity. Qed.
Example C40_escape_ex : escape (lit "a" ++ [233; 8364; 128512]) = lit "a\xe9\u20ac\U0001f600".
Proof. reflexivity. Qed.

(** ** C64 *)
(** The JSON report is made exactly if the nodes to be shown have a description
    and data; it holds exactly the nodes whose ancestors below the root and
    themselves are visible, with their verdicts, texts and data. *)
Theorem C64_json : forall o c t, unfolds c t ->
  ((exists j, json_of o c = Ok j) <-> storable o t) /\
  (forall j, json_of o c = Ok j -> jchains j = map (map (jnode o)) (filter (fun ch => shown o (tl ch)) (chains t))).
Proof.
  intros o c t HU. split; [split|].
  - intros [j H]. exact (json_stores o t c j HU H).
  - intro H. destruct (json_spec o t c HU H) as (j & J1 & _). now exists j.
  - intros j H. destruct (json_spec o t c HU (json_stores o t c j HU H)) as (j' & J1 & J2). rewrite H in J1. injection J1 as <-. exact J2.
Qed.
Print Assumptions C64_json.
(** Text and JSON agree: if the root is visible, the text report has one line
    for each node of the JSON report, in the same order. *)
Theorem C64_text_json : forall o c t j out, unfolds c t -> visible o c = true -> json_of o c = Ok j -> text_report o c = Ok out ->
  exists chs, out = concat (map (line o) chs) /\ jchains j = map (map (jnode o)) chs.
Proof.
  intros o c t j out HU HV HJ HT. destruct (C64_json o c t HU) as [_ J2]. specialize (J2 j HJ).
  exists (filter (shown o) (chains t)). split; [now apply (C40_text_report o c t out HU)|]. rewrite J2. f_equal. apply filter_ext_in. intros ch Hi.
  apply chains_nonempty in Hi as (p & ->). unfold jshown, shown. cbn [tl forallb]. replace (top t) with c by (destruct HU; reflexivity). now rewrite HV.
Qed.
Print Assumptions C64_text_json.
Example C64_ex : exists j, json_of opts_pool (checked tree0) = Ok j /\ map (fun ch => match last ch (J [] false [] [] false false false None None None None None) with J n chg d _ ig ad _ e _ old _ _ => (n, chg, d, ad, e, old) end) (jchains j) =
  [(lit "Class", true, lit "Class changed", false, None, None); (lit "Fields", true, lit "Fields changed", false, None, None); (lit "Added", true, lit "Added changed", true, Some (lit "e"), None)].
Proof. eexists. split; reflexivity. Qed.

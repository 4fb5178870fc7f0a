(** Property C56: the parallel check of distdiff --report. *)
From Verif Require Import Base Change_Model Classdiff_Model Jardiff_Model Distdiff_Model Distdiff_Dist Parallel_Model Parallel_Proofs P_Classdiff P_Jardiff P_Distdiff.
From Verif Require Zip_Model.
From Coq Require Import Permutation Lia.

Section C56.
Variables A B : Type.
Implicit Types (items : list A) (is_task : A -> bool) (work local : A -> res B) (s : state A B).

(** ** C56 *)
(** Every schedule ends: there is a bound on the number of steps, whatever the
    tasks do and however many helpers there are. *)
Theorem C56_bounded : forall items is_task work local n k s, steps A B items is_task work local k (init A B items is_task n) s ->
  (k <= 2 * helpers A items is_task n + length items + 3 * task_count A items is_task + 4)%nat.
Proof.
  intros items is_task work local n k s H. pose proof (steps_measure A B items is_task work local k _ _ H) as HM. rewrite init_measure in HM. lia.
Qed.

(** If all checks succeed and there is a helper: at every point of every schedule
    something can move (no deadlock) until the parent has returned with exactly
    what the sequential check gives, all helpers have ended by themselves, and
    every task has been processed exactly once. *)
Theorem C56_complete : forall items is_task work local n ks s, 0 < n -> sequential A B items is_task work local = Ok ks ->
  reachable A B items is_task work local n s ->
  (exists s', step A B items is_task work local s s') \/
  (s_parent A B s = Returned /\ s_slots A B s = map Some ks /\ Forall (fun w => w = Done A) (s_workers A B s) /\
   Permutation (s_log A B s) (map fst (all_tasks A items is_task))).
Proof.
  intros items is_task work local n ks s Hn HQ HR. destruct (step_or_stuck A B items is_task work local s) as [H|H]; [now left|right].
  destruct (stuck_success A B items is_task work local n s HR H Hn (tasks_succeed A B items is_task work local ks HQ)) as [HD [HP|[e HP]]].
  - destruct (returned_outcome A B items is_task work local n s HR HP) as (ks' & E1 & E2 & E3 & _). assert (ks' = ks) as -> by congruence. auto.
  - exfalso. eapply locals_raise; eassumption.
Qed.

(** If the parent returns, with any number of helpers, then all checks succeeded
    and the result is that of the sequential check. *)
Theorem C56_sound : forall items is_task work local n s, reachable A B items is_task work local n s -> s_parent A B s = Returned ->
  exists ks, sequential A B items is_task work local = Ok ks /\ s_slots A B s = map Some ks /\ Permutation (s_log A B s) (map fst (all_tasks A items is_task)).
Proof. intros items is_task work local n s HR HP. destruct (returned_outcome A B items is_task work local n s HR HP) as (ks & H1 & H2 & H3 & _). eauto. Qed.

(** If only checks in the parent fail: every schedule ends with the exception of
    the sequential check. *)
Theorem C56_raises : forall items is_task work local n e s, 0 < n -> (forall a, In a items -> is_task a = true -> exists b, work a = Ok b) ->
  sequential A B items is_task work local = Err e -> reachable A B items is_task work local n s ->
  (exists s', step A B items is_task work local s s') \/ (s_parent A B s = Raised e /\ Forall (fun w => w = Done A) (s_workers A B s)).
Proof.
  intros items is_task work local n e s Hn HW HQ HR. destruct (step_or_stuck A B items is_task work local s) as [H|H]; [now left|right].
  assert (HW' : forall i a, In (i, a) (all_tasks A items is_task) -> exists b, work a = Ok b). { intros i a Hin. apply (tasks_In A B items is_task work local) in Hin as [Hi Ht]. apply nth_error_In in Hi. auto. }
  destruct (stuck_success A B items is_task work local n s HR H Hn HW') as [HD [HP|[x HP]]].
  - destruct (returned_outcome A B items is_task work local n s HR HP) as (ks & E1 & _). congruence.
  - pose proof (raised_sequential A B items is_task work local n s x HR HP HW') as E. split; [congruence|exact HD].
Qed.

(** The claim is false if a task fails: the parent waits for its result for ever.
    In no schedule does it return; in every schedule, unless a check of its own
    fails before, it ends up waiting while nothing can move. *)
Theorem C56_task_fails : forall items is_task work local n a e s, In a items -> is_task a = true -> work a = Err e ->
  (forall x, In x items -> is_task x = false -> exists b, local x = Ok b) -> reachable A B items is_task work local n s ->
  (exists s', step A B items is_task work local s s') \/ (exists m, s_parent A B s = Collecting (S m) /\ s_results A B s = []).
Proof.
  intros items is_task work local n a e s Ha Ht He HL HR. destruct (step_or_stuck A B items is_task work local s) as [H|H]; [now left|right].
  destruct (stuck_parent A B items is_task work local n s HR H) as [HP|[[x HP]|HP]]; [exfalso|exfalso|exact HP].
  - destruct (returned_outcome A B items is_task work local n s HR HP) as (ks & E1 & _). apply In_nth_error in Ha as [i Hi]. destruct (mapM_nth _ _ _ _ _ E1 Hi) as [b Hb]. cbn beta in Hb. rewrite Ht in Hb. congruence.
  - destruct (raised_outcome A B items is_task work local n s x HR HP) as (i & y & Hi & Hy & Hx & _). destruct (HL y) as [b Hb]; [eapply nth_error_In; exact Hi|exact Hy|congruence].
Qed.
(** So it is with a negative number of processes, if there is a task. *)
Theorem C56_no_helpers : forall items is_task work local n a s, n <= 0 -> In a items -> is_task a = true ->
  (forall x, In x items -> is_task x = false -> exists b, local x = Ok b) -> reachable A B items is_task work local n s ->
  (exists s', step A B items is_task work local s s') \/ (exists m, s_parent A B s = Collecting (S m) /\ s_results A B s = []).
Proof.
  intros items is_task work local n a s Hn Ha Ht HL HR. destruct (step_or_stuck A B items is_task work local s) as [H|H]; [now left|right].
  destruct (stuck_parent A B items is_task work local n s HR H) as [HP|[[x HP]|HP]]; [exfalso|exfalso|exact HP].
  - pose proof (no_helpers A B items is_task work local n s HR Hn HP) as E. apply In_nth_error in Ha as [i Hi]. assert (In (i, a) (all_tasks A items is_task)) as X by now apply (tasks_In A B items is_task work local). rewrite E in X. destruct X.
  - destruct (raised_outcome A B items is_task work local n s x HR HP) as (i & y & Hi & Hy & Hx & _). destruct (HL y) as [b Hb]; [eapply nth_error_In; exact Hi|exact Hy|congruence].
Qed.
(** Every schedule begun can be run to an end. *)
Theorem C56_ends : forall items is_task work local s, exists k s', steps A B items is_task work local k s s' /\ forall s'', ~ step A B items is_task work local s' s''.
Proof. intros. apply can_finish. Qed.
End C56.
Print Assumptions C56_bounded.
Print Assumptions C56_complete.
Print Assumptions C56_sound.
Print Assumptions C56_raises.
Print Assumptions C56_task_fails.
Print Assumptions C56_no_helpers.
Print Assumptions C56_ends.

(** Five items, the odd ones tasks, two helpers: one schedule, in which the second
    result arrives first. *)
Definition odd_ (x : Z) : bool := Z.odd x.
Definition ok_ (x : Z) : res Z := Ok (x * 10).
Example C56_ex : sequential Z Z [1; 2; 3; 4; 5] odd_ ok_ ok_ = Ok [10; 20; 30; 40; 50] /\ helpers Z [1; 2; 3; 4; 5] odd_ 2 = 2%nat /\
  exists s, reachable Z Z [1; 2; 3; 4; 5] odd_ ok_ ok_ 2 s /\ s_parent Z Z s = Returned /\ s_log Z Z s = [2; 0; 4]%nat.
Proof.
  split; [reflexivity|]. split; [reflexivity|]. eexists. split; [|split].
  { eexists. unfold init. change (helpers Z [1; 2; 3; 4; 5] odd_ 2) with 2%nat. change (map Some (all_tasks Z [1; 2; 3; 4; 5] odd_)) with [Some (0%nat, 1); Some (2%nat, 3); Some (4%nat, 5)].
    eapply steps_more; [apply step_start|]. cbn [app]. eapply steps_more; [apply step_start|]. cbn [app]. eapply steps_more; [apply step_started|].
    eapply steps_more; [apply (step_get _ _ _ _ _ _ _ _ _ _ [] [Idle Z])|]. cbn [app].
    eapply steps_more; [apply (step_get _ _ _ _ _ _ _ _ _ _ [Busy Z 0 1] [])|]. cbn [app].
    eapply steps_more; [apply (step_put _ _ _ _ _ _ _ 2 3 30 _ [Busy Z 0 1] []); reflexivity|]. cbn [app].
    eapply steps_more; [eapply step_skip; reflexivity|]. eapply steps_more; [eapply step_check; reflexivity|]. eapply steps_more; [eapply step_skip; reflexivity|]. eapply steps_more; [eapply step_check; reflexivity|].
    eapply steps_more; [eapply step_skip; reflexivity|]. eapply steps_more; [eapply step_checked; reflexivity|]. change (task_count Z [1; 2; 3; 4; 5] odd_) with 3%nat.
    eapply steps_more; [apply (step_collect _ _ _ _ _ _ _ _ _ [] 2 30 [])|]. cbn [app].
    eapply steps_more; [apply (step_put _ _ _ _ _ _ _ 0 1 10 _ [] [Idle Z]); reflexivity|]. cbn [app].
    eapply steps_more; [apply (step_get _ _ _ _ _ _ _ _ _ _ [] [Idle Z])|]. cbn [app].
    eapply steps_more; [apply (step_put _ _ _ _ _ _ _ 4 5 50 _ [] [Idle Z]); reflexivity|]. cbn [app].
    eapply steps_more; [apply (step_collect _ _ _ _ _ _ _ _ _ [(0%nat, 10)] 4 50 [])|]. cbn [app].
    eapply steps_more; [apply (step_collect _ _ _ _ _ _ _ _ _ [] 0 10 [])|]. eapply steps_more; [apply step_return|]. apply steps_none. }
  - reflexivity.
  - reflexivity.
Qed.
(** The counterexamples: a task that fails; -1 processes. *)
Definition bad_ (x : Z) : res Z := if x =? 3 then Err ValueError else Ok x.
Theorem C56_refuted : sequential Z Z [1; 2; 3] odd_ bad_ bad_ = Err ValueError /\
  forall s, reachable Z Z [1; 2; 3] odd_ bad_ bad_ 1 s -> (exists s', step Z Z [1; 2; 3] odd_ bad_ bad_ s s') \/ (exists m, s_parent Z Z s = Collecting (S m) /\ s_results Z Z s = []).
Proof.
  split; [reflexivity|]. intros s. apply (C56_task_fails Z Z [1; 2; 3] odd_ bad_ bad_ 1 3 ValueError); [cbn [In]; auto|reflexivity|reflexivity|].
  intros x [<-|[<-|[<-|[]]]] H; try discriminate. now exists 2.
Qed.
Print Assumptions C56_refuted.
Theorem C56_negative_refuted : sequential Z Z [1; 2; 3] odd_ ok_ ok_ = Ok [10; 20; 30] /\
  forall s, reachable Z Z [1; 2; 3] odd_ ok_ ok_ (-1) s -> (exists s', step Z Z [1; 2; 3] odd_ ok_ ok_ s s') \/ (exists m, s_parent Z Z s = Collecting (S m) /\ s_results Z Z s = []).
Proof.
  split; [reflexivity|]. intros s. apply (C56_no_helpers Z Z [1; 2; 3] odd_ ok_ ok_ (-1) 3); [lia|cbn [In]; auto|reflexivity|]. intros x _ _. eexists. reflexivity.
Qed.
Print Assumptions C56_negative_refuted.

(** ** distdiff with --report and --processes *)
(** Whatever the schedule: if distdiff ends with an exit status, then so does the
    parallel check, with the same. *)
Theorem C56_distdiff : forall fmt reprs ffmt text order up unzip o shallow l r n evs status s, (forall x, Permutation (order x) x) -> 0 < n ->
  dist_events fmt reprs ffmt text order up unzip l r shallow = Ok evs -> distdiff fmt reprs ffmt text order up unzip l r o shallow = Ok status ->
  let is_task := is_report fmt reprs ffmt text order up unzip l r shallow in
  let work := report_task fmt reprs ffmt text order up unzip l r o shallow in
  let local := fun ev => check (dist_event fmt reprs ffmt text order up unzip l r shallow ev) in
  reachable _ _ evs is_task work local n s ->
  (exists s', step _ _ evs is_task work local s s') \/
  (s_parent _ _ s = Returned /\ exists ks, s_slots _ _ s = map Some ks /\
     exit_status o (dist_report fmt reprs ffmt text order up unzip l r shallow ks) = Ok status).
Proof.
  intros fmt reprs ffmt text order up unzip o shallow l r n evs status s P Hn HE HD is_task work local HR.
  rewrite <- (distdiff_report_same fmt reprs ffmt text order up unzip P l r o shallow) in HD. unfold distdiff_report, sequential_check in HD. rewrite HE in HD. cbn [rbind] in HD.
  destruct (mapM _ evs) as [ks|] eqn:EM; cbn [rbind] in HD; [|discriminate].
  destruct (C56_complete _ _ evs is_task work local n ks s Hn EM HR) as [H|(H1 & H2 & _)]; [now left|right]. eauto.
Qed.
Print Assumptions C56_distdiff.
Example C56_distdiff_ex : (evs <- dist_events no_fmt (fun s => s) no_fmt ascii_text (fun s => s) ascii_up some_jars d_one d_class false ;; Ok (map (is_report no_fmt (fun s => s) no_fmt ascii_text (fun s => s) ascii_up some_jars d_one d_class false) evs)) = Ok [true; false; false; false; false] /\
  run_distdiff strict false d_one d_class = Ok 1.
Proof. vm_compute. auto. Qed.

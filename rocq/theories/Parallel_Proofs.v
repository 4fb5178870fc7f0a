(** Proofs about the parallel check: every schedule ends, and with the outcome of
    the sequential check. *)
From Verif Require Import Base Parallel_Model.
From Coq Require Import Permutation Lia.

Section SetNth.
Context {X : Type}.
Lemma set_nth_length i (v : X) l : length (set_nth i v l) = length l.
Proof. revert i. induction l as [|x l IH]; intros [|i]; cbn [set_nth length]; auto. Qed.
Lemma set_nth_same i (v : X) l : (i < length l)%nat -> nth_error (set_nth i v l) i = Some v.
Proof. revert i. induction l as [|x l IH]; intros [|i] H; cbn [set_nth length nth_error] in *; try lia; [reflexivity|]. apply IH. lia. Qed.
Lemma set_nth_other i j (v : X) l : i <> j -> nth_error (set_nth i v l) j = nth_error l j.
Proof. revert i j. induction l as [|x l IH]; intros [|i] [|j] H; cbn [set_nth nth_error]; try congruence. apply IH. congruence. Qed.
End SetNth.

Lemma collect_all {X Y} (f : X -> res Y) l : forall sl : list (option Y), length sl = length l ->
  (forall i a, nth_error l i = Some a -> exists b, f a = Ok b /\ nth_error sl i = Some (Some b)) -> exists ks, mapM f l = Ok ks /\ sl = map Some ks.
Proof.
  induction l as [|x l IH]; intros [|s sl] HL H; try discriminate; [exists []; auto|]. destruct (H 0%nat x eq_refl) as (b & Hb & Hs). injection Hs as ->.
  destruct (IH sl) as (ks & H1 & ->); [now injection HL| |]. { intros i a Hi. exact (H (S i) a Hi). } exists (b :: ks). cbn [mapM map]. now rewrite Hb, H1.
Qed.
Lemma mapM_nth {X Y} (f : X -> res Y) l : forall ks i a, mapM f l = Ok ks -> nth_error l i = Some a -> exists b, f a = Ok b.
Proof.
  induction l as [|x l IH]; intros ks [|i] a H Hi; try discriminate; cbn [mapM] in H; destruct (f x) eqn:E; cbn [rbind] in H; try discriminate.
  - injection Hi as <-. eauto.
  - destruct (mapM f l) eqn:E2; cbn [rbind] in H; [|discriminate]. eapply IH; eauto.
Qed.

Section Proofs.
Variables A B : Type.
Variable items : list A.
Variable is_task : A -> bool.
Variables work local : A -> res B.
Variable processes : Z.
Notation state := (state A B).
Notation step := (step A B items is_task work local).
Notation steps := (steps A B items is_task work local).
Notation all_tasks := (all_tasks A items is_task).
Notation task_count := (task_count A items is_task).
Notation helpers := (helpers A items is_task processes).
Notation init := (init A B items is_task processes).
Notation reachable := (reachable A B items is_task work local processes).
Notation sequential := (sequential A B items is_task work local).

(** ** The tasks *)
Lemma tasks_from_In n l i a : In (i, a) (tasks_from A is_task n l) <-> (n <= i)%nat /\ nth_error l (i - n) = Some a /\ is_task a = true.
Proof.
  revert n. induction l as [|x l IH]; intro n; cbn [tasks_from]. { split; [intros []|]. intros (_ & H & _). now destruct (i - n)%nat. }
  assert (G : In (i, a) (tasks_from A is_task (S n) l) <-> (n < i)%nat /\ nth_error (x :: l) (i - n) = Some a /\ is_task a = true).
  { rewrite IH. split; intros (H1 & H2 & H3); (split; [lia|split; [|exact H3]]); replace (i - n)%nat with (S (i - S n)) in * by lia; exact H2. }
  destruct (is_task x) eqn:E.
  - cbn [In]. rewrite G. split.
    + intros [[= <- <-]|(H1 & H2)]; [rewrite Nat.sub_diag; auto|]. split; [lia|exact H2].
    + intros (H1 & H2 & H3). destruct (Nat.eq_dec i n) as [->|Hn]; [left; rewrite Nat.sub_diag in H2; cbn in H2; congruence|right; split; [lia|auto]].
  - rewrite G. split; intros (H1 & H2 & H3).
    + split; [lia|auto].
    + split; [|auto]. destruct (Nat.eq_dec i n) as [->|Hn]; [|lia]. rewrite Nat.sub_diag in H2. cbn in H2. congruence.
Qed.
Lemma tasks_In i a : In (i, a) all_tasks <-> nth_error items i = Some a /\ is_task a = true.
Proof. unfold Parallel_Model.all_tasks. rewrite tasks_from_In, Nat.sub_0_r. split; [tauto|]. intro H. split; [lia|exact H]. Qed.
Lemma tasks_from_NoDup n l : NoDup (map fst (tasks_from A is_task n l)).
Proof.
  revert n. induction l as [|x l IH]; intro n; cbn [tasks_from]; [constructor|]. destruct (is_task x); [|apply IH]. cbn [map fst]. constructor; [|apply IH].
  intro H. apply in_map_iff in H as ([i a] & E & H). cbn in E. subst. apply tasks_from_In in H. lia.
Qed.
Lemma tasks_NoDup : NoDup (map fst all_tasks).
Proof. apply tasks_from_NoDup. Qed.

(** ** Termination *)
Definition is_busy (w : worker A) : nat := match w with Busy _ _ _ => 1 | _ => 0 end.
Definition some_weight (t : option (nat * A)) : nat := match t with Some _ => 2 | None => 1 end.
Fixpoint sum {X} (f : X -> nat) (l : list X) : nat := match l with [] => 0 | x :: l' => f x + sum f l' end.
Lemma sum_app {X} (f : X -> nat) a b : sum f (a ++ b) = (sum f a + sum f b)%nat.
Proof. induction a; cbn [sum app]; lia. Qed.
Definition parent_weight (p : parent) : nat :=
  match p with
  | Starting k => 2 * k + length items + task_count + 4
  | Checking i => (length items - i) + task_count + 3
  | Collecting m => m + 1
  | Returned | Raised _ => 0
  end.
Definition measure (s : state) : nat := parent_weight (s_parent _ _ s) + sum some_weight (s_tasks _ _ s) + sum is_busy (s_workers _ _ s).
Lemma step_measure s s' : step s s' -> (measure s' < measure s)%nat.
Proof.
  destruct 1; unfold measure; cbn [s_parent s_tasks s_workers parent_weight sum some_weight]; rewrite ?sum_app; cbn [sum is_busy some_weight]; try lia.
  - assert (i < length items)%nat by (apply nth_error_Some; congruence). lia.
  - assert (i < length items)%nat by (apply nth_error_Some; congruence). lia.
Qed.
Lemma steps_measure n s s' : steps n s s' -> (n + measure s' <= measure s)%nat.
Proof. induction 1 as [|n s s1 s2 H _ IH]; [lia|]. apply step_measure in H. lia. Qed.
Lemma sum_tasks l : sum some_weight (map Some l) = (2 * length l)%nat.
Proof. induction l; cbn [sum map some_weight length]; lia. Qed.
Lemma init_measure : measure init = (2 * helpers + length items + 3 * task_count + 4)%nat.
Proof. unfold measure, Parallel_Model.init. cbn [s_parent s_tasks s_workers parent_weight sum]. rewrite sum_tasks. unfold Parallel_Model.task_count. lia. Qed.

(** ** The invariant *)
Definition held (w : worker A) : list (nat * A) := match w with Busy _ i a | Crashed _ i a _ => [(i, a)] | _ => [] end.
Definition holding (ws : list (worker A)) : list (nat * A) := flat_map held ws.
Definition is_done (w : worker A) : nat := match w with Done _ => 1 | _ => 0 end.
Definition made (x : nat * A) (y : nat * B) : Prop := fst x = fst y /\ work (snd x) = Ok (snd y).
Definition slots_ok (pos : nat) (got : list (nat * B)) (sl : list (option B)) : Prop :=
  length sl = length items /\
  (forall i a, nth_error items i = Some a -> is_task a = false -> (i < pos)%nat -> exists b, local a = Ok b /\ nth_error sl i = Some (Some b)) /\
  (forall i b, In (i, b) got -> nth_error sl i = Some (Some b)).
Definition phase (p : parent) (nw pos ngot : nat) : Prop :=
  match p with
  | Starting k => (nw + k = helpers /\ pos = 0 /\ ngot = 0)%nat
  | Checking i => (nw = helpers /\ pos = i /\ i <= length items /\ ngot = 0)%nat
  | Collecting m => (nw = helpers /\ pos = length items /\ ngot + m = task_count)%nat
  | Returned => (nw = helpers /\ pos = length items /\ ngot = task_count)%nat
  | Raised e => nw = helpers /\ exists a, nth_error items pos = Some a /\ is_task a = false /\ local a = Err e
  end.
Record inv (s : state) (rest : list (nat * A)) (q : nat) (fin : list (nat * A)) (R got : list (nat * B)) (pos : nat) : Prop := mkinv {
  i_tasks : s_tasks _ _ s = map Some rest ++ repeat None q;
  i_all : Permutation all_tasks (rest ++ holding (s_workers _ _ s) ++ fin);
  i_made : Forall2 made fin R;
  i_log : s_log _ _ s = map fst fin;
  i_results : Permutation R (s_results _ _ s ++ got);
  i_sent : (q + sum is_done (s_workers _ _ s) = length (s_workers _ _ s))%nat;
  i_done : (0 < sum is_done (s_workers _ _ s))%nat -> rest = [];
  i_crash : forall i a e, In (Crashed A i a e) (s_workers _ _ s) -> work a = Err e;
  i_slots : slots_ok pos got (s_slots _ _ s);
  i_phase : phase (s_parent _ _ s) (length (s_workers _ _ s)) pos (length got) }.
Definition good (s : state) : Prop := exists rest q fin R got pos, inv s rest q fin R got pos.

Lemma init_good : good init.
Proof.
  exists all_tasks, 0%nat, [], [], [], 0%nat. unfold Parallel_Model.init. constructor; cbn [s_tasks s_workers s_log s_results s_slots s_parent holding flat_map app repeat sum length phase]; auto; try lia.
  - now rewrite app_nil_r.
  - now rewrite app_nil_r.
  - intros i a e [].
  - split; [apply map_length|]. split; [intros; lia|intros i b []].
Qed.
Lemma holding_app a b : holding (a ++ b) = holding a ++ holding b.
Proof. apply flat_map_app. Qed.
Lemma made_fst fin R : Forall2 made fin R -> map fst R = map fst fin.
Proof. induction 1 as [|x y f r [H _] _ IH]; cbn [map]; [reflexivity|]. now rewrite H, IH. Qed.
Lemma perm_NoDup_fst {X} (a b : list (nat * X)) : Permutation a b -> NoDup (map fst a) -> NoDup (map fst b).
Proof. intros H. apply Permutation_NoDup. now apply Permutation_map. Qed.
Lemma NoDup_app_r {X} (a b : list X) : NoDup (a ++ b) -> NoDup b.
Proof. induction a as [|x a IH]; cbn [app]; [auto|]. intro H. inversion H; auto. Qed.
Lemma inv_NoDup s rest q fin R got pos : inv s rest q fin R got pos -> NoDup (map fst (s_results _ _ s ++ got)).
Proof.
  intros [? H1 H2 ? H3 _ _ _ _ _]. eapply perm_NoDup_fst; [exact H3|]. rewrite (made_fst _ _ H2). pose proof tasks_NoDup as N. eapply perm_NoDup_fst in N; [|exact H1].
  rewrite !map_app in N. apply NoDup_app_r in N. now apply NoDup_app_r in N.
Qed.
Lemma made_In fin R i b : Forall2 made fin R -> In (i, b) R -> exists a, In (i, a) fin /\ work a = Ok b.
Proof.
  induction 1 as [|[j a] [j' b'] f r [H1 H2] _ IH]; [intros []|]. cbn [fst snd] in *. intros [[= <- <-]|H]; [subst; exists a; split; [now left|exact H2]|]. destruct (IH H) as (x & Hx & Hw). exists x. split; [now right|exact Hw].
Qed.
Lemma made_In' fin R i a : Forall2 made fin R -> In (i, a) fin -> exists b, In (i, b) R /\ work a = Ok b.
Proof.
  induction 1 as [|[j a'] [j' b'] f r [H1 H2] _ IH]; [intros []|]. cbn [fst snd] in *. intros [[= <- <-]|H]; [subst; exists b'; split; [now left|exact H2]|]. destruct (IH H) as (x & Hx & Hw). exists x. split; [now right|exact Hw].
Qed.
(** A result belongs to a task. *)
Lemma result_task s rest q fin R got pos i b : inv s rest q fin R got pos -> In (i, b) (s_results _ _ s ++ got) -> exists a, nth_error items i = Some a /\ is_task a = true /\ work a = Ok b.
Proof.
  intros [? H1 H2 ? H3 _ _ _ _ _] H. apply (Permutation_in _ (Permutation_sym H3)) in H. destruct (made_In _ _ _ _ H2 H) as (a & Ha & Hw). exists a.
  assert (In (i, a) all_tasks) as HT by (eapply Permutation_in; [apply Permutation_sym, H1|]; rewrite !in_app_iff; auto). apply tasks_In in HT as [X Y]. auto.
Qed.

Lemma repeat_snoc {X} (x : X) n : repeat x n ++ [x] = repeat x (S n).
Proof. induction n; cbn [repeat app]; [reflexivity|]. now rewrite IHn. Qed.
Ltac fin_ := cbn [s_parent s_tasks s_workers s_log s_results s_slots] in *.
Lemma step_good s s' : good s -> step s s' -> good s'.
Proof.
  intros (rest & q & fin & R & got & pos & HI) HS. pose proof HI as HI0. destruct HI as [H1 H2 H3 H4 H5 H6 H7 H8 H9 H10]. destruct HS; fin_.
  - exists rest, (S q), fin, R, got, pos. constructor; fin_; auto.
    + now rewrite H1, <- app_assoc, repeat_snoc.
    + rewrite holding_app. cbn [holding flat_map held app]. now rewrite app_nil_r.
    + rewrite sum_app, app_length. cbn [sum is_done length]. lia.
    + rewrite sum_app. cbn [sum is_done]. intro. apply H7. lia.
    + intros i a e Hin. apply in_app_iff in Hin as [Hin|[Hin|[]]]; [eauto|discriminate].
    + rewrite app_length. cbn [phase length] in *. lia.
  - exists rest, q, fin, R, got, pos. constructor; fin_; auto. cbn [phase] in *. lia.
  - assert (i < length items)%nat by (apply nth_error_Some; congruence). cbn [phase] in H10.
    exists rest, q, fin, R, got, (S i). constructor; fin_; auto; [|cbn [phase]; lia].
    destruct H9 as (S1 & S2 & S3). split; [exact S1|]. split; [|exact S3]. intros j x Hj Hx Hl. apply (S2 j x Hj Hx). assert (j <> i) by (intros ->; congruence). lia.
  - assert (i < length items)%nat by (apply nth_error_Some; congruence). cbn [phase] in H10.
    exists rest, q, fin, R, got, (S i). constructor; fin_; auto; [|cbn [phase]; lia].
    destruct H9 as (S1 & S2 & S3). split; [now rewrite set_nth_length|]. split.
    + intros j x Hj Hx Hl. destruct (Nat.eq_dec i j) as [<-|Hij]; [rewrite set_nth_same by lia; exists b; split; congruence|]. rewrite set_nth_other by exact Hij. apply (S2 j x Hj Hx). lia.
    + intros j c Hj. destruct got; [destruct Hj|cbn [length] in H10; lia].
  - exists rest, q, fin, R, got, pos. constructor; fin_; auto. cbn [phase] in *. split; [lia|]. destruct H10 as (_ & -> & _). eauto.
  - cbn [phase] in H10. exists rest, q, fin, R, got, pos. constructor; fin_; auto. cbn [phase]. apply nth_error_None in H. lia.
  - cbn [phase] in H10. exists rest, q, fin, R, ((i, b) :: got), pos. pose proof (inv_NoDup _ _ _ _ _ _ _ HI0) as HN. fin_.
    assert (HP : Permutation ((r1 ++ (i, b) :: r2) ++ got) ((r1 ++ r2) ++ (i, b) :: got)).
    { rewrite <- !app_assoc. apply Permutation_app_head. cbn [app]. apply Permutation_middle. }
    constructor; fin_; auto.
    + now rewrite H5.
    + destruct (result_task _ _ _ _ _ _ _ i b HI0) as (a & Ha & Ht & Hw); [fin_; rewrite !in_app_iff; left; right; now left|]. assert (i < length items)%nat by (apply nth_error_Some; congruence).
      destruct H9 as (S1 & S2 & S3). split; [now rewrite set_nth_length|]. split.
      * intros j x Hj Hx Hl. rewrite set_nth_other by (intros ->; congruence). apply (S2 j x Hj Hx Hl).
      * intros j c [[= <- <-]|Hj]; [rewrite set_nth_same by lia; reflexivity|]. rewrite set_nth_other; [auto|]. intros <-. apply (perm_NoDup_fst _ _ HP) in HN. rewrite map_app in HN. cbn [map fst] in HN. apply NoDup_remove_2 in HN. apply HN. apply in_app_iff. right. apply in_map_iff. exists (i, c). auto.
    + cbn [phase length]. lia.
  - exists rest, q, fin, R, got, pos. constructor; fin_; auto. cbn [phase] in *. lia.
  - destruct rest as [|x rest]; [destruct q; discriminate|]. cbn [map app] in H1. injection H1 as <- H1.
    exists rest, q, fin, R, got, pos. constructor; fin_; auto.
    + rewrite H2, !holding_app. cbn [holding flat_map held app]. fold (holding w2). rewrite <- !app_assoc. cbn [app]. rewrite (Permutation_middle rest). apply Permutation_app_head. apply Permutation_middle.
    + rewrite !sum_app, !app_length in *. cbn [sum is_done length] in *. lia.
    + rewrite !sum_app in *. cbn [sum is_done] in *. intro H. apply H7 in H. discriminate.
    + intros j y e Hin. apply (H8 j y e). apply in_app_iff in Hin as [Hin|[Hin|Hin]]; [|discriminate|]; apply in_app_iff; [now left|right; now right].
    + rewrite app_length in *. exact H10.
  - destruct rest as [|x rest]; [|discriminate]. destruct q as [|q]; [discriminate|]. cbn [map app repeat] in H1. injection H1 as H1.
    exists [], q, fin, R, got, pos. constructor; fin_; auto.
    + rewrite H2, !holding_app. reflexivity.
    + rewrite !sum_app, !app_length in *. cbn [sum is_done length] in *. lia.
    + intros j y e Hin. apply (H8 j y e). apply in_app_iff in Hin as [Hin|[Hin|Hin]]; [|discriminate|]; apply in_app_iff; [now left|right; now right].
    + rewrite app_length in *. exact H10.
  - exists rest, q, (fin ++ [(i, a)]), (R ++ [(i, b)]), got, pos. constructor; fin_; auto.
    + rewrite H2, !holding_app. cbn [holding flat_map held app]. fold (holding w2). apply Permutation_app_head. rewrite <- !app_assoc. apply Permutation_app_head. cbn [app].
      rewrite app_assoc, <- Permutation_cons_append. reflexivity.
    + apply Forall2_app; [exact H3|]. constructor; [split; [reflexivity|exact H]|constructor].
    + rewrite map_app, H4. reflexivity.
    + rewrite <- app_assoc. cbn [app]. rewrite <- Permutation_cons_append, H5. apply Permutation_middle.
    + rewrite !sum_app, !app_length in *. cbn [sum is_done length] in *. lia.
    + rewrite !sum_app in *. cbn [sum is_done] in *. exact H7.
    + intros j y e Hin. apply (H8 j y e). apply in_app_iff in Hin as [Hin|[Hin|Hin]]; [|discriminate|]; apply in_app_iff; [now left|right; now right].
    + rewrite app_length in *. exact H10.
  - exists rest, q, fin, R, got, pos. constructor; fin_; auto.
    + rewrite H2, !holding_app. reflexivity.
    + rewrite !sum_app, !app_length in *. cbn [sum is_done length] in *. lia.
    + rewrite !sum_app in *. cbn [sum is_done] in *. exact H7.
    + intros j y e' Hin. apply in_app_iff in Hin as [Hin|[Hin|Hin]]; [apply (H8 j y e'); apply in_app_iff; now left|congruence|apply (H8 j y e'); apply in_app_iff; right; now right].
    + rewrite app_length in *. exact H10.
Qed.
Lemma steps_good n s s' : steps n s s' -> good s -> good s'.
Proof. induction 1 as [|n s s1 s2 H _ IH]; [auto|]. intro G. apply IH. eapply step_good; eauto. Qed.
Lemma reachable_good s : reachable s -> good s.
Proof. intros [n H]. eapply steps_good; [exact H|apply init_good]. Qed.

(** ** Outcomes *)
Lemma returned_outcome s : reachable s -> s_parent _ _ s = Returned ->
  exists ks, sequential = Ok ks /\ s_slots _ _ s = map Some ks /\ Permutation (s_log _ _ s) (map fst all_tasks) /\ s_results _ _ s = [].
Proof.
  intros HR HP. destruct (reachable_good s HR) as (rest & q & fin & R & got & pos & HI). pose proof HI as HI0. destruct HI as [H1 H2 H3 H4 H5 H6 H7 H8 H9 H10]. rewrite HP in H10. cbn [phase] in H10. destruct H10 as (_ & -> & HG).
  pose proof (Permutation_length H2) as L1. pose proof (Permutation_length H5) as L2. rewrite !app_length in L1. rewrite !app_length in L2. assert (L3 : length fin = length R) by (clear -H3; induction H3; cbn [length]; lia). unfold Parallel_Model.task_count in HG.
  assert (rest = [] /\ holding (s_workers _ _ s) = [] /\ s_results _ _ s = []) as (-> & Eh & Er). { split; [|split]; apply length_zero_iff_nil; lia. }
  rewrite Eh in H2. cbn [app] in H2. rewrite Er in H5. cbn [app] in H5. destruct H9 as (S1 & S2 & S3).
  destruct (collect_all (fun a => if is_task a then work a else local a) items (s_slots _ _ s) S1) as (ks & E1 & E2).
  - intros i a Hi. destruct (is_task a) eqn:Et.
    + assert (In (i, a) fin) as Hin by (eapply Permutation_in; [exact H2|]; now apply tasks_In). destruct (made_In' _ _ _ _ H3 Hin) as (b & Hb & Hw). exists b. split; [exact Hw|]. apply S3. eapply Permutation_in; eassumption.
    + apply (S2 i a Hi Et). apply nth_error_Some. congruence.
  - exists ks. split; [exact E1|]. split; [exact E2|]. split; [|exact Er]. rewrite H4. apply Permutation_map. now apply Permutation_sym.
Qed.
Lemma raised_outcome s e : reachable s -> s_parent _ _ s = Raised e -> exists i a, nth_error items i = Some a /\ is_task a = false /\ local a = Err e /\
  forall j x, (j < i)%nat -> nth_error items j = Some x -> is_task x = false -> exists b, local x = Ok b.
Proof.
  intros HR HP. destruct (reachable_good s HR) as (rest & q & fin & R & got & pos & [? ? ? ? ? ? ? ? (_ & H9 & _) H10]). rewrite HP in H10. destruct H10 as (_ & a & A1 & A2 & A3). exists pos, a. repeat (split; [assumption|]).
  intros j x Hj Hx Ht. destruct (H9 j x Hx Ht Hj) as (b & Hb & _). eauto.
Qed.

(** What is left when nothing can move. *)
Definition stuck (s : state) : Prop := forall s', ~ step s s'.
Definition ended (w : worker A) : Prop := w = Done A \/ exists i a e, w = Crashed A i a e /\ work a = Err e.
Lemma idle_or ws : Exists (fun w => w = Idle A) ws \/ Exists (fun w => exists i a, w = Busy A i a) ws \/ Forall (fun w => w = Done A \/ exists i a e, w = Crashed A i a e) ws.
Proof.
  induction ws as [|w ws IH]; [right; right; constructor|]. destruct w as [|i a| |i a e]; [left; now left|right; left; left; eauto| |]; (destruct IH as [H|[H|H]]; [left; now right|right; left; now right|]); right; right; constructor; eauto 6.
Qed.
Lemma stuck_workers s : reachable s -> stuck s -> Forall ended (s_workers _ _ s) \/ (s_tasks _ _ s = [] /\ Exists (fun w => w = Idle A) (s_workers _ _ s)).
Proof.
  intros HR HS. destruct (reachable_good s HR) as (rest & q & fin & R & got & pos & HI). destruct HI as [_ _ _ _ _ _ _ H8 _ _].
  destruct s as [p t ws r sl g]. cbn [s_workers s_tasks] in *. destruct (idle_or ws) as [H|[H|H]].
  - right. apply Exists_exists in H as (w & Hin & ->). split; [|apply Exists_exists; eauto]. apply in_split in Hin as (w1 & w2 & ->). destruct t as [|[[i a]|] t]; [reflexivity| |]; exfalso; eapply HS; [apply step_get|apply step_stop].
  - exfalso. apply Exists_exists in H as (w & Hin & i & a & ->). apply in_split in Hin as (w1 & w2 & ->). destruct (work a) as [b|e] eqn:Ew; eapply HS; [eapply step_put; eassumption|eapply step_crash; eassumption].
  - left. rewrite Forall_forall in H |- *. intros w Hw. destruct (H w Hw) as [->|(i & a & e & ->)]; [now left|]. right. exists i, a, e. split; [reflexivity|eauto].
Qed.
Lemma stuck_ended s : reachable s -> stuck s -> Forall ended (s_workers _ _ s).
Proof.
  intros HR HS. destruct (stuck_workers s HR HS) as [H|[Ht H]]; [exact H|]. exfalso. destruct (reachable_good s HR) as (rest & q & fin & R & got & pos & HI). destruct HI as [H1 _ _ _ _ H6 _ _ _ _].
  rewrite Ht in H1. destruct rest; [|discriminate]. destruct q; [|discriminate]. cbn in H6. clear - H H6.
  assert (G : forall ws, (sum is_done ws <= length ws)%nat) by (induction ws as [|[] ws IH]; cbn [sum is_done length]; lia). assert (Exists (fun w => w = Idle A) (s_workers A B s) -> (sum is_done (s_workers A B s) < length (s_workers A B s))%nat) as X; [|apply X in H; lia].
  clear H H6. intro H. induction H as [w ws ->|w ws _ IH]; cbn [sum is_done length]; [specialize (G ws); lia|]. destruct w; cbn [is_done]; lia.
Qed.
Lemma stuck_parent s : reachable s -> stuck s -> s_parent _ _ s = Returned \/ (exists e, s_parent _ _ s = Raised e) \/ (exists m, s_parent _ _ s = Collecting (S m) /\ s_results _ _ s = []).
Proof.
  intros HR HS. destruct s as [p t ws r sl g]. cbn [s_parent s_results]. destruct p as [[|k]|i|[|m]| |e]; auto.
  - exfalso. eapply HS, step_started.
  - exfalso. eapply HS, step_start.
  - exfalso. destruct (nth_error items i) as [a|] eqn:E; [|eapply HS, step_checked; eassumption]. destruct (is_task a) eqn:Et; [eapply HS, step_skip; eassumption|]. destruct (local a) eqn:El; eapply HS; [eapply step_check; eassumption|eapply step_raise; eassumption].
  - exfalso. eapply HS, step_return.
  - right. right. exists m. split; [reflexivity|]. destruct r as [|[i b] r]; [reflexivity|]. exfalso. eapply HS. apply (step_collect _ _ _ _ _ _ m t ws [] i b r).
  - right. left. eauto.
Qed.
Lemma all_done ws : Forall ended ws -> (forall i a e, ~ In (Crashed A i a e) ws) -> Forall (fun w => w = Done A) ws /\ holding ws = [] /\ sum is_done ws = length ws.
Proof.
  induction 1 as [|w ws H _ IH]; intro HC; [repeat split; constructor|]. destruct IH as (I1 & I2 & I3); [intros i a e Hin; apply (HC i a e); now right|].
  destruct H as [->|(i & a & e & -> & _)]; [|exfalso; apply (HC i a e); now left]. split; [now constructor|]. split; [exact I2|]. cbn [sum is_done length]. lia.
Qed.
(** If every task succeeds and there is a helper (or nothing for it to do). *)
Lemma stuck_success s : reachable s -> stuck s -> (0 < processes)%Z -> (forall i a, In (i, a) all_tasks -> exists b, work a = Ok b) ->
  Forall (fun w => w = Done A) (s_workers _ _ s) /\ (s_parent _ _ s = Returned \/ exists e, s_parent _ _ s = Raised e).
Proof.
  intros HR HS HP HW. pose proof (stuck_ended s HR HS) as HE. pose proof (stuck_parent s HR HS) as HSP. destruct (reachable_good s HR) as (rest & q & fin & R & got & pos & HI). destruct HI as [H1 H2 H3 H4 H5 H6 H7 H8 H9 H10].
  destruct (all_done _ HE) as (D1 & D2 & D3).
  { intros i a e Hin. pose proof (H8 _ _ _ Hin) as He. assert (In (i, a) all_tasks) as HT. { eapply Permutation_in; [apply Permutation_sym, H2|]. rewrite !in_app_iff. right. left. apply in_flat_map. eexists. split; [exact Hin|]. now left. } destruct (HW _ _ HT) as [b Hb]. congruence. }
  split; [exact D1|]. destruct HSP as [HX|[HX|(m & HX & Hr)]]; auto. exfalso. rewrite HX in H10. cbn [phase] in H10. destruct H10 as (N1 & _ & N2).
  assert (L3 : length fin = length R) by (clear -H3; induction H3; cbn [length]; lia). pose proof (Permutation_length H2) as L1. pose proof (Permutation_length H5) as L2. rewrite D2, Hr in *. cbn [app] in L1, L2. rewrite app_length in L1.
  unfold Parallel_Model.task_count in *. unfold Parallel_Model.helpers, Parallel_Model.task_count in N1.
  destruct rest as [|x rest]; [cbn [length] in L1; lia|]. assert (X : (0 < sum is_done (s_workers A B s))%nat) by (cbn [length] in L1; lia). apply H7 in X. discriminate.
Qed.
Lemma locals_raise s e : sequential = Ok e -> reachable s -> forall x, s_parent _ _ s <> Raised x.
Proof.
  intros HQ HR x HX. destruct (raised_outcome s x HR HX) as (i & a & Hi & Ht & Hl & _). destruct (mapM_nth _ _ _ _ _ HQ Hi) as [b Hb]. cbn beta in Hb. rewrite Ht in Hb. congruence.
Qed.
Lemma tasks_succeed ks : sequential = Ok ks -> forall i a, In (i, a) all_tasks -> exists b, work a = Ok b.
Proof. intros HQ i a H. apply tasks_In in H as [Hi Ht]. destruct (mapM_nth _ _ _ _ _ HQ Hi) as [b Hb]. cbn beta in Hb. rewrite Ht in Hb. eauto. Qed.

(** Whether something can move is decided by looking. *)
Lemma step_or_stuck s : (exists s', step s s') \/ stuck s.
Proof.
  destruct s as [p t ws r sl g].
  assert (HP : (exists s', step (mkstate _ _ p t ws r sl g) s') \/ p = Returned \/ (exists e, p = Raised e) \/ (exists m, p = Collecting (S m) /\ r = [])).
  { destruct p as [[|k]|i|[|m]| |e]; eauto 6.
    - left. eexists. apply step_started.
    - left. eexists. apply step_start.
    - left. destruct (nth_error items i) as [a|] eqn:E; [|eexists; eapply step_checked; eassumption]. destruct (is_task a) eqn:Et; [eexists; eapply step_skip; eassumption|]. destruct (local a) eqn:El; eexists; [eapply step_check; eassumption|eapply step_raise; eassumption].
    - left. eexists. apply step_return.
    - destruct r as [|[i b] r]; [eauto 6|]. left. eexists. apply (step_collect _ _ _ _ _ _ m t ws [] i b r). }
  destruct HP as [HP|HP]; [now left|].
  assert (HW : (exists s', step (mkstate _ _ p t ws r sl g) s') \/ forall w1 w w2, ws = w1 ++ w :: w2 -> w <> Idle A \/ t = [] /\ w = Idle A).
  { destruct t as [|x t]; [right; intros w1 w w2 _; destruct w; auto; left; discriminate|]. destruct (idle_or ws) as [H|[H|H]].
    - left. apply Exists_exists in H as (w & Hin & ->). apply in_split in Hin as (w1 & w2 & ->). destruct x as [[i a]|]; eexists; [apply step_get|apply step_stop].
    - left. apply Exists_exists in H as (w & Hin & i & a & ->). apply in_split in Hin as (w1 & w2 & ->). destruct (work a) as [b|e] eqn:Ew; eexists; [eapply step_put; eassumption|eapply step_crash; eassumption].
    - right. intros w1 w w2 ->. rewrite Forall_forall in H. left. intros ->. destruct (H (Idle A)) as [E|(i & a & e & E)]; [apply in_app_iff; right; now left|discriminate|discriminate]. }
  destruct HW as [HW|HW]; [now left|].
  assert (HB : (exists s', step (mkstate _ _ p t ws r sl g) s') \/ forall w1 i a w2, ws <> w1 ++ Busy A i a :: w2).
  { clear HP HW. destruct (Exists_dec (fun w => exists i a, w = Busy A i a) ws) as [H|H]; [intros [|i a| |i a e]; [right; intros (?&?&?); discriminate|left; eauto|right; intros (?&?&?); discriminate|right; intros (?&?&?); discriminate]| |].
    - left. apply Exists_exists in H as (w & Hin & i & a & ->). apply in_split in Hin as (w1 & w2 & ->). destruct (work a) as [b|e] eqn:Ew; eexists; [eapply step_put; eassumption|eapply step_crash; eassumption].
    - right. intros w1 i a w2 ->. apply H. apply Exists_exists. exists (Busy A i a). split; [apply in_app_iff; right; now left|eauto]. }
  destruct HB as [HB|HB]; [now left|]. right. intros s' HS.
  inversion HS; subst; try (destruct HP as [HP|[[e' HP]|(m' & HP & HR)]]; congruence);
    try (eapply HB; reflexivity);
    try (destruct (HW _ _ _ eq_refl) as [X|[X _]]; congruence).
  destruct HP as [HP|[[e' HP]|(m' & HP & HR)]]; try congruence. destruct r1; discriminate.
Qed.
Lemma steps_snoc n s s1 s2 : steps n s s1 -> step s1 s2 -> steps (S n) s s2.
Proof. induction 1 as [|n s x y H _ IH]; intro HS; [eapply steps_more; [exact HS|constructor]|]. eapply steps_more; [exact H|auto]. Qed.
Lemma reachable_step s s' : reachable s -> step s s' -> reachable s'.
Proof. intros [n H] HS. exists (S n). eapply steps_snoc; eassumption. Qed.
(** Every schedule can be followed to an end. *)
Lemma can_finish s : exists n s', steps n s s' /\ stuck s'.
Proof.
  remember (measure s) as k eqn:Ek. revert s Ek. induction k as [k IH] using lt_wf_ind. intros s ->. destruct (step_or_stuck s) as [[s1 H]|H]; [|exists 0%nat, s; split; [constructor|exact H]].
  destruct (IH _ (step_measure _ _ H) s1 eq_refl) as (n & s' & H1 & H2). exists (S n), s'. split; [eapply steps_more; eassumption|exact H2].
Qed.
Lemma mapM_first {X Y} (f : X -> res Y) l : forall i a e, nth_error l i = Some a -> f a = Err e -> (forall j x, (j < i)%nat -> nth_error l j = Some x -> exists b, f x = Ok b) -> mapM f l = Err e.
Proof.
  induction l as [|x l IH]; intros [|i] a e Hi He H; try discriminate; cbn [mapM].
  - injection Hi as ->. now rewrite He.
  - destruct (H 0%nat x) as [b Hb]; [lia|reflexivity|]. rewrite Hb. cbn [rbind]. rewrite (IH i a e Hi He); [reflexivity|]. intros j y Hj Hy. apply (H (S j) y); [lia|exact Hy].
Qed.
Lemma raised_sequential s e : reachable s -> s_parent _ _ s = Raised e -> (forall i a, In (i, a) all_tasks -> exists b, work a = Ok b) -> sequential = Err e.
Proof.
  intros HR HP HW. destruct (raised_outcome s e HR HP) as (i & a & Hi & Ht & Hl & HB). apply (mapM_first _ _ i a e Hi); [now rewrite Ht|]. intros j x Hj Hx. destruct (is_task x) eqn:Et; [|eauto]. apply (HW j). now apply tasks_In.
Qed.
(** Without helpers, or with a task that fails, the parent never gets all results. *)
Lemma no_helpers s : reachable s -> (processes <= 0)%Z -> s_parent _ _ s = Returned -> all_tasks = [].
Proof.
  intros HR HP HX. destruct (reachable_good s HR) as (rest & q & fin & R & got & pos & HI). destruct HI as [H1 H2 H3 H4 H5 H6 H7 H8 H9 H10]. rewrite HX in H10. destruct H10 as (N1 & _ & N2).
  apply length_zero_iff_nil. unfold Parallel_Model.task_count in N2.
  enough (fin = []) as -> by (inversion H3; subst; apply Permutation_nil in H5; apply app_eq_nil in H5 as [_ ->]; cbn [length] in N2; lia).
  assert (forall n s, steps n init s -> (length (s_workers _ _ s) <= helpers)%nat /\ s_log _ _ s = []) as G.
  2: { destruct HR as [n Hn]. destruct (G n s Hn) as [_ G2]. rewrite H4 in G2. now destruct fin. }
  assert (HH : helpers = 0%nat) by (unfold Parallel_Model.helpers; lia).
  assert (G0 : forall n s1 s2, steps n s1 s2 -> s_workers _ _ s1 = [] /\ s_log _ _ s1 = [] /\ (forall k, s_parent _ _ s1 = Starting k -> k = 0%nat) -> s_workers _ _ s2 = [] /\ s_log _ _ s2 = []).
  { clear. induction 1 as [|n s s1 s2 H _ IH]; [tauto|]. intros (W & L & K). apply IH. clear IH. destruct H; cbn [s_workers s_log s_parent] in *; subst; try (split; [reflexivity|split; [reflexivity|intros k0 E; discriminate]]); try (destruct w1; discriminate).
    specialize (K (S k) eq_refl). discriminate. }
  intros n s0 Hn. destruct (G0 n _ _ Hn) as [E1 E2]; [|rewrite E1, E2; split; [cbn [length]; lia|reflexivity]].
  unfold Parallel_Model.init. cbn [s_workers s_log s_parent]. split; [reflexivity|]. split; [reflexivity|]. intros k E. injection E as <-. exact HH.
Qed.
End Proofs.

(** Model of the parallel check of DistReport (/repo/javatools/distdiff.py:412-551)
    as a transition system: the parent, its helper processes and the two queues
    between them.  The changes (items) and what is done with them are parameters.
    KeyboardInterrupt is not modelled, nor failing to start a process, nor
    pickling (an object sent through a queue arrives equal). *)
From Verif Require Import Base.

Section Parallel.
Variables A B : Type.
(** The changes in order, distdiff.py:433 *)
Variable items : list A.
(** isinstance(change, (DistJarReport, DistClassReport)), distdiff.py:453 *)
Variable is_task : A -> bool.
(** change.check() and squash(change), distdiff.py:536-546 *)
Variable work : A -> res B.
(** change.check() in the parent, distdiff.py:473-475 *)
Variable local : A -> res B.
(** The number given by --processes, distdiff.py:498-500: 0 means sequential *)
Variable processes : Z.

(** A helper: waiting in tasks.get(); working on a task; ended by the sentinel;
    ended by an exception of the check (distdiff.py:527-551) *)
Inductive worker := Idle | Busy (i : nat) (a : A) | Done | Crashed (i : nat) (a : A) (e : exn).
(** Where the parent is: helpers still to start (distdiff.py:464-470), index of
    the next change to check (473-475), results still to get (478-480), after the
    loops (488-496), or left by an exception *)
Inductive parent := Starting (k : nat) | Checking (i : nat) | Collecting (m : nat) | Returned | Raised (e : exn).
(** [s_slots]: the changes that are checked; None: not yet, or sent to a helper.
    [s_log]: the indices of the processed tasks, for the statements only. *)
Record state := mkstate {
  s_parent : parent;
  s_tasks : list (option (nat * A));
  s_workers : list worker;
  s_results : list (nat * B);
  s_slots : list (option B);
  s_log : list nat }.

(** distdiff.py:450-456: the tasks with their indices *)
Fixpoint tasks_from (n : nat) (l : list A) : list (nat * A) :=
  match l with
  | [] => []
  | a :: l' => if is_task a then (n, a) :: tasks_from (S n) l' else tasks_from (S n) l'
  end.
Definition all_tasks := tasks_from 0 items.
Definition task_count := length all_tasks.
(** distdiff.py:460: min(process_count, task_count); range() of a negative number
    is empty *)
Definition helpers : nat := Z.to_nat (Z.min processes (Z.of_nat task_count)).
(** After the tasks were put, before the first helper is started *)
Definition init : state := mkstate (Starting helpers) (map Some all_tasks) [] [] (map (fun _ => None) items) [].

(** changes[i] = v *)
Fixpoint set_nth {X} (i : nat) (v : X) (l : list X) : list X :=
  match l, i with
  | [], _ => []
  | _ :: l', O => v :: l'
  | x :: l', S i' => x :: set_nth i' v l'
  end.

(** One step of the parent or of some helper.  Taking a result: any of those
    sent, since the queue is filled by the helpers through their own threads. *)
Inductive step : state -> state -> Prop :=
(** distdiff.py:465-470 *)
| step_start k t w r sl g : step (mkstate (Starting (S k)) t w r sl g) (mkstate (Starting k) (t ++ [None]) (w ++ [Idle]) r sl g)
| step_started t w r sl g : step (mkstate (Starting 0) t w r sl g) (mkstate (Checking 0) t w r sl g)
(** distdiff.py:473-475 *)
| step_skip i a t w r sl g : nth_error items i = Some a -> is_task a = true ->
    step (mkstate (Checking i) t w r sl g) (mkstate (Checking (S i)) t w r sl g)
| step_check i a b t w r sl g : nth_error items i = Some a -> is_task a = false -> local a = Ok b ->
    step (mkstate (Checking i) t w r sl g) (mkstate (Checking (S i)) t w r (set_nth i (Some b) sl) g)
| step_raise i a e t w r sl g : nth_error items i = Some a -> is_task a = false -> local a = Err e ->
    step (mkstate (Checking i) t w r sl g) (mkstate (Raised e) t w r sl g)
| step_checked i t w r sl g : nth_error items i = None ->
    step (mkstate (Checking i) t w r sl g) (mkstate (Collecting task_count) t w r sl g)
(** distdiff.py:478-480 *)
| step_collect m t w r1 i b r2 sl g :
    step (mkstate (Collecting (S m)) t w (r1 ++ (i, b) :: r2) sl g) (mkstate (Collecting m) t w (r1 ++ r2) (set_nth i (Some b) sl) g)
| step_return t w r sl g : step (mkstate (Collecting 0) t w r sl g) (mkstate Returned t w r sl g)
(** distdiff.py:533: iter(tasks.get, None) *)
| step_get p i a t w1 w2 r sl g :
    step (mkstate p (Some (i, a) :: t) (w1 ++ Idle :: w2) r sl g) (mkstate p t (w1 ++ Busy i a :: w2) r sl g)
| step_stop p t w1 w2 r sl g :
    step (mkstate p (None :: t) (w1 ++ Idle :: w2) r sl g) (mkstate p t (w1 ++ Done :: w2) r sl g)
(** distdiff.py:537-546 *)
| step_put p i a b t w1 w2 r sl g : work a = Ok b ->
    step (mkstate p t (w1 ++ Busy i a :: w2) r sl g) (mkstate p t (w1 ++ Idle :: w2) (r ++ [(i, b)]) sl (g ++ [i]))
| step_crash p i a e t w1 w2 r sl g : work a = Err e ->
    step (mkstate p t (w1 ++ Busy i a :: w2) r sl g) (mkstate p t (w1 ++ Crashed i a e :: w2) r sl g).

(** Executions of [n] steps *)
Inductive steps : nat -> state -> state -> Prop :=
| steps_none s : steps 0 s s
| steps_more n s s1 s2 : step s s1 -> steps n s1 s2 -> steps (S n) s s2.
Definition reachable (s : state) : Prop := exists n, steps n init s.

(** The sequential check, distdiff.py:502-516 *)
Definition sequential : res (list B) := mapM (fun a => if is_task a then work a else local a) items.
End Parallel.

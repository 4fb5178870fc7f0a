(** Specifications for directory comparison and copying, independent of the algorithms. *)
From Verif Require Import Base Zip_Model.

(** What is found at a path (links are followed). *)
Inductive found : node -> list str -> node -> Prop :=
| found_here n : found n [] n
| found_down l kids k n p m : In (k, n) kids -> found n p m -> found (Dir l kids) (k :: p) m.
(** Something other than a directory is at the path. *)
Definition file_at (n : node) (p : list str) : Prop := exists m, found n p m /\ is_dir m = false.
(** A regular file holding [d] is at the path. *)
Definition data_at (n : node) (p : list str) (d : bytes) : Prop := exists l m, found n p (File l d m).

(** The right classification of a path. *)
Definition dclass (l r : node) (e : event) (p : list str) : Prop :=
  match e with
  | LEFT => file_at l p /\ ~ file_at r p
  | RIGHT => file_at r p /\ ~ file_at l p
  | SAME => exists d, data_at l p d /\ data_at r p d
  | DIFF => exists d d', data_at l p d /\ data_at r p d' /\ d <> d'
  end.

(** Trees with unique non-empty names without links to directories. *)
Inductive plain : node -> Prop :=
| plain_file l d m : plain (File l d m)
| plain_other l : plain (Other l)
| plain_dir kids : NoDup (map fst kids) -> Forall (fun k => plain (snd k)) kids -> plain (Dir false kids).

(** Trees for which the comparison works: names in both are directories in both
    or regular files in both; files of the same size and modification time have
    the same content; no two common subdirectories side by side. *)
Inductive comparable : node -> node -> Prop :=
| comparable_dirs ll lk rl rk :
    (forall f a b, In (f, a) lk -> In (f, b) rk ->
       (exists l1 d1 m1 l2 d2 m2, a = File l1 d1 m1 /\ b = File l2 d2 m2 /\ (length d1 = length d2 -> m1 = m2 -> d1 = d2)) \/ comparable a b) ->
    (forall f a b f' a' b', In (f, a) lk -> In (f, b) rk -> In (f', a') lk -> In (f', b') rk -> is_dir a = true -> is_dir a' = true -> f = f') ->
    comparable (Dir ll lk) (Dir rl rk).

(** How a path is written: at the top level, common files carry a leading "./". *)
Definition written (k : event * list str) : event * str :=
  (fst k, match fst k, snd k with
          | SAME, [f] | DIFF, [f] => [46; 47] ++ f
          | _, p => slashes p
          end).

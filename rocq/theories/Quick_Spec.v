(** Specification of the report that is printed or written to the file of -o. *)
From Verif Require Import Base Change_Model Change_Spec Quick_Model.

(** What a text report consists of and how it ends: the lines of all nodes to be shown,
    if every node it comes to can be described; otherwise the lines of those before the
    first that cannot, and the exception of that one. *)
Inductive told (o : options) (t : rose) : str -> option exn -> Prop :=
| told_all : tellable o t -> told o t (concat (map (line o) (filter (shown o) (chains t)))) None
| told_until pre ch post e : chains t = pre ++ ch :: post ->
    (forall p, In p pre -> visited o p = true -> speaks (tip p)) ->
    visited o ch = true -> get_description (tip ch) = Err e ->
    told o t (concat (map (line o) (filter (shown o) pre))) (Some e).

(** The text went to the file of that name, or was printed if there is none; nothing
    else changed. *)
Definition delivered (output : option str) (text : str) (w w' : world) : Prop :=
  match output with
  | Some (x :: p) => w_files w' (x :: p) = Some text /\ (forall q, q <> x :: p -> w_files w' q = w_files w q) /\ w_out w' = w_out w
  | _ => (forall q, w_files w' q = w_files w q) /\ w_out w' = w_out w ++ text
  end.

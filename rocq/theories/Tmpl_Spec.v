(** Inheritance and the naming rule of templates, without orders of resolution. *)
From Verif Require Import Base Tmpl_Model.

(** [inherits cs a b]: [a] is [b] or a direct or indirect subclass of it *)
Inductive inherits (cs : list klass) : str -> str -> Prop :=
| inh_refl n : inherits cs n n
| inh_base c b n : In c cs -> In b (kl_bases c) -> inherits cs b n -> inherits cs (kl_name c) n.

(** The template that is named after a class of the program: "module_Class" *)
Definition template_for (cs : list klass) (names : list str) (e t : str) : Prop :=
  In t names /\ exists c, In c cs /\ kl_name c = e /\ t = kl_module c ++ 95 :: kl_name c.

(** Class names are distinct; module names have no underscore *)
Definition names_ok (cs : list klass) : Prop :=
  NoDup (lit "object" :: map kl_name cs) /\ Forall (fun c => ~ In 95 (kl_module c)) cs.

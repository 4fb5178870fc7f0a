(** Specification of what reading and verifying do to the manifest object. *)
From Verif Require Import Base Manifest_Model.

(** The names of a list that are wanted and not yet there, each once, in order. *)
Inductive newly (Q : str -> Prop) : list str -> list str -> list str -> Prop :=
| newly_nil have : newly Q have [] []
| newly_passed have f l new : ~ Q f \/ In f have -> newly Q have l new -> newly Q have (f :: l) new
| newly_first have f l new : Q f -> ~ In f have -> newly Q (have ++ [f]) l new -> newly Q have (f :: l) (f :: new).

(** The manifest with further sections at the end, which have a name and nothing else. *)
Definition with_empty (m : manifest) (names : list str) : manifest :=
  mkman (m_primary_key m) (m_main m) (m_subs m ++ map (fun f => (f, [(lit "Name", f)])) names) (m_linesep m).

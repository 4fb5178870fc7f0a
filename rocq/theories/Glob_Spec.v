(** What a glob pattern means, after the documentation of Python's fnmatch and
    the pattern language of the shell; independent of the model. *)
From Verif Require Import Base.

(** [x-y] at the start of a set: a range *)
Definition starts_range (b : str) : Prop := exists x y r, b = x :: 45 :: y :: r.
(** [SetHas b c]: the body [b] of a bracket expression contains [c] *)
Inductive SetHas : str -> Z -> Prop :=
| has_range x y b c : x <= c <= y -> SetHas (x :: 45 :: y :: b) c
| has_after_range x y b c : SetHas b c -> SetHas (x :: 45 :: y :: b) c
| has_char x b : ~ starts_range (x :: b) -> SetHas (x :: b) x
| has_after_char x b c : ~ starts_range (x :: b) -> SetHas b c -> SetHas (x :: b) c.

(** The body of a bracket expression: not empty, and a closing bracket only as
    its first character. *)
Definition set_body (b : str) : Prop := exists x b', b = x :: b' /\ ~ In 93 b'.
(** A bracket that is never closed stands for itself. *)
Definition never_closed (p : str) : Prop :=
  forall b r, set_body b -> (hd 0 b <> 33 -> p <> b ++ 93 :: r) /\ p <> 33 :: b ++ 93 :: r.

Inductive Matches : str -> str -> Prop :=
| m_end : Matches [] []
| m_star_none p s : Matches p s -> Matches (42 :: p) s
| m_star_one p c s : Matches (42 :: p) s -> Matches (42 :: p) (c :: s)
| m_any p c s : Matches p s -> Matches (63 :: p) (c :: s)
| m_char p c s : c <> 42 -> c <> 63 -> c <> 91 -> Matches p s -> Matches (c :: p) (c :: s)
| m_open p s : never_closed p -> Matches p s -> Matches (91 :: p) (91 :: s)
| m_set b p c s : set_body b -> hd 0 b <> 33 -> SetHas b c -> Matches p s -> Matches (91 :: b ++ 93 :: p) (c :: s)
| m_set_not b p c s : set_body b -> ~ SetHas b c -> Matches p s -> Matches (91 :: 33 :: b ++ 93 :: p) (c :: s).

(** An entry is matched by a list of patterns if it matches one of them; empty
    patterns do not count. *)
Definition matched_by (patterns : list str) (s : str) : Prop := exists p, In p patterns /\ p <> [] /\ Matches p s.

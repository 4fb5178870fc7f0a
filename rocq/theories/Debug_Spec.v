(** Bytes literals, from the Python language reference (2.4.1). *)
From Verif Require Import Base.

Inductive Digit : Z -> Z -> Prop :=
| digit_dec n : 0 <= n < 10 -> Digit (48 + n) n
| digit_low n : 10 <= n < 16 -> Digit (87 + n) n
| digit_up n : 10 <= n < 16 -> Digit (55 + n) n.
(** What stands between quotes [q], and the bytes it stands for *)
Inductive Reads (q : Z) : str -> list Z -> Prop :=
| reads_end : Reads q [] []
| reads_char c s b : 0 <= c < 128 -> c <> q -> c <> 92 -> c <> 10 -> c <> 13 -> Reads q s b -> Reads q (c :: s) (c :: b)
| reads_backslash s b : Reads q s b -> Reads q (92 :: 92 :: s) (92 :: b)
| reads_single s b : Reads q s b -> Reads q (92 :: 39 :: s) (39 :: b)
| reads_double s b : Reads q s b -> Reads q (92 :: 34 :: s) (34 :: b)
| reads_tab s b : Reads q s b -> Reads q (92 :: 116 :: s) (9 :: b)
| reads_newline s b : Reads q s b -> Reads q (92 :: 110 :: s) (10 :: b)
| reads_return s b : Reads q s b -> Reads q (92 :: 114 :: s) (13 :: b)
| reads_hex h l hv lv s b : Digit h hv -> Digit l lv -> Reads q s b -> Reads q (92 :: 120 :: h :: l :: s) (16 * hv + lv :: b).
(** The text is a literal for these bytes *)
Definition Denotes (t : str) (b : list Z) : Prop :=
  exists q s, (q = 39 \/ q = 34) /\ t = 98 :: q :: s ++ [q] /\ Reads q s b.

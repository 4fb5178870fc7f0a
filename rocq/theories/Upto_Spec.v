(** Texts that stop being a manifest somewhere. *)
From Verif Require Import Base ConstPool_Model Manifest_Model Manifest_Spec Manifest_Grammar.

(** The lines have these sections, each closed by a blank line; then, perhaps after some
    headers of another one, comes a line that is neither a header nor the continuation of
    one. *)
Inductive Broken : list str -> list (list (str * list str)) -> Prop :=
| broken_here g bad rest : g = [] \/ (exists sec, Group g sec) -> bad <> [] ->
    (hd 0 bad <> 32 /\ ~ In 58 bad) \/ (g = [] /\ hd 0 bad = 32) -> Broken (g ++ bad :: rest) []
| broken_blank ls secs : Broken ls secs -> Broken ([] :: ls) secs
| broken_later g sec ls secs : Group g sec -> Broken ls secs -> Broken (g ++ [] :: ls) (sec :: secs).

Definition BrokenText (data : str) (secs : list (list (str * list str))) : Prop :=
  exists ls cs, Lines data ls /\ Forall2 Cleaned ls cs /\ Broken cs secs.

(** How far reading a text got, by where it ends: [main0 subs0] before, [main subs]
    afterwards, [r] the exception if any.  [early] is that of the text itself. *)
Inductive Reached (main0 : list (str * str)) (subs0 : list (str * list (str * str))) (early : option exn) :
    list (list (str * list str)) -> list (str * str) -> list (str * list (str * str)) -> option exn -> Prop :=
| reached_nothing : Reached main0 subs0 early [] main0 subs0 (Some (match early with Some e => e | None => StopIteration end))
| reached_main xs k vs ys more main : keys_fit xs -> 68 < Z.of_nat (length k) ->
    (forall q, last_value xs q (dget main0 q) (dget main q)) ->
    Reached main0 subs0 early ((xs ++ (k, vs) :: ys) :: more) main subs0 (Some ManifestKeyException)
| reached_sub it xs bad ys main subs : keys_fit it -> Forall keys_fit xs -> ~ keys_fit bad ->
    (forall q, last_value it q (dget main0 q) (dget main q)) ->
    (forall n, last_section xs n (dget subs0 n) (dget subs n)) ->
    Reached main0 subs0 early (it :: xs ++ bad :: ys) main subs (Some ManifestKeyException)
| reached_end it xs main subs : keys_fit it -> Forall keys_fit xs ->
    (forall q, last_value it q (dget main0 q) (dget main q)) ->
    (forall n, last_section xs n (dget subs0 n) (dget subs n)) ->
    Reached main0 subs0 early (it :: xs) main subs early.

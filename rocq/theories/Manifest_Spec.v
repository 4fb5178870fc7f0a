(** Specification of manifests, written from the JAR file specification and RFC
    3629 (UTF-8), independently of the model's helpers. *)
From Verif Require Import Base Manifest_Model.
From Coq Require Import Permutation.

(** UTF-8 *)
Definition scalar (c : Z) : bool := (0 <=? c) && (c <? 1114112) && negb ((55296 <=? c) && (c <? 57344)).
Definition utf8c (c : Z) : bytes :=
  if c <=? 127 then [c]
  else if c <=? 2047 then [192 + c / 64; 128 + c mod 64]
  else if c <=? 65535 then [224 + c / 4096; 128 + (c / 64) mod 64; 128 + c mod 64]
  else [240 + c / 262144; 128 + (c / 4096) mod 64; 128 + (c / 64) mod 64; 128 + c mod 64].
Definition utf8 (s : str) : bytes := concat (map utf8c s).

(** Characters that can appear in a header: no NUL, nothing that Python treats as
    a line boundary. *)
Definition breaks : list Z := [10; 11; 12; 13; 28; 29; 30; 133; 8232; 8233].
Definition plain (c : Z) : bool := scalar c && negb (c =? 0) && negb (existsb (Z.eqb c) breaks).
Definition lf : str := [10].
Definition crlf : str := [13; 10].

(** Physical lines: split after each newline byte; the separator belongs to the line. *)
Fixpoint phys_lines (b : bytes) : list bytes :=
  match b with
  | [] => []
  | c :: b' => if c =? 10 then [10] :: phys_lines b'
               else match phys_lines b' with [] => [[c]] | l :: ls => (c :: l) :: ls end
  end.
(** A line without its separator. *)
Definition chop (ls line : bytes) : bytes := firstn (length line - length ls) line.

(** [spaced rest]: each line starts with one space. *)
Definition spaced (rest : list bytes) : Prop := Forall (fun l => exists l', l = 32 :: l') rest.

(** Attribute names and values that can be stored. *)
Definition key_ok (k : str) : bool :=
  forallb plain k && negb (existsb (Z.eqb 58) k) &&
  match k with [] => false | c :: _ => negb (c =? 32) end &&
  (Z.of_nat (length (utf8 k)) <=? 68).
Definition val_ok (v : str) : bool := forallb plain v && match v with [] => false | _ => true end.

(** No character of the header line lies across a fold: folds come after the
    first 70 bytes and then after every 69. *)
Definition header (k v : str) : str := k ++ [58; 32] ++ v.
Definition no_straddle (k v : str) : Prop :=
  forall s c s', header k v = s ++ c :: s' -> forall j, 0 <= j ->
    ~ (Z.of_nat (length (utf8 s)) < 70 + 69 * j < Z.of_nat (length (utf8 (s ++ [c])))).
Definition ascii (s : str) : bool := forallb (fun c => (0 <=? c) && (c <=? 127)) s.

Definition item_ok (kv : str * str) : Prop :=
  key_ok (fst kv) = true /\ val_ok (snd kv) = true /\ no_straddle (fst kv) (snd kv).
(** A section under its primary attribute: storable items, distinct names. *)
Definition section_ok (pk pv : str) (s : list (str * str)) : Prop :=
  (exists rest, s = (pk, pv) :: rest) /\ NoDup (map fst s) /\ Forall item_ok s.
Definition manifest_ok (m : manifest) : Prop :=
  (exists v, section_ok (m_primary_key m) v (m_main m)) /\
  NoDup (map fst (m_subs m)) /\
  Forall (fun ns => section_ok (lit "Name") (fst ns) (snd ns)) (m_subs m).

(** No newline in names and values (weaker than [item_ok]). *)
Definition no_newline (s : list (str * str)) : Prop :=
  Forall (fun kv => ~ In 10 (fst kv) /\ ~ In 10 (snd kv)) s.

(** The separator used when a manifest is written: the one asked for, else the
    manifest's own, else that of the system (POSIX). *)
Definition writes_with (m : manifest) (asked : option str) (ls : str) : Prop :=
  (ls = lf \/ ls = crlf) /\
  (asked = Some ls \/ (asked = None /\ m_linesep m = Some ls) \/ (asked = None /\ m_linesep m = None /\ ls = lf)).

(** [strips suf keys xs]: the X of every key X+suf, in order. *)
Inductive strips (suf : str) : list str -> list str -> Prop :=
| strips_nil : strips suf [] []
| strips_take x keys xs : strips suf keys xs -> strips suf ((x ++ suf) :: keys) (x :: xs)
| strips_skip k keys xs : (forall x, k <> x ++ suf) -> strips suf keys xs -> strips suf (k :: keys) xs.

(** Model of the glob patterns used by the ignore options:
    /repo/javatools/dirutils.py:39-48 and fnmatch of the standard library, which
    it calls (POSIX: no case folding). *)
From Verif Require Import Base.

(** A pattern as fnmatch.translate reads it (standard library, called at
    dirutils.py:46): the pieces of the regular expression it produces. *)
Inductive gtok := GStar | GAny | GSet (negated : bool) (ranges : list (Z * Z)) | GChar (c : Z).

(** [pat.find(']')]: what comes before and after (fnmatch.translate) *)
Fixpoint to_bracket (p : str) : option (str * str) :=
  match p with
  | [] => None
  | c :: p' => if c =? 93 then Some ([], p')
               else match to_bracket p' with Some (a, r) => Some (c :: a, r) | None => None end
  end.
(** The text after an opening bracket (fnmatch.translate): negated or not, the
    body of the set and what follows; None if it is never closed.  A closing bracket that comes
    first belongs to the set. *)
Definition bracket (p : str) : option (bool * str * str) :=
  let '(neg, p1) := match p with c :: p' => if c =? 33 then (true, p') else (false, p) | [] => (false, p) end in
  let '(lead, p2) := match p1 with c :: p' => if c =? 93 then ([93], p') else ([], p1) | [] => ([], p1) end in
  match to_bracket p2 with Some (a, r) => Some (neg, lead ++ a, r) | None => None end.
(** The ranges of a set (fnmatch.translate): x-y, or a single character.
    Simplification: a range y-x with y after x is empty (CPython since 3.11; older
    versions raise re.error), and stays without influence on what is beside it. *)
Fixpoint set_ranges (b : str) : list (Z * Z) :=
  match b with
  | [] => []
  | x :: b1 => match b1 with
               | h :: y :: b2 => if h =? 45 then (x, y) :: set_ranges b2 else (x, x) :: set_ranges b1
               | _ => (x, x) :: set_ranges b1
               end
  end.
(** fnmatch.translate, without the merging of adjacent stars *)
Fixpoint translate (fuel : nat) (p : str) : list gtok :=
  match fuel with
  | O => []
  | S fu =>
      match p with
      | [] => []
      | c :: p' =>
          if c =? 42 then GStar :: translate fu p'
          else if c =? 63 then GAny :: translate fu p'
          else if c =? 91 then
            match bracket p' with
            | Some (neg, body, rest) => GSet neg (set_ranges body) :: translate fu rest
            | None => GChar c :: translate fu p'
            end
          else GChar c :: translate fu p'
      end
  end.
(** One character against one piece (the regular expression, dirutils.py:46) *)
Definition fits (t : gtok) (x : Z) : bool :=
  match t with
  | GStar => false
  | GAny => true
  | GChar c => c =? x
  | GSet neg rs => xorb neg (existsb (fun r => (fst r <=? x) && (x <=? snd r)) rs)
  end.
(** Matching the whole string (the regular expression, dirutils.py:46) *)
Fixpoint toks_match (ts : list gtok) : str -> bool :=
  match ts with
  | [] => fun s => match s with [] => true | _ => false end
  | GStar :: ts' =>
      fix star (s : str) : bool := toks_match ts' s || match s with [] => false | _ :: s' => star s' end
  | t :: ts' => fun s => match s with [] => false | x :: s' => fits t x && toks_match ts' s' end
  end.
(** fnmatch(entry, pattern) *)
Definition glob (p s : str) : bool := toks_match (translate (S (length p)) p) s.
(** fnmatches, dirutils.py:39-48 *)
Definition fnmatches (entry : str) (patterns : list str) : bool :=
  existsb (fun p => match p with [] => false | _ => glob p entry end) patterns.

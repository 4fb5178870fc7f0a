(** Model of annotations, /repo/javatools/__init__.py:1909-2048. *)
From Verif Require Import Base Pack_Model ConstPool_Model ClassFile_Model.

(** A (tag, data) pair as returned by _unpack_annotation_val, __init__.py:2018-2048.
    [AConst] covers the tags of 'BCDFIJSZs'; [AAnno] is a JavaAnnotation
    (__init__.py:1909-1919): its type_ref and its dict in insertion order. *)
Inductive aval :=
| AConst (tag i : Z)
| AEnum (t n : Z)
| AClass (i : Z)
| AAnno (type_ref : Z) (elems : list (pyval * aval))
| AArr (l : list aval).

(** [tag in 'BCDFIJSZs'], __init__.py:1992, 2026 *)
Definition const_tags : list Z := [66; 67; 68; 70; 73; 74; 83; 90; 115].
Definition is_const_tag (t : Z) : bool := zmem t const_tags.

(** [self[key] = val] on a dict whose values are element values, __init__.py:1930 *)
Fixpoint eset (d : list (pyval * aval)) (k : pyval) (v : aval) : list (pyval * aval) :=
  match d with
  | [] => [(k, v)]
  | (k', v') :: d' => if py_eq k k' then (k', v) :: d' else (k', v') :: eset d' k v
  end.
Fixpoint eget (d : list (pyval * aval)) (k : pyval) : option aval :=
  match d with
  | [] => None
  | (k', v) :: d' => if py_eq k k' then Some v else eget d' k
  end.

(** The loop of JavaAnnotation.unpack, __init__.py:1925-1930, given how to read an
    element value. *)
Fixpoint p_elems (p : pool) (pval : prog aval) (n : nat) (d : list (pyval * aval))
  : prog (list (pyval * aval)) :=
  match n with
  | O => PRet d
  | S m =>
      key_ref <<- p_unpack1 cH ;;;
      v <<- pval ;;;
      k <<- p_lift (deref_const p key_ref) ;;;
      p_elems p pval m (eset d k v)
  end.

(** _unpack_annotation_val, __init__.py:2018-2048, and JavaAnnotation.unpack,
    1922-1930.  Fuel bounds the nesting depth. *)
Fixpoint p_aval (fuel : nat) (p : pool) : prog aval :=
  match fuel with
  | O => PRaise OutOfFuel
  | S fu =>
      tag <<- p_unpack1 cB ;;;
      if is_const_tag tag then i <<- p_unpack1 cH ;;; PRet (AConst tag i)
      else if tag =? 101 (* e *) then tn <<- p_unpack2 cH cH ;;; PRet (AEnum (fst tn) (snd tn))
      else if tag =? 99 (* c *) then i <<- p_unpack1 cH ;;; PRet (AClass i)
      else if tag =? 64 (* @ *) then
        tc <<- p_unpack2 cH cH ;;;
        d <<- p_elems p (p_aval fu p) (Z.to_nat (snd tc)) [] ;;;
        PRet (AAnno (fst tc) d)
      else if tag =? 91 (* [ *) then
        n <<- p_unpack1 cH ;;;
        l <<- p_repeat (Z.to_nat n) (p_aval fu p) ;;;
        PRet (AArr l)
      else PRaise Unimplemented
  end.

(** JavaAnnotation.unpack, __init__.py:1922-1930 *)
Definition annotation := (Z * list (pyval * aval))%type.
Definition p_annotation (fuel : nat) (p : pool) : prog annotation :=
  tc <<- p_unpack2 cH cH ;;;
  d <<- p_elems p (p_aval fuel p) (Z.to_nat (snd tc)) [] ;;;
  PRet (fst tc, d).

(** _get_annotations of a class (__init__.py:714-730) or member (1266-1290),
    without and with for_params.  Fuel: one more than the size of the buffer. *)
Definition annotations_of (p : pool) (d : attrs) (name : str) : res (list annotation) :=
  match get_attribute d name with
  | None => Ok []
  | Some buff => parse_buf (p_objects (p_annotation (S (length buff)) p)) buff
  end.
Definition param_annotations_of (p : pool) (d : attrs) (name : str) : res (list (list annotation)) :=
  match get_attribute d name with
  | None => Ok []
  | Some buff =>
      parse_buf (n <<- p_unpack1 cB ;;;
                 p_repeat (Z.to_nat n) (p_objects (p_annotation (S (length buff)) p))) buff
  end.

(** ** Equality *)

(** [self.keys() != other.keys()] negated, __init__.py:1964: dict views compare
    as sets *)
Definition same_keys (a b : list (pyval * aval)) : bool :=
  (length a =? length b)%nat &&
  forallb (fun e => match eget b (fst e) with Some _ => true | None => false end) a.

(** [lconst(i) == rconst(j)] *)
Definition const_eq (lp rp : pool) (i j : Z) : res bool :=
  v <- deref_const lp i ;; w <- deref_const rp j ;; Ok (py_eq v w).

(** _annotation_val_eq, __init__.py:1983-2015, and JavaAnnotation.__eq__, 1953-1973 *)
Fixpoint aval_eq (lp rp : pool) (l r : aval) {struct l} : res bool :=
  match l, r with
  | AConst t i, AConst u j => if t =? u then const_eq lp rp i j else Ok false
  | AEnum a b, AEnum c d =>
      e <- const_eq lp rp a c ;; if e then const_eq lp rp b d else Ok false
  | AClass i, AClass j => const_eq lp rp i j
  | AAnno lt le, AAnno rt re =>
      e <- const_eq lp rp lt rt ;;
      if negb e then Ok false
      else if negb (same_keys le re) then Ok false
      else
        (fix loop (le : list (pyval * aval)) : res bool :=
           match le with
           | [] => Ok true
           | (k, v) :: le' =>
               match eget re k with
               | None => Err KeyError
               | Some w => e <- aval_eq lp rp v w ;; if e then loop le' else Ok false
               end
           end) le
  | AArr ll, AArr rl =>
      if negb (length ll =? length rl)%nat then Ok false
      else
        (fix loop (ll rl : list aval) : res bool :=
           match ll, rl with
           | v :: ll', w :: rl' => e <- aval_eq lp rp v w ;; if e then loop ll' rl' else Ok false
           | _, _ => Ok true
           end) ll rl
  | _, _ => Ok false
  end.

(** JavaAnnotation.__eq__, __init__.py:1953-1973 *)
Definition annotation_eq (lp rp : pool) (l r : annotation) : res bool :=
  aval_eq lp rp (AAnno (fst l) (snd l)) (AAnno (fst r) (snd r)).

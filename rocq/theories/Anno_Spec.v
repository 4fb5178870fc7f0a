(** Specification of annotations, written from the class file format
    (JVMS 4.7.16), independently of the parser. *)
From Verif Require Import Base Pack_Model Pack_Spec ConstPool_Model ConstPool_Spec
  ClassFile_Spec Anno_Model.
From Coq Require Import Permutation.

(** Element values as written in a class file. *)
Inductive jval :=
| VConst (tag i : Z)
| VEnum (t n : Z)
| VClass (i : Z)
| VAnno (t : Z) (l : list (Z * jval))
| VArr (l : list jval).

(** The tags of constant element values: B C D F I J S Z s (JVMS table 4.7.16.1-A). *)
Definition jtag (t : Z) : bool :=
  existsb (Z.eqb t) (lit "BCDFIJSZs").

Fixpoint enc_val (v : jval) : bytes :=
  match v with
  | VConst tag i => tag :: e2 i
  | VEnum t n => 101 :: e2 t ++ e2 n
  | VClass i => 99 :: e2 i
  | VAnno t l => 64 :: e2 t ++ count16 l ++ concat (map (fun e => e2 (fst e) ++ enc_val (snd e)) l)
  | VArr l => 91 :: count16 l ++ concat (map enc_val l)
  end.
(** An annotation: the same without the tag. *)
Definition enc_anno (a : Z * list (Z * jval)) : bytes :=
  e2 (fst a) ++ count16 (snd a) ++ concat (map (fun e => e2 (fst e) ++ enc_val (snd e)) (snd a)).
Definition enc_annos (l : list (Z * list (Z * jval))) : bytes :=
  count16 l ++ concat (map enc_anno l).
Definition enc_param_annos (l : list (list (Z * list (Z * jval)))) : bytes :=
  Z.of_nat (length l) :: concat (map enc_annos l).

Fixpoint distinct (l : list str) : bool :=
  match l with [] => true | s :: l' => negb (existsb (seqb s) l') && distinct l' end.

(** Element names are Utf8 constants, distinct within one annotation. *)
Definition elem_name (l : list jconst) (i : Z) : str :=
  match jutf8_at l i with Some s => s | None => [] end.
Definition names_ok {A} (l : list jconst) (es : list (Z * A)) : bool :=
  short_list es && forallb (fun e => match jutf8_at l (fst e) with Some _ => true | None => false end) es &&
  distinct (map (fun e => elem_name l (fst e)) es).
Fixpoint jval_ok (l : list jconst) (v : jval) : bool :=
  match v with
  | VConst tag i => jtag tag && u2 i
  | VEnum t n => u2 t && u2 n
  | VClass i => u2 i
  | VAnno t es => u2 t && names_ok l es && forallb (fun e => u2 (fst e) && jval_ok l (snd e)) es
  | VArr vs => short_list vs && forallb (jval_ok l) vs
  end.
Definition janno_ok (l : list jconst) (a : Z * list (Z * jval)) : bool := jval_ok l (VAnno (fst a) (snd a)).

(** What the decoded value shows. *)
Fixpoint shown_val (l : list jconst) (v : jval) : aval :=
  match v with
  | VConst tag i => AConst tag i
  | VEnum t n => AEnum t n
  | VClass i => AClass i
  | VAnno t es => AAnno t (map (fun e => (PStr (elem_name l (fst e)), shown_val l (snd e))) es)
  | VArr vs => AArr (map (shown_val l) vs)
  end.
Definition shown_anno (l : list jconst) (a : Z * list (Z * jval)) : annotation :=
  (fst a, map (fun e => (PStr (elem_name l (fst e)), shown_val l (snd e))) (snd a)).

(** ** Meaning: constant pool indices replaced by the constants *)
Inductive rval :=
| RConst (tag : Z) (v : pyval)
| REnum (t n : pyval)
| RClass (v : pyval)
| RAnno (t : pyval) (l : list (str * rval))
| RArr (l : list rval).

Inductive means (p : pool) : aval -> rval -> Prop :=
| m_const tag i v : derefs p i v -> means p (AConst tag i) (RConst tag v)
| m_enum i j v w : derefs p i v -> derefs p j w -> means p (AEnum i j) (REnum v w)
| m_class i v : derefs p i v -> means p (AClass i) (RClass v)
| m_anno i v es rs : derefs p i v -> NoDup (map fst rs) ->
    Forall2 (fun e r => fst e = PStr (fst r) /\ means p (snd e) (snd r)) es rs ->
    means p (AAnno i es) (RAnno v rs)
| m_arr vs rs : Forall2 (means p) vs rs -> means p (AArr vs) (RArr rs).

(** Equal meanings: same kind, equal constants, the same elements in any order
    for annotations and in the same order for arrays. *)
Inductive req : rval -> rval -> Prop :=
| q_const tag v w : py_eq v w = true -> req (RConst tag v) (RConst tag w)
| q_enum a b c d : py_eq a c = true -> py_eq b d = true -> req (REnum a b) (REnum c d)
| q_class v w : py_eq v w = true -> req (RClass v) (RClass w)
| q_anno t u l m m' : py_eq t u = true -> Permutation m m' ->
    Forall2 (fun a b => fst a = fst b /\ req (snd a) (snd b)) l m' ->
    req (RAnno t l) (RAnno u m)
| q_arr l m : Forall2 req l m -> req (RArr l) (RArr m).

(** NaN bit patterns (IEEE 754): all exponent bits set, mantissa not zero. *)
Definition nan32 (b : Z) : bool := ((b / 2 ^ 23) mod 2 ^ 8 =? 255) && negb (b mod 2 ^ 23 =? 0).
Definition nan64 (b : Z) : bool := ((b / 2 ^ 52) mod 2 ^ 11 =? 2047) && negb (b mod 2 ^ 52 =? 0).
Fixpoint no_nan (v : pyval) : bool :=
  match v with
  | PF32 b => negb (nan32 b)
  | PF64 b => negb (nan64 b)
  | PPair a b => no_nan a && no_nan b
  | _ => true
  end.
Fixpoint rval_no_nan (r : rval) : bool :=
  match r with
  | RConst _ v | RClass v => no_nan v
  | REnum a b => no_nan a && no_nan b
  | RAnno t l => no_nan t && forallb (fun e => rval_no_nan (snd e)) l
  | RArr l => forallb rval_no_nan l
  end.

(** The meaning of an annotation written in a class file with constant pool [l];
    [None] if an index has no constant. *)
Definition jconst_at (l : list jconst) (i : Z) : option pyval :=
  match jat l i with Some c => jresolve l c | None => None end.
Fixpoint all_some {A} (l : list (option A)) : option (list A) :=
  match l with
  | [] => Some []
  | Some a :: l' => match all_some l' with Some r => Some (a :: r) | None => None end
  | None :: _ => None
  end.
Fixpoint jmeaning (l : list jconst) (v : jval) : option rval :=
  match v with
  | VConst tag i => option_map (RConst tag) (jconst_at l i)
  | VEnum t n =>
      match jconst_at l t, jconst_at l n with Some a, Some b => Some (REnum a b) | _, _ => None end
  | VClass i => option_map RClass (jconst_at l i)
  | VAnno t es =>
      match jconst_at l t,
            all_some (map (fun e => option_map (fun r => (elem_name l (fst e), r)) (jmeaning l (snd e))) es) with
      | Some a, Some rs => Some (RAnno a rs)
      | _, _ => None
      end
  | VArr vs => option_map RArr (all_some (map (jmeaning l) vs))
  end.

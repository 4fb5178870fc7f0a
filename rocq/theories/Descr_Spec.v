(** Specification of JVM types and their descriptors (JVMS 4.3), of class file
    versions, and of line tables, independently of the model. *)
From Verif Require Import Base Opcodes_Model.
From Coq Require Import Sorting.Sorted.

(** Field types: a primitive type, a class type, an array type. *)
Inductive jprim := PByte | PChar | PDouble | PFloat | PInt_ | PLong | PShort | PBoolean.
Inductive jtype := TPrim (p : jprim) | TObj (name : str) | TArr (t : jtype).

Definition prim_code (p : jprim) : Z :=
  match p with
  | PByte => 66 | PChar => 67 | PDouble => 68 | PFloat => 70
  | PInt_ => 73 | PLong => 74 | PShort => 83 | PBoolean => 90
  end.
Fixpoint desc (t : jtype) : str :=
  match t with
  | TPrim p => [prim_code p]
  | TObj n => 76 :: n ++ [59]
  | TArr t => 91 :: desc t
  end.
(** [None] is void *)
Definition ret_desc (r : option jtype) : str := match r with Some t => desc t | None => [86] end.
Definition method_desc (args : list jtype) (r : option jtype) : str :=
  40 :: concat (map desc args) ++ 41 :: ret_desc r.

(** Class names (JVMS 4.2.1): not empty, without '.', ';' and '['. *)
Definition name_char (c : Z) : bool := negb ((c =? 46) || (c =? 59) || (c =? 91)).
Definition class_name (n : str) : bool :=
  match n with [] => false | _ => forallb name_char n end.
Fixpoint jtype_ok (t : jtype) : bool :=
  match t with TPrim _ => true | TObj n => class_name n | TArr t => jtype_ok t end.
Definition ret_ok (r : option jtype) : bool := match r with Some t => jtype_ok t | None => true end.
(** no class name has a ')' *)
Fixpoint no_paren (t : jtype) : bool :=
  match t with TPrim _ => true | TObj n => forallb (fun c => negb (c =? 41)) n | TArr t => no_paren t end.

(** How a user reads a type. *)
Definition prim_name (p : jprim) : str :=
  match p with
  | PByte => lit "byte" | PChar => lit "char" | PDouble => lit "double" | PFloat => lit "float"
  | PInt_ => lit "int" | PLong => lit "long" | PShort => lit "short" | PBoolean => lit "boolean"
  end.
Fixpoint elem (t : jtype) : jtype := match t with TArr t => elem t | _ => t end.
Fixpoint dims (t : jtype) : nat := match t with TArr t => S (dims t) | _ => 0 end.
Definition elem_name (t : jtype) : str :=
  match t with
  | TPrim p => prim_name p
  | TObj n => map (fun c => if c =? 47 then 46 else c) n
  | TArr _ => []
  end.
Definition type_name (t : jtype) : str := elem_name (elem t) ++ concat (repeat (lit "[]") (dims t)).
Definition ret_name (r : option jtype) : str := match r with Some t => type_name t | None => lit "void" end.

(** A class whose name is a Java keyword for a primitive type. *)
Definition all_prims := [PByte; PChar; PDouble; PFloat; PInt_; PLong; PShort; PBoolean].
Definition keyword_name (n : str) : bool := existsb (fun p => seqb n (prim_name p)) all_prims.
Fixpoint no_keyword (t : jtype) : bool :=
  match t with TPrim _ => true | TObj n => negb (keyword_name n) | TArr t => no_keyword t end.

(** ** Line tables *)
Definition increasing (t : list (Z * Z)) : Prop := StronglySorted (fun a b => fst a < fst b) t.

(** The line covering an offset: that of the last entry starting at or before it. *)
Definition covering (t : list (Z * Z)) (o line : Z) : Prop :=
  (exists pre s post, t = pre ++ (s, line) :: post /\ s <= o /\ Forall (fun e => o < fst e) post).

(** Groups of consecutive instructions by line. *)
Record grouping (line : insn -> Z) (first : Z) (dis : list insn) (gs : list (Z * Z * list insn)) : Prop := {
  g_all : concat (map snd gs) = dis;
  g_nonempty : Forall (fun g => snd g <> []) gs;
  g_line : Forall (fun g => Forall (fun i => line i = fst (fst g)) (snd g)) gs;
  g_rel : Forall (fun g => snd (fst g) = fst (fst g) - first) gs;
  g_adjacent : forall pre g h post, gs = pre ++ g :: h :: post -> fst (fst g) <> fst (fst h) }.

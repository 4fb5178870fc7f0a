(** What it means for two classes to be the same in every respect classdiff is
    documented to compare; independent of the comparison algorithms.  The
    accessors named here are the public API of JavaClassInfo, JavaMemberInfo and
    JavaCodeInfo. *)
From Verif Require Import Base Pack_Model ConstPool_Model ConstPool_Spec Opcodes_Model Opcodes_Spec ClassFile_Model
  Descr_Model Anno_Model Anno_Spec Change_Model Classdiff_Model.
From Coq Require Import Permutation.

(** Equal in Python. *)
Definition pyeq (v w : pyval) : Prop := py_eq v w = true.

(** Both sides can be read, and what is read is related. *)
Definition agree {A} (R : A -> A -> Prop) (l r : res A) : Prop := exists a b, l = Ok a /\ r = Ok b /\ R a b.

Inductive opt_rel {A} (R : A -> A -> Prop) : option A -> option A -> Prop :=
| opt_none : opt_rel R None None
| opt_some a b : R a b -> opt_rel R (Some a) (Some b).

(** The same set of values. *)
Definition same_set (l r : list pyval) : Prop :=
  (forall x, In x l -> exists y, In y r /\ pyeq x y) /\ (forall y, In y r -> exists x, In x l /\ pyeq y x).

(** Opcodes whose first operand is a constant pool index, by the JVM specification... *)
Definition jvm_resolved (c : Z) : bool := match jvm_const c with Some b => b | None => false end.
(** ... and without multianewarray (197), see C63_multianewarray_refuted. *)
Definition tool_resolved (c : Z) : bool := negb (c =? 197) && jvm_resolved c.

(** The same instruction: same place, same opcode, same operands, where constant
    pool operands ([resolved]) are compared by the constants they denote. *)
Definition same_insn (resolved : Z -> bool) (lp rp : pool) (a b : insn) : Prop :=
  i_off a = i_off b /\ i_code a = i_code b /\
  if resolved (i_code a)
  then exists i j rest v w, i_args a = AInts (i :: rest) /\ i_args b = AInts (j :: rest) /\
         derefs lp i v /\ derefs rp j w /\ pyeq v w
  else i_args a = i_args b.
Definition same_body (resolved : Z -> bool) (lp rp : pool) (l r : bytes) : Prop :=
  length l = length r /\
  exists dl dr, disassemble l = (dl, None) /\ disassemble r = (dr, None) /\ Forall2 (same_insn resolved lp rp) dl dr.

(** The class caught by an exception handler: none for "any". *)
Inductive catches (p : pool) (e : exinfo) : option pyval -> Prop :=
| catches_any : ex_type_ref e = 0 -> catches p e None
| catches_type v : ex_type_ref e <> 0 -> derefs p (ex_type_ref e) v -> catches p e (Some v).
Definition same_handler (lp rp : pool) (a b : exinfo) : Prop :=
  ex_start a = ex_start b /\ ex_end a = ex_end b /\ ex_handler a = ex_handler b /\
  exists s t, catches lp a s /\ catches rp b t /\ opt_rel pyeq s t.

Definition same_code (resolved : Z -> bool) (lp rp : pool) (l r : code) : Prop :=
  agree eq (get_linenumbertable l) (get_linenumbertable r) /\
  k_max_stack l = k_max_stack r /\ k_max_locals l = k_max_locals r /\
  Forall2 (same_handler lp rp) (k_exceptions l) (k_exceptions r) /\
  same_body resolved lp rp (k_code l) (k_code r).

Definition same_annos (lp rp : pool) (la ra : attrs) : Prop :=
  agree (Forall2 (fun a b => annotation_eq lp rp a b = Ok true)) (annotations_of lp la A_vis) (annotations_of rp ra A_vis) /\
  agree (Forall2 (fun a b => annotation_eq lp rp a b = Ok true)) (annotations_of lp la A_invis) (annotations_of rp ra A_invis).

Section Same.
Variable fmt : pyval -> str.

Definition same_field (lp rp : pool) (l r : member) : Prop :=
  agree pyeq (m_name lp l) (m_name rp r) /\
  agree pyeq (m_descriptor lp l) (m_descriptor rp r) /\
  agree (opt_rel pyeq) (get_signature lp (m_attrs l)) (get_signature rp (m_attrs r)) /\
  same_annos lp rp (m_attrs l) (m_attrs r) /\
  m_flags l = m_flags r /\
  agree (opt_rel pyeq) (deref_constantvalue lp l) (deref_constantvalue rp r) /\
  is_deprecated (m_attrs l) = is_deprecated (m_attrs r).

Definition same_method (resolved : Z -> bool) (lp rp : pool) (l r : member) : Prop :=
  agree pyeq (m_name lp l) (m_name rp r) /\
  agree eq (m_type fmt lp l) (m_type fmt rp r) /\
  agree eq (m_arg_types fmt lp l) (m_arg_types fmt rp r) /\
  agree (opt_rel pyeq) (get_signature lp (m_attrs l)) (get_signature rp (m_attrs r)) /\
  same_annos lp rp (m_attrs l) (m_attrs r) /\
  m_flags l = m_flags r /\
  agree (Forall2 pyeq) (get_exceptions lp l) (get_exceptions rp r) /\
  is_deprecated (m_attrs l) = is_deprecated (m_attrs r) /\
  agree (opt_rel (same_code resolved lp rp)) (get_code lp l) (get_code rp r).

(** Member identities, in order. *)
Definition idents (p : pool) (ms : list member) (ks : list pyval) : Prop :=
  Forall2 (fun m k => get_identifier fmt p m = Ok k) ms ks.
Definition distinct_ids (p : pool) (ms : list member) : Prop :=
  exists ks, idents p ms ks /\ ForallOrdPairs (fun a b => ~ pyeq a b) ks.
Definition same_identity (lp rp : pool) (l r : member) : Prop :=
  agree pyeq (get_identifier fmt lp l) (get_identifier fmt rp r).

(** The members of two classes correspond one to one. *)
Definition same_members (M : member -> member -> Prop) (lp rp : pool) (ls rs : list member) : Prop :=
  exists ls', Permutation ls ls' /\ Forall2 (fun l r => same_identity lp rp l r /\ M l r) ls' rs.

Definition same_header (l r : classinfo) : Prop :=
  agree pyeq (get_this l) (get_this r) /\
  c_version l = c_version r /\
  agree pyeq (get_super l) (get_super r) /\
  agree same_set (get_interfaces l) (get_interfaces r) /\
  c_flags l = c_flags r /\
  is_deprecated (c_attrs l) = is_deprecated (c_attrs r) /\
  agree (opt_rel pyeq) (get_signature (c_pool l) (c_attrs l)) (get_signature (c_pool r) (c_attrs r)).

(** Everything but the layout of the constant pool. *)
Definition same_class (resolved : Z -> bool) (l r : classinfo) : Prop :=
  same_header l r /\
  same_annos (c_pool l) (c_pool r) (c_attrs l) (c_attrs r) /\
  same_members (same_field (c_pool l) (c_pool r)) (c_pool l) (c_pool r) (c_fields l) (c_fields r) /\
  same_members (same_method resolved (c_pool l) (c_pool r)) (c_pool l) (c_pool r) (c_methods l) (c_methods r).
End Same.

(** The same constant pool, entry by entry; floating point entries are compared
    by value. *)
Definition same_entry (a b : const) : Prop :=
  match a with
  | KFloat x => exists y, b = KFloat y /\ pyeq (PF32 x) (PF32 y)
  | KDouble x => exists y, b = KDouble y /\ pyeq (PF64 x) (PF64 y)
  | _ => a = b
  end.
Definition same_pool (l r : pool) : Prop := Forall2 same_entry l r.

(** No constant of the pool is a NaN. *)
Definition pool_no_nan (p : pool) : bool :=
  forallb (fun c => match c with KFloat b => negb (nan32 b) | KDouble b => negb (nan64 b) | _ => true end) p.

(** ** Members of events *)
Definition lefts (ev : list mevent) : list member :=
  flat_map (fun e => match e with MAdded _ => [] | MRemoved l => [l] | MChanged l _ => [l] end) ev.
Definition rights (ev : list mevent) : list member :=
  flat_map (fun e => match e with MAdded r => [r] | MRemoved _ => [] | MChanged _ r => [r] end) ev.
(** The members of a class without those followed by another of the same identity. *)
Fixpoint survivors (kms : list (pyval * member)) : list member :=
  match kms with
  | [] => []
  | (k, m) :: rest => if existsb (fun km => py_eq k (fst km)) rest then survivors rest else m :: survivors rest
  end.

(** ** Sameness up to what the options say to ignore *)

(** Versions as (major, minor), ordered. *)
Definition older (v w : Z * Z) : Prop := fst v < fst w \/ fst v = fst w /\ snd v < snd w.
Definition version_ok (o : options) (v w : Z * Z) : Prop :=
  v = w \/ ignore_version_up o = true /\ older v w \/ ignore_version_down o = true /\ older w v.
Definition deprecation_ok (o : options) (l r : attrs) : Prop :=
  is_deprecated l = is_deprecated r \/ ignore_deprecated o = true.
(** Line numbers relative to the first entry of the table. *)
Definition relative (t : list (Z * Z)) : list (Z * Z) :=
  match t with [] => [] | (_, first) :: _ => map (fun e => (fst e, snd e - first)) t end.
Definition lines_ok (o : options) (l r : list (Z * Z)) : Prop :=
  (l = r \/ ignore_absolute_lines o = true) /\ (relative l = relative r \/ ignore_relative_lines o = true).
Definition code_ok (o : options) (resolved : Z -> bool) (lp rp : pool) (l r : code) : Prop :=
  agree (lines_ok o) (get_linenumbertable l) (get_linenumbertable r) /\
  k_max_stack l = k_max_stack r /\ k_max_locals l = k_max_locals r /\
  Forall2 (same_handler lp rp) (k_exceptions l) (k_exceptions r) /\
  same_body resolved lp rp (k_code l) (k_code r).
(** Every entry is of a kind that can be listed: all but Dynamic. *)
Definition listable (p : pool) : Prop :=
  Forall (fun c => match c with
                   | KRef t _ => In t [CONST_Class; CONST_String; CONST_MethodType; CONST_Module; CONST_Package]
                   | KRef2 t _ _ => In t [CONST_Fieldref; CONST_Methodref; CONST_InterfaceMethodref; CONST_NameAndType; CONST_ModuleId; CONST_InvokeDynamic]
                   | _ => True
                   end) (tl p).
Definition pool_ok (o : options) (l r : pool) : Prop :=
  same_pool l r \/ ignore_pool o = true /\ listable l /\ listable r.

Section Ok.
Variable fmt : pyval -> str.
Definition fld_ok (o : options) (lp rp : pool) (l r : member) : Prop :=
  agree pyeq (m_name lp l) (m_name rp r) /\
  agree pyeq (m_descriptor lp l) (m_descriptor rp r) /\
  agree (opt_rel pyeq) (get_signature lp (m_attrs l)) (get_signature rp (m_attrs r)) /\
  same_annos lp rp (m_attrs l) (m_attrs r) /\
  m_flags l = m_flags r /\
  agree (opt_rel pyeq) (deref_constantvalue lp l) (deref_constantvalue rp r) /\
  deprecation_ok o (m_attrs l) (m_attrs r).
Definition mth_ok (o : options) (resolved : Z -> bool) (lp rp : pool) (l r : member) : Prop :=
  agree pyeq (m_name lp l) (m_name rp r) /\
  agree eq (m_type fmt lp l) (m_type fmt rp r) /\
  agree eq (m_arg_types fmt lp l) (m_arg_types fmt rp r) /\
  agree (opt_rel pyeq) (get_signature lp (m_attrs l)) (get_signature rp (m_attrs r)) /\
  same_annos lp rp (m_attrs l) (m_attrs r) /\
  m_flags l = m_flags r /\
  agree (Forall2 pyeq) (get_exceptions lp l) (get_exceptions rp r) /\
  deprecation_ok o (m_attrs l) (m_attrs r) /\
  agree (opt_rel (code_ok o resolved lp rp)) (get_code lp l) (get_code rp r).
Definition header_ok (o : options) (l r : classinfo) : Prop :=
  agree pyeq (get_this l) (get_this r) /\
  version_ok o (c_version l) (c_version r) /\
  agree pyeq (get_super l) (get_super r) /\
  agree same_set (get_interfaces l) (get_interfaces r) /\
  c_flags l = c_flags r /\
  deprecation_ok o (c_attrs l) (c_attrs r) /\
  agree (opt_rel pyeq) (get_signature (c_pool l) (c_attrs l)) (get_signature (c_pool r) (c_attrs r)).
Definition class_ok (o : options) (resolved : Z -> bool) (l r : classinfo) : Prop :=
  header_ok o l r /\
  same_annos (c_pool l) (c_pool r) (c_attrs l) (c_attrs r) /\
  pool_ok o (c_pool l) (c_pool r) /\
  same_members fmt (fld_ok o (c_pool l) (c_pool r)) (c_pool l) (c_pool r) (c_fields l) (c_fields r) /\
  same_members fmt (mth_ok o resolved (c_pool l) (c_pool r)) (c_pool l) (c_pool r) (c_methods l) (c_methods r).
End Ok.

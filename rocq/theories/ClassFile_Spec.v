(** Specification of class files, written from the class file format (JVMS 4.1,
    4.5, 4.6, 4.7), independently of the parser. *)
From Verif Require Import Base Pack_Model Pack_Spec ConstPool_Model ConstPool_Spec ClassFile_Model.

Record jattr := mkjattr { ja_name : Z; ja_data : bytes }.
Record jmember := mkjmember { jm_flags : Z; jm_name : Z; jm_desc : Z; jm_attrs : list jattr }.
Record jclassfile := mkjclass {
  jc_minor : Z; jc_major : Z; jc_pool : list jconst;
  jc_flags : Z; jc_this : Z; jc_super : Z; jc_interfaces : list Z;
  jc_fields : list jmember; jc_methods : list jmember; jc_attrs : list jattr }.
Record jcode := mkjcode {
  jk_stack : Z; jk_locals : Z; jk_code : bytes;
  jk_handlers : list (Z * Z * Z * Z); jk_attrs : list jattr }.

Definition e4 (v : Z) : bytes := enc_field cI v.
Definition count16 {A} (l : list A) : bytes := e2 (Z.of_nat (length l)).
Definition short_list {A} (l : list A) : bool := Z.of_nat (length l) <? 65536.

Definition enc_attr (a : jattr) : bytes :=
  e2 (ja_name a) ++ e4 (Z.of_nat (length (ja_data a))) ++ ja_data a.
Definition enc_attrs (l : list jattr) : bytes := count16 l ++ concat (map enc_attr l).
Definition enc_member (m : jmember) : bytes :=
  e2 (jm_flags m) ++ e2 (jm_name m) ++ e2 (jm_desc m) ++ enc_attrs (jm_attrs m).
Definition enc_members (l : list jmember) : bytes := count16 l ++ concat (map enc_member l).
Definition enc_class_body (c : jclassfile) : bytes :=
  e2 (jc_minor c) ++ e2 (jc_major c) ++ enc_pool (jc_pool c) ++
  e2 (jc_flags c) ++ e2 (jc_this c) ++ e2 (jc_super c) ++
  count16 (jc_interfaces c) ++ concat (map e2 (jc_interfaces c)) ++
  enc_members (jc_fields c) ++ enc_members (jc_methods c) ++ enc_attrs (jc_attrs c).
Definition enc_class (c : jclassfile) : bytes := [202; 254; 186; 190] ++ enc_class_body c.
Definition enc_handler (h : Z * Z * Z * Z) : bytes :=
  let '(a, b, c, d) := h in e2 a ++ e2 b ++ e2 c ++ e2 d.
Definition enc_code (k : jcode) : bytes :=
  e2 (jk_stack k) ++ e2 (jk_locals k) ++ e4 (Z.of_nat (length (jk_code k))) ++ jk_code k ++
  count16 (jk_handlers k) ++ concat (map enc_handler (jk_handlers k)) ++ enc_attrs (jk_attrs k).

(** Well-formedness: values in range; attribute names are Utf8 constants. *)
Definition jattr_ok (l : list jconst) (a : jattr) : bool :=
  u2 (ja_name a) && (Z.of_nat (length (ja_data a)) <? 2 ^ 32) &&
  match jutf8_at l (ja_name a) with Some _ => true | None => false end.
Definition jattrs_ok l (al : list jattr) : bool := short_list al && forallb (jattr_ok l) al.
Definition jmember_ok l (m : jmember) : bool :=
  u2 (jm_flags m) && u2 (jm_name m) && u2 (jm_desc m) && jattrs_ok l (jm_attrs m).
Definition jmembers_ok l (ml : list jmember) : bool := short_list ml && forallb (jmember_ok l) ml.
Definition jclassfile_ok (c : jclassfile) : bool :=
  u2 (jc_minor c) && u2 (jc_major c) && jpool_ok (jc_pool c) &&
  u2 (jc_flags c) && u2 (jc_this c) && u2 (jc_super c) &&
  short_list (jc_interfaces c) && forallb u2 (jc_interfaces c) &&
  jmembers_ok (jc_pool c) (jc_fields c) && jmembers_ok (jc_pool c) (jc_methods c) &&
  jattrs_ok (jc_pool c) (jc_attrs c).
Definition handler_ok (h : Z * Z * Z * Z) : bool :=
  let '(a, b, c, d) := h in u2 a && u2 b && u2 c && u2 d.
Definition jcode_ok l (k : jcode) : bool :=
  u2 (jk_stack k) && u2 (jk_locals k) && (Z.of_nat (length (jk_code k)) <? 2 ^ 32) &&
  short_list (jk_handlers k) && forallb handler_ok (jk_handlers k) && jattrs_ok l (jk_attrs k).

(** The attribute a name denotes: the last one of that name. *)
Fixpoint last_named (l : list jconst) (al : list jattr) (n : str) : option bytes :=
  match al with
  | [] => None
  | a :: al' =>
      match last_named l al' n with
      | Some b => Some b
      | None => match jutf8_at l (ja_name a) with
                | Some m => if seqb n m then Some (ja_data a) else None
                | None => None
                end
      end
  end.

Definition names_distinct l (al : list jattr) : Prop :=
  NoDup (map (fun a => jutf8_at l (ja_name a)) al).

(** An attribute table shows the last attribute of each name, and when names are
    distinct it lists them all in order. *)
Definition attrs_show l (al : list jattr) (d : attrs) : Prop :=
  (forall n, get_attribute d n = last_named l al n) /\
  (names_distinct l al ->
   map Some (map fst d) = map (fun a => option_map PStr (jutf8_at l (ja_name a))) al /\
   map snd d = map ja_data al).

Definition member_shows l (is_method : bool) (m : jmember) (r : member) : Prop :=
  m_flags r = jm_flags m /\ m_name_ref r = jm_name m /\ m_desc_ref r = jm_desc m /\
  m_is_method r = is_method /\ attrs_show l (jm_attrs m) (m_attrs r).

Definition class_shows (c : jclassfile) (r : classinfo) : Prop :=
  c_version r = (jc_major c, jc_minor c) /\
  pool_shows (jc_pool c) (c_pool r) /\
  c_flags r = jc_flags c /\ c_this_ref r = jc_this c /\ c_super_ref r = jc_super c /\
  c_interfaces r = jc_interfaces c /\
  Forall2 (member_shows (jc_pool c) false) (jc_fields c) (c_fields r) /\
  Forall2 (member_shows (jc_pool c) true) (jc_methods c) (c_methods r) /\
  attrs_show (jc_pool c) (jc_attrs c) (c_attrs r).

Definition code_shows l (k : jcode) (r : code) : Prop :=
  k_max_stack r = jk_stack k /\ k_max_locals r = jk_locals k /\ k_code r = jk_code k /\
  map (fun e => (ex_start e, ex_end e, ex_handler e, ex_type_ref e)) (k_exceptions r) = jk_handlers k /\
  attrs_show l (jk_attrs k) (k_attrs r).

(** Encodings of attribute bodies (JVMS 4.7.2, 4.7.5, 4.7.6, 4.7.9, 4.7.10,
    4.7.12 - 4.7.14). *)
Definition enc_index_attr (i : Z) : bytes := e2 i.
Definition enc_exceptions (l : list Z) : bytes := count16 l ++ concat (map e2 l).
Definition enc_quads (l : list (Z * Z * Z * Z)) : bytes := count16 l ++ concat (map enc_handler l).
Definition pair_ok (x : Z * Z) : bool := u2 (fst x) && u2 (snd x).
Definition enc_pairs (l : list (Z * Z)) : bytes :=
  count16 l ++ concat (map (fun x => e2 (fst x) ++ e2 (snd x)) l).
Definition row_ok (r : list Z) : bool := (length r =? 5)%nat && forallb u2 r.
Definition enc_rows (l : list (list Z)) : bytes :=
  count16 l ++ concat (map (fun r => concat (map e2 r)) l).
(** Element value of an AnnotationDefault attribute (JVMS 4.7.22) holding one
    constant: a tag byte and an index. *)
Definition enc_default_const (tag idx : Z) : bytes := tag :: e2 idx.

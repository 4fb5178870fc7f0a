(** Specification of the JSON documents of classinfo, in terms of class files,
    independently of the model. *)
From Verif Require Import Base ConstPool_Spec ClassFile_Spec Descr_Spec Info_Spec Print_Model Print_Spec Verbose_Spec Cjson_Model.

Section Doc.
Variable reprs : str -> str.
Variable ffmt32 ffmt64 : Z -> str.

(** A constant: its kind and its value; the value of an int and the index of a
    module or package are numbers, all others are texts as -p lists them *)
Definition const_value (k : jconst) : data :=
  match k with
  | JInteger z => DNumber z
  | JModule i => DNumber i
  | JPackage i => DNumber i
  | _ => DText (snd (const_text reprs ffmt32 ffmt64 k))
  end.
Definition const_kind (k : jconst) : data := DText (fst (const_text reprs ffmt32 ffmt64 k)).
(** The pool: [index, kind, value] of each constant *)
Fixpoint pool_data (i : Z) (l : list jconst) : list data :=
  match l with
  | [] => []
  | k :: l' => DSeq [DNumber i; const_kind k; const_value k] :: pool_data (i + const_width k) l'
  end.

(** An entry that is there only if the text is there and not empty *)
Definition maybe_text (key : String.string) (s : option str) : list (str * data) :=
  match s with Some ((_ :: _) as s) => [(lit key, DText s)] | _ => [] end.
Definition entry_if (b : bool) (key : String.string) (v : data) : list (str * data) := if b then [(lit key, v)] else [].
Definition text_or_null (s : option str) : data := match s with Some s => DText s | None => DNull end.
Definition all_texts (l : list str) : data := DSeq (map DText l).

(** The oldest Java release for a version, if known *)
Definition platform_data (major minor : Z) : data :=
  if (major =? 45) || ((46 <=? major) && (major <=? 52)) then DText (platform_text major minor) else DNull.

(** The superclass; java.lang.Object has none *)
Definition extends (c : jclassfile) (s : str) : Prop :=
  (jc_super c = 0 /\ s = []) \/ (jclass_at (jc_pool c) (jc_super c) = Some s).

(** The document: sorted by key.  [ps], [rs]: symbols provided and required; [fs],
    [ms]: the members shown *)
Definition class_document (w : view) (p r : bool) (c : jclassfile) (this super : str) (ifs : list str) (src sg em : option str)
  (ps rs : list str) (fs ms : list data) : list (str * data) :=
  entry_if p "class_provides" (all_texts ps) ++
  entry_if r "class_requires" (all_texts rs) ++
  entry_if (w_pool w) "constants_pool" (DSeq (pool_data 1 (jc_pool c))) ++
  maybe_text "enclosing_method" em ++
  [(lit "extends", DText (dotted super)); (lit "fields", DSeq fs); (lit "implements", all_texts (map dotted ifs));
   (lit "methods", DSeq ms); (lit "name", DText (dotted this)); (lit "platform", platform_data (jc_major c) (jc_minor c))] ++
  maybe_text "signature" sg ++
  [(lit "source_file", text_or_null src); (lit "version", DSeq [DNumber (jc_major c); DNumber (jc_minor c)])].

(** A member: name, type, words of its flags, arguments (of a method), signature,
    whether it is deprecated, constant value (of a field) *)
Inductive constant_data (c : jclassfile) (m : jmember) : list (str * data) -> Prop :=
| cd_none : last_named (jc_pool c) (jm_attrs m) (lit "ConstantValue") = None -> constant_data c m []
| cd_some i k : u2 i = true -> last_named (jc_pool c) (jm_attrs m) (lit "ConstantValue") = Some (e2 i) ->
    jat (jc_pool c) i = Some k -> no_dynamic [k] = true ->
    constant_data c m [(lit "constant_value", DSeq [const_kind k; const_value k])].
Inductive field_data (c : jclassfile) (m : jmember) : list (str * data) -> Prop :=
| fd_intro n t sg cv : declares c m n (SField t) -> only_bits field_bits (jm_flags m) ->
    names_text (jc_pool c) (jm_attrs m) "Signature" sg -> constant_data c m cv ->
    field_data c m ([(lit "name", DText n); (lit "type", DText (type_name t)); (lit "access_flags", all_texts (keywords field_table (jm_flags m)))] ++
                    maybe_text "signature" sg ++ entry_if (filled (jc_pool c) (jm_attrs m) "Deprecated") "deprecated" DTrue ++ cv).
Inductive method_data (c : jclassfile) (m : jmember) : list (str * data) -> Prop :=
| md_intro n a t sg : declares c m n (SMethod a t) -> only_bits method_bits (jm_flags m) ->
    names_text (jc_pool c) (jm_attrs m) "Signature" sg ->
    method_data c m ([(lit "name", DText n); (lit "type", DText (ret_name t)); (lit "access_flags", all_texts (keywords method_table (jm_flags m)));
                      (lit "arg_types", all_texts (map type_name a))] ++
                     maybe_text "signature" sg ++ entry_if (filled (jc_pool c) (jm_attrs m) "Deprecated") "deprecated" DTrue).
End Doc.

(** [l] lists, each once, in any order, what satisfies [P] *)
Definition lists_some_way (P : str -> Prop) (l : list str) : Prop := NoDup l /\ forall s, In s l <-> P s.
(** No member is to be shown: only the header is asked for, or none is visible *)
Definition no_member (show : Z) (c : jclassfile) : bool :=
  (show =? 0) || forallb (fun m => negb (visible show m)) (jc_fields c ++ jc_methods c).

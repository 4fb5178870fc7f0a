(** Properties C15 - C19, C22: descriptors, pretty types, lines, platforms. *)
From Verif Require Import Base Opcodes_Model Descr_Model Descr_Spec Descr_Proofs.
From Coq Require Import Sorting.Sorted.

(** C15. Splitting a sequence of field descriptors. *)
Theorem C15_fields_split : forall ts : list jtype,
  forallb jtype_ok ts = true -> typeseq (concat (map desc ts)) = Ok (map desc ts).
Proof. exact typeseq_fields. Qed.
Print Assumptions C15_fields_split.

Theorem C15_field : forall t : jtype, jtype_ok t = true ->
  get_arg_type_descriptors false (desc t) = Ok [] /\ get_type_descriptor (desc t) = Ok (desc t).
Proof. exact field_split. Qed.
Print Assumptions C15_field.

(** Methods, when no class among the arguments has a ')' in its name. *)
Theorem C15_method_partial : forall (args : list jtype) (r : option jtype),
  forallb jtype_ok args = true -> forallb no_paren args = true -> ret_ok r = true ->
  get_arg_type_descriptors true (method_desc args r) = Ok (map desc args) /\
  get_type_descriptor (method_desc args r) = Ok (ret_desc r).
Proof. exact method_split. Qed.
Print Assumptions C15_method_partial.

Definition ex_args : list jtype :=
  [TArr (TArr (TObj (lit "java/lang/String"))); TPrim PInt_; TObj (lit "a$b"); TArr (TPrim PLong)].
Example C15_ex : forallb jtype_ok ex_args = true /\ forallb no_paren ex_args = true /\
  method_desc ex_args None = lit "([[Ljava/lang/String;ILa$b;[J)V".
Proof. vm_compute. auto. Qed.

(** A class name may contain ')' (JVMS 4.2.1 excludes only . ; [ /): such a method
    is split wrongly. *)
Theorem C15_method_refuted : exists (args : list jtype) (r : option jtype),
  forallb jtype_ok args = true /\ ret_ok r = true /\
  get_arg_type_descriptors true (method_desc args r) <> Ok (map desc args).
Proof. exists [TObj (lit "a)b"); TPrim PInt_], None. vm_compute. repeat split. discriminate. Qed.
Print Assumptions C15_method_refuted.

(** C16. Splitting any string ends (no fuel is ever exhausted): with pieces that
    concatenate to the string, except possibly for one dot, or with IndexError or
    Unimplemented. *)
Theorem C16_splitting_terminates : forall s : str,
  match typeseq s with
  | Ok ts => concat ts = s \/ exists a b, s = a ++ 46 :: b /\ concat ts = a ++ b
  | Err e => e = IndexError \/ e = Unimplemented
  end.
Proof. exact typeseq_outcome. Qed.
Print Assumptions C16_splitting_terminates.

Example C16_ex : typeseq (lit "LFR1Xdn") = Err Unimplemented /\ typeseq (lit "[[") = Err IndexError /\
  typeseq (lit "[La;.clone():I") = Ok [lit "[La;"; lit "clone():I"].
Proof. vm_compute. auto. Qed.

(** C17. *)
Theorem C17_pretty : forall t : jtype, pretty_type (desc t) = Ok (type_name t).
Proof. exact pretty_desc. Qed.
Print Assumptions C17_pretty.

Theorem C17_pretty_method : forall (args : list jtype) (r : option jtype),
  forallb jtype_ok args = true -> forallb no_paren args = true -> ret_ok r = true ->
  pretty_arg_types true (method_desc args r) = Ok (map type_name args) /\
  member_pretty_type (method_desc args r) = Ok (ret_name r).
Proof. exact pretty_method. Qed.
Print Assumptions C17_pretty_method.

Example C17_pretty_ex : pretty_arg_types true (method_desc ex_args None) =
  Ok [lit "java.lang.String[][]"; lit "int"; lit "a$b"; lit "long[]"].
Proof. vm_compute. reflexivity. Qed.

(** Two types never render the same, unless a class is named like a primitive type. *)
Theorem C17_injective_partial : forall t u : jtype, jtype_ok t = true -> jtype_ok u = true ->
  no_keyword t = true -> no_keyword u = true -> pretty_type (desc t) = pretty_type (desc u) -> t = u.
Proof.
  exact (fun t u Ht Hu Kt Ku E => type_name_inj t u Ht Hu Kt Ku
    (f_equal (fun r => match r with Ok s => s | Err _ => [] end)
       (eq_trans (eq_sym (pretty_desc t)) (eq_trans E (pretty_desc u))))).
Qed.
Print Assumptions C17_injective_partial.

Theorem C17_injective_refuted : exists t u : jtype,
  jtype_ok t = true /\ jtype_ok u = true /\ t <> u /\ pretty_type (desc t) = pretty_type (desc u).
Proof. exists (TPrim PInt_), (TObj (lit "int")). vm_compute. repeat split. discriminate. Qed.
Print Assumptions C17_injective_refuted.

Example C17_injective_ex : jtype_ok (TArr (TObj (lit "a/b"))) = true /\
  no_keyword (TArr (TObj (lit "a/b"))) = true.
Proof. vm_compute. auto. Qed.

(** C18. *)
Theorem C18_line_lookup : forall (t : list (Z * Z)) (o : Z), increasing t ->
  (Forall (fun e => o < fst e) t /\ get_line_for_offset t o = 0) \/
  (exists line, covering t o line /\ get_line_for_offset t o = line /\
                forall line', covering t o line' -> line' = line).
Proof. exact line_lookup. Qed.
Print Assumptions C18_line_lookup.

(** The relative table has the same offsets, starts at 0, and differs by the first line. *)
Theorem C18_relative : forall (t : list (Z * Z)) (o l : Z) (rest : list (Z * Z)), t = (o, l) :: rest ->
  length (relative_lines t) = length t /\
  map fst (relative_lines t) = map fst t /\
  map (fun e => snd e + l) (relative_lines t) = map snd t /\
  forall x line, covering t x line -> covering (relative_lines t) x (line - l).
Proof. exact relative_spec. Qed.
Print Assumptions C18_relative.

Example C18_ex : increasing [(0, 10); (4, 8); (9, 11)] /\
  get_line_for_offset [(0, 10); (4, 8); (9, 11)] 5 = 8 /\ covering [(0, 10); (4, 8); (9, 11)] 5 8.
Proof.
  split; [|split; [reflexivity|]].
  - repeat constructor.
  - exists [(0, 10)], 4, [(9, 11)]. split; [reflexivity|]. split; [discriminate|]. repeat constructor.
Qed.

(** C19. With a line table, iter_code_by_lines yields the one grouping of the
    disassembly by line; without one, a single group numbered 1. *)
Theorem C19_grouping : forall (t : list (Z * Z)) (bc : bytes),
  match disassemble_all bc with
  | Err e => iter_code_by_lines t bc = Err e
  | Ok dis =>
      match t with
      | [] => iter_code_by_lines t bc = Ok [(1, 1, dis)]
      | (_, first) :: _ =>
          forall gs, iter_code_by_lines t bc = Ok gs <->
            grouping (fun i => get_line_for_offset t (Z.of_nat (i_off i))) first dis gs
      end
  end.
Proof. exact iter_code_spec. Qed.
Print Assumptions C19_grouping.

Example C19_ex : iter_code_by_lines [(0, 10); (2, 8); (4, 10)] [3; 4; 5; 6; 177] =
  Ok [(10, 0, [mkinsn 0 3 (AInts []); mkinsn 1 4 (AInts [])]);
      (8, -2, [mkinsn 2 5 (AInts []); mkinsn 3 6 (AInts [])]);
      (10, 0, [mkinsn 4 177 (AInts [])])].
Proof. vm_compute. reflexivity. Qed.

(** C22. *)
Theorem C22_platform : forall major minor : Z,
  platform_from_version major minor =
    if (0 <=? minor) && (minor <? 65536) then
      if major =? 45 then Some (if minor <? 4 then lit "1.0.2" else lit "1.1")
      else if (46 <=? major) && (major <=? 52) then Some (lit "1." ++ [major - 44 + 48])
      else None
    else None.
Proof. exact platform_spec. Qed.
Print Assumptions C22_platform.

Example C22_ex : platform_from_version 45 3 = Some (lit "1.0.2") /\
  platform_from_version 52 0 = Some (lit "1.8") /\ platform_from_version 53 0 = None.
Proof. vm_compute. auto. Qed.

(** No version falls in the range of two rows of the table. *)
Theorem C22_no_overlap : forall v i j r s,
  nth_error platforms i = Some r -> nth_error platforms j = Some s ->
  pair_le (fst (fst r)) v = true -> pair_le v (snd (fst r)) = true ->
  pair_le (fst (fst s)) v = true -> pair_le v (snd (fst s)) = true -> i = j.
Proof. exact platform_rows_disjoint. Qed.
Print Assumptions C22_no_overlap.

Example C22_no_overlap_ex : nth_error platforms 4 = Some ((48, 0), (48, 65535), lit "1.4") /\
  pair_le (48, 0) (48, 7) = true /\ pair_le (48, 7) (48, 65535) = true.
Proof. vm_compute. auto. Qed.

(** Properties C09 - C14, C61, C62: constant pools, class files, attributes. *)
From Verif Require Import Base Pack_Model Pack_Spec Pack_Proofs ConstPool_Model ConstPool_Spec
  ConstPool_Proofs ConstPool_Deref ClassFile_Model ClassFile_Spec ClassFile_Proofs ClassFile_Names.
From Coq Require Import Sorted.

(** A small class used by the examples: class A extends Object with a long
    constant, a deprecated field x of type J, a method and a source file. *)
Definition ex_pool : list jconst :=
  [ JClass 2; JUtf8 (lit "A"); JClass 4; JUtf8 (lit "java/lang/Object");
    JLong (-1); JUtf8 (lit "x"); JUtf8 (lit "J"); JUtf8 (lit "Deprecated");
    JUtf8 (lit "m"); JUtf8 (lit "()V"); JUtf8 (lit "Code"); JNameAndType 7 8; JFieldref 1 13;
    JMethodHandle 1 14; JUtf8 (lit "SourceFile"); JUtf8 (lit "A.java"); JUtf8 (lit "ConstantValue");
    JUtf8 (lit "Exceptions"); JUtf8 (lit "InnerClasses"); JUtf8 (lit "LineNumberTable");
    JUtf8 (lit "AnnotationDefault"); JUtf8 (lit "Synthetic") ].
Definition ex_code : jcode := mkjcode 1 2 [177] [(0, 1, 0, 3)] [mkjattr 21 (enc_pairs [(0, 10); (1, 11)])].
Definition ex_field : jmember := mkjmember 1 7 8 [mkjattr 9 []; mkjattr 18 (enc_index_attr 5)].
Definition ex_method : jmember :=
  mkjmember 9 10 11 [mkjattr 12 (enc_code ex_code); mkjattr 19 (enc_exceptions [3; 1]);
                     mkjattr 22 (enc_default_const 73 5); mkjattr 23 []].
Definition ex_class : jclassfile :=
  mkjclass 3 45 ex_pool 33 1 3 [1; 3] [ex_field] [ex_method]
    [mkjattr 16 (enc_index_attr 17); mkjattr 9 []; mkjattr 20 (enc_quads [(1, 0, 2, 9)])].
Example ex_class_ok : jclassfile_ok ex_class = true /\ jpool_wf ex_pool = true /\ jcode_ok ex_pool ex_code = true.
Proof. vm_compute. auto. Qed.

(** C09. Parsing an encoded class returns an object showing exactly its content,
    from bytes and from a stream alike, leaving whatever follows unread; also
    when the four magic bytes were read before and passed as a tuple. *)
Theorem C09_class_roundtrip : forall (c : jclassfile) (rest : bytes), jclassfile_ok c = true ->
  (exists r st, run_buf (p_unpack_class MNone) (open_buf (enc_class c ++ rest)) = (Ok r, st) /\
       buf_rest st = rest /\
       run_str (p_unpack_class MNone) (open_stream (enc_class c ++ rest)) = (Ok r, Some rest) /\
       class_shows c r) /\
  (exists r st, run_buf (p_unpack_class (MTuple JAVA_CLASS_MAGIC)) (open_buf (enc_class_body c ++ rest)) = (Ok r, st) /\
       buf_rest st = rest /\
       run_str (p_unpack_class (MTuple JAVA_CLASS_MAGIC)) (open_stream (enc_class_body c ++ rest)) = (Ok r, Some rest) /\
       class_shows c r).
Proof. exact class_roundtrip. Qed.
Print Assumptions C09_class_roundtrip.

Theorem C09_unpack_class : forall (c : jclassfile) (rest : bytes), jclassfile_ok c = true ->
  exists r, unpack_class (enc_class c ++ rest) MNone = Ok r /\
            unpack_class_stream (enc_class c ++ rest) MNone = Ok r /\
            unpack_class (enc_class_body c ++ rest) (MTuple JAVA_CLASS_MAGIC) = Ok r /\
            unpack_class_stream (enc_class_body c ++ rest) (MTuple JAVA_CLASS_MAGIC) = Ok r /\
            class_shows c r.
Proof. exact unpack_class_roundtrip. Qed.
Print Assumptions C09_unpack_class.

(** C09, nested: the Code attribute of a method. *)
Theorem C09_code_roundtrip : forall (l : list jconst) (p : pool) (al : list jattr) (k : jcode) (m : member),
  pool_shows l p -> jcode_ok l k = true -> attrs_show l al (m_attrs m) ->
  last_named l al (lit "Code") = Some (enc_code k) ->
  exists r, get_code p m = Ok (Some r) /\ code_shows l k r.
Proof. exact get_code_roundtrip. Qed.
Print Assumptions C09_code_roundtrip.

Theorem C09_no_code : forall (l : list jconst) (p : pool) (al : list jattr) (m : member),
  attrs_show l al (m_attrs m) -> last_named l al (lit "Code") = None -> get_code p m = Ok None.
Proof. exact no_code. Qed.
Print Assumptions C09_no_code.

Example C09_ex : exists r, unpack_class (enc_class ex_class ++ [1; 2]) MNone = Ok r /\
  c_version r = (45, 3) /\ get_this r = Ok (PStr (lit "A")) /\
  match c_methods r with
  | [m] => exists k, get_code (c_pool r) m = Ok (Some k) /\ k_code k = [177] /\
           get_linenumbertable k = Ok [(0, 10); (1, 11)]
  | _ => False
  end.
Proof.
  eexists. split; [vm_compute; reflexivity|]. split; [reflexivity|]. split; [reflexivity|].
  cbn [c_methods]. eexists. split; [vm_compute; reflexivity|]. split; reflexivity.
Qed.

(** C10. Every strict prefix of an encoded class is rejected, likewise of an
    encoded Code attribute; more generally no cut into what any successful parse
    consumed is accepted. *)
Theorem C10_truncated_class : forall (c : jclassfile) (n : nat), jclassfile_ok c = true ->
  (n < length (enc_class c))%nat ->
  exists w q, unpack_class (firstn n (enc_class c)) MNone = Err (UnpackException w q) /\
              unpack_class_stream (firstn n (enc_class c)) MNone = Err (UnpackException w q).
Proof. exact class_truncated. Qed.
Print Assumptions C10_truncated_class.

Theorem C10_truncated_any : forall (data : bytes) (r : classinfo) (left : bytes) (n : nat),
  run_str (p_unpack_class MNone) (open_stream data) = (Ok r, Some left) ->
  (n + length left < length data)%nat ->
  exists w q, unpack_class (firstn n data) MNone = Err (UnpackException w q) /\
              unpack_class_stream (firstn n data) MNone = Err (UnpackException w q).
Proof. exact parsed_truncated. Qed.
Print Assumptions C10_truncated_any.

Theorem C10_truncated_code : forall (l : list jconst) (p : pool) (k : jcode) (n : nat),
  pool_shows l p -> jcode_ok l k = true -> (n < length (enc_code k))%nat ->
  exists w q, parse_buf (p_code p) (firstn n (enc_code k)) = Err (UnpackException w q).
Proof. exact code_truncated. Qed.
Print Assumptions C10_truncated_code.

Example C10_ex : (100 < length (enc_class ex_class))%nat /\
  unpack_class (firstn 100 (enc_class ex_class)) MNone = Err (UnpackException 1 0).
Proof. vm_compute. split; [repeat constructor|reflexivity]. Qed.

(** C11. *)
Theorem C11_is_class : forall data : bytes,
  is_class data = Ok (seqb (firstn 4 data) [202; 254; 186; 190]) /\
  is_class_stream data = Ok (seqb (firstn 4 data) [202; 254; 186; 190]) /\
  is_class_file data = seqb (firstn 4 data) [202; 254; 186; 190].
Proof. exact is_class_iff. Qed.
Print Assumptions C11_is_class.

Theorem C11_wrong_magic : forall data : bytes,
  (4 <= length data)%nat -> firstn 4 data <> [202; 254; 186; 190] ->
  unpack_class data MNone = Err ClassUnpackException /\
  unpack_class_stream data MNone = Err ClassUnpackException.
Proof. exact wrong_magic. Qed.
Print Assumptions C11_wrong_magic.

Theorem C11_short : forall data : bytes, (length data < 4)%nat ->
  unpack_class data MNone = Err (UnpackException 4 (Z.of_nat (length data))) /\
  unpack_class_stream data MNone = Err (UnpackException 4 (Z.of_nat (length data))).
Proof. exact short_magic. Qed.
Print Assumptions C11_short.

Example C11_ex : is_class (enc_class ex_class) = Ok true /\ is_class [202; 254] = Ok false /\
  unpack_class [80; 75; 3; 4; 0] MNone = Err ClassUnpackException.
Proof. vm_compute. auto. Qed.

(** unpack_class documents that the magic may be passed "as a str or tuple". As
    a tuple only the right one is accepted; a str or bytes object is always
    rejected, even the right one. *)
Theorem C11_given_magic : forall (data : bytes) (l : list Z), l <> [] ->
  (l <> [202; 254; 186; 190] -> unpack_class data (MTuple l) = Err ClassUnpackException) /\
  unpack_class data (MBytes l) = Err ClassUnpackException /\
  unpack_class data (MStr l) = Err ClassUnpackException.
Proof. exact given_magic. Qed.
Print Assumptions C11_given_magic.

Theorem C11_given_magic_refuted : exists (c : jclassfile), jclassfile_ok c = true /\
  unpack_class (enc_class_body c) (MBytes [202; 254; 186; 190]) = Err ClassUnpackException /\
  unpack_class (enc_class_body c) (MStr [202; 254; 186; 190]) = Err ClassUnpackException.
Proof. exists ex_class. vm_compute. auto. Qed.
Print Assumptions C11_given_magic_refuted.

(** C12. *)
Theorem C12_pool_indices : forall (c : jclassfile) (rest : bytes), jclassfile_ok c = true ->
  exists r, unpack_class (enc_class c ++ rest) MNone = Ok r /\
  forall i, 0 <= i -> get_const (c_pool r) i =
    match jat (jc_pool c) i with
    | Some k => Ok (shown_const k)
    | None => if i <? 1 + jslots (jc_pool c) then Ok KNone else Err IndexError
    end.
Proof.
  exact (fun c rest H => match unpack_class_roundtrip c rest H with
    | ex_intro _ r (conj E (conj _ (conj _ (conj _ (conj _ (conj (conj _ HS) _)))))) =>
        ex_intro _ r (conj E HS) end).
Qed.
Print Assumptions C12_pool_indices.

Example C12_ex : jat ex_pool 5 = Some (JLong (-1)) /\ jat ex_pool 6 = None /\
  jat ex_pool 7 = Some (JUtf8 (lit "x")) /\ jat ex_pool 0 = None /\ jslots ex_pool = 23.
Proof. vm_compute. auto. Qed.

(** C13. On any pool and any index, deref_const returns a value exactly when
    the references lead to one, and then that value. *)
Theorem C13_deref_exact : forall (p : pool) (i : Z) (v : pyval),
  deref_const p i = Ok v <-> derefs p i v.
Proof. exact deref_const_iff. Qed.
Print Assumptions C13_deref_exact.

(** The only failures are IndexError, UnknownConstantPoolTag and a recursion
    error, the last only if a cycle of references is reached; and an index from
    which a cycle is reached never yields a value. *)
Theorem C13_failures : forall (p : pool) (i : Z),
  (forall e, deref_const p i = Err e ->
     e = IndexError \/ e = UnknownConstantPoolTag \/ e = RuntimeError) /\
  (deref_const p i = Err RuntimeError -> exists j, reaches p i j /\ on_cycle p j) /\
  (forall j, reaches p i j -> on_cycle p j -> forall v, deref_const p i <> Ok v).
Proof. exact deref_const_fails. Qed.
Print Assumptions C13_failures.

(** On a well-formed pool every entry resolves to the value the class file
    format gives it; other indices raise. *)
Theorem C13_well_formed : forall (l : list jconst) (p : pool) (i : Z) (c : jconst),
  jpool_wf l = true -> pool_shows l p -> jat l i = Some c ->
  exists v, jresolve l c = Some v /\ deref_const p i = Ok v.
Proof. exact deref_wf. Qed.
Print Assumptions C13_well_formed.

Theorem C13_other_indices : forall (l : list jconst) (p : pool) (i : Z),
  pool_shows l p -> 0 <= i -> jat l i = None ->
  deref_const p i = Err IndexError \/ deref_const p i = Err UnknownConstantPoolTag.
Proof. exact deref_not_const. Qed.
Print Assumptions C13_other_indices.

Example C13_ex : jpool_wf ex_pool = true /\ pool_shows ex_pool (KNone :: slots ex_pool) /\
  deref_const (KNone :: slots ex_pool) 15 =
    Ok (PPair (PInt 1) (PPair (PStr (lit "A")) (PPair (PStr (lit "x")) (PStr (lit "J"))))) /\
  deref_const [KNone; KRef 7 2; KRef 8 1] 1 = Err RuntimeError /\
  on_cycle [KNone; KRef 7 2; KRef 8 1] 1.
Proof.
  split; [reflexivity|]. split; [apply pool_shows_parsed|]. split; [reflexivity|]. split; [reflexivity|].
  exists 2. split.
  - split; [discriminate|]. left. now exists 7.
  - econstructor 2; [|constructor]. split; [discriminate|]. left. now exists 8.
Qed.

(** constants() lists, by increasing index, exactly the entries of the pool with
    their tag and resolved value. *)
Theorem C13_constants : forall (l : list jconst) (p : pool), jpool_wf l = true -> pool_shows l p ->
  exists r, constants p = (r, None) /\
    StronglySorted (fun x y => fst (fst x) < fst (fst y)) r /\
    forall i t v, In (i, t, v) r <-> exists c, jat l i = Some c /\ t = hd 0 (enc_const c) /\ jresolve l c = Some v.
Proof. exact constants_wf. Qed.
Print Assumptions C13_constants.

(** On any pool whatever, what it yields before it ends or raises is right, and
    it raises only what dereferencing some entry raises. *)
Theorem C13_constants_any : forall (x0 : const) (p : pool) r e, constants (x0 :: p) = (r, e) ->
  (forall i t v, In (i, t, v) r ->
     0 < i /\ (exists c, get_const (x0 :: p) i = Ok c /\ ctag c = Some t) /\ derefs (x0 :: p) i v) /\
  StronglySorted (fun x y => fst (fst x) < fst (fst y)) r /\
  (e = None -> forall i c t, 0 < i -> get_const (x0 :: p) i = Ok c -> ctag c = Some t ->
     exists v, derefs (x0 :: p) i v /\ In (i, t, v) r) /\
  (forall x, e = Some x -> exists i, 0 < i /\ deref_const (x0 :: p) i = Err x).
Proof. exact constants_any. Qed.
Print Assumptions C13_constants_any.

Example C13_constants_ex :
  nth_error (fst (constants (KNone :: slots ex_pool))) 4 = Some (5, 5, PInt (-1)) /\
  nth_error (fst (constants (KNone :: slots ex_pool))) 5 = Some (7, 1, PStr (lit "x")) /\
  length (fst (constants (KNone :: slots ex_pool))) = 22%nat.
Proof. vm_compute. auto. Qed.

(** The names of a parsed class and of its members are those its constant pool
    gives; a class without superclass (java.lang.Object) shows "". *)
Theorem C09_names : forall (c : jclassfile) (r : classinfo),
  jpool_wf (jc_pool c) = true -> class_shows c r ->
  (forall n, jclass_at (jc_pool c) (jc_this c) = Some n -> get_this r = Ok (PStr n)) /\
  (jc_super c = 0 -> get_super r = Ok (PStr [])) /\
  (forall n, jclass_at (jc_pool c) (jc_super c) = Some n -> get_super r = Ok (PStr n)) /\
  (forall ns, Forall2 (fun i n => jclass_at (jc_pool c) i = Some n) (jc_interfaces c) ns ->
     get_interfaces r = Ok (map PStr ns)) /\
  (forall jm m n, In (jm, m) (combine (jc_fields c ++ jc_methods c) (c_fields r ++ c_methods r)) ->
     jutf8_at (jc_pool c) (jm_name jm) = Some n -> m_name (c_pool r) m = Ok (PStr n)) /\
  (forall jm m n, In (jm, m) (combine (jc_fields c ++ jc_methods c) (c_fields r ++ c_methods r)) ->
     jutf8_at (jc_pool c) (jm_desc jm) = Some n -> m_descriptor (c_pool r) m = Ok (PStr n)).
Proof. exact class_names. Qed.
Print Assumptions C09_names.

Example C09_names_ex : jpool_wf (jc_pool ex_class) = true /\
  jclass_at (jc_pool ex_class) (jc_super ex_class) = Some (lit "java/lang/Object") /\
  Forall2 (fun i n => jclass_at (jc_pool ex_class) i = Some n) (jc_interfaces ex_class) [lit "A"; lit "java/lang/Object"].
Proof. split; [reflexivity|]. split; [reflexivity|]. repeat constructor. Qed.

(** An empty magic argument counts as absent. *)
Theorem C11_magic_absent : forall (data : bytes) (g : pymagic), In g [MTuple []; MBytes []; MStr []] ->
  unpack_class data g = unpack_class data MNone /\ unpack_class_stream data g = unpack_class_stream data MNone.
Proof. exact magic_absent. Qed.
Print Assumptions C11_magic_absent.

Example C11_magic_absent_ex : unpack_class [202; 254; 0; 0; 1] (MTuple []) = Err ClassUnpackException.
Proof. reflexivity. Qed.

(** C14. The attribute counts only when its data is not empty ... *)
Theorem C14_deprecated_partial : forall (l : list jconst) (al : list jattr) (d : attrs),
  attrs_show l al d ->
  (is_deprecated d = true <-> exists x b, last_named l al (lit "Deprecated") = Some (x :: b)).
Proof. exact deprecated_iff. Qed.
Print Assumptions C14_deprecated_partial.

Theorem C14_synthetic_partial : forall (l : list jconst) (al : list jattr) (m : member),
  attrs_show l al (m_attrs m) ->
  (is_synthetic m = true <->
   Z.testbit (m_flags m) 12 = true \/ exists x b, last_named l al (lit "Synthetic") = Some (x :: b)).
Proof. exact synthetic_iff. Qed.
Print Assumptions C14_synthetic_partial.

Example C14_partial_ex : is_deprecated [(PStr (lit "Deprecated"), [0])] = true /\
  is_synthetic (mkmember 4097 0 0 [] true) = true.
Proof. vm_compute. auto. Qed.

(** ... but in a class file it always is (JVMS 4.7.8, 4.7.15): deprecated
    classes, fields and synthetic methods are not seen as such. *)
Theorem C14_markers_refuted : exists (c : jclassfile) (r : classinfo),
  jclassfile_ok c = true /\ unpack_class (enc_class c) MNone = Ok r /\
  In (mkjattr 9 []) (jc_attrs c) /\ jutf8_at (jc_pool c) 9 = Some (lit "Deprecated") /\
  jutf8_at (jc_pool c) 23 = Some (lit "Synthetic") /\
  is_deprecated (c_attrs r) = false /\
  match jc_fields c, c_fields r, jc_methods c, c_methods r with
  | [jf], [f], [jm], [m] => In (mkjattr 9 []) (jm_attrs jf) /\ is_deprecated (m_attrs f) = false /\
                            In (mkjattr 23 []) (jm_attrs jm) /\ is_synthetic m = false
  | _, _, _, _ => False
  end.
Proof.
  exists ex_class. eexists. split; [reflexivity|]. split; [vm_compute; reflexivity|].
  split; [cbn; auto|]. split; [reflexivity|]. split; [reflexivity|]. split; [reflexivity|].
  cbn. repeat split; auto.
Qed.
Print Assumptions C14_markers_refuted.

(** C61. Java strings without supplementary characters decode exactly (NUL included). *)
Theorem C61_strings_bmp_partial : forall s : str,
  forallb bmp_char s = true -> decode_utf8_const (mutf8 s) = s.
Proof. exact decode_mutf8. Qed.
Print Assumptions C61_strings_bmp_partial.

Example C61_strings_ex : forallb bmp_char [0; 65; 233; 8364; 0; 65535] = true.
Proof. reflexivity. Qed.

(** Every supplementary character is silently lost. *)
Theorem C61_supplementary_lost : forall c, 65536 <= c < 1114112 -> decode_utf8_const (mutf8_supp c) = [].
Proof. exact decode_supp. Qed.
Print Assumptions C61_supplementary_lost.

Theorem C61_supplementary_refuted : exists c, 65536 <= c < 1114112 /\
  decode_utf8_const (mutf8_supp c) <> [c].
Proof. exists 128512. split; [split; [discriminate|reflexivity]|]. vm_compute. discriminate. Qed.
Print Assumptions C61_supplementary_refuted.

(** C62. Attributes holding one index. *)
Theorem C62_index_attributes : forall (c : jclassfile) (r : classinfo),
  jclassfile_ok c = true -> class_shows c r -> jpool_wf (jc_pool c) = true ->
  forall i v, u2 i = true -> jat (jc_pool c) i <> None ->
    option_map (jresolve (jc_pool c)) (jat (jc_pool c) i) = Some (Some v) ->
  (last_named (jc_pool c) (jc_attrs c) (lit "SourceFile") = Some (enc_index_attr i) ->
     get_sourcefile r = Ok (Some v)) /\
  (last_named (jc_pool c) (jc_attrs c) (lit "Signature") = Some (enc_index_attr i) ->
     get_signature (c_pool r) (c_attrs r) = Ok (Some v)) /\
  (forall b jm m, member_shows (jc_pool c) b jm m ->
     (last_named (jc_pool c) (jm_attrs jm) (lit "ConstantValue") = Some (enc_index_attr i) ->
        get_constantvalue m = Ok (Some i) /\ deref_constantvalue (c_pool r) m = Ok (Some v)) /\
     (last_named (jc_pool c) (jm_attrs jm) (lit "Signature") = Some (enc_index_attr i) ->
        get_signature (c_pool r) (m_attrs m) = Ok (Some v))).
Proof. exact index_attrs. Qed.
Print Assumptions C62_index_attributes.

Theorem C62_absent : forall (l : list jconst) (al : list jattr) (d : attrs) (n : str) (p : pool),
  attrs_show l al d -> last_named l al n = None ->
  u2_attribute d n = Ok None /\ u2_attribute_deref p d n = Ok None.
Proof. exact absent_attr. Qed.
Print Assumptions C62_absent.

Theorem C62_exceptions : forall (l : list jconst) (p : pool) (al : list jattr) (m : member)
    (is : list Z) (names : list str),
  pool_shows l p -> attrs_show l al (m_attrs m) -> short_list is = true -> forallb u2 is = true ->
  map (jclass_at l) is = map Some names ->
  last_named l al (lit "Exceptions") = Some (enc_exceptions is) ->
  get_exceptions p m = Ok (map PStr names).
Proof. exact exceptions_attr. Qed.
Print Assumptions C62_exceptions.

Theorem C62_innerclasses : forall (c : jclassfile) (r : classinfo) (hs : list (Z * Z * Z * Z)),
  class_shows c r -> short_list hs = true -> forallb handler_ok hs = true ->
  last_named (jc_pool c) (jc_attrs c) (lit "InnerClasses") = Some (enc_quads hs) ->
  exists el, get_innerclasses r = Ok el /\
    map (fun e => (in_inner e, in_outer e, in_name e, in_flags e)) el = hs.
Proof. exact innerclasses_attr. Qed.
Print Assumptions C62_innerclasses.

Theorem C62_linenumbers : forall (l : list jconst) (jk : jcode) (k : code) (t : list (Z * Z)),
  code_shows l jk k -> short_list t = true -> forallb pair_ok t = true ->
  last_named l (jk_attrs jk) (lit "LineNumberTable") = Some (enc_pairs t) ->
  get_linenumbertable k = Ok t.
Proof. exact linenumbers_attr. Qed.
Print Assumptions C62_linenumbers.

Theorem C62_variables : forall (l : list jconst) (jk : jcode) (k : code) (n : str) (t : list (list Z)),
  code_shows l jk k -> short_list t = true -> forallb row_ok t = true ->
  last_named l (jk_attrs jk) n = Some (enc_rows t) ->
  var_table k n = Ok t.
Proof. exact var_table_attr. Qed.
Print Assumptions C62_variables.

Example C62_ex :
  last_named ex_pool (jc_attrs ex_class) (lit "SourceFile") = Some (enc_index_attr 17) /\
  option_map (jresolve ex_pool) (jat ex_pool 17) = Some (Some (PStr (lit "A.java"))) /\
  last_named ex_pool (jm_attrs ex_field) (lit "ConstantValue") = Some (enc_index_attr 5) /\
  last_named ex_pool (jm_attrs ex_method) (lit "Exceptions") = Some (enc_exceptions [3; 1]) /\
  map (jclass_at ex_pool) [3; 1] = map Some [lit "java/lang/Object"; lit "A"] /\
  last_named ex_pool (jc_attrs ex_class) (lit "InnerClasses") = Some (enc_quads [(1, 0, 2, 9)]) /\
  last_named ex_pool (jk_attrs ex_code) (lit "LineNumberTable") = Some (enc_pairs [(0, 10); (1, 11)]).
Proof. vm_compute. auto 10. Qed.

(** C62 is false for AnnotationDefault: the value starts with a tag byte, which
    is read as part of an index. *)
Theorem C62_annotationdefault : forall (l : list jconst) (al : list jattr) (m : member) (tag idx : Z),
  attrs_show l al (m_attrs m) -> 0 <= tag < 256 -> u2 idx = true ->
  last_named l al (lit "AnnotationDefault") = Some (enc_default_const tag idx) ->
  get_annotationdefault m = Ok (Some (tag * 256 + idx / 256)).
Proof. exact default_attr. Qed.
Print Assumptions C62_annotationdefault.

Theorem C62_annotationdefault_refuted : exists (c : jclassfile) (r : classinfo),
  jclassfile_ok c = true /\ unpack_class (enc_class c) MNone = Ok r /\
  match jc_methods c, c_methods r with
  | [jm], [m] =>
      last_named (jc_pool c) (jm_attrs jm) (lit "AnnotationDefault") = Some (enc_default_const 73 5) /\
      jat (jc_pool c) 5 <> None /\ deref_annotationdefault (c_pool r) m = Err IndexError
  | _, _ => False
  end.
Proof.
  exists ex_class. eexists. split; [reflexivity|]. split; [vm_compute; reflexivity|].
  vm_compute. split; [reflexivity|]. split; [discriminate|reflexivity].
Qed.
Print Assumptions C62_annotationdefault_refuted.

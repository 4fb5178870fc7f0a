(** Properties C116 and C117: the symbols classinfo lists, and the full listing. *)
From Verif Require Import Base Pack_Model Pack_Spec ConstPool_Model ConstPool_Spec ClassFile_Model ClassFile_Spec ClassFile_Proofs
  Descr_Spec Opcodes_Model Opcodes_Spec Anno_Model Anno_Spec Classdiff_Model Info_Model Info_Spec Info_Class
  Print_Model Print_Spec Print_Decl Print_Code Print_List P_Info P_Print Jinfo_Spec Jinfo_Proofs Verbose_Spec Verbose_Proofs.
From Coq Require Import Permutation Sorting.Sorted.

(** ** C116: symbols *)
(** classinfo --provides: the class and its public members that no pattern of
    --api-ignore matches, each once, in order *)
Theorem C116_provides fmt repr reprs ffmt order o c this : (forall l, Permutation (order l) l) -> class_ok c ->
  jclass_at (jc_pool c) (jc_this c) = Some this -> o_provides o = true -> o_requires o = false ->
  exists r ps, unpack_class (enc_class c) MNone = Ok r /\
    lists (fun s => provided c false s /\ ~ ignored_by (o_api_ignore o) s) ps /\
    cli_print fmt repr reprs ffmt order o r = Ok (class_symbols this "provides" ps).
Proof.
  intros HO [HJ HA] HT HP HR. destruct (unpack_class_roundtrip c [] HJ) as (r & E & _ & _ & _ & HC). rewrite app_nil_r in E.
  destruct (@symbols_text_ok false fmt repr reprs ffmt order o c r this HO HA HC HT) as (ps & rs & H1 & _ & H3); [now rewrite HP|rewrite HR; discriminate|].
  exists r, ps. split; [exact E|]. split; [exact H1|]. rewrite H3, HP, HR. cbn [given]. now rewrite app_nil_r.
Qed.
Print Assumptions C116_provides.
(** with --requires; [deep] as in C57: with [deep] false for every class, with [deep] true
    for classes whose constants name no array of arrays *)
Theorem C116_symbols_partial deep fmt repr reprs ffmt order o c this : (forall l, Permutation (order l) l) -> class_ok c -> flat_arrays deep c ->
  jclass_at (jc_pool c) (jc_this c) = Some this -> o_provides o || o_requires o = true ->
  exists r ps rs, unpack_class (enc_class c) MNone = Ok r /\
    lists (fun s => provided c false s /\ ~ ignored_by (o_api_ignore o) s) ps /\
    (o_requires o = true -> lists (fun s => required deep c s /\ ~ ignored_by (o_api_ignore o) s) rs) /\
    cli_print fmt repr reprs ffmt order o r =
      Ok (given (o_provides o) (class_symbols this "provides" ps) ++ given (o_requires o) (class_symbols this "requires" rs)).
Proof.
  intros HO [HJ HA] HF HT HP. destruct (unpack_class_roundtrip c [] HJ) as (r & E & _ & _ & _ & HC). rewrite app_nil_r in E.
  destruct (symbols_text_ok fmt repr reprs ffmt order o c r this HO HA HC HT HP (fun _ => HF)) as (ps & rs & H). exists r, ps, rs. auto.
Qed.
Print Assumptions C116_symbols_partial.
Definition api_opts (p q : bool) (ig : list str) : popts := mkpopts false 1 false false false false false false p q ig.
Example C116_ex : class_ok class_a /\ flat_arrays true class_a /\ jclass_at (jc_pool class_a) (jc_this class_a) = Some (lit "pkg/A") /\
  (forall l : list str, Permutation (rev l) l) /\
  exists r, unpack_class (enc_class class_a) MNone = Ok r /\
    cli_print fmt0 fmt0 reprs0 fmt0 (@rev str) (api_opts true true []) r =
    Ok (lit "class pkg.A provides:" ++ nl ++ lit "  pkg.A" ++ nl ++ lit "  pkg.A.m():void" ++ nl ++ nl ++
        lit "class pkg.A requires:" ++ nl ++ lit "  java.lang.Object" ++ nl ++ lit "  pkg.B" ++ nl ++
        lit "  pkg.B.run(int,long[]):java.lang.String" ++ nl ++ lit "  pkg.C" ++ nl ++ nl) /\
    cli_print fmt0 fmt0 reprs0 fmt0 (@rev str) (api_opts true true [lit "*.m*"; lit "java.*"]) r =
    Ok (lit "class pkg.A provides:" ++ nl ++ lit "  pkg.A" ++ nl ++ nl ++
        lit "class pkg.A requires:" ++ nl ++ lit "  pkg.B" ++ nl ++
        lit "  pkg.B.run(int,long[]):java.lang.String" ++ nl ++ lit "  pkg.C" ++ nl ++ nl).
Proof.
  split; [apply class_a_wf|]. split; [apply class_a_wf|]. split; [vm_compute; reflexivity|]. split; [intro l; symmetry; apply Permutation_rev|].
  eexists. split; [vm_compute; reflexivity|]. split; vm_compute; reflexivity.
Qed.

(** ** C117: the full listing *)
Theorem C117_listing_partial fmt repr reprs ffmt order o c this super ifs src sg ts em fs ms :
  class_ok c -> o_provides o = false -> o_requires o = false -> In (o_show o) [0; 1; 3; 7] ->
  (Z.testbit (jc_flags c) 9 = true -> Z.testbit (jc_flags c) 14 = false) ->
  jclass_at (jc_pool c) (jc_this c) = Some this -> jclass_at (jc_pool c) (jc_super c) = Some super ->
  Forall2 (fun i n => jclass_at (jc_pool c) i = Some n) (jc_interfaces c) ifs -> forallb class_name ifs = true ->
  source_file c src -> (w_pool (asked o) = true -> no_dynamic (jc_pool c) = true) ->
  (w_all (asked o) = true \/ o_show o = 0 ->
     names_text (jc_pool c) (jc_attrs c) "Signature" sg /\ annotated (jc_pool c) (jc_attrs c) ts /\ enclosing c em) ->
  (o_show o <> 0 ->
     Forall2 (field_text reprs (fun b => ffmt (PF32 b)) (fun b => ffmt (PF64 b)) c (asked o)) (filter (visible (o_show o)) (jc_fields c)) fs /\
     Forall2 (method_text c (asked o)) (filter (visible (o_show o)) (jc_methods c)) ms) ->
  exists r, unpack_class (enc_class c) MNone = Ok r /\
    cli_print fmt repr reprs ffmt order o r =
    Ok (full_listing src (class_lead (jc_flags c) ++ class_decl (jc_flags c) this super ifs)
          (given (w_all (asked o) || (o_show o =? 0)) (header_block c src sg ts em))
          (given (w_pool (asked o)) (const_block reprs (fun b => ffmt (PF32 b)) (fun b => ffmt (PF64 b)) (jc_pool c)))
          (if o_show o =? 0 then None else Some (fs ++ ms))).
Proof.
  intros HK H1 H2 H3 H4 H5 H6 H7 H8 H9 H10 H11 H12. pose proof HK as [HJ _].
  destruct (unpack_class_roundtrip c [] HJ) as (r & E & _ & _ & _ & HC). rewrite app_nil_r in E.
  exists r. split; [exact E|]. exact (full_text fmt repr reprs ffmt order o c r this super ifs src sg ts em fs ms HK HC H1 H2 H3 H4 H5 H6 H7 H8 H9 H10 H11 H12).
Qed.
Print Assumptions C117_listing_partial.

(** Example: class pkg.V<T> with an annotated constant and a method with all tables *)
Definition v_pool : list jconst :=
  [ JClass 2; JUtf8 (lit "pkg/V"); JClass 4; JUtf8 (lit "java/lang/Object"); JUtf8 (lit "max"); JUtf8 (lit "I");
    JUtf8 (lit "get"); JUtf8 (lit "(ILjava/util/List;)V"); JUtf8 (lit "Code"); JUtf8 (lit "LineNumberTable");
    JUtf8 (lit "LocalVariableTable"); JUtf8 (lit "LocalVariableTypeTable"); JUtf8 (lit "Signature");
    JUtf8 (lit "RuntimeVisibleAnnotations"); JUtf8 (lit "ConstantValue"); JInteger 41; JUtf8 (lit "LAnno;"); JUtf8 (lit "k");
    JUtf8 (lit "[LOther;"); JUtf8 (lit "<T:Ljava/lang/Object;>Ljava/lang/Object;"); JUtf8 (lit "(ITT;)V"); JUtf8 (lit "list");
    JUtf8 (lit "Ljava/util/List;"); JUtf8 (lit "Ljava/util/List<TT;>;"); JUtf8 (lit "SourceFile"); JUtf8 (lit "V.java"); JUtf8 (lit "n") ].
Definition v_anno : Z * list (Z * jval) := (17, [(18, VArr [VConst 73 16; VAnno 19 [(18, VEnum 17 5)]]); (5, VClass 6)]).
Definition v_insns : list jinsn := [JOp 26 []; JOp 172 []].
Definition v_code : jcode :=
  mkjcode 1 3 (assemble 0 v_insns) []
    [mkjattr 10 (enc_pairs [(0, 7); (1, 9)]); mkjattr 11 (enc_rows [[0; 2; 27; 6; 1]; [1; 1; 22; 23; 2]]); mkjattr 12 (enc_rows [[1; 1; 22; 24; 2]])].
Definition v_field : jmember := mkjmember 25 5 6 [mkjattr 15 (e2 16); mkjattr 14 (enc_annos [v_anno])].
Definition v_method : jmember := mkjmember 193 7 8 [mkjattr 9 (enc_code v_code); mkjattr 13 (e2 21)].
Definition class_v : jclassfile :=
  mkjclass 3 51 v_pool 33 1 3 [] [v_field] [v_method] [mkjattr 13 (e2 20); mkjattr 14 (enc_annos [(17, [])]); mkjattr 25 (e2 26)].
Example class_v_wf : class_ok class_v.
Proof.
  split; [vm_compute; reflexivity|]. constructor.
  - vm_compute. reflexivity.
  - exists (lit "pkg/V"). split; vm_compute; reflexivity.
  - intros m [<-|[]]. exists (lit "max"), (TPrim PInt_). constructor; [now left| | |]; vm_compute; reflexivity.
  - intros m [<-|[]]. exists (lit "get"), [TPrim PInt_; TObj (lit "java/util/List")], None. constructor; [now left| | |]; vm_compute; reflexivity.
  - intros i n H. apply class_cases in H. vm_compute in H. destruct H as [<-|[<-|[]]]; left; reflexivity.
  - intros a b H. in_cases H.
  - intros k a b HK H. destruct HK as [->| ->]; in_cases H.
Qed.
Definition all_opts (show : Z) : popts := mkpopts true show false false false false false false false false [].
Definition v_anno_shown : str := lit "Anno(k=[I#16, @Other[](k=e#17.#5)], max=c#6)".
Definition v_field_shown : str :=
  lit "public static final int max;" ++ nl ++ lit "  Signature: None" ++ nl ++ lit "  RuntimeVisibleAnnotations:" ++ nl ++
  lit "  0: " ++ v_anno_shown ++ nl ++ lit "  Constant value: int 41" ++ nl ++ nl.
Definition v_method_shown : str :=
  lit "public void get(int,java.util.List);" ++ nl ++ lit "  Signature: (ITT;)V" ++ nl ++ lit "  Code:" ++ nl ++
  lit "   Stack=1, Locals=3, Args_size=3" ++ nl ++ lit "   0:" ++ [9] ++ lit "iload_0" ++ nl ++ lit "   1:" ++ [9] ++ lit "ireturn" ++ nl ++
  lit "  Bridge: true" ++ nl ++ lit "  Varargs: true" ++ nl ++
  lit "  LineNumberTable:" ++ nl ++ lit "   line 7: 0" ++ nl ++ lit "   line 9: 1" ++ nl ++
  lit "  LocalVariableTable:" ++ nl ++ lit "   Start  Length  Slot" ++ [9] ++ lit "Name" ++ [9] ++ lit "Descriptor" ++ nl ++
  lit "   0" ++ [9] ++ lit "2" ++ [9] ++ lit "1" ++ [9] ++ lit "n" ++ [9] ++ lit "I" ++ nl ++
  lit "   1" ++ [9] ++ lit "1" ++ [9] ++ lit "2" ++ [9] ++ lit "list" ++ [9] ++ lit "Ljava/util/List;" ++ nl ++
  lit "  LocalVariableTypeTable:" ++ nl ++ lit "   Start  Length  Slot" ++ [9] ++ lit "Name" ++ [9] ++ lit "Signature" ++ nl ++
  lit "   1" ++ [9] ++ lit "1" ++ [9] ++ lit "2" ++ [9] ++ lit "list" ++ [9] ++ lit "Ljava/util/List<TT;>;" ++ nl ++
  lit "  Exceptions:" ++ nl ++ nl.
Definition v_header : str :=
  nl ++ lit "  SourceFile: ""V.java""" ++ nl ++ lit "  Signature: <T:Ljava/lang/Object;>Ljava/lang/Object;" ++ nl ++
  lit "  RuntimeVisibleAnnotations:" ++ nl ++ lit "  0: Anno()" ++ nl ++ lit "  minor version: 51" ++ nl ++ lit "  major version: 3" ++ nl ++
  lit "  Platform: 1.7" ++ nl.
Example C117_header_ex : exists r, unpack_class (enc_class class_v) MNone = Ok r /\
  cli_print fmt0 fmt0 reprs0 fmt0 (fun l => l) (mkpopts false 0 false false false false false false false false []) r =
  Ok (lit "Compiled from ""V.java""" ++ nl ++ lit "public class pkg.V extends java.lang.Object" ++ v_header).
Proof. eexists. split; [vm_compute; reflexivity|]. vm_compute. reflexivity. Qed.
Lemma v_anno_text : anno_text v_pool v_anno v_anno_shown.
Proof.
  apply (at_intro v_pool 17 _ (TObj (lit "Anno")) [lit "k=[I#16, @Other[](k=e#17.#5)]"; lit "max=c#6"]); [vm_compute; reflexivity|].
  constructor; [|constructor; [|constructor]].
  - apply (et_intro v_pool 18 (lit "k") _ (lit "[I#16, @Other[](k=e#17.#5)]")); [vm_compute; reflexivity|].
    apply (vt_arr v_pool _ [lit "I#16"; lit "@Other[](k=e#17.#5)"]). constructor; [exact (vt_const v_pool 73 16)|]. constructor; [|constructor].
    apply (vt_anno v_pool 19 _ (TArr (TObj (lit "Other"))) [lit "k=e#17.#5"]); [vm_compute; reflexivity|]. constructor; [|constructor].
    apply (et_intro v_pool 18 (lit "k") _ (lit "e#17.#5")); [vm_compute; reflexivity|]. exact (vt_enum v_pool 17 5).
  - apply (et_intro v_pool 5 (lit "max") _ (lit "c#6")); [vm_compute; reflexivity|]. exact (vt_class v_pool 6).
Qed.
Lemma v_field_text : field_text reprs0 (fun b => fmt0 (PF32 b)) (fun b => fmt0 (PF64 b)) class_v (asked (all_opts 7)) v_field v_field_shown.
Proof.
  refine (ft_intro _ _ _ class_v (asked (all_opts 7)) v_field (lit "public static final int max") None [v_anno_shown] (lit "  Constant value: int 41" ++ nl) _ _ _ _).
  - change (lit "public static final int max") with (member_decl (jm_flags v_field) (lit "max") (SField (TPrim PInt_)) []). constructor.
    + constructor; [now left| | |]; vm_compute; reflexivity.
    + split; discriminate.
    + apply bits_ok; [vm_compute; discriminate|vm_compute; reflexivity].
    + left. split; vm_compute; reflexivity.
  - intros _. vm_compute. reflexivity.
  - intros _. right. exists [v_anno]. split; [vm_compute; reflexivity|]. split; [reflexivity|]. split; [vm_compute; reflexivity|]. constructor; [exact v_anno_text|constructor].
  - intros _. apply (ct_some reprs0 _ _ class_v v_field 16 (JInteger 41)); vm_compute; reflexivity.
Qed.
Lemma v_method_text : method_text class_v (asked (all_opts 7)) v_method v_method_shown.
Proof.
  refine (mt_intro class_v (asked (all_opts 7)) v_method (lit "public void get(int,java.util.List)") (Some (lit "(ITT;)V")) [] _ _ [] _ _ _
    (bt_some class_v (asked (all_opts 7)) v_method v_code _ [(0, 7); (1, 9)] 
      [lit "   0" ++ [9] ++ lit "2" ++ [9] ++ lit "1" ++ [9] ++ lit "n" ++ [9] ++ lit "I" ++ nl;
       lit "   1" ++ [9] ++ lit "1" ++ [9] ++ lit "2" ++ [9] ++ lit "list" ++ [9] ++ lit "Ljava/util/List;" ++ nl]
      [lit "   1" ++ [9] ++ lit "1" ++ [9] ++ lit "2" ++ [9] ++ lit "list" ++ [9] ++ lit "Ljava/util/List<TT;>;" ++ nl] _
      (fun _ => it_intro class_v (asked (all_opts 7)) v_method v_code (lit "get") [TPrim PInt_; TObj (lit "java/util/List")] None v_insns [] _ _ _ _ _) _ _ _) _).
  - change (lit "public void get(int,java.util.List)") with (member_decl (jm_flags v_method) (lit "get") (SMethod [TPrim PInt_; TObj (lit "java/util/List")] None) []). constructor.
    + constructor; [now left| | |]; vm_compute; reflexivity.
    + split; [discriminate|exact I].
    + apply bits_ok; [vm_compute; discriminate|vm_compute; reflexivity].
    + left. split; vm_compute; reflexivity.
  - intros _. exists 21. repeat split; vm_compute; reflexivity.
  - left. split; [vm_compute; reflexivity|reflexivity].
  - split; vm_compute; reflexivity.
  - constructor; [now left| | |]; vm_compute; reflexivity.
  - reflexivity.
  - reflexivity.
  - reflexivity.
  - constructor.
  - intros _. right. repeat split; vm_compute; reflexivity.
  - intros _. right. exists [[0; 2; 27; 6; 1]; [1; 1; 22; 23; 2]]. split; [vm_compute; reflexivity|]. split; [vm_compute; reflexivity|]. split; [vm_compute; reflexivity|].
    constructor; [|constructor; [|constructor]].
    + exact (var_intro v_pool 0 2 27 6 1 (lit "n") (lit "I") eq_refl eq_refl).
    + exact (var_intro v_pool 1 1 22 23 2 (lit "list") (lit "Ljava/util/List;") eq_refl eq_refl).
  - intros _. right. exists [[1; 1; 22; 24; 2]]. split; [vm_compute; reflexivity|]. split; [vm_compute; reflexivity|]. split; [vm_compute; reflexivity|].
    constructor; [exact (var_intro v_pool 1 1 22 24 2 (lit "list") (lit "Ljava/util/List<TT;>;") eq_refl eq_refl)|constructor].
  - left. split; [vm_compute; reflexivity|reflexivity].
Qed.
Example C117_ex : exists r, unpack_class (enc_class class_v) MNone = Ok r /\
  cli_print fmt0 fmt0 reprs0 fmt0 (fun l => l) (all_opts 7) r =
  Ok (lit "Compiled from ""V.java""" ++ nl ++ lit "public class pkg.V extends java.lang.Object" ++ v_header ++
      const_block reprs0 (fun _ => []) (fun _ => []) v_pool ++ lit "{" ++ nl ++ v_field_shown ++ v_method_shown ++ lit "}" ++ nl ++ nl).
Proof.
  destruct (C117_listing_partial fmt0 fmt0 reprs0 fmt0 (fun l => l) (all_opts 7) class_v (lit "pkg/V") (lit "java/lang/Object") [] (Some (lit "V.java"))
    (Some (lit "<T:Ljava/lang/Object;>Ljava/lang/Object;")) [lit "Anno()"] None [v_field_shown] [v_method_shown]) as (r & E & H).
  - exact class_v_wf.
  - reflexivity.
  - reflexivity.
  - cbn. auto.
  - discriminate.
  - vm_compute. reflexivity.
  - vm_compute. reflexivity.
  - constructor.
  - reflexivity.
  - exists 26. repeat split; vm_compute; reflexivity.
  - intros _. vm_compute. reflexivity.
  - intros _. split; [exists 20; repeat split; vm_compute; reflexivity|]. split.
    + right. exists [(17, [])]. split; [vm_compute; reflexivity|]. split; [reflexivity|]. split; [vm_compute; reflexivity|]. constructor; [|constructor].
      apply (at_intro v_pool 17 [] (TObj (lit "Anno")) []); [vm_compute; reflexivity|constructor].
    + apply en_none. vm_compute. reflexivity.
  - intros _. split; (constructor; [|constructor]); [exact v_field_text|exact v_method_text].
  - exists r. split; [exact E|]. rewrite H. vm_compute. reflexivity.
Qed.

(** Properties C90 - C94: what classinfo prints. *)
From Verif Require Import Base Pack_Model Pack_Spec ConstPool_Model ConstPool_Spec ClassFile_Model ClassFile_Spec ClassFile_Proofs
  Descr_Spec Opcodes_Model Opcodes_Spec Anno_Model Classdiff_Model Info_Model Info_Spec Info_Class
  Print_Model Print_Spec Print_Decl Print_Inj Print_Code Print_List P_Info.

(** ** Example data *)
(** class pkg.P in a method of pkg.Outer: a field, a method with code that catches
    and throws java.io.IOException *)
Definition p_pool : list jconst :=
  [ JClass 2; JUtf8 (lit "pkg/P"); JClass 4; JUtf8 (lit "java/lang/Object"); JUtf8 (lit "count"); JUtf8 (lit "[I");
    JUtf8 (lit "run"); JUtf8 (lit "(ILjava/lang/String;)V"); JUtf8 (lit "Code"); JUtf8 (lit "Exceptions"); JClass 12;
    JUtf8 (lit "java/io/IOException"); JUtf8 (lit "SourceFile"); JUtf8 (lit "P.java"); JUtf8 (lit "EnclosingMethod");
    JNameAndType 7 8; JClass 18; JUtf8 (lit "pkg/Outer"); JLong 5; JUtf8 (lit "RuntimeVisibleAnnotations"); JUtf8 (lit "LAnno;") ].
Definition p_insns : list jinsn :=
  [JOp 16 [-3]; JOp 60 []; JWideIinc 300 (-2); JTable 40 1 [30; 31]; JLookup 7 [(5, 8); (6, -9)]; JOp 177 []].
Definition p_code : jcode := mkjcode 1 2 (assemble 0 p_insns) [(0, 2, 9, 11); (0, 3, 100, 0)] [].
Definition p_field : jmember := mkjmember 138 5 6 [].
Definition p_method : jmember := mkjmember 33 7 8 [mkjattr 10 (enc_exceptions [11]); mkjattr 9 (enc_code p_code)].
Definition class_p : jclassfile :=
  mkjclass 0 52 p_pool 33 1 3 [17] [p_field] [p_method] [mkjattr 13 (e2 14); mkjattr 15 (e2 17 ++ e2 16)].
Example class_p_wf : class_ok class_p.
Proof.
  split; [vm_compute; reflexivity|]. constructor.
  - vm_compute. reflexivity.
  - exists (lit "pkg/P"). split; vm_compute; reflexivity.
  - intros m [<-|[]]. exists (lit "count"), (TArr (TPrim PInt_)). constructor; [now left| | |]; vm_compute; reflexivity.
  - intros m [<-|[]]. exists (lit "run"), [TPrim PInt_; t_string], None. constructor; [now left| | |]; vm_compute; reflexivity.
  - intros i n H. apply class_cases in H. vm_compute in H. destruct H as [<-|[<-|[<-|[<-|[]]]]]; left; reflexivity.
  - intros a b H. in_cases H.
  - intros k a b HK H. destruct HK as [->| ->]; in_cases H.
Qed.
Lemma bits_ok bits f : 0 <= f -> forallb (fun b => existsb (Z.eqb b) bits || negb (Z.testbit f b)) (map Z.of_nat (seq 0 (Z.to_nat (Z.log2 f + 1)))) = true -> only_bits bits f.
Proof.
  intros Hf H b Hb HT. destruct (Z.leb_spec b (Z.log2 f)) as [HL|HL]; [|rewrite Z.bits_above_log2 in HT by lia; discriminate].
  rewrite forallb_forall in H. specialize (H b). rewrite HT, orb_false_r in H.
  assert (HI : In b (map Z.of_nat (seq 0 (Z.to_nat (Z.log2 f + 1))))) by (apply in_map_iff; exists (Z.to_nat b); split; [lia|]; apply in_seq; lia).
  specialize (H HI). apply existsb_exists in H as (x & Hx & E). apply Z.eqb_eq in E. now subst.
Qed.
Example p_field_described : described class_p p_field (lit "private static transient int[] count").
Proof.
  change (lit "private static transient int[] count") with (member_decl (jm_flags p_field) (lit "count") (SField (TArr (TPrim PInt_))) []).
  constructor.
  - constructor; [now left| | |]; vm_compute; reflexivity.
  - split; discriminate.
  - apply bits_ok; [vm_compute; discriminate|vm_compute; reflexivity].
  - left. split; vm_compute; reflexivity.
Qed.
Definition run_decl : str := lit "public synchronized void run(int,java.lang.String) throws java.io.IOException".
Example p_method_described : described class_p p_method run_decl.
Proof.
  change run_decl with (member_decl (jm_flags p_method) (lit "run") (SMethod [TPrim PInt_; t_string] None) [lit "java/io/IOException"]).
  constructor.
  - constructor; [now left| | |]; vm_compute; reflexivity.
  - split; [discriminate|exact I].
  - apply bits_ok; [vm_compute; discriminate|vm_compute; reflexivity].
  - right. exists [11]. repeat split; vm_compute; reflexivity.
Qed.
(** functions for the formats left open *)
Definition fmt0 (v : pyval) : str := lit "?".
Definition reprs0 (s : str) : str := lit "'" ++ s ++ lit "'".
Definition plain_opts (show : Z) (dis pool : bool) : popts := mkpopts false show false false false dis pool false false false [].
Definition verbose_opts : popts := mkpopts true 1 false false false false false false false false [].

(** ** C90: declarations *)
Lemma Forall2_nth' {A B} (R : A -> B -> Prop) l m : Forall2 R l m -> forall i x, nth_error l i = Some x -> exists y, nth_error m i = Some y /\ R x y.
Proof. induction 1 as [|x y l m H HF IH]; intros [|i] z Hz; try discriminate; cbn in *; [injection Hz as <-; eauto|auto]. Qed.
Theorem C90_member fmt c : class_ok c -> exists r, unpack_class (enc_class c) MNone = Ok r /\
  (forall i m t, nth_error (jc_fields c) i = Some m -> described c m t ->
     exists x, nth_error (c_fields r) i = Some x /\ member_descriptor fmt (c_pool r) x = Ok t) /\
  (forall i m t, nth_error (jc_methods c) i = Some m -> described c m t ->
     exists x, nth_error (c_methods r) i = Some x /\ member_descriptor fmt (c_pool r) x = Ok t).
Proof.
  intros [HO HA]. destruct (unpack_class_roundtrip c [] HO) as (r & E & _ & _ & _ & HC). rewrite app_nil_r in E.
  exists r. split; [exact E|]. pose proof HC as (_ & _ & _ & _ & _ & _ & HF & HM & _).
  split; intros i m t HI HT.
  - destruct (Forall2_nth' _ _ _ HF i m HI) as (x & Hx & HX). exists x. split; [exact Hx|].
    destruct (aw_fields _ HA m (nth_error_In _ _ HI)) as (n & ty & HD). exact (member_text fmt c r false m x n _ t HC HX HD eq_refl HT).
  - destruct (Forall2_nth' _ _ _ HM i m HI) as (x & Hx & HX). exists x. split; [exact Hx|].
    destruct (aw_methods _ HA m (nth_error_In _ _ HI)) as (n & a & ret & HD). exact (member_text fmt c r true m x n _ t HC HX HD eq_refl HT).
Qed.
Print Assumptions C90_member.

Theorem C90_class c this super ifs : class_ok c -> (Z.testbit (jc_flags c) 9 = true -> Z.testbit (jc_flags c) 14 = false) ->
  jclass_at (jc_pool c) (jc_this c) = Some this -> jclass_at (jc_pool c) (jc_super c) = Some super ->
  Forall2 (fun i n => jclass_at (jc_pool c) i = Some n) (jc_interfaces c) ifs -> forallb class_name ifs = true ->
  exists r, unpack_class (enc_class c) MNone = Ok r /\
    class_descriptor r = Ok (class_lead (jc_flags c) ++ class_decl (jc_flags c) this super ifs).
Proof.
  intros [HO HA] Hle H1 H2 H3 H4. destruct (unpack_class_roundtrip c [] HO) as (r & E & _ & _ & _ & HC). rewrite app_nil_r in E.
  exists r. split; [exact E|]. apply class_text; auto. apply HA.
Qed.
Print Assumptions C90_class.
Example C90_ex : exists r, unpack_class (enc_class class_p) MNone = Ok r /\
  class_descriptor r = Ok (lit "public class pkg.P extends java.lang.Object implements pkg.Outer") /\
  map (member_descriptor fmt0 (c_pool r)) (c_methods r) = [Ok run_decl] /\
  map (member_descriptor fmt0 (c_pool r)) (c_fields r) = [Ok (lit "private static transient int[] count")].
Proof. eexists. split; [vm_compute; reflexivity|]. repeat split; vm_compute; reflexivity. Qed.

(** Two members with the same declaration agree in name, type, exceptions and every
    flag that has a word *)
Theorem C90_determines f1 n1 s1 ex1 f2 n2 s2 ex2 : decl_ok n1 s1 ex1 -> decl_ok n2 s2 ex2 ->
  member_decl f1 n1 s1 ex1 = member_decl f2 n2 s2 ex2 ->
  n1 = n2 /\ s1 = s2 /\ ex1 = ex2 /\ (forall b w, In (b, w) (sig_table s1) -> Z.testbit f1 b = Z.testbit f2 b).
Proof. apply decl_determines. Qed.
Print Assumptions C90_determines.
Example C90_determines_ex : decl_ok (lit "run") (SMethod [TPrim PInt_; t_string] None) [lit "java/io/IOException"] /\
  member_decl 33 (lit "run") (SMethod [TPrim PInt_; t_string] None) [lit "java/io/IOException"] =
  member_decl (33 + 64 + 128 + 4096) (lit "run") (SMethod [TPrim PInt_; t_string] None) [lit "java/io/IOException"].
Proof. split; [|vm_compute; reflexivity]. constructor; vm_compute; reflexivity. Qed.

(** The declaration of a class without modifiers begins with a space *)
Theorem C90_package_class_refuted : exists c r this super ifs d, class_ok c /\ unpack_class (enc_class c) MNone = Ok r /\
  jclass_at (jc_pool c) (jc_this c) = Some this /\ jclass_at (jc_pool c) (jc_super c) = Some super /\
  Forall2 (fun i n => jclass_at (jc_pool c) i = Some n) (jc_interfaces c) ifs /\
  class_descriptor r = Ok d /\ d = lit " " ++ class_decl (jc_flags c) this super ifs.
Proof.
  exists (mkjclass 0 52 b_pool 32 1 3 [] [] [] []). eexists. exists (lit "pkg/B"), (lit "java/lang/Object"), []. eexists. split.
  - split; [vm_compute; reflexivity|]. constructor.
    + vm_compute. reflexivity.
    + exists (lit "pkg/B"). split; vm_compute; reflexivity.
    + intros m [].
    + intros m [].
    + intros i n H. apply class_cases in H. vm_compute in H. destruct H as [<-|[<-|[]]]; left; reflexivity.
    + intros a b H. in_cases H.
    + intros k a b HK H. destruct HK as [->| ->]; in_cases H.
  - split; [vm_compute; reflexivity|]. split; [vm_compute; reflexivity|]. split; [vm_compute; reflexivity|]. split; [constructor|]. split; vm_compute; reflexivity.
Qed.
Print Assumptions C90_package_class_refuted.

(** ** C91: the listing *)
Theorem C91_listing_partial fmt repr reprs ffmt order o c this super ifs src fs ms :
  class_ok c -> plain o -> In (o_show o) [1; 3; 7] ->
  (Z.testbit (jc_flags c) 9 = true -> Z.testbit (jc_flags c) 14 = false) ->
  jclass_at (jc_pool c) (jc_this c) = Some this -> jclass_at (jc_pool c) (jc_super c) = Some super ->
  Forall2 (fun i n => jclass_at (jc_pool c) i = Some n) (jc_interfaces c) ifs -> forallb class_name ifs = true ->
  source_file c src -> (o_constpool o = true -> no_dynamic (jc_pool c) = true) ->
  (forall m, In m (jc_methods c) -> visible (o_show o) m = true -> no_annotations c m) ->
  Forall2 (described c) (filter (visible (o_show o)) (jc_fields c)) fs ->
  Forall2 (block c (o_disassemble o)) (filter (visible (o_show o)) (jc_methods c)) ms ->
  exists r, unpack_class (enc_class c) MNone = Ok r /\
    cli_print fmt repr reprs ffmt order o r =
    Ok (listing src (class_lead (jc_flags c) ++ class_decl (jc_flags c) this super ifs)
          (if o_constpool o then const_block reprs (fun b => ffmt (PF32 b)) (fun b => ffmt (PF64 b)) (jc_pool c) else [])
          (map (decl_line (o_disassemble o)) fs ++ ms)).
Proof.
  intros HK HO HS Hle H1 H2 H3 H4 H5 H6 H7 H8 H9. pose proof HK as [HC _].
  destruct (unpack_class_roundtrip c [] HC) as (r & E & _ & _ & _ & HR). rewrite app_nil_r in E.
  exists r. split; [exact E|]. eapply listing_text; eauto.
Qed.
Print Assumptions C91_listing_partial.
Definition p_code_text : str := jcode_lines 0 p_insns.
Example p_block : block class_p true p_method
  (decl_line true run_decl ++ lit "  Code:" ++ nl ++ p_code_text ++
   handlers_text (jk_handlers p_code) [lit "Class java.io.IOException"; lit "any"]).
Proof.
  constructor; [apply p_method_described|]. apply (cb_on class_p true p_method p_code p_insns).
  - reflexivity.
  - split; vm_compute; reflexivity.
  - reflexivity.
  - vm_compute. reflexivity.
  - vm_compute. reflexivity.
  - constructor; [|constructor; [|constructor]].
    + apply (caught_class p_pool 11 (lit "java/io/IOException")); [discriminate|vm_compute; reflexivity|vm_compute; reflexivity].
    + constructor.
Qed.
Example C91_ex : exists r, unpack_class (enc_class class_p) MNone = Ok r /\
  cli_print fmt0 fmt0 reprs0 fmt0 (fun l => l) (plain_opts 7 false false) r =
    Ok (lit "Compiled from ""P.java""" ++ nl ++ lit "public class pkg.P extends java.lang.Object implements pkg.Outer{" ++ nl ++
        lit "   private static transient int[] count;" ++ nl ++ lit "   " ++ run_decl ++ lit ";" ++ nl ++ lit "}" ++ nl ++ nl) /\
  cli_print fmt0 fmt0 reprs0 fmt0 (fun l => l) (plain_opts 1 false false) r =
    Ok (lit "Compiled from ""P.java""" ++ nl ++ lit "public class pkg.P extends java.lang.Object implements pkg.Outer{" ++ nl ++
        lit "   " ++ run_decl ++ lit ";" ++ nl ++ lit "}" ++ nl ++ nl) /\
  cli_print fmt0 fmt0 reprs0 fmt0 (fun l => l) (plain_opts 1 true false) r =
    Ok (lit "Compiled from ""P.java""" ++ nl ++ lit "public class pkg.P extends java.lang.Object implements pkg.Outer{" ++ nl ++
        run_decl ++ lit ";" ++ nl ++ lit "  Code:" ++ nl ++
        lit "   0:" ++ [9] ++ lit "bipush" ++ [9] ++ lit "253" ++ nl ++
        lit "   2:" ++ [9] ++ lit "istore_1" ++ nl ++
        lit "   3:" ++ [9] ++ lit "wide" ++ [9] ++ lit "132, 300, -2" ++ nl ++
        lit "   9:" ++ [9] ++ lit "tableswitch" ++ [9] ++ lit "40, 1, 2, [(30,), (31,)]" ++ nl ++
        lit "   32:" ++ [9] ++ lit "lookupswitch" ++ [9] ++ lit "7, [(5, 8), (6, -9)]" ++ nl ++
        lit "   60:" ++ [9] ++ lit "return" ++ nl ++
        lit "  Exception table:" ++ nl ++ lit "   from" ++ [9] ++ lit "to" ++ [9] ++ lit "target" ++ [9] ++ lit "type" ++ nl ++
        lit "     0" ++ [9] ++ lit "   2" ++ [9] ++ lit "   9" ++ [9] ++ lit "Class java.io.IOException" ++ nl ++
        lit "     0" ++ [9] ++ lit "   3" ++ [9] ++ lit " 100" ++ [9] ++ lit "any" ++ nl ++
        lit "}" ++ nl ++ nl).
Proof. eexists. split; [vm_compute; reflexivity|]. repeat split; vm_compute; reflexivity. Qed.

(** Two listings that are the same list the same members, each on its own line *)
Theorem C91_determines src decl k ts ts' : Forall (fun t => ~ In 10 t) ts -> Forall (fun t => ~ In 10 t) ts' ->
  listing src decl k (map (decl_line false) ts) = listing src decl k (map (decl_line false) ts') -> ts = ts'.
Proof.
  intros HF HF' E. unfold listing in E. do 5 apply app_inv_head in E.
  revert ts' HF' E. induction HF as [|t ts H HF IH]; intros ts' HF' E; destruct HF' as [|t' ts' H' HF']; [reflexivity|discriminate|discriminate|].
  cbn [map concat] in E. unfold decl_line at 1 3 in E. rewrite <- !app_assoc in E. apply app_inv_head in E. unfold nl in E. 
  change (lit ";" ++ [10] ++ ?x) with ([59] ++ 10 :: x) in E. rewrite !app_assoc in E. 
  apply cut_unique in E as [E1 E2]; try (apply avoid_app; [assumption|intros [X|[]]; discriminate]).
  apply app_inj_tail in E1 as [-> _]. f_equal. apply IH; [exact HF'|]. unfold nl. now rewrite <- !app_assoc in E2.
Qed.
Print Assumptions C91_determines.
Example C91_determines_ex : ~ In 10 run_decl /\ ~ In 10 (lit "private static transient int[] count").
Proof. split; intro H; vm_compute in H; repeat (destruct H as [H|H]; [discriminate H|]); exact H. Qed.

(** A runtime visible annotation of a method appears in a listing, one of a field
    does not (print_field, classinfo.py:84, tests verbose; print_method, 106, does
    not) *)
Definition anno_attr : jattr := mkjattr 21 (e2 1 ++ e2 22 ++ e2 0).
Definition class_q : jclassfile :=
  mkjclass 0 52 p_pool 33 1 3 [] [mkjmember 1 5 6 [anno_attr]] [mkjmember 1025 7 8 [anno_attr]] [].
Theorem C91_annotations_refuted : exists c r m f t, jclassfile_ok c = true /\ unpack_class (enc_class c) MNone = Ok r /\
  In f (jc_fields c) /\ In m (jc_methods c) /\
  last_named (jc_pool c) (jm_attrs f) (lit "RuntimeVisibleAnnotations") = Some t /\
  last_named (jc_pool c) (jm_attrs m) (lit "RuntimeVisibleAnnotations") = Some t /\
  cli_print fmt0 fmt0 reprs0 fmt0 (fun l => l) (plain_opts 1 false false) r =
  Ok (lit "public class pkg.P extends java.lang.Object{" ++ nl ++ lit "   public int[] count;" ++ nl ++
      lit "   public abstract void run(int,java.lang.String);" ++ nl ++ lit "  RuntimeVisibleAnnotations:" ++ nl ++
      lit "  0: Anno()" ++ nl ++ lit "}" ++ nl ++ nl).
Proof.
  exists class_q. eexists. exists (mkjmember 1025 7 8 [anno_attr]), (mkjmember 1 5 6 [anno_attr]). eexists.
  split; [vm_compute; reflexivity|]. split; [vm_compute; reflexivity|]. split; [now left|]. split; [now left|]. repeat split; vm_compute; reflexivity.
Qed.
Print Assumptions C91_annotations_refuted.

(** ** C92: code *)
(** The lines of the code determine the instructions *)
Theorem C92_determines l l' : forallb jinsn_ok l = true -> forallb jinsn_ok l' = true ->
  jcode_lines 0 l = jcode_lines 0 l' -> l = l'.
Proof. intros H H' E. eapply listing_inj; eauto. Qed.
Print Assumptions C92_determines.
(** What is printed for the bytes of a Code attribute *)
Theorem C92_code_partial fmt o c m k is ts : plain o -> jpool_ok (jc_pool c) = true -> has_code c m (Some k) ->
  jk_code k = assemble 0 is -> forallb jinsn_ok is = true -> no_monitorenter is = true ->
  Forall2 (fun h => caught (jc_pool c) (snd h)) (jk_handlers k) ts ->
  forall p x b, pool_shows (jc_pool c) p -> member_shows (jc_pool c) b m x ->
  exists kx, get_code p x = Ok (Some kx) /\
    code_text fmt o p x kx = Ok (lit "  Code:" ++ nl ++ jcode_lines 0 is ++ handlers_text (jk_handlers k) ts).
Proof.
  intros (V & _) HK HC HA HI HN HF p x b HP HM.
  destruct (code_present c p m x (Some k) HP (member_shows_attrs _ _ _ _ HM) HC) as (kx & E & HX). exists kx. split; [exact E|].
  destruct HC as [_ HC]. eapply code_ok_text; eauto.
Qed.
Print Assumptions C92_code_partial.
Example C92_ex : has_code class_p p_method (Some p_code) /\ forallb jinsn_ok p_insns = true /\ no_monitorenter p_insns = true /\
  jcode_lines 0 p_insns <> jcode_lines 0 (JOp 16 [3] :: tl p_insns).
Proof. split; [split; vm_compute; reflexivity|]. split; [vm_compute; reflexivity|]. split; [vm_compute; reflexivity|]. intro H. vm_compute in H. discriminate. Qed.
(** monitorenter is listed under another name *)
Theorem C92_monitorenter_refuted : exists is, forallb jinsn_ok is = true /\
  exists dis ls, disassemble_all (assemble 0 is) = Ok dis /\ mapM insn_line dis = Ok ls /\ concat ls <> jcode_lines 0 is.
Proof.
  exists [JOp 194 []]. split; [vm_compute; reflexivity|]. eexists. eexists. split; [vm_compute; reflexivity|]. split; [vm_compute; reflexivity|].
  intro H. vm_compute in H. discriminate.
Qed.
Print Assumptions C92_monitorenter_refuted.

(** ** C93: enclosing methods and the verbose parts *)
Theorem C93_enclosing fmt c e : class_ok c -> enclosing c e -> exists r, unpack_class (enc_class c) MNone = Ok r /\
  get_enclosingmethod fmt r = Ok (option_map PStr e).
Proof.
  intros [HO _] HE. destruct (unpack_class_roundtrip c [] HO) as (r & E & _ & _ & _ & HC). rewrite app_nil_r in E.
  exists r. split; [exact E|]. exact (enclosing_ok fmt c r e HC HE).
Qed.
Print Assumptions C93_enclosing.
Example C93_ex : enclosing class_p (Some (lit "pkg/Outer.run(ILjava/lang/String;)V")).
Proof. apply (en_method class_p 17 16 (lit "pkg/Outer") (lit "run") (lit "(ILjava/lang/String;)V")); vm_compute; reflexivity. Qed.

(** Every annotation is numbered 0, and the heading "Exceptions:" appears in verbose
    mode for methods that throw nothing (classinfo.py:84-88, 195) *)
Definition two_annos : jattr := mkjattr 21 (e2 2 ++ e2 22 ++ e2 0 ++ e2 6 ++ e2 0).
Definition class_s : jclassfile := mkjclass 0 52 p_pool 33 1 3 [] [] [mkjmember 1025 7 8 [two_annos]] [].
Theorem C93_verbose_refuted : exists c r, jclassfile_ok c = true /\ unpack_class (enc_class c) MNone = Ok r /\
  (forall m, In m (jc_methods c) -> throws c m []) /\
  map (print_method fmt0 (cli_options verbose_opts) (c_pool r)) (c_methods r) =
  [Ok (lit "public abstract void run(int,java.lang.String);" ++ nl ++ lit "  Signature: None" ++ nl ++
       lit "  RuntimeVisibleAnnotations:" ++ nl ++ lit "  0: Anno()" ++ nl ++ lit "  0: int[]()" ++ nl ++
       lit "  Exceptions:" ++ nl ++ nl)].
Proof.
  exists class_s. eexists. split; [vm_compute; reflexivity|]. split; [vm_compute; reflexivity|]. split.
  - intros m [<-|[]]. left. split; vm_compute; reflexivity.
  - vm_compute. reflexivity.
Qed.
Print Assumptions C93_verbose_refuted.

(** ** C94: constants *)
Theorem C94_constants_partial reprs ffmt c : class_ok c -> no_dynamic (jc_pool c) = true ->
  exists r, unpack_class (enc_class c) MNone = Ok r /\
    constpool_text reprs ffmt (c_pool r) =
    Ok (const_block reprs (fun b => ffmt (PF32 b)) (fun b => ffmt (PF64 b)) (jc_pool c)).
Proof.
  intros [HO _] HD. destruct (unpack_class_roundtrip c [] HO) as (r & E & _ & _ & _ & HC). rewrite app_nil_r in E.
  exists r. split; [exact E|]. apply constpool_ok; [apply HC|]. unfold no_dynamic in HD. rewrite forallb_forall in *. intros k Hk. specialize (HD k Hk). now destruct k.
Qed.
Print Assumptions C94_constants_partial.
Example C94_ex : no_dynamic (jc_pool class_p) = true /\
  const_listing reprs0 (fun _ => []) (fun _ => []) 1 [JClass 2; JUtf8 (lit "a"); JLong 5; JMethodref 1 2] =
  lit "const #1 = class" ++ [9] ++ lit "#2;" ++ nl ++ lit "const #2 = Utf8" ++ [9] ++ lit "'a';" ++ nl ++
  lit "const #3 = long" ++ [9] ++ lit "5l;" ++ nl ++ lit "const #5 = Method" ++ [9] ++ lit "#1.#2;" ++ nl.
Proof. split; vm_compute; reflexivity. Qed.
(** A class with a CONSTANT_Dynamic constant: the listing of constants, hence -p and
    --verbose, raises an exception *)
Theorem C94_dynamic_fails fmt repr reprs ffmt order o c a b : class_ok c -> In (JDynamic a b) (jc_pool c) ->
  o_provides o = false -> o_requires o = false -> o_constpool o || o_verbose o = true ->
  exists r, unpack_class (enc_class c) MNone = Ok r /\ constpool_text reprs ffmt (c_pool r) = Err UnknownConstantPoolTag /\
    exists e, cli_print fmt repr reprs ffmt order o r = Err e.
Proof.
  intros [HO _] HI PR RQ HV. destruct (unpack_class_roundtrip c [] HO) as (r & E & _ & _ & _ & HC). rewrite app_nil_r in E.
  exists r. split; [exact E|].
  assert (HT : constpool_text reprs ffmt (c_pool r) = Err UnknownConstantPoolTag).
  { eapply constpool_dyn; [apply HC|]. apply existsb_exists. eexists. split; [exact HI|reflexivity]. }
  split; [exact HT|]. unfold cli_print, print_classinfo.
  assert (E1 : o_provides (cli_options o) || o_requires (cli_options o) = false) by (cbn; now rewrite PR, RQ).
  assert (E2 : o_constpool (cli_options o) = true) by exact HV. rewrite E1, E2, HT.
  destruct (get_sourcefile r); [|eexists; reflexivity]. cbn [rbind]. destruct (class_descriptor r); [|eexists; reflexivity]. cbn [rbind].
  match goal with |- exists e, rbind ?x _ = _ => destruct x; [|eexists; reflexivity] end. cbn [rbind]. eexists. reflexivity.
Qed.
Print Assumptions C94_dynamic_fails.
Definition class_dyn : jclassfile :=
  mkjclass 0 55 (b_pool ++ [JDynamic 0 8; JNameAndType 5 6]) 1057 1 3 [] [] [mkjmember 1024 5 6 []] [].
Example C94_dynamic_ex : class_ok class_dyn /\ In (JDynamic 0 8) (jc_pool class_dyn).
Proof.
  split; [split; [vm_compute; reflexivity|]|vm_compute; tauto]. constructor.
  - vm_compute. reflexivity.
  - exists (lit "pkg/B"). split; vm_compute; reflexivity.
  - intros m [].
  - intros m [<-|[]]. exists (lit "run"), [TPrim PInt_; TArr (TPrim PLong)], (Some t_string). constructor; [now left| | |]; vm_compute; reflexivity.
  - intros i n H. apply class_cases in H. vm_compute in H. destruct H as [<-|[<-|[]]]; left; reflexivity.
  - intros a b H. in_cases H.
  - intros k a b HK H. destruct HK as [->| ->]; in_cases H.
Qed.

(** Properties C121 and C122: the JSON documents of classinfo, and the data of
    members. *)
From Verif Require Import Base Pack_Model Pack_Spec ConstPool_Model ConstPool_Spec ClassFile_Model ClassFile_Spec ClassFile_Proofs
  Descr_Spec Opcodes_Spec Anno_Spec Classdiff_Model Info_Model Info_Spec Info_Class Print_Model Print_Spec Print_List P_Info P_Print
  Jinfo_Spec Verbose_Spec Verbose_Proofs P_Verbose Cjson_Model Cjson_Spec Cjson_Proofs.
From Coq Require Import Permutation.

(** ** C121: the document *)
(** classinfo --json of one file: exactly the document of the class if no member is to
    be shown; otherwise nothing is written and AttributeError is raised.  [deep] as in
    C57. *)
Theorem C121_document_partial deep fmt repr reprs ffmt order read o f c this super ifs src sg em :
  (forall l, Permutation (order l) l) -> class_ok c -> read f = Ok (enc_class c) ->
  In (o_show o) [0; 1; 3; 7] -> (o_requires o = true -> flat_arrays deep c) -> (w_pool (asked o) = true -> no_dynamic (jc_pool c) = true) ->
  readable_names c this super ifs src sg em ->
  exists ps rs, lists_some_way (fun s => provided c false s /\ ~ ignored_by (o_api_ignore o) s) ps /\
    (o_requires o = true -> lists_some_way (fun s => required deep c s /\ ~ ignored_by (o_api_ignore o) s) rs) /\
    classinfo_cli fmt repr reprs ffmt order true read o [f] =
    if no_member (o_show o) c
    then ([WJson (class_document reprs (fun b => ffmt (PF32 b)) (fun b => ffmt (PF64 b)) (asked o) (o_provides o) (o_requires o) c this super ifs src sg em ps rs [] [])], Ok 0)
    else ([], Err AttributeError).
Proof.
  intros HO HK HR HS HF HD HN. pose proof HK as [HJ _]. destruct (unpack_class_roundtrip c [] HJ) as (r & E & _ & _ & _ & HC). rewrite app_nil_r in E.
  destruct (document_ok (deep := deep) fmt repr reprs ffmt order o c r this super ifs src sg em HO HK HC HS HF HD HN) as (ps & rs & H1 & H2 & H3).
  exists ps, rs. split; [exact H1|]. split; [exact H2|]. unfold classinfo_cli, each_file. rewrite HR. cbn [rbind]. unfold json_file. rewrite E. cbn [rbind]. rewrite H3.
  destruct (no_member (o_show o) c); reflexivity.
Qed.
Print Assumptions C121_document_partial.
(** With --header there is always a document *)
Theorem C121_header fmt repr reprs ffmt order read o f c this super ifs src sg em :
  (forall l, Permutation (order l) l) -> class_ok c -> read f = Ok (enc_class c) -> o_show o = 0 -> o_provides o = false -> o_requires o = false ->
  (w_pool (asked o) = true -> no_dynamic (jc_pool c) = true) -> readable_names c this super ifs src sg em ->
  classinfo_cli fmt repr reprs ffmt order true read o [f] =
    ([WJson (class_document reprs (fun b => ffmt (PF32 b)) (fun b => ffmt (PF64 b)) (asked o) false false c this super ifs src sg em [] [] [] [])], Ok 0).
Proof.
  intros HO HK HR HS HP HQ HD HN.
  assert (HQ' : o_requires o = true -> flat_arrays false c) by (rewrite HQ; discriminate).
  destruct (C121_document_partial false fmt repr reprs ffmt order read o f c this super ifs src sg em HO HK HR) as (ps & rs & _ & _ & E); try assumption; [rewrite HS; cbn; auto|].
  rewrite E. unfold no_member. rewrite HS, HP, HQ. reflexivity.
Qed.
Print Assumptions C121_header.
(** Several files: one document (or text) after the other, up to the first file that
    fails *)
Theorem C121_files fmt repr reprs ffmt order json read o done f rest :
  (forall g, In g done -> snd (classinfo_cli fmt repr reprs ffmt order json read o [g]) = Ok 0) ->
  let run fs := classinfo_cli fmt repr reprs ffmt order json read o fs in
  run done = (concat (map (fun g => fst (run [g])) done), Ok 0) /\
  forall e, snd (run [f]) = Err e -> run (done ++ f :: rest) = (concat (map (fun g => fst (run [g])) done), Err e).
Proof.
  intro HD. cbv zeta. unfold classinfo_cli in *. set (o' := cli_options o) in *. clearbody o'.
  induction done as [|g done IH].
  - split; [reflexivity|]. intros e. cbn [app each_file map concat].
    destruct (b <- read f ;; _) as [w|e'] eqn:E; [discriminate|]. cbn [snd]. intro H. injection H as ->. reflexivity.
  - destruct IH as [IH1 IH2]; [intros g' H; apply HD; now right|]. specialize (HD g (or_introl eq_refl)). cbn [app map concat]. cbn [each_file] in *.
    destruct (b <- read g ;; _) as [w|e'] eqn:E; [|discriminate HD]. cbn [fst app]. split.
    + rewrite IH1. reflexivity.
    + intros e He. rewrite (IH2 e He). reflexivity.
Qed.
Print Assumptions C121_files.

Definition json_opts (show : Z) (p q cp : bool) : popts := mkpopts false show false false false false cp false p q [].
Definition no_floats (_ : Z) : str := lit "?".
(** Example: --json --header -p --class-provides of pkg.V<T> *)
Lemma v_names : readable_names class_v (lit "pkg/V") (lit "java/lang/Object") [] (Some (lit "V.java")) (Some (lit "<T:Ljava/lang/Object;>Ljava/lang/Object;")) None.
Proof.
  split; [vm_compute; reflexivity|]. split; [right; vm_compute; reflexivity|]. split; [constructor|]. split; [exists 26; repeat split; vm_compute; reflexivity|].
  split; [exists 20; repeat split; vm_compute; reflexivity|]. apply en_none. vm_compute. reflexivity.
Qed.
Example C121_ex : class_ok class_v /\ no_member 0 class_v = true /\ no_dynamic (jc_pool class_v) = true /\
  readable_names class_v (lit "pkg/V") (lit "java/lang/Object") [] (Some (lit "V.java")) (Some (lit "<T:Ljava/lang/Object;>Ljava/lang/Object;")) None /\
  classinfo_cli fmt0 fmt0 reprs0 fmt0 (fun l => l) true (fun _ => Ok (enc_class class_v)) (json_opts 0 true false false) [lit "V.class"] =
  ([WJson [(lit "class_provides", DSeq [DText (lit "pkg.V"); DText (lit "pkg.V.max:int"); DText (lit "pkg.V.get(int,java.util.List):void")]);
           (lit "extends", DText (lit "java.lang.Object")); (lit "fields", DSeq []); (lit "implements", DSeq []); (lit "methods", DSeq []);
           (lit "name", DText (lit "pkg.V")); (lit "platform", DText (lit "1.7")); (lit "signature", DText (lit "<T:Ljava/lang/Object;>Ljava/lang/Object;"));
           (lit "source_file", DText (lit "V.java")); (lit "version", DSeq [DNumber 51; DNumber 3])]], Ok 0).
Proof. split; [exact class_v_wf|]. split; [reflexivity|]. split; [vm_compute; reflexivity|]. split; [exact v_names|]. vm_compute. reflexivity. Qed.
Example C121_header_ex : classinfo_cli fmt0 fmt0 reprs0 fmt0 (fun l => l) true (fun _ => Ok (enc_class class_v)) (json_opts 0 false false true) [lit "V.class"] =
  ([WJson (class_document reprs0 no_floats no_floats (asked (json_opts 0 false false true)) false false class_v (lit "pkg/V") (lit "java/lang/Object") [] (Some (lit "V.java"))
      (Some (lit "<T:Ljava/lang/Object;>Ljava/lang/Object;")) None [] [] [] [])], Ok 0) /\
  nth_error (pool_data reprs0 no_floats no_floats 1 v_pool) 15 = Some (DSeq [DNumber 16; DText (lit "int"); DNumber 41]).
Proof.
  split; [|vm_compute; reflexivity].
  refine (C121_header fmt0 fmt0 reprs0 fmt0 (fun l => l) (fun _ => Ok (enc_class class_v)) (json_opts 0 false false true) (lit "V.class") class_v _ _ _ _ _ _
    (fun l => Permutation_refl l) class_v_wf eq_refl eq_refl eq_refl eq_refl _ v_names). intros _. vm_compute. reflexivity.
Qed.
(** Two files, the second with a public member: its failure comes after the document
    of the first *)
Example C121_files_ex : let read f := if seqb f (lit "D.class") then Ok (enc_class class_d) else Ok (enc_class class_v) in
  exists d, classinfo_cli fmt0 fmt0 reprs0 fmt0 (fun l => l) true read (json_opts 1 false false false) [lit "D.class"; lit "V.class"; lit "D.class"] =
  ([WJson d], Err AttributeError) /\ dget d (lit "name") = Some (DText (lit "pkg.D")).
Proof.
  cbv zeta.
  exists (class_document reprs0 no_floats no_floats (asked (json_opts 1 false false false)) false false class_d (lit "pkg/D") (lit "java/lang/Object") [] None None None [] [] [] []).
  split; vm_compute; reflexivity.
Qed.
(** A class with any visible member has no document, though its text is printed *)
Theorem C121_refuted : exists c b s, class_ok c /\ b = enc_class c /\
  classinfo_cli fmt0 fmt0 reprs0 fmt0 (fun l => l) true (fun _ => Ok b) (json_opts 1 false false false) [lit "V.class"] = ([], Err AttributeError) /\
  classinfo_cli fmt0 fmt0 reprs0 fmt0 (fun l => l) false (fun _ => Ok b) (json_opts 1 false false false) [lit "V.class"] = ([WText s], Ok 0).
Proof.
  exists class_v, (enc_class class_v), (lit "Compiled from ""V.java""" ++ nl ++ lit "public class pkg.V extends java.lang.Object{" ++ nl ++
    lit "   public static final int max;" ++ nl ++ lit "   public void get(int,java.util.List);" ++ nl ++ lit "}" ++ nl ++ nl).
  split; [exact class_v_wf|]. split; [reflexivity|]. split; vm_compute; reflexivity.
Qed.
Print Assumptions C121_refuted.

(** ** C122: the data of members *)
(** cli_simplify_field and cli_simplify_method of the members of an unpacked class *)
Theorem C122_field fmt reprs ffmt c r k jm d : class_ok c -> unpack_class (enc_class c) MNone = Ok r -> nth_error (jc_fields c) k = Some jm ->
  field_data reprs (fun b => ffmt (PF32 b)) (fun b => ffmt (PF64 b)) c jm d ->
  exists m, nth_error (c_fields r) k = Some m /\ simplify_field fmt reprs ffmt (Member (c_pool r) m) = Ok d.
Proof.
  intros [HJ _] HU HK HD. destruct (unpack_class_roundtrip c [] HJ) as (r' & E & _ & _ & _ & HC). rewrite app_nil_r, HU in E. injection E as <-.
  pose proof HC as (_ & _ & _ & _ & _ & _ & HF & _). revert k HK. generalize dependent (c_fields r). intros ms HF.
  assert (G : forall k jm, nth_error (jc_fields c) k = Some jm -> exists m, nth_error ms k = Some m /\ member_shows (jc_pool c) false jm m).
  { clear -HF. induction HF as [|x m l l' H HF IH]; intros [|k] jm HK; try discriminate HK; [|now apply IH]. injection HK as <-. now exists m. }
  intros k HK. destruct (G k jm HK) as (m & Hm & HM). exists m. split; [exact Hm|]. exact (field_ok_data fmt reprs ffmt c r jm m d HC HM HD).
Qed.
Print Assumptions C122_field.
Theorem C122_method fmt c r k jm d : class_ok c -> unpack_class (enc_class c) MNone = Ok r -> nth_error (jc_methods c) k = Some jm ->
  method_data c jm d -> exists m, nth_error (c_methods r) k = Some m /\ simplify_method fmt (Member (c_pool r) m) = Ok d.
Proof.
  intros [HJ _] HU HK HD. destruct (unpack_class_roundtrip c [] HJ) as (r' & E & _ & _ & _ & HC). rewrite app_nil_r, HU in E. injection E as <-.
  pose proof HC as (_ & _ & _ & _ & _ & _ & _ & HF & _). revert k HK. generalize dependent (c_methods r). intros ms HF.
  assert (G : forall k jm, nth_error (jc_methods c) k = Some jm -> exists m, nth_error ms k = Some m /\ member_shows (jc_pool c) true jm m).
  { clear -HF. induction HF as [|x m l l' H HF IH]; intros [|k] jm HK; try discriminate HK; [|now apply IH]. injection HK as <-. now exists m. }
  intros k HK. destruct (G k jm HK) as (m & Hm & HM). exists m. split; [exact Hm|]. exact (method_ok_data fmt c r jm m d HC HM HD).
Qed.
Print Assumptions C122_method.
Definition v_field_data : list (str * data) :=
  [(lit "name", DText (lit "max")); (lit "type", DText (lit "int")); (lit "access_flags", DSeq [DText (lit "public"); DText (lit "static"); DText (lit "final")]);
   (lit "constant_value", DSeq [DText (lit "int"); DNumber 41])].
Definition v_method_data : list (str * data) :=
  [(lit "name", DText (lit "get")); (lit "type", DText (lit "void")); (lit "access_flags", DSeq [DText (lit "public")]);
   (lit "arg_types", DSeq [DText (lit "int"); DText (lit "java.util.List")]); (lit "signature", DText (lit "(ITT;)V"))].
Example C122_ex : field_data reprs0 no_floats no_floats class_v v_field v_field_data /\ method_data class_v v_method v_method_data.
Proof.
  split.
  - refine (fd_intro reprs0 no_floats no_floats class_v v_field (lit "max") (TPrim PInt_) None [(lit "constant_value", DSeq [DText (lit "int"); DNumber 41])] _ _ _ _).
    + constructor; [now left| | |]; vm_compute; reflexivity.
    + apply bits_ok; [vm_compute; discriminate|vm_compute; reflexivity].
    + vm_compute. reflexivity.
    + apply (cd_some reprs0 no_floats no_floats class_v v_field 16 (JInteger 41)); vm_compute; reflexivity.
  - refine (md_intro class_v v_method (lit "get") [TPrim PInt_; TObj (lit "java/util/List")] None (Some (lit "(ITT;)V")) _ _ _).
    + constructor; [now left| | |]; vm_compute; reflexivity.
    + apply bits_ok; [vm_compute; discriminate|vm_compute; reflexivity].
    + exists 21. repeat split; vm_compute; reflexivity.
Qed.
(** A field with the attribute Deprecated is not said to be deprecated *)
Definition dep_pool : list jconst :=
  [ JClass 2; JUtf8 (lit "pkg/O"); JClass 4; JUtf8 (lit "java/lang/Object"); JUtf8 (lit "old"); JUtf8 (lit "J"); JUtf8 (lit "Deprecated") ].
Definition class_dep : jclassfile := mkjclass 0 52 dep_pool 33 1 3 [] [mkjmember 1 5 6 [mkjattr 7 []]] [] [].
Theorem C122_deprecated_refuted : exists c r m d, jclassfile_ok c = true /\ unpack_class (enc_class c) MNone = Ok r /\ c_fields r = [m] /\
  last_named (jc_pool c) (jm_attrs (hd (mkjmember 0 0 0 []) (jc_fields c))) (lit "Deprecated") = Some [] /\
  simplify_field fmt0 reprs0 fmt0 (Member (c_pool r) m) = Ok d /\ dget d (lit "deprecated") = None.
Proof.
  destruct (unpack_class (enc_class class_dep) MNone) as [r|e] eqn:E; [|vm_compute in E; discriminate E].
  exists class_dep, r, (hd (mkmember 0 0 0 [] false) (c_fields r)), [(lit "name", DText (lit "old")); (lit "type", DText (lit "long")); (lit "access_flags", DSeq [DText (lit "public")])].
  split; [vm_compute; reflexivity|]. split; [exact E|]. vm_compute in E. injection E as <-. repeat split; vm_compute; reflexivity.
Qed.
Print Assumptions C122_deprecated_refuted.

(** Property C118: annotations on the page of a class comparison. *)
From Verif Require Import Base Pack_Model ConstPool_Model ConstPool_Spec ConstPool_Proofs ClassFile_Model ClassFile_Spec ClassFile_Proofs Descr_Spec Anno_Model Anno_Spec Anno_Proofs
  Change_Model Classdiff_Model Classdiff_Spec Html_Model Html_Spec P_Html Verbose_Spec Annopage_Spec Annopage_Proofs.
From Verif Require Import Html_Page Html_Members P_Classdiff.

(** Where the annotations differ: a table of both sides, row by row, each row marked.
    Partial: the text of an annotation without elements is missing, see below. *)
Theorem C118_changed_partial fmt repr reprs ffmt e o l r page kind visible dl dr jl jr al ar vs ws :
  class_html fmt repr reprs ffmt e o l r = Ok page -> compared fmt l r kind dl dr ->
  pool_shows jl (c_pool l) -> pool_shows jr (c_pool r) -> attrs_show jl al dl -> attrs_show jr ar dr ->
  carries jl al (attr_name visible) vs -> carries jr ar (attr_name visible) ws -> ~ same_seen vs ws ->
  exists part, titled_part page part (part_state kind visible true) (part_title kind visible) /\ shows_table part 3 (both_grid vs ws) /\
    forall i, (i < Nat.max (length vs) (length ws))%nat -> exists m, marks_row part i (side_text vs i) (side_text ws i) m /\ (m = false <-> same_at vs ws i).
Proof.
  intros H K PL PR AL AR CL CR N. destruct (page_annos _ _ _ _ _ _ _ _ _ _ visible _ _ H K) as (c & part & C & HP & W).
  destruct (annos_part _ _ _ _ _ _ _ _ _ _ _ _ _ _ _ _ _ _ C HP PL PR AL AR CL CR) as (b & B & T & S). destruct b; [|exfalso; apply N; now apply B].
  exists part. split; [|exact S]. destruct T as [_ T]. split; [exact W|]. revert T. unfold part_state, part_title, kind_name, kind_label. rewrite !lit_append. destruct visible; rewrite <- !app_assoc; exact (fun x => x).
Qed.
Print Assumptions C118_changed_partial.
(** Where they do not: the annotations, once. *)
Theorem C118_unchanged fmt repr reprs ffmt e o l r page kind visible dl dr jl jr al ar vs ws :
  class_html fmt repr reprs ffmt e o l r = Ok page -> compared fmt l r kind dl dr ->
  pool_shows jl (c_pool l) -> pool_shows jr (c_pool r) -> attrs_show jl al dl -> attrs_show jr ar dr ->
  carries jl al (attr_name visible) vs -> carries jr ar (attr_name visible) ws -> same_seen vs ws ->
  exists part, titled_part page part (part_state kind visible false) (part_title kind visible) /\ shows_table part 2 (alone_grid vs).
Proof.
  intros H K PL PR AL AR CL CR N. destruct (page_annos _ _ _ _ _ _ _ _ _ _ visible _ _ H K) as (c & part & C & HP & W).
  destruct (annos_part _ _ _ _ _ _ _ _ _ _ _ _ _ _ _ _ _ _ C HP PL PR AL AR CL CR) as (b & B & T & S). destruct b; [apply B in N; discriminate|].
  exists part. split; [|exact S]. destruct T as [_ T]. split; [exact W|]. revert T. unfold part_state, part_title, kind_name, kind_label. rewrite !lit_append. destruct visible; rewrite <- !app_assoc; exact (fun x => x).
Qed.
Print Assumptions C118_unchanged.

(** Example: class A, field f @Anno(k=7) @Old(k=7) becomes f @Anno(k=8) *)
Definition an_consts (z : Z) : list jconst :=
  [JUtf8 (lit "A"); JClass 1; JUtf8 (lit "LAnno;"); JUtf8 (lit "k"); JInteger z; JUtf8 (lit "RuntimeVisibleAnnotations"); JUtf8 (lit "LOld;"); JUtf8 (lit "f"); JUtf8 (lit "I")].
Definition an_elems (t : Z) : Z * list (Z * jval) := (t, [(4, VConst 73 5)]).
Definition an_attrs (annos : list (Z * list (Z * jval))) : attrs := [(PStr (lit "RuntimeVisibleAnnotations"), enc_annos annos)].
Definition an_field (annos : list (Z * list (Z * jval))) : member := mkmember 1 8 9 (an_attrs annos) false.
Definition an_class (z : Z) (annos : list (Z * list (Z * jval))) : classinfo :=
  mkclass (52, 0) (KNone :: slots (an_consts z)) 33 2 2 [] [an_field annos] [] [].
Definition an_seen (z : Z) (s : str) (ty : str) : seen := mkseen true s (RAnno (PStr ty) [(lit "k", RConst 73 (PInt z))]).
Lemma an_attrs_show z annos : attrs_show (an_consts z) [mkjattr 6 (enc_annos annos)] (an_attrs annos).
Proof.
  split.
  - intro n. unfold get_attribute. cbn [aget py_eq last_named ja_name ja_data an_attrs]. change (jutf8_at (an_consts z) 6) with (Some (lit "RuntimeVisibleAnnotations")). reflexivity.
  - intros _. split; reflexivity.
Qed.
Lemma an_text z t ty : jutf8_at (an_consts z) t = Some (desc ty) -> anno_text (an_consts z) (an_elems t) (type_name ty ++ lit "(k=I#5)").
Proof.
  intro H. refine (at_intro (an_consts z) t [(4, VConst 73 5)] ty [lit "k=I#5"] H _). constructor; [|constructor].
  apply (et_intro (an_consts z) 4 (lit "k") (VConst 73 5) (lit "I#5")); [reflexivity|]. exact (vt_const (an_consts z) 73 5).
Qed.
Lemma an_left : carries (an_consts 7) [mkjattr 6 (enc_annos [an_elems 3; an_elems 7])] (attr_name true) [an_seen 7 (lit "Anno(k=I#5)") (lit "LAnno;"); an_seen 7 (lit "Old(k=I#5)") (lit "LOld;")].
Proof.
  right. exists [an_elems 3; an_elems 7]. split; [vm_compute; reflexivity|]. split; [reflexivity|]. constructor; [|constructor; [|constructor]].
  - apply (sa_intro (an_consts 7) (an_elems 3)); [vm_compute; reflexivity| |vm_compute; reflexivity]. exact (an_text 7 3 (TObj (lit "Anno")) eq_refl).
  - apply (sa_intro (an_consts 7) (an_elems 7)); [vm_compute; reflexivity| |vm_compute; reflexivity]. exact (an_text 7 7 (TObj (lit "Old")) eq_refl).
Qed.
Lemma an_right : carries (an_consts 8) [mkjattr 6 (enc_annos [an_elems 3])] (attr_name true) [an_seen 8 (lit "Anno(k=I#5)") (lit "LAnno;")].
Proof.
  right. exists [an_elems 3]. split; [vm_compute; reflexivity|]. split; [reflexivity|]. constructor; [|constructor].
  apply (sa_intro (an_consts 8) (an_elems 3)); [vm_compute; reflexivity| |vm_compute; reflexivity]. exact (an_text 8 3 (TObj (lit "Anno")) eq_refl).
Qed.
Lemma an_compared z z' la ra : compared no_fmt (an_class z la) (an_class z' ra) "Field" (an_attrs la) (an_attrs ra).
Proof.
  apply (cmp_field no_fmt (an_class z la) (an_class z' ra) (an_field la) (an_field ra)); [apply distinct_by with [PStr (lit "f")]; vm_compute; reflexivity|apply distinct_by with [PStr (lit "f")]; vm_compute; reflexivity|now left|now left|apply same_by with (lit "f"); vm_compute; reflexivity].
Qed.
Lemma an_differ s s' : ~ same_at [an_seen 7 s (lit "LAnno;"); an_seen 7 s' (lit "LOld;")] [an_seen 8 s (lit "LAnno;")] 0.
Proof.
  intro M2. cbn in M2. inversion M2 as [| | |? ? ? ? ? HT HP HE|]; subst. apply Permutation.Permutation_length_1_inv in HP as ->. inversion HE as [|? ? ? ? [_ HQ] _]; subst. cbn [snd] in HQ. inversion HQ as [? ? ? E| | | |]; subst. vm_compute in E. discriminate E.
Qed.
Example C118_ex : exists page part, h_page (an_class 7 [an_elems 3; an_elems 7]) (an_class 8 [an_elems 3]) = Ok page /\
  titled_part page part (lit "Change FieldAnnotationsChange is_changed") (lit "Field runtime annotations") /\
  shows_table part 3 [map lit ["Index"; "Annotation"; "Annotation"]%string; map lit ["Index"; "Original"; "Changed"]%string;
    map lit ["0"; "Anno(k=I#5)"; "Anno(k=I#5)"]%string; map lit ["1"; "Old(k=I#5)"; ""]%string] /\
  marks_row part 0 (lit "Anno(k=I#5)") (lit "Anno(k=I#5)") true.
Proof.
  destruct (page_ok (an_class 7 [an_elems 3; an_elems 7]) (an_class 8 [an_elems 3])) as (page & P); [vm_compute; reflexivity|]. exists page.
  destruct (C118_changed_partial no_fmt h_repr no_repr no_fmt e_none strict _ _ page "Field" true _ _ (an_consts 7) (an_consts 8) _ _ _ _ P
    (an_compared 7 8 [an_elems 3; an_elems 7] [an_elems 3]) (pool_shows_parsed _) (pool_shows_parsed _) (an_attrs_show 7 _) (an_attrs_show 8 _) an_left an_right) as (part & T & G & M).
  - intro H. apply Forall2_length in H. discriminate.
  - exists part. split; [exact P|]. split; [exact T|]. split; [exact G|]. destruct (M O) as (m & M1 & M2); [cbn; lia|]. destruct m; [exact M1|].
    exfalso. exact (an_differ _ _ (proj1 M2 eq_refl)).
Qed.
(** The value that changed is not to be seen: constants are shown by their index. *)
Theorem C118_value_refuted : exists l r page part s, l = an_class 7 [an_elems 3; an_elems 7] /\ r = an_class 8 [an_elems 3] /\
  (exists vs ws, carries (an_consts 7) [mkjattr 6 (enc_annos [an_elems 3; an_elems 7])] (attr_name true) vs /\ carries (an_consts 8) [mkjattr 6 (enc_annos [an_elems 3])] (attr_name true) ws /\ ~ same_at vs ws 0) /\
  h_page l r = Ok page /\ titled_part page part (lit "Change FieldAnnotationsChange is_changed") (lit "Field runtime annotations") /\ marks_row part 0 s s true.
Proof.
  exists (an_class 7 [an_elems 3; an_elems 7]), (an_class 8 [an_elems 3]). destruct C118_ex as (page & part & P & T & _ & M). exists page, part, (lit "Anno(k=I#5)"). do 2 (split; [reflexivity|]).
  split; [|now split]. eexists _, _. split; [exact an_left|]. split; [exact an_right|]. exact (an_differ _ _).
Qed.
Print Assumptions C118_value_refuted.
(** An annotation without elements that was added, e.g. java.lang.Deprecated, is shown as a blank. *)
Theorem C118_marker_refuted : exists l r page, l = an_class 7 [] /\ r = an_class 7 [(7, [])] /\
  anno_text (an_consts 7) (7, []) (lit "Old()") /\ h_page l r = Ok page /\ existsb (says "Old()") page = false.
Proof.
  exists (an_class 7 []), (an_class 7 [(7, [])]). destruct (page_ok (an_class 7 []) (an_class 7 [(7, [])])) as (page & P); [vm_compute; reflexivity|]. exists page. do 2 (split; [reflexivity|]).
  split; [exact (at_intro (an_consts 7) 7 [] (TObj (lit "Old")) [] eq_refl (Forall2_nil _))|]. split; [exact P|].
  assert (Q : match h_page (an_class 7 []) (an_class 7 [(7, [])]) with Ok p => negb (existsb (says "Old()") p) | Err _ => false end = true) by (vm_compute; reflexivity).
  rewrite P in Q. now destruct (existsb _ page).
Qed.
Print Assumptions C118_marker_refuted.
Example C118_unchanged_ex : exists page part, h_page (an_class 7 [an_elems 3; an_elems 7]) (an_class 7 [an_elems 3; an_elems 7]) = Ok page /\
  titled_part page part (lit "Change FieldAnnotationsChange is_unchanged") (lit "Field runtime annotations") /\
  shows_table part 2 [map lit ["Index"; "Annotation"]%string; map lit ["0"; "Anno(k=I#5)"]%string; map lit ["1"; "Old(k=I#5)"]%string].
Proof.
  destruct (page_ok (an_class 7 [an_elems 3; an_elems 7]) (an_class 7 [an_elems 3; an_elems 7])) as (page & P); [vm_compute; reflexivity|]. exists page.
  destruct (C118_unchanged no_fmt h_repr no_repr no_fmt e_none strict _ _ page "Field" true _ _ (an_consts 7) (an_consts 7) _ _ _ _ P
    (an_compared 7 7 [an_elems 3; an_elems 7] [an_elems 3; an_elems 7]) (pool_shows_parsed _) (pool_shows_parsed _) (an_attrs_show 7 _) (an_attrs_show 7 _) an_left an_left) as (part & T & G).
  - assert (R : forall t, py_eq t t = true -> req (RAnno t [(lit "k", RConst 73 (PInt 7))]) (RAnno t [(lit "k", RConst 73 (PInt 7))])).
    { intros t Ht. apply (q_anno _ _ _ _ [(lit "k", RConst 73 (PInt 7))]); [exact Ht|reflexivity|]. constructor; [|constructor]. split; [reflexivity|]. constructor. reflexivity. }
    constructor; [apply R; reflexivity|]. constructor; [apply R; reflexivity|]. constructor.
  - exists part. split; [exact P|]. split; [exact T|exact G].
Qed.

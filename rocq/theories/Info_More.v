(** Further proofs about the information commands. *)
From Verif Require Import Base Pack_Model ConstPool_Model ConstPool_Spec ConstPool_Deref ClassFile_Model
  ClassFile_Spec ClassFile_Proofs Descr_Model Descr_Spec Descr_Proofs Manifest_Model
  Change_Model Classdiff_Model Jardiff_Model Jardiff_Proofs Distdiff_Model Distdiff_Spec Distdiff_Proofs Info_Model Info_Spec Info_Class Info_Jar.
From Verif Require Zip_Model Zip_Spec Zip_Proofs Dir_Spec.

(** ** Exploded jars and zipped distributions *)
Lemma insert_In x y l : In x (Zip_Model.insert_name y l) <-> x = y \/ In x l.
Proof.
  induction l as [|z l IH]; cbn [Zip_Model.insert_name In]; [intuition congruence|]. destruct (sle y z); cbn [In]; [intuition congruence|]. rewrite IH. intuition congruence.
Qed.
Lemma sort_In x l : In x (Zip_Model.sort_names l) <-> In x l.
Proof. unfold Zip_Model.sort_names. induction l as [|y l IH]; cbn [fold_right In]; [reflexivity|]. rewrite insert_In, IH. intuition congruence. Qed.

Lemma exploded_api fmt repr text order a n : Zip_Model.a_kind a = Zip_Model.Exploded -> Zip_Model.a_open a = true ->
  In n (Zip_Spec.names a) -> class_entry n -> exists e, jar_api fmt repr text order (Ok a) = Err e.
Proof.
  intros K O HI HC. unfold jar_api. cbn [rbind]. unfold jar_classes, Zip_Model.namelist. rewrite K, O. cbn [rbind].
  assert (HF : In n (filter is_classfile (Zip_Model.sort_names (Zip_Model.nodup_names (map Zip_Model.e_name (Zip_Model.a_entries a)))))).
  { apply filter_In. split; [|now apply class_entry_iff]. apply sort_In, nodup_names_In. exact HI. }
  destruct (filter _ _) as [|m es]; [destruct HF|]. cbn [jar_loop]. assert (HX : exists e, jar_classinfo text a m = Err e).
  { unfold jar_classinfo, read_entry. rewrite K. destruct (Zip_Model.find_entry _ m); cbn [rbind]; [|eauto]. destruct (text _) as [t|]; cbn [rbind]; [|eauto]. destruct (length t <? 4)%nat; eauto. }
  destruct HX as [e ->]. cbn [rbind]. eauto.
Qed.
Lemma exploded_fails fmt repr text order a n ignored : Zip_Model.a_kind a = Zip_Model.Exploded -> Zip_Model.a_open a = true ->
  In n (Zip_Spec.names a) -> class_entry n ->
  (exists e, jar_requires fmt repr text order (Ok a) ignored = Err e) /\ exists e, jar_provides fmt repr text order (Ok a) ignored = Err e.
Proof.
  intros K O HI HC. destruct (exploded_api fmt repr text order a n K O HI HC) as [e E]. unfold jar_requires, jar_provides. rewrite E. cbn [rbind]. eauto.
Qed.

Lemma zipped_fails fmt repr text order unzip t p ignored :
  Zip_Model.is_dir t = true -> Dir_Spec.plain t -> names_ok t ->
  Dir_Spec.file_at t p -> jar_entry (Zip_Model.slashes p) \/ class_entry (Zip_Model.slashes p) ->
  dist_requires fmt repr text order unzip (mkdist true t) ignored = Err FileNotFoundError /\
  dist_provides fmt repr text order unzip (mkdist true t) ignored = Err FileNotFoundError.
Proof.
  intros D HP HN HF HE. assert (HI : In (Zip_Model.slashes p) (dist_contents (mkdist true t))) by (apply contents_In; eauto).
  assert (E : dist_api fmt repr text order unzip (mkdist true t) = Err FileNotFoundError).
  { unfold dist_api. destruct (dist_jars (mkdist true t)) as [|j js] eqn:EJ.
    - cbn [dist_jar_loop rbind]. destruct (dist_classes (mkdist true t)) as [|k ks] eqn:EC.
      + exfalso. destruct HE as [H|H].
        * assert (X : In (Zip_Model.slashes p) (dist_jars (mkdist true t))) by (apply filter_In; split; [exact HI|now apply is_jar_iff]). rewrite EJ in X. destruct X.
        * assert (X : In (Zip_Model.slashes p) (dist_classes (mkdist true t))) by (apply filter_In; split; [exact HI|now apply class_entry_iff]). rewrite EC in X. destruct X.
      + reflexivity.
    - cbn [dist_jar_loop]. unfold dist_jarinfo, dist_open. cbn [d_zipped rbind]. reflexivity. }
  unfold dist_requires, dist_provides. rewrite E. split; reflexivity.
Qed.

(** ** Which members are shown *)
Lemma flag0 f : flag ACC_PUBLIC f = Z.testbit f 0.
Proof. exact (flag_bit 0 f (Z.le_refl 0)). Qed.
Lemma flag2 f : flag ACC_PROTECTED f = Z.testbit f 2.
Proof. exact (flag_bit 2 f ltac:(lia)). Qed.
Lemma should_show_iff show m : should_show show m = true <->
  (show = SHOW_PUBLIC /\ Z.testbit (m_flags m) 0 = true) \/
  (show = SHOW_PACKAGE /\ (Z.testbit (m_flags m) 0 = true \/ Z.testbit (m_flags m) 2 = true)) \/ show = SHOW_PRIVATE.
Proof.
  unfold should_show. rewrite flag0, flag2. unfold SHOW_PUBLIC, SHOW_PACKAGE, SHOW_PRIVATE.
  destruct (Z.eqb_spec show 1) as [->|N1]; [intuition lia|]. destruct (Z.eqb_spec show 3) as [->|N3]; [rewrite orb_true_iff; intuition lia|].
  destruct (Z.eqb_spec show 7) as [->|N7]; intuition (try lia; try discriminate).
Qed.
Lemma shown_spec show c :
  (forall m, In m (shown_members show c) <-> In m (c_fields c ++ c_methods c) /\
     ((show = SHOW_PUBLIC /\ Z.testbit (m_flags m) 0 = true) \/
      (show = SHOW_PACKAGE /\ (Z.testbit (m_flags m) 0 = true \/ Z.testbit (m_flags m) 2 = true)) \/
      show = SHOW_PRIVATE)) /\
  picks (fun m => should_show show m = true /\ show <> SHOW_HEADER) (c_fields c ++ c_methods c) (shown_members show c).
Proof.
  assert (P : picks (fun m => should_show show m = true /\ show <> SHOW_HEADER) (c_fields c ++ c_methods c) (shown_members show c)).
  { unfold shown_members. destruct (Z.eqb_spec show SHOW_HEADER) as [->|N].
    - induction (c_fields c ++ c_methods c) as [|m l IH]; constructor; [tauto|exact IH].
    - rewrite <- filter_app. apply picks_filter. intro m. tauto. }
  split; [|exact P]. intro m. rewrite (picks_In _ _ _ P m), should_show_iff. unfold SHOW_PUBLIC, SHOW_PACKAGE, SHOW_PRIVATE, SHOW_HEADER. intuition lia.
Qed.
Lemma show_monotone show show' m : In show [SHOW_HEADER; SHOW_PUBLIC; SHOW_PACKAGE; SHOW_PRIVATE] ->
  In show' [SHOW_HEADER; SHOW_PUBLIC; SHOW_PACKAGE; SHOW_PRIVATE] -> show <= show' ->
  should_show show m = true -> should_show show' m = true.
Proof.
  rewrite !should_show_iff. unfold SHOW_PUBLIC, SHOW_PACKAGE, SHOW_PRIVATE, SHOW_HEADER. cbn [In]. intros H H' L. intuition (subst; try lia; auto).
Qed.
Lemma show_public show m : In show [SHOW_PUBLIC; SHOW_PACKAGE; SHOW_PRIVATE] -> Z.testbit (m_flags m) 0 = true -> should_show show m = true.
Proof. rewrite should_show_iff. cbn [In]. intros H B. intuition. Qed.
Lemma show_private show m : In show [SHOW_HEADER; SHOW_PUBLIC; SHOW_PACKAGE; SHOW_PRIVATE] ->
  Z.testbit (m_flags m) 0 = false -> Z.testbit (m_flags m) 2 = false -> (should_show show m = true <-> show = SHOW_PRIVATE).
Proof. intros H B0 B2. rewrite should_show_iff, B0, B2. intuition discriminate. Qed.

Lemma simplify_fails show ms m : In m ms -> should_show show m = true -> simplify_members show ms = Err AttributeError.
Proof.
  intros H1 H2. unfold simplify_members. assert (X : In m (filter (should_show show) ms)) by (now apply filter_In). destruct (filter (should_show show) ms); [destruct X|reflexivity].
Qed.

(** ** Constants *)
Section Consts.
Variables fmt repr : pyval -> str.
Variables (l : list jconst) (p : pool).
Hypothesis HS : pool_shows l p.
Lemma at_const i k : jat l i = Some k -> get_const p i = Ok (shown_const k).
Proof. intro E. pose proof (jat_pos _ _ _ E). destruct HS as [_ HP]. rewrite (HP i) by lia. now rewrite E. Qed.
Lemma pretty_consts :
  (forall i n, jclass_at l i = Some n -> pretty_deref_const fmt repr p i = Ok (PStr (dotted n))) /\
  (forall i n s, jnt_at l i = Some (n, sig_desc s) -> sig_ok s = true -> pretty_deref_const fmt repr p i =
     Ok (PStr (n ++ lit ":" ++ match s with SField t => type_name t | SMethod x ret => lit "(" ++ concat_with (lit ",") (map type_name x) ++ lit ")" ++ ret_name ret end))) /\
  (forall i s, jutf8_at l i = Some s -> pretty_deref_const fmt repr p i = Ok (PStr s)) /\
  (forall i j s, jat l i = Some (JString j) -> jutf8_at l j = Some s -> pretty_deref_const fmt repr p i = Ok (PStr s)) /\
  (forall i z, jat l i = Some (JInteger z) \/ jat l i = Some (JLong z) -> pretty_deref_const fmt repr p i = Ok (PInt z)).
Proof.
  split; [intros i n; now apply pretty_deref_class with (l := l)|]. split; [intros i n s; now apply pretty_deref_nt|]. split; [|split].
  - intros i s H. unfold jutf8_at in H. destruct (jat l i) as [[]|] eqn:E; try discriminate. injection H as ->. unfold pretty_deref_const. now rewrite (at_const _ _ E).
  - intros i j s E H. unfold pretty_deref_const. rewrite (at_const _ _ E). cbn [rbind shown_const]. change (8 =? CONST_String) with true. cbn match. exact (jutf8_deref _ _ _ _ HS H).
  - intros i z [E|E]; unfold pretty_deref_const; now rewrite (at_const _ _ E).
Qed.
Lemma pretty_fails i :
  (forall k j, jat l i = Some (JMethodHandle k j) -> pretty_deref_const fmt repr p i = Err UnknownConstantPoolTag) /\
  (forall j, jat l i = Some (JMethodType j) -> pretty_deref_const fmt repr p i = Err TypeError) /\
  (forall j, jat l i = Some (JModule j) \/ jat l i = Some (JPackage j) -> pretty_deref_const fmt repr p i = Err AttributeError).
Proof.
  unfold pretty_deref_const. split; [|split].
  - intros k j E. now rewrite (at_const _ _ E).
  - intros j E. now rewrite (at_const _ _ E).
  - intros j [E|E]; now rewrite (at_const _ _ E).
Qed.
End Consts.

(** ** The summary of a jar *)
Lemma zip_info_spec a : Zip_Model.a_kind a = Zip_Model.Zip -> Forall (fun e => Zip_Model.e_name e <> []) (Zip_Model.a_entries a) ->
  let files := filter (fun e => negb (Zip_Spec.is_directory (Zip_Model.e_name e))) (Zip_Model.a_entries a) in
  let size := fold_right Z.add 0 (map Zip_Model.e_size files) in
  jar_zip_info a =
  if size =? 0 then Err ZeroDivisionError
  else Ok (Z.of_nat (length files), Z.of_nat (length (Zip_Model.a_entries a)) - Z.of_nat (length files), fold_right Z.add 0 (map Zip_Model.e_csize files), size).
Proof.
  intros K HN files size. unfold jar_zip_info, Zip_Model.zip_entry_rollup, Zip_Model.infolist. rewrite K. cbn [rbind]. rewrite (Zip_Proofs.rollup_spec _ HN 0 0 0 0). cbn [rbind Z.add].
  fold files. change (Zip_Spec.zsum (map Zip_Model.e_size files)) with size. destruct (size =? 0); [reflexivity|].
  assert (X : Z.of_nat (length (filter (fun e => Zip_Spec.is_directory (Zip_Model.e_name e)) (Zip_Model.a_entries a))) = Z.of_nat (length (Zip_Model.a_entries a)) - Z.of_nat (length files)).
  { unfold files. clear. induction (Zip_Model.a_entries a) as [|e l IH]; [reflexivity|]. cbn [filter length]. destruct (Zip_Spec.is_directory (Zip_Model.e_name e)); cbn [negb length]; lia. }
  rewrite X. reflexivity.
Qed.

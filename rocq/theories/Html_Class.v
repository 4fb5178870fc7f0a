(** The values of fields and classes, constants and annotations on the page. *)
From Verif Require Import Base Pack_Model ConstPool_Model ClassFile_Model Descr_Model Descr_Spec Descr_Proofs Opcodes_Model Opcodes_Spec Opcodes_Proofs Anno_Model
  Change_Model Change_Spec Change_Proofs Change_Report Classdiff_Model Classdiff_Spec Classdiff_Members Classdiff_Code Classdiff_Class Classdiff_Merge Info_Model Info_Spec Print_Model Print_Spec Print_Code Print_Decl Report_Model
  Html_Model Html_Spec Html_Table Html_Page Html_Members Html_Values.
From Coq Require Import Permutation Sorting.Sorted.

Section Class.
Variable fmt : pyval -> str.
Variable repr : pyval -> str.
Variable reprs : str -> str.

(** ** Fields *)
Record known_field (p : pool) (m : member) (n : str) (t : jtype) (sig : option str) (cv : option pyval) : Prop := {
  kf_field : m_is_method m = false;
  kf_name : m_name p m = Ok (PStr n);
  kf_desc : m_descriptor p m = Ok (PStr (desc t));
  kf_ok : jtype_ok t = true;
  kf_bits : only_bits field_bits (m_flags m);
  kf_sig : get_signature p (m_attrs m) = Ok (option_map PStr sig);
  kf_const : deref_constantvalue p m = Ok cv }.
Definition const_shown (v : option pyval) : str := esc (match v with Some v => repr v | None => lit "None" end).

Lemma field_page o c lp rp a b h n t sig cv n' t' sig' cv' : check (field_change fmt reprs lp rp a b) = Ok c -> field_html fmt repr o c lp rp a b = Ok h ->
  known_field lp a n t sig cv -> known_field rp b n' t' sig' cv' ->
  shows_heading h (esc n) /\
  exists r1 r2 r3 r4 r5 r6,
     value_rows "Field Name" (n = n') True (esc n) (esc n') r1 /\
     value_rows "Field Type" (t = t') True (type_name t) (type_name t') r2 /\
     value_rows "Field Flags" (m_flags a = m_flags b) True (flags_shown field_table (m_flags a)) (flags_shown field_table (m_flags b)) r3 /\
     value_rows "Generics Signature" (sig = sig') (has_text sig) (sig_shown sig) (sig_shown sig') r4 /\
     value_rows "Const Value" (opt_rel pyeq cv cv') (py_true cv = true) (const_shown cv) (const_shown cv') r5 /\
     value_rows "Deprecated" (is_deprecated (m_attrs a) = is_deprecated (m_attrs b)) (is_deprecated (m_attrs a) = true)
       (truth (is_deprecated (m_attrs a))) (truth (is_deprecated (m_attrs b))) r6 /\
     shows_table h 2 (r1 ++ r2 ++ r3 ++ r4 ++ r5 ++ r6).
Proof.
  intros HC HH KL KR. unfold field_change in HC. cbv zeta in HC. apply check_super in HC as (_ & kids & HF & HK & _).
  unfold field_html in HH. rewrite HK in HH. cbn [rbind] in HH. split_parts HF. names. find_part HH.
  assert (TL : m_pretty_type fmt lp a = Ok (type_name t)) by (unfold m_pretty_type, m_type, m_desc_str; rewrite (kf_desc _ _ _ _ _ _ KL); cbn [rbind pct_s]; rewrite (proj2 (field_split t (kf_ok _ _ _ _ _ _ KL))); apply pretty_desc).
  assert (TR : m_pretty_type fmt rp b = Ok (type_name t')) by (unfold m_pretty_type, m_type, m_desc_str; rewrite (kf_desc _ _ _ _ _ _ KR); cbn [rbind pct_s]; rewrite (proj2 (field_split t' (kf_ok _ _ _ _ _ _ KR))); apply pretty_desc).
  rewrite TL, TR, (kf_name _ _ _ _ _ _ KL), (kf_name _ _ _ _ _ _ KR), (kf_sig _ _ _ _ _ _ KL), (kf_sig _ _ _ _ _ _ KR), (kf_const _ _ _ _ _ _ KL), (kf_const _ _ _ _ _ _ KR) in HH. cbn [rbind esc_v] in HH.
  rewrite !escape_is in HH. steps HH.
  rewrite (kf_name _ _ _ _ _ _ KL), (kf_name _ _ _ _ _ _ KR) in C. rewrite (kf_desc _ _ _ _ _ _ KL), (kf_desc _ _ _ _ _ _ KR) in C0. rewrite (kf_sig _ _ _ _ _ _ KL), (kf_sig _ _ _ _ _ _ KR) in C1.
  rewrite (kf_const _ _ _ _ _ _ KL), (kf_const _ _ _ _ _ _ KR) in C5.
  apply within_change_div in HH. split.
  - eapply heading_within; [exact HH|]. apply within_l. exists [], []. reflexivity.
  - match type of C with check ?x = _ => assert (Q1 : quiet x <-> n = n') by (unfold leaf_of; leaf_tac; rewrite agree_ok; unfold pyeq; cbn [py_eq]; apply seqb_iff) end.
    match type of C0 with check ?x = _ => assert (Q2 : quiet x <-> t = t') by (unfold leaf_of; leaf_tac; rewrite agree_ok; unfold pyeq; cbn [py_eq]; rewrite seqb_iff; split; [apply desc_inj|now intros ->]) end.
    match type of C4 with check ?x = _ => assert (Q3 : quiet x <-> m_flags a = m_flags b) by (unfold leaf_of; leaf_tac; rewrite agree_ok; reflexivity) end.
    match type of C1 with check ?x = _ => assert (Q4 : quiet x <-> sig = sig') by (unfold leaf_of; leaf_tac; rewrite agree_ok; apply opt_pyeq) end.
    match type of C5 with check ?x = _ => assert (Q5 : quiet x <-> opt_rel pyeq cv cv') by (unfold leaf_of; leaf_tac; rewrite agree_ok; reflexivity) end.
    match type of C6 with check ?x = _ => assert (Q6 : quiet x <-> is_deprecated (m_attrs a) = is_deprecated (m_attrs b)) by (unfold leaf_of; leaf_tac; rewrite agree_ok; reflexivity) end.
    destruct (open_block "Field Name" (is_change k) (n = n') (esc n) (esc n') false (changed_iff _ _ _ C Q1) (quiet_dec _ _ _ C Q1)) as (r1 & V1 & B1).
    destruct (open_block "Field Type" (is_change k0) (t = t') (type_name t) (type_name t') false (changed_iff _ _ _ C0 Q2) (quiet_dec _ _ _ C0 Q2)) as (r2 & V2 & B2).
    destruct (always_block "Field Flags" (is_change k4) (m_flags a = m_flags b) (flags_shown field_table (m_flags a)) (flags_shown field_table (m_flags b)) true (changed_iff _ _ _ C4 Q3) (quiet_dec _ _ _ C4 Q3)) as (r3 & V3 & B3).
    destruct (sig_block (is_change k1) sig sig' _ (changed_iff _ _ _ C1 Q4) E) as (r4 & V4 & B4).
    destruct (value_block "Const Value" (is_change k5) (opt_rel pyeq cv cv') (py_true cv = true) (py_true cv) (const_shown cv) (const_shown cv') true (changed_iff _ _ _ C5 Q5)) as (r5 & V5 & B5); [reflexivity|exact (quiet_dec _ _ _ C5 Q5)|].
    destruct (value_block "Deprecated" (is_change k6) (is_deprecated (m_attrs a) = is_deprecated (m_attrs b)) (is_deprecated (m_attrs a) = true) (is_deprecated (m_attrs a)) (truth (is_deprecated (m_attrs a))) (truth (is_deprecated (m_attrs b))) true (changed_iff _ _ _ C6 Q6)) as (r6 & V6 & B6); [reflexivity|exact (quiet_dec _ _ _ C6 Q6)|].
    exists r1, r2, r3, r4, r5, r6. do 6 (split; [assumption|]).
    eapply shows_within; [eapply within_trans; [|exact HH]; apply within_r, within_l, within_details|]. apply block_table.
    rewrite (flags_is field_table _ _ (field_words a _ eq_refl (kf_field _ _ _ _ _ _ KL) (kf_bits _ _ _ _ _ _ KL))).
    rewrite (flags_is field_table _ _ (field_words b _ eq_refl (kf_field _ _ _ _ _ _ KR) (kf_bits _ _ _ _ _ _ KR))).
    repeat (apply block_app; [assumption|]). assumption.
Qed.

(** ** The class itself *)
Record known_class (c : classinfo) (this super : str) (ifs : list str) (sig : option str) : Prop := {
  kc_this : get_this c = Ok (PStr this);
  kc_super : get_super c = Ok (PStr super);
  kc_ifs : get_interfaces c = Ok (map PStr ifs);
  kc_sig : get_signature (c_pool c) (c_attrs c) = Ok (option_map PStr sig) }.
Lemma class_flags_is f : flags_text f (class_access_flags f) = class_flags_shown f.
Proof.
  unfold flags_text, hex4, class_flags_shown. rewrite hex_is, <- !app_assoc. do 3 f_equal. unfold class_access_flags, class_kind. flags f. rewrite !keywords_cons. change (keywords [] f) with (@nil str). rewrite !app_nil_r, <- !app_assoc. do 3 f_equal.
  destruct (Z.testbit f 9); [|reflexivity]. destruct (Z.testbit f 13); reflexivity.
Qed.
Lemma names_is l : names_or_none l = or_none (commas_sp l).
Proof. unfold names_or_none, or_none, commas_sp. destruct (concat_with _ l); reflexivity. Qed.
Lemma set_same l l' : same_set (map PStr l) (map PStr l') <-> incl l l' /\ incl l' l.
Proof.
  assert (G : forall l l', (forall x, In x (map PStr l) -> exists y, In y (map PStr l') /\ pyeq x y) <-> incl l l').
  { clear. intros l l'. split.
    - intros H x HI. destruct (H (PStr x)) as (y & Hy & E); [now apply in_map|]. apply in_map_iff in Hy as (z & <- & Hz). unfold pyeq in E. cbn [py_eq] in E. apply seqb_eq in E as ->. exact Hz.
    - intros H x HI. apply in_map_iff in HI as (z & <- & Hz). exists (PStr z). split; [apply in_map, H, Hz|]. unfold pyeq. cbn [py_eq]. apply seqb_refl. }
  unfold same_set. now rewrite !G.
Qed.
Lemma class_page o c l r h this super ifs sig this' super' ifs' sig' : check (class_info fmt reprs l r) = Ok c -> class_info_html o c l r = Ok h ->
  known_class l this super ifs sig -> known_class r this' super' ifs' sig' ->
  exists r1 r2 r3 r4 r5 r6 r7 r8,
     value_rows "Class Name" (this = this') True (dotted this) (dotted this') r1 /\
     value_rows "Class Flags" (c_flags l = c_flags r) True (class_flags_shown (c_flags l)) (class_flags_shown (c_flags r)) r2 /\
     value_rows "Extends" (super = super') True (dotted super) (dotted super') r3 /\
     value_rows "Implements" (incl ifs ifs' /\ incl ifs' ifs) (ifs <> []) (or_none (commas_sp (map dotted ifs))) (or_none (commas_sp (map dotted ifs'))) r4 /\
     value_rows "Java Version" (c_version l = c_version r) True (version_shown (c_version l)) (version_shown (c_version r)) r5 /\
     value_rows "Java Platform" (platform_from_version (fst (c_version l)) (snd (c_version l)) = platform_from_version (fst (c_version r)) (snd (c_version r))) True
       (opt_text (platform_from_version (fst (c_version l)) (snd (c_version l)))) (opt_text (platform_from_version (fst (c_version r)) (snd (c_version r)))) r6 /\
     value_rows "Generics Signature" (sig = sig') (has_text sig) (sig_shown sig) (sig_shown sig') r7 /\
     value_rows "Deprecated" (is_deprecated (c_attrs l) = is_deprecated (c_attrs r)) (is_deprecated (c_attrs l) = true)
       (truth (is_deprecated (c_attrs l))) (truth (is_deprecated (c_attrs r))) r8 /\
     shows_table h 2 (r1 ++ r2 ++ r3 ++ r4 ++ r5 ++ r6 ++ r7 ++ r8).
Proof.
  intros HC HH KL KR. unfold class_info in HC. apply check_super in HC as (_ & kids & HF & HK & _).
  unfold class_info_html in HH. rewrite HK in HH. cbn [rbind] in HH. split_parts HF. names. find_part HH.
  unfold pretty_this, pretty_super, pretty_interfaces in HH.
  rewrite (kc_this _ _ _ _ _ KL), (kc_this _ _ _ _ _ KR), (kc_super _ _ _ _ _ KL), (kc_super _ _ _ _ _ KR), (kc_ifs _ _ _ _ _ KL), (kc_ifs _ _ _ _ _ KR), (kc_sig _ _ _ _ _ KL), (kc_sig _ _ _ _ _ KR) in *. cbn [rbind pretty_class_v] in HH.
  rewrite !mapM_class in HH. cbn [rbind] in HH. steps HH.
  apply within_change_div in HH.
  match type of C with check ?x = _ => assert (Q1 : quiet x <-> this = this') by (unfold leaf_of; leaf_tac; rewrite agree_ok; unfold pyeq; cbn [py_eq]; apply seqb_iff) end.
  match type of C0 with check ?x = _ => assert (Q5 : quiet x <-> c_version l = c_version r) by (unfold leaf_of; leaf_tac; rewrite agree_ok; reflexivity) end.
  match type of C1 with check ?x = _ => assert (Q6 : quiet x <-> platform_from_version (fst (c_version l)) (snd (c_version l)) = platform_from_version (fst (c_version r)) (snd (c_version r))) by
    (unfold leaf_of; leaf_tac; rewrite agree_ok; destruct (platform_from_version _ _), (platform_from_version _ _); split; intro X; try (inversion X; subst; reflexivity || constructor || discriminate); inversion X; subst; constructor; reflexivity) end.
  match type of C2 with check ?x = _ => assert (Q3 : quiet x <-> super = super') by (unfold leaf_of; leaf_tac; rewrite agree_ok; unfold pyeq; cbn [py_eq]; apply seqb_iff) end.
  match type of C3 with check ?x = _ => assert (Q4 : quiet x <-> incl ifs ifs' /\ incl ifs' ifs) by (unfold leaf_of; leaf_tac; rewrite agree_ok; apply set_same) end.
  match type of C4 with check ?x = _ => assert (Q2 : quiet x <-> c_flags l = c_flags r) by (unfold leaf_of; leaf_tac; rewrite agree_ok; reflexivity) end.
  match type of C5 with check ?x = _ => assert (Q8 : quiet x <-> is_deprecated (c_attrs l) = is_deprecated (c_attrs r)) by (unfold leaf_of; leaf_tac; rewrite agree_ok; reflexivity) end.
  match type of C6 with check ?x = _ => assert (Q7 : quiet x <-> sig = sig') by (unfold leaf_of; leaf_tac; rewrite agree_ok; apply opt_pyeq) end.
  destruct (always_block "Class Name" (is_change k) _ (dotted this) (dotted this') false (changed_iff _ _ _ C Q1) (quiet_dec _ _ _ C Q1)) as (r1 & V1 & B1).
  destruct (always_block "Class Flags" (is_change k4) _ (class_flags_shown (c_flags l)) (class_flags_shown (c_flags r)) true (changed_iff _ _ _ C4 Q2) (quiet_dec _ _ _ C4 Q2)) as (r2 & V2 & B2).
  destruct (always_block "Extends" (is_change k2) _ (dotted super) (dotted super') true (changed_iff _ _ _ C2 Q3) (quiet_dec _ _ _ C2 Q3)) as (r3 & V3 & B3).
  destruct (value_block "Implements" (is_change k3) _ (ifs <> []) (match map dotted ifs with [] => false | _ => true end) (or_none (commas_sp (map dotted ifs))) (or_none (commas_sp (map dotted ifs'))) true (changed_iff _ _ _ C3 Q4)) as (r4 & V4 & B4);
    [destruct ifs; cbn; split; congruence|exact (quiet_dec _ _ _ C3 Q4)|].
  destruct (always_block "Java Version" (is_change k0) _ (version_shown (c_version l)) (version_shown (c_version r)) true (changed_iff _ _ _ C0 Q5) (quiet_dec _ _ _ C0 Q5)) as (r5 & V5 & B5).
  destruct (always_block "Java Platform" (is_change k1) _ (opt_text (platform_from_version (fst (c_version l)) (snd (c_version l)))) (opt_text (platform_from_version (fst (c_version r)) (snd (c_version r)))) true (changed_iff _ _ _ C1 Q6) (quiet_dec _ _ _ C1 Q6)) as (r6 & V6 & B6).
  destruct (sig_block (is_change k6) sig sig' _ (changed_iff _ _ _ C6 Q7) E) as (r7 & V7 & B7).
  destruct (value_block "Deprecated" (is_change k5) _ (is_deprecated (c_attrs l) = true) (is_deprecated (c_attrs l)) (truth (is_deprecated (c_attrs l))) (truth (is_deprecated (c_attrs r))) true (changed_iff _ _ _ C5 Q8)) as (r8 & V8 & B8); [reflexivity|exact (quiet_dec _ _ _ C5 Q8)|].
  exists r1, r2, r3, r4, r5, r6, r7, r8. do 8 (split; [assumption|]).
  eapply shows_within; [eapply within_trans; [|exact HH]; apply within_r, within_details|]. apply block_table. rewrite !class_flags_is, !names_is.
  apply block_app; [exact B1|]. apply block_app; [exact B2|]. apply block_app; [exact B3|]. apply block_app; [exact B4|]. apply block_app; [exact B5|]. apply block_app; [exact B6|]. apply block_app; [exact B7|]. exact B8.
Qed.
End Class.

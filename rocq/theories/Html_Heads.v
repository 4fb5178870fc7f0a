(** The headings of members. *)
From Verif Require Import Base Pack_Model ConstPool_Model ClassFile_Model Descr_Model Descr_Spec Opcodes_Model Opcodes_Spec Anno_Model
  Change_Model Change_Spec Classdiff_Model Classdiff_Spec Info_Model Print_Model Report_Model
  Html_Model Html_Spec Html_Table Html_Page Html_Members Html_Values Html_Class.

Definition no3 (h : list html) : Prop := existsb (starts "h3") h = false.
Lemma no3_app a b : no3 a -> no3 b -> no3 (a ++ b).
Proof. unfold no3. intros A B. now rewrite existsb_app, A, B. Qed.
Lemma no3_cons t h : starts "h3" t = false -> no3 h -> no3 (t :: h).
Proof. unfold no3. intros A B. cbn [existsb]. now rewrite A, B. Qed.
Lemma no3_el tag a b : seqb (lit tag) (lit "h3") = false -> no3 b -> no3 (el tag a b).
Proof. intros T B. unfold el. apply no3_cons; [exact T|]. apply no3_app; [exact B|reflexivity]. Qed.
Lemma no3_nil : no3 [].
Proof. reflexivity. Qed.
Lemma no3_txt s : no3 (txt s).
Proof. reflexivity. Qed.
Lemma no3_concat l : Forall no3 l -> no3 (concat l).
Proof. induction 1; [reflexivity|]. cbn [concat]. now apply no3_app. Qed.
Lemma no3_flat_map {A} (f : A -> list html) l : (forall x, no3 (f x)) -> no3 (flat_map f l).
Proof. intro H. rewrite flat_map_concat_map. apply no3_concat. apply Forall_forall. intros x HX. apply in_map_iff in HX as (y & <- & _). apply H. Qed.
Lemma no3_mapM {A} (f : A -> res (list html)) l rs : (forall x y, f x = Ok y -> no3 y) -> mapM f l = Ok rs -> no3 (concat rs).
Proof. intros H E. apply no3_concat. apply mapM_Forall2 in E. induction E; constructor; [eapply H; eassumption|assumption]. Qed.
Lemma no3_rows rs : no3 (rows_html rs).
Proof. unfold rows_html. apply no3_flat_map. intro r. apply no3_el; [reflexivity|]. apply no3_flat_map. intro c. apply no3_el; [reflexivity|apply no3_txt]. Qed.
Lemma no3_details b : no3 b -> no3 (details_div b).
Proof. intro H. unfold details_div. apply no3_el; [reflexivity|]. now apply no3_el. Qed.
Lemma no3_change_div o c b h : change_div o c b = Ok h -> no3 b -> no3 h.
Proof. unfold change_div. destruct (state_words o c) as [w|]; [|discriminate]. cbn [rbind]. intros H B. apply ok_inj in H. subst h. now apply no3_el. Qed.
Lemma no3_code o c lc rc h : method_code_html o c lc rc = Ok h -> no3 h.
Proof.
  unfold method_code_html. intro H. step H. apply (no3_change_div _ _ _ _ H). apply no3_app; [reflexivity|]. apply no3_details. clear H. destruct (is_change c || _).
  - step E. apply ok_inj in E. subst v. apply no3_el; [reflexivity|]. apply no3_app; [reflexivity|apply no3_rows].
  - destruct lc as [k|]; [|apply ok_inj in E; subst v; reflexivity]. step E. apply ok_inj in E. subst v. apply no3_el; [reflexivity|]. apply no3_app; [reflexivity|apply no3_rows].
Qed.
Lemma no3_annos fmt o c attr lp rp la ra h : annos_html fmt o c attr lp rp la ra = Ok h -> no3 h.
Proof.
  unfold annos_html. intro H. step H. step H. step H. apply (no3_change_div _ _ _ _ H). apply no3_app; [reflexivity|]. apply no3_details. clear H. destruct (is_change c).
  - unfold annos_dual in E1. cbv zeta in E1. step E1. apply ok_inj in E1. subst v1. apply no3_el; [reflexivity|]. apply no3_app; [reflexivity|]. revert E2. apply no3_mapM. intros [i [x y]] t HT. unfold dual_anno_row in HT. steps HT. apply ok_inj in HT. subst t.
    apply no3_el; [reflexivity|]. destruct v3; reflexivity.
  - unfold annos_single in E1. step E1. apply ok_inj in E1. subst v1. apply no3_el; [reflexivity|]. apply no3_app; [reflexivity|]. apply no3_flat_map. intro x. reflexivity.
Qed.
Lemma no3_changed l m a b : no3 (row_changed l m a b).
Proof. destruct m; reflexivity. Qed.
Lemma no3_always l c m a b : no3 (row_always l c m a b).
Proof. unfold row_always. destruct c; [apply no3_changed|reflexivity]. Qed.
Lemma no3_if l c w a b : no3 (row_if_true l c w a b).
Proof. unfold row_if_true. destruct c; [apply no3_changed|]. destruct w; reflexivity. Qed.
Lemma no3_open (c : bool) l m a b : no3 (if c then row_changed l m a b else row_same_open l a).
Proof. destruct c; [apply no3_changed|reflexivity]. Qed.
Lemma no3_sig c l r h : signature_rows c l r = Ok h -> no3 h.
Proof.
  unfold signature_rows. destruct c; intro H.
  - steps H. apply ok_inj in H. subst h. apply no3_changed.
  - destruct (py_true l); [|apply ok_inj in H; subst h; reflexivity]. steps H. apply ok_inj in H. subst h. reflexivity.
Qed.

Lemma section_div o c s b h : change_div o c (el "h3" [] (txt s) ++ b) = Ok h -> no3 b -> section h s.
Proof.
  unfold change_div. destruct (state_words o c) as [w|]; [|discriminate]. cbn [rbind]. intros H B. apply ok_inj in H. subst h. exists [(lit "class", w)], b. split; [|exact B]. unfold el. cbn [app txt]. reflexivity.
Qed.
Section Heads.
Variable fmt : pyval -> str.
Variable repr : pyval -> str.
Lemma method_section o c lp rp a b h s : method_html fmt o c lp rp a b = Ok h -> method_heading fmt lp a = Ok s -> section h s.
Proof.
  unfold method_html. intros H S. step H. rewrite S in H. cbn [rbind] in H. steps H. apply (section_div _ _ _ _ _ H). apply no3_app; [apply no3_details; apply no3_el; [reflexivity|]|].
  - apply no3_app; [apply no3_open|]. apply no3_app; [apply no3_open|]. apply no3_app; [apply no3_always|]. apply no3_app; [apply no3_always|]. apply no3_app; [eapply no3_sig; eassumption|]. apply no3_app; [apply no3_if|]. apply no3_app; [apply no3_if|]. apply no3_if.
  - apply no3_el; [reflexivity|]. apply no3_app; [eapply no3_annos; eassumption|]. apply no3_app; [eapply no3_annos; eassumption|eapply no3_code; eassumption].
Qed.
Lemma field_section o c lp rp a b h n : field_html fmt repr o c lp rp a b = Ok h -> m_name lp a = Ok (PStr n) -> section h (esc n).
Proof.
  unfold field_html. intros H S. step H. rewrite S in H. cbn [rbind esc_v] in H. rewrite escape_is in H. steps H. apply (section_div _ _ _ _ _ H). apply no3_app; [apply no3_details; apply no3_el; [reflexivity|]|].
  - apply no3_app; [apply no3_open|]. apply no3_app; [apply no3_open|]. apply no3_app; [apply no3_always|]. apply no3_app; [eapply no3_sig; eassumption|]. apply no3_app; [apply no3_if|]. apply no3_if.
  - apply no3_el; [reflexivity|]. apply no3_app; eapply no3_annos; eassumption.
Qed.
Lemma no3_table p m t : method_table fmt p m = Ok t -> no3 t.
Proof.
  unfold method_table. intro H. steps H. apply ok_inj in H. subst t. apply no3_el; [reflexivity|].
  repeat (apply no3_app; [reflexivity|]). apply no3_app; [|apply no3_app; [destruct v5; reflexivity|apply no3_app; [destruct v6; reflexivity|destruct (is_deprecated _); reflexivity]]].
  destruct (py_true v3); [step E4|]; apply ok_inj in E4; subst v4; reflexivity.
Qed.
Lemma added_section o c p m h s : method_added_html fmt o c p m = Ok h -> method_heading fmt p m = Ok s -> section h s.
Proof. unfold method_added_html. intros H S. rewrite S in H. cbn [rbind] in H. steps H. apply (section_div _ _ _ _ _ H). apply no3_app; [reflexivity|]. apply no3_details. eapply no3_table; eassumption. Qed.
Lemma removed_section o c p m h s : method_removed_html fmt o c p m = Ok h -> method_heading fmt p m = Ok s -> section h s.
Proof. unfold method_removed_html. intros H S. rewrite S in H. cbn [rbind] in H. steps H. apply (section_div _ _ _ _ _ H). apply no3_app; [reflexivity|]. apply no3_details. eapply no3_table; eassumption. Qed.
End Heads.

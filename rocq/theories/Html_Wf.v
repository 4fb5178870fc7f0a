(** Which pages are well-formed. *)
From Verif Require Import Base Pack_Model ConstPool_Model ClassFile_Model Descr_Model Descr_Spec Opcodes_Model Opcodes_Spec Anno_Model
  Change_Model Change_Spec Change_Proofs Change_Report Classdiff_Model Classdiff_Spec Classdiff_Members Classdiff_Code Classdiff_Class Classdiff_Merge Info_Model Print_Model Report_Model
  Html_Model Html_Spec Html_Table Html_Page Html_Members Html_Values Html_Class.

(** ** Properties of pages closed under the templates *)
Record closed (P : list html -> Prop) : Prop := {
  c_nil : P [];
  c_app : forall a b, P a -> P b -> P (a ++ b);
  c_el : forall tag a b, distinct_names a = true -> P b -> P (el tag a b);
  c_txt : forall s, P (txt s);
  c_comment : P [Comment];
  c_prolog : P [Prolog];
  c_single : forall t a, distinct_names a = true -> P [Single t a] }.
Section Closed.
Variable P : list html -> Prop.
Hypothesis HP : closed P.
Lemma P_nil : P []. Proof. apply HP. Qed.
Lemma P_app : forall a b, P a -> P b -> P (a ++ b). Proof. apply HP. Qed.
Lemma P_el : forall tag a b, distinct_names a = true -> P b -> P (el tag a b). Proof. apply HP. Qed.
Lemma P_txt : forall s, P (txt s). Proof. apply HP. Qed.
Lemma P_comment : P [Comment]. Proof. apply HP. Qed.
Lemma P_prolog : P [Prolog]. Proof. apply HP. Qed.
Lemma P_single : forall t a, distinct_names a = true -> P [Single t a]. Proof. apply HP. Qed.

Lemma P_concat l : Forall P l -> P (concat l).
Proof. induction 1; [exact P_nil|]. cbn [concat]. now apply P_app. Qed.
Lemma P_flat_map {A} (f : A -> list html) l : (forall x, P (f x)) -> P (flat_map f l).
Proof. intro H. rewrite flat_map_concat_map. apply P_concat. apply Forall_forall. intros x HX. apply in_map_iff in HX as (y & <- & _). apply H. Qed.
Lemma P_mapM {A} (f : A -> res (list html)) l rs : (forall x y, f x = Ok y -> P y) -> mapM f l = Ok rs -> P (concat rs).
Proof. intros H E. apply P_concat. apply mapM_Forall2 in E. induction E; constructor; [eapply H; eassumption|assumption]. Qed.
Ltac P_tac := repeat (apply P_txt || apply P_nil || (apply P_el; [reflexivity|]) || apply P_app).
Lemma P_rows rs : P (rows_html rs).
Proof.
  unfold rows_html. apply P_flat_map. intro r. apply P_el; [reflexivity|]. apply P_flat_map. intro c. apply P_el; [|apply P_txt].
  unfold span. destruct (cl_cols c) as [|[|n]], (cl_rows c) as [|[|m]]; reflexivity.
Qed.
Lemma P_details b : P b -> P (details_div b).
Proof. intro H. unfold details_div. P_tac. exact H. Qed.
Lemma P_change_div o c b h : change_div o c b = Ok h -> P b -> P h.
Proof. unfold change_div. destruct (state_words o c) as [w|]; [|discriminate]. cbn [rbind]. intros H B. apply ok_inj in H. subst h. apply P_el; [reflexivity|exact B]. Qed.
Lemma P_thead l : P (flat_map th l).
Proof. apply P_flat_map. intro x. unfold th. P_tac. Qed.
Lemma P_code o c lc rc h : method_code_html o c lc rc = Ok h -> P h.
Proof.
  unfold method_code_html. intro H. step H. apply (P_change_div _ _ _ _ H). apply P_app; [unfold label_div; P_tac|]. apply P_details. clear H. destruct (is_change c || _).
  - step E. apply ok_inj in E. subst v. apply P_el; [reflexivity|]. apply P_app; [|apply P_rows]. unfold dual_head, th_row, th, th4. P_tac; apply P_thead.
  - destruct lc as [k|]; [|apply ok_inj in E; subst v; exact P_comment]. step E. apply ok_inj in E. subst v. apply P_el; [reflexivity|]. apply P_app; [|apply P_rows]. unfold single_head, th_row, th, th4. P_tac; apply P_thead.
Qed.
Lemma P_annos fmt o c attr lp rp la ra h : annos_html fmt o c attr lp rp la ra = Ok h -> P h.
Proof.
  unfold annos_html. intro H. step H. step H. step H. apply (P_change_div _ _ _ _ H). apply P_app; [P_tac|]. apply P_details. clear H. destruct (is_change c).
  - unfold annos_dual in E1. cbv zeta in E1. step E1. apply ok_inj in E1. subst v1. apply P_el; [reflexivity|]. apply P_app; [unfold th_row, th; P_tac|]. revert E2. apply P_mapM. intros [i [x y]] t HT. unfold dual_anno_row in HT. steps HT. apply ok_inj in HT. subst t.
    unfold const_index. destruct v3; P_tac.
  - unfold annos_single in E1. step E1. apply ok_inj in E1. subst v1. apply P_el; [reflexivity|]. apply P_app; [unfold th_row, th; P_tac|]. apply P_flat_map. intro x. unfold const_index. P_tac.
Qed.
Lemma P_same l a : P (row_same l a).
Proof. unfold row_same. P_tac. Qed.
Lemma P_changed l m a b : P (row_changed l m a b).
Proof. unfold row_changed. destruct m; P_tac. Qed.
Lemma P_always l c m a b : P (row_always l c m a b).
Proof. unfold row_always. destruct c; [apply P_changed|apply P_same]. Qed.
Lemma P_if l c w a b : P (row_if_true l c w a b).
Proof. unfold row_if_true. destruct c; [apply P_changed|]. destruct w; [apply P_same|apply P_nil]. Qed.
Lemma P_sig c l r h : signature_rows c l r = Ok h -> P h.
Proof.
  unfold signature_rows. destruct c; intro H.
  - steps H. apply ok_inj in H. subst h. apply P_changed.
  - destruct (py_true l); [|apply ok_inj in H; subst h; apply P_nil]. steps H. apply ok_inj in H. subst h. apply P_same.
Qed.
Lemma P_head c h : subreport_head c = Ok h -> P h.
Proof. unfold subreport_head. intro H. step H. apply ok_inj in H. subst h. P_tac. Qed.
Lemma P_info o c l r h : class_info_html o c l r = Ok h -> P h.
Proof.
  unfold class_info_html. intro H. steps H. apply (P_change_div _ _ _ _ H). apply P_app; [eapply P_head; eassumption|]. apply P_details. apply P_el; [reflexivity|].
  apply P_app; [apply P_always|]. apply P_app; [apply P_always|]. apply P_app; [apply P_always|]. apply P_app; [apply P_if|]. apply P_app; [apply P_always|]. apply P_app; [apply P_always|]. apply P_app; [eapply P_sig; eassumption|]. apply P_if.
Qed.
Lemma P_pool_rows reprs ffmt l : forall i rs, pool_rows reprs ffmt l i = Ok rs -> P rs.
Proof.
  induction l as [|k l IH]; intros i rs H; cbn [pool_rows] in H; [apply ok_inj in H; subst rs; apply P_nil|]. steps H. apply ok_inj in H. subst rs. specialize (IH _ _ E0). destruct v as [[t v]|]; [|exact IH].
  apply P_app; [|exact IH]. unfold const_td. P_tac.
Qed.
Lemma P_pool_same reprs ffmt o c l r h : pool_html reprs ffmt o c l r = Ok h -> is_change c = false -> P h.
Proof.
  unfold pool_html. intros H C. rewrite C in H. step H. destruct (subreport_head c) as [hd|] eqn:EH; [|discriminate]. cbn [rbind] in H. apply (P_change_div _ _ _ _ H). apply P_app; [eapply P_head; eassumption|]. apply P_details. step E. apply ok_inj in E. subst v. apply P_el; [reflexivity|].
  apply P_app; [|eapply P_pool_rows; eassumption]. apply P_el; [reflexivity|]. apply P_el; [reflexivity|]. apply P_thead.
Qed.
Lemma P_table fmt p m t : method_table fmt p m = Ok t -> P t.
Proof.
  unfold method_table. intro H. steps H. apply ok_inj in H. subst t. apply P_el; [reflexivity|]. unfold method_row.
  do 4 (apply P_app; [apply P_same|]). apply P_app; [|apply P_app; [destruct v5; [apply P_nil|apply P_same]|apply P_app; [destruct v6; [apply P_nil|apply P_same]|destruct (is_deprecated _); [apply P_same|apply P_nil]]]].
  destruct (py_true v3); [step E4|]; apply ok_inj in E4; subst v4; [apply P_same|apply P_nil].
Qed.
Lemma P_removed fmt o c p m h : method_removed_html fmt o c p m = Ok h -> P h.
Proof. unfold method_removed_html. intro H. steps H. apply (P_change_div _ _ _ _ H). apply P_app; [P_tac|]. apply P_app; [P_tac|]. apply P_details. eapply P_table; eassumption. Qed.
Lemma P_label o c h : member_label_html o c = Ok h -> P h.
Proof. unfold member_label_html. intro H. apply (P_change_div _ _ _ _ H). unfold label_div. P_tac. Qed.
Lemma P_members o c hs h : members_html o c hs = Ok h -> Forall P hs -> P h.
Proof. unfold members_html. intros H F. destruct (subreport_head c) as [hd|] eqn:EH; [|discriminate]. cbn [rbind] in H. apply (P_change_div _ _ _ _ H). apply P_app; [eapply P_head; eassumption|]. destruct hs as [|x hs]; [apply P_nil|]. apply P_el; [reflexivity|]. now apply P_concat. Qed.
Lemma P_page e t kids : e_nojquery e = true \/ P (el "script" [(lit "type", lit "text/javascript"); (lit "src", jquery); (lit "type", lit "text/javascript")] []) -> Forall P kids -> P (page_html e t kids).
Proof.
  intros J F. unfold page_html. match goal with |- P (?a :: ?b) => change (P ([a] ++ b)) end. apply P_app; [exact P_prolog|]. apply P_el; [reflexivity|]. apply P_app.
  - unfold head_html. apply P_el; [reflexivity|]. apply P_app; [P_tac|]. apply P_app; [|apply P_app].
    + induction (e_styles e) as [|s l IH]; [apply P_nil|]. cbn [map]. match goal with |- P (?a :: ?b) => change (P ([a] ++ b)) end. apply P_app; [now apply P_single|exact IH].
    + destruct (e_nojquery e); [apply P_nil|]. destruct J as [J|J]; [discriminate|exact J].
    + apply P_flat_map. intro js. apply P_el; [reflexivity|apply P_nil].
  - apply P_el; [reflexivity|]. apply P_app; [|apply P_app; [P_tac|apply P_app; [|P_tac]]].
    + unfold heading_html. P_tac. apply P_flat_map. intro x. P_tac.
    + apply P_el; [reflexivity|]. now apply P_concat.
Qed.
End Closed.

(** ** Well-formed pages *)
Definition wf_part (h : list html) : Prop := forall rest st, well_formed (h ++ rest) st = well_formed rest st.
Lemma wf_nil : wf_part []. Proof. intros rest st. reflexivity. Qed.
Lemma wf_app a b : wf_part a -> wf_part b -> wf_part (a ++ b).
Proof. intros A B rest st. now rewrite <- app_assoc, A, B. Qed.
Lemma wf_el tag a b : distinct_names a = true -> wf_part b -> wf_part (el tag a b).
Proof. intros D B rest st. unfold el. rewrite <- app_comm_cons, <- app_assoc. cbn [well_formed]. rewrite D, B. cbn [app well_formed andb]. now rewrite seqb_refl. Qed.
Lemma wf_txt s : wf_part (txt s). Proof. intros rest st. reflexivity. Qed.
Lemma wf_comment : wf_part [Comment]. Proof. intros rest st. reflexivity. Qed.
Lemma wf_prolog : wf_part [Prolog]. Proof. intros rest st. reflexivity. Qed.
Lemma wf_single t a : distinct_names a = true -> wf_part [Single t a]. Proof. intros D rest st. cbn [app well_formed]. now rewrite D. Qed.
Lemma wf_closed : closed wf_part.
Proof. constructor; [exact wf_nil|exact wf_app|exact wf_el|exact wf_txt|exact wf_comment|exact wf_prolog|exact wf_single]. Qed.
Lemma wf_done h : wf_part h -> well_formed h [] = true.
Proof. intro H. specialize (H [] []). now rewrite app_nil_r in H. Qed.

(** ** Elements that are not closed: counting the cells *)
Definition cells_of (t : html) : Z := match t with Open x _ => if seqb x (lit "td") then 1 else 0 | Close x => if seqb x (lit "td") then -1 else 0 | _ => 0 end.
Definition surplus (h : list html) : Z := fold_right (fun t n => cells_of t + n) 0 h.
Lemma surplus_app a b : surplus (a ++ b) = surplus a + surplus b.
Proof. unfold surplus. induction a as [|x a IH]; [reflexivity|]. cbn [app fold_right]. rewrite IH. lia. Qed.
Lemma surplus_el tag a b : surplus (el tag a b) = surplus b.
Proof. unfold el. change (surplus (?x :: ?y)) with (cells_of x + surplus y). rewrite surplus_app. change (surplus [Close (lit tag)]) with (cells_of (Close (lit tag)) + 0). unfold cells_of. destruct (seqb (lit tag) (lit "td")); lia. Qed.
Lemma surplus_txt s : surplus (txt s) = 0. Proof. reflexivity. Qed.
Lemma wf_surplus h : forall st, well_formed h st = true -> surplus h + Z.of_nat (length (filter (fun x => seqb x (lit "td")) st)) = 0.
Proof.
  induction h as [|t h IH]; intros st H; [destruct st; [reflexivity|discriminate]|]. change (surplus (t :: h)) with (cells_of t + surplus h). destruct t; cbn [well_formed] in H.
  - apply IH in H. cbn [cells_of]. lia.
  - apply andb_prop in H as [_ H]. apply IH in H. cbn [filter] in H. cbn [cells_of]. destruct (seqb tag (lit "td")); [cbn [length] in H|]; lia.
  - apply andb_prop in H as [_ H]. apply IH in H. cbn [cells_of]. lia.
  - destruct st as [|u st]; [discriminate|]. apply andb_prop in H as [E H]. apply seqb_eq in E. subst u. apply IH in H. cbn [filter cells_of]. destruct (seqb tag (lit "td")); [cbn [length]|]; lia.
  - discriminate.
  - apply IH in H. cbn [cells_of]. lia.
  - apply IH in H. cbn [cells_of]. lia.
Qed.
Definition more (h : list html) : Prop := 0 <= surplus h.
Lemma more_nil : more []. Proof. unfold more, surplus. cbn. lia. Qed.
Lemma more_app a b : more a -> more b -> more (a ++ b). Proof. unfold more. rewrite surplus_app. lia. Qed.
Lemma more_el tag a b : distinct_names a = true -> more b -> more (el tag a b). Proof. unfold more. rewrite surplus_el. auto. Qed.
Lemma more_el' tag a b : more b -> more (el tag a b). Proof. unfold more. rewrite surplus_el. auto. Qed.
Lemma more_txt s : more (txt s). Proof. unfold more. cbn. lia. Qed.
Lemma more_comment : more [Comment]. Proof. unfold more. cbn. lia. Qed.
Lemma more_prolog : more [Prolog]. Proof. unfold more. cbn. lia. Qed.
Lemma more_single t a : distinct_names a = true -> more [Single t a]. Proof. unfold more. cbn. lia. Qed.
Lemma more_closed : closed more.
Proof. constructor; [exact more_nil|exact more_app|exact more_el|exact more_txt|exact more_comment|exact more_prolog|exact more_single]. Qed.
Lemma row_open_surplus l v : surplus (row_same_open l v) = 1.
Proof. unfold row_same_open. rewrite surplus_el, surplus_app, surplus_el. reflexivity. Qed.
Lemma same_open_more (c : bool) l m a b : more (if c then row_changed l m a b else row_same_open l a).
Proof. destruct c; [apply (P_changed _ more_closed)|]. unfold more. rewrite row_open_surplus. lia. Qed.
Lemma pool_more reprs ffmt o c l r h : pool_html reprs ffmt o c l r = Ok h -> more h.
Proof.
  intro H. destruct (is_change c) eqn:C; [|exact (P_pool_same _ more_closed _ _ _ _ _ _ _ H C)].
  unfold pool_html in H. rewrite C in H. step H. destruct (subreport_head c) as [hd|] eqn:EH; [|discriminate]. cbn [rbind] in H. apply (P_change_div _ more_closed _ _ _ _ H). apply more_app; [eapply (P_head _ more_closed); eassumption|]. apply (P_details _ more_closed). step E. apply ok_inj in E. subst v. apply more_el; [reflexivity|]. apply more_app.
  - apply more_el; [reflexivity|]. apply more_el; [reflexivity|]. apply (P_thead _ more_closed).
  - apply (P_flat_map _ more_closed). intros [[i a] b]. unfold dual_const_row, more. change (surplus (?x :: ?y)) with (cells_of x + surplus y). rewrite !surplus_app. unfold const_td. rewrite !surplus_el. destruct (shown_eqb a b); rewrite ?surplus_app, !surplus_el, !surplus_txt; vm_compute; discriminate.
Qed.
Section Members.
Variable fmt : pyval -> str.
Variable repr : pyval -> str.
Variable reprs : str -> str.
Lemma method_more o c lp rp a b h : method_html fmt o c lp rp a b = Ok h -> more h.
Proof.
  unfold method_html. intro H. steps H. apply (P_change_div _ more_closed _ _ _ _ H). apply more_app; [apply more_el; [reflexivity|apply more_txt]|]. apply more_app.
  - apply (P_details _ more_closed). apply more_el; [reflexivity|]. apply more_app; [apply same_open_more|]. apply more_app; [apply same_open_more|].
    apply more_app; [apply (P_always _ more_closed)|]. apply more_app; [apply (P_always _ more_closed)|]. apply more_app; [eapply (P_sig _ more_closed); eassumption|]. repeat (apply more_app; [apply (P_if _ more_closed)|]). apply (P_if _ more_closed).
  - apply more_el; [reflexivity|]. apply more_app; [eapply (P_annos _ more_closed); eassumption|]. apply more_app; [eapply (P_annos _ more_closed); eassumption|]. eapply (P_code _ more_closed); eassumption.
Qed.
Lemma field_more o c lp rp a b h : field_html fmt repr o c lp rp a b = Ok h -> more h.
Proof.
  unfold field_html. intro H. steps H. apply (P_change_div _ more_closed _ _ _ _ H). apply more_app; [apply more_el; [reflexivity|apply more_txt]|]. apply more_app.
  - apply (P_details _ more_closed). apply more_el; [reflexivity|]. apply more_app; [apply same_open_more|]. apply more_app; [apply same_open_more|].
    apply more_app; [apply (P_always _ more_closed)|]. apply more_app; [eapply (P_sig _ more_closed); eassumption|]. apply more_app; [apply (P_if _ more_closed)|]. apply (P_if _ more_closed).
  - apply more_el; [reflexivity|]. apply more_app; eapply (P_annos _ more_closed); eassumption.
Qed.
Lemma added_more o c p m h : method_added_html fmt o c p m = Ok h -> more h.
Proof.
  unfold method_added_html. intro H. steps H. apply (P_change_div _ more_closed _ _ _ _ H). apply more_app; [apply more_el; [reflexivity|apply more_txt]|]. apply more_app; [unfold more; vm_compute; discriminate|]. apply (P_details _ more_closed). eapply (P_table _ more_closed); eassumption.
Qed.
Lemma method_events_more o lp rp x h : method_event_html fmt o lp rp x = Ok h -> more h.
Proof. unfold method_event_html. destruct (snd x); intro H; [eapply added_more|eapply (P_removed _ more_closed)|eapply method_more]; eassumption. Qed.
Lemma field_events_more o lp rp x h : field_event_html fmt repr o lp rp x = Ok h -> more h.
Proof. unfold field_event_html. destruct (snd x); intro H; [eapply (P_label _ more_closed)|eapply (P_label _ more_closed)|eapply field_more]; eassumption. Qed.
(** A method or field whose name stays the same *)
Lemma change_div_surplus o c b h : change_div o c b = Ok h -> surplus h = surplus b.
Proof. unfold change_div. destruct (state_words o c) as [w|]; [|discriminate]. cbn [rbind]. intro H. apply ok_inj in H. subst h. apply surplus_el. Qed.
Lemma method_surplus o c lp rp a b h n : check (method_change fmt reprs lp rp a b) = Ok c -> method_html fmt o c lp rp a b = Ok h ->
  m_name lp a = Ok (PStr n) -> m_name rp b = Ok (PStr n) -> 0 < surplus h.
Proof.
  intros HC HH NL NR. unfold method_change in HC. cbv zeta in HC. apply check_super in HC as (HR & kids & HF & HK & _).
  unfold method_html in HH. rewrite HK in HH. cbn [rbind] in HH.
  destruct (get_code lp a) as [lc|] eqn:EL; [|discriminate HR]. destruct (get_code rp b) as [rc|] eqn:ER; [|discriminate HR]. cbn [rbind] in HF.
  split_parts HF. names. find_part HH. rewrite NL, NR in *. cbn [rbind esc_v] in HH. steps HH. rewrite (change_div_surplus _ _ _ _ HH).
  match type of C with check ?x = _ => assert (Q1 : quiet x <-> True) by (unfold leaf_of; leaf_tac; rewrite agree_ok; unfold pyeq; cbn [py_eq]; rewrite seqb_refl; tauto) end.
  assert (K : is_change k = false) by (destruct (is_change k) eqn:K; [exfalso; apply (proj1 (changed_iff _ _ _ C Q1) K); exact I|reflexivity]). rewrite K.
  unfold details_div. rewrite !surplus_app, !surplus_el, !surplus_app, row_open_surplus.
  repeat match goal with |- context [surplus ?x] => let M := fresh in assert (M : more x) by
    (first [apply same_open_more | apply (P_always _ more_closed) | apply (P_if _ more_closed) | eapply (P_sig _ more_closed); eassumption | eapply (P_annos _ more_closed); eassumption | eapply (P_code _ more_closed); eassumption | apply more_txt]); unfold more in M; revert M; generalize (surplus x); intros end. lia.
Qed.
Lemma field_surplus o c lp rp a b h n : check (field_change fmt reprs lp rp a b) = Ok c -> field_html fmt repr o c lp rp a b = Ok h ->
  m_name lp a = Ok (PStr n) -> m_name rp b = Ok (PStr n) -> 0 < surplus h.
Proof.
  intros HC HH NL NR. unfold field_change in HC. cbv zeta in HC. apply check_super in HC as (_ & kids & HF & HK & _).
  unfold field_html in HH. rewrite HK in HH. cbn [rbind] in HH. split_parts HF. names. find_part HH. rewrite NL, NR in *. cbn [rbind esc_v] in HH. steps HH. rewrite (change_div_surplus _ _ _ _ HH).
  match type of C with check ?x = _ => assert (Q1 : quiet x <-> True) by (unfold leaf_of; leaf_tac; rewrite agree_ok; unfold pyeq; cbn [py_eq]; rewrite seqb_refl; tauto) end.
  assert (K : is_change k = false) by (destruct (is_change k) eqn:K; [exfalso; apply (proj1 (changed_iff _ _ _ C Q1) K); exact I|reflexivity]). rewrite K.
  unfold details_div. rewrite !surplus_app, !surplus_el, !surplus_app, row_open_surplus.
  repeat match goal with |- context [surplus ?x] => let M := fresh in assert (M : more x) by
    (first [apply same_open_more | apply (P_always _ more_closed) | apply (P_if _ more_closed) | eapply (P_sig _ more_closed); eassumption | eapply (P_annos _ more_closed); eassumption | eapply (P_code _ more_closed); eassumption | apply more_txt]); unfold more in M; revert M; generalize (surplus x); intros end. lia.
Qed.
Lemma concat_surplus hs h : Forall more hs -> In h hs -> surplus h <= surplus (concat hs).
Proof.
  induction 1 as [|x hs H1 H2 IH]; intros []; cbn [concat]; rewrite surplus_app.
  - subst x. assert (M : more (concat hs)) by (now apply (P_concat _ more_closed)). unfold more in M. lia.
  - specialize (IH H). unfold more in H1. lia.
Qed.
Lemma members_surplus o c hs h x : members_html o c hs = Ok h -> Forall more hs -> In x hs -> surplus x <= surplus h.
Proof.
  unfold members_html. intros H F HI. destruct (subreport_head c) as [hd|] eqn:EH; [|discriminate]. cbn [rbind] in H. rewrite (change_div_surplus _ _ _ _ H), surplus_app. assert (M : more hd) by (eapply (P_head _ more_closed); eassumption). unfold more in M. destruct hs as [|y hs]; [destruct HI|].
  rewrite surplus_el. pose proof (concat_surplus _ _ F HI). lia.
Qed.
End Members.

(** ** The page *)
Section Page.
Variable fmt : pyval -> str.
Variable repr : pyval -> str.
Variable reprs : str -> str.
Variable ffmt : pyval -> str.
Lemma kids_surplus e t kids x : Forall more kids -> In x kids -> surplus x <= surplus (page_html e t kids).
Proof.
  intros F HI. unfold page_html. change (surplus (Prolog :: ?y)) with (0 + surplus y). rewrite surplus_el, surplus_app, surplus_el, !surplus_app, !surplus_el. pose proof (concat_surplus _ _ F HI) as S.
  assert (M1 : more (head_html e t)).
  { unfold head_html. apply more_el'. apply more_app; [apply more_el', more_txt|]. apply more_app; [|apply more_app].
    - induction (e_styles e) as [|s l IH]; [apply more_nil|]. cbn [map]. match goal with |- more (?a :: ?b) => change (more ([a] ++ b)) end. apply more_app; [unfold more; vm_compute; discriminate|exact IH].
    - destruct (e_nojquery e); [apply more_nil|apply more_el', more_nil].
    - apply (P_flat_map _ more_closed). intro js. apply more_el', more_nil. }
  assert (M2 : more (heading_html e t)).
  { unfold heading_html. apply more_el'. apply more_app; [|apply more_el', more_txt]. apply more_el'. apply more_app; [|apply more_el', more_txt]. apply (P_flat_map _ more_closed). intro y. apply more_el', more_el', more_txt. }
  unfold more in M1, M2. change (surplus []) with 0. lia.
Qed.
Lemma events_more_m o l r (evs : list mevent) hs : Forall (fun y => exists c' ev, In ev evs /\ method_event_html fmt o (c_pool l) (c_pool r) (c', ev) = Ok y) hs -> Forall more hs.
Proof. apply Forall_impl. intros y (c' & ev & _ & H). eapply method_events_more; eassumption. Qed.
Lemma events_more_f o l r (evs : list mevent) hs : Forall (fun y => exists c' ev, In ev evs /\ field_event_html fmt repr o (c_pool l) (c_pool r) (c', ev) = Ok y) hs -> Forall more hs.
Proof. apply Forall_impl. intros y (c' & ev & _ & H). eapply field_events_more; eassumption. Qed.
Lemma mapM_more {A} (f : A -> res (list html)) l rs : (forall x y, f x = Ok y -> more y) -> mapM f l = Ok rs -> Forall more rs.
Proof. intros H E. apply mapM_Forall2 in E. induction E; constructor; [eapply H; eassumption|assumption]. Qed.
Lemma fields_more o c l r h : fields_html fmt repr o c l r = Ok h -> more h.
Proof. unfold fields_html. intro H. steps H. apply (P_members _ more_closed _ _ _ _ H). eapply mapM_more; [|eassumption]. intros x y. apply field_events_more. Qed.
Lemma methods_more o c l r h : methods_html fmt o c l r = Ok h -> more h.
Proof. unfold methods_html. intro H. steps H. apply (P_members _ more_closed _ _ _ _ H). eapply mapM_more; [|eassumption]. intros x y. apply method_events_more. Qed.

Lemma parts_more e o l r page : class_html fmt repr reprs ffmt e o l r = Ok page ->
  exists info va ia po fs ms t, page_parts fmt repr reprs ffmt o l r page info va ia po fs ms /\ page = page_html e t [info; va; ia; po; fs; ms] /\ Forall more [info; va; ia; po; fs; ms].
Proof.
  intro H. destruct (class_parts _ _ _ _ _ _ _ _ _ H) as (i & va & ia & po & fs & ms & n & _ & P & ->). exists i, va, ia, po, fs, ms. eexists. split; [exact P|]. split; [reflexivity|].
  destruct (pp_info_ok _ _ _ _ _ _ _ _ _ _ _ _ _ _ P) as (c1 & _ & H1). destruct (pp_va_ok _ _ _ _ _ _ _ _ _ _ _ _ _ _ P) as (c2 & _ & H2). destruct (pp_ia_ok _ _ _ _ _ _ _ _ _ _ _ _ _ _ P) as (c3 & _ & H3).
  destruct (pp_po_ok _ _ _ _ _ _ _ _ _ _ _ _ _ _ P) as (c4 & _ & H4). destruct (pp_fs_ok _ _ _ _ _ _ _ _ _ _ _ _ _ _ P) as (c5 & _ & H5). destruct (pp_ms_ok _ _ _ _ _ _ _ _ _ _ _ _ _ _ P) as (c6 & _ & H6).
  repeat constructor; [eapply (P_info _ more_closed)|eapply (P_annos _ more_closed)|eapply (P_annos _ more_closed)|eapply pool_more|eapply fields_more|eapply methods_more]; eassumption.
Qed.

(** A method or field on both sides *)
Theorem method_ill e o l r page a b n : class_html fmt repr reprs ffmt e o l r = Ok page -> distinct_ids fmt (c_pool l) (c_methods l) -> distinct_ids fmt (c_pool r) (c_methods r) ->
  In a (c_methods l) -> In b (c_methods r) -> same_identity fmt (c_pool l) (c_pool r) a b -> m_name (c_pool l) a = Ok (PStr n) -> m_name (c_pool r) b = Ok (PStr n) -> well_formed page [] = false.
Proof.
  intros H DL DR Ha Hb S NL NR. destruct (parts_more _ _ _ _ _ H) as (i & va & ia & po & fs & ms & t & P & EP & F). destruct (pp_ms_ok _ _ _ _ _ _ _ _ _ _ _ _ _ _ P) as (c6 & C6 & H6).
  destruct (methods_parts_all _ _ _ _ _ _ _ C6 H6) as (evs & E & G). destruct (G _ (pair_event _ _ _ _ _ _ _ _ E DL DR Ha Hb S)) as (c' & x & G1 & G2 & hs & G3 & G4 & G5).
  pose proof (method_surplus _ _ _ _ _ _ _ _ _ _ G1 G2 NL NR) as S1. pose proof (members_surplus _ _ _ _ _ G3 (events_more_m _ _ _ _ _ G5) G4) as S2. assert (S3 : surplus ms <= surplus page) by (rewrite EP; apply kids_surplus; [exact F|cbn; tauto]).
  destruct (well_formed page []) eqn:W; [|reflexivity]. apply wf_surplus in W. cbn in W. lia.
Qed.
Theorem field_ill e o l r page a b n : class_html fmt repr reprs ffmt e o l r = Ok page -> distinct_ids fmt (c_pool l) (c_fields l) -> distinct_ids fmt (c_pool r) (c_fields r) ->
  In a (c_fields l) -> In b (c_fields r) -> same_identity fmt (c_pool l) (c_pool r) a b -> m_name (c_pool l) a = Ok (PStr n) -> m_name (c_pool r) b = Ok (PStr n) -> well_formed page [] = false.
Proof.
  intros H DL DR Ha Hb S NL NR. destruct (parts_more _ _ _ _ _ H) as (i & va & ia & po & fs & ms & t & P & EP & F). destruct (pp_fs_ok _ _ _ _ _ _ _ _ _ _ _ _ _ _ P) as (c6 & C6 & H6).
  destruct (fields_parts_all _ _ _ _ _ _ _ _ C6 H6) as (evs & E & G). destruct (G _ (pair_event _ _ _ _ _ _ _ _ E DL DR Ha Hb S)) as (c' & x & G1 & G2 & hs & G3 & G4 & G5).
  pose proof (field_surplus _ _ _ _ _ _ _ _ _ _ _ G1 G2 NL NR) as S1. pose proof (members_surplus _ _ _ _ _ G3 (events_more_f _ _ _ _ _ G5) G4) as S2. assert (S3 : surplus fs <= surplus page) by (rewrite EP; apply kids_surplus; [exact F|cbn; tauto]).
  destruct (well_formed page []) eqn:W; [|reflexivity]. apply wf_surplus in W. cbn in W. lia.
Qed.
Lemma mapM_event {A} (f : change * A -> res (list html)) kids evs rs (P : list html -> Prop) : (forall c e y, In e evs -> f (c, e) = Ok y -> P y) -> mapM f (combine kids evs) = Ok rs -> Forall P rs.
Proof.
  intros H E. apply mapM_Forall2 in E. assert (SUB : forall z, In z (combine kids evs) -> In (snd z) evs) by (intros [u w] HZ; now apply in_combine_r in HZ).
  induction E as [|[c e] b s t H1 _ IH]; constructor; [eapply H; [exact (SUB _ (or_introl eq_refl))|exact H1]|]. apply IH. intros z HZ. apply SUB. now right.
Qed.
(** Nothing on both sides, no method added, the pools the same *)
Theorem page_wf e o l r page : class_html fmt repr reprs ffmt e o l r = Ok page -> e_nojquery e = true -> same_pool (c_pool l) (c_pool r) ->
  distinct_ids fmt (c_pool l) (c_fields l) -> (forall a b, In a (c_fields l) -> In b (c_fields r) -> ~ same_identity fmt (c_pool l) (c_pool r) a b) -> c_methods r = [] ->
  well_formed page [] = true.
Proof.
  intros H J SP DF NF NM. destruct (class_parts _ _ _ _ _ _ _ _ _ H) as (i & va & ia & po & fs & ms & n & _ & P & ->). apply wf_done. apply (P_page _ wf_closed); [now left|].
  destruct (pp_info_ok _ _ _ _ _ _ _ _ _ _ _ _ _ _ P) as (c1 & _ & H1). destruct (pp_va_ok _ _ _ _ _ _ _ _ _ _ _ _ _ _ P) as (c2 & _ & H2). destruct (pp_ia_ok _ _ _ _ _ _ _ _ _ _ _ _ _ _ P) as (c3 & _ & H3).
  destruct (pp_po_ok _ _ _ _ _ _ _ _ _ _ _ _ _ _ P) as (c4 & C4 & H4). destruct (pp_fs_ok _ _ _ _ _ _ _ _ _ _ _ _ _ _ P) as (c5 & _ & H5). destruct (pp_ms_ok _ _ _ _ _ _ _ _ _ _ _ _ _ _ P) as (c6 & _ & H6).
  constructor; [eapply (P_info _ wf_closed); eassumption|]. constructor; [eapply (P_annos _ wf_closed); eassumption|]. constructor; [eapply (P_annos _ wf_closed); eassumption|].
  constructor; [|constructor; [|constructor; [|constructor]]].
  - apply (P_pool_same _ wf_closed _ _ _ _ _ _ _ H4). destruct (is_change c4) eqn:C; [|reflexivity]. exfalso. apply (proj1 (changed_iff _ _ _ C4 (quiet_pool _ _ l r)) C). exact SP.
  - unfold fields_html in H5. steps H5. apply (P_members _ wf_closed _ _ _ _ H5). eapply mapM_event; [|exact E1]. intros c ev y HI HY. apply iterate_in in HI.
    destruct (collect_members_facts _ _ _ _ _ _ E) as (F1 & _ & F3 & _). pose proof (collect_members_complete _ _ _ _ _ _ E DF) as FP. unfold field_event_html in HY. cbn [fst snd] in HY. destruct ev as [m|m|a b]; [eapply (P_label _ wf_closed); eassumption|eapply (P_label _ wf_closed); eassumption|].
    exfalso. destruct (changed_sides _ _ _ HI) as [HL HR]. apply (Permutation.Permutation_in _ FP) in HL. rewrite F1 in HR. exact (NF _ _ HL HR (F3 _ _ HI)).
  - unfold methods_html in H6. steps H6. apply (P_members _ wf_closed _ _ _ _ H6). eapply mapM_event; [|exact E1]. intros c ev y HI HY. apply iterate_in in HI.
    destruct (collect_members_facts _ _ _ _ _ _ E) as (F1 & _). rewrite NM in F1. unfold method_event_html in HY. cbn [fst snd] in HY. destruct ev as [m|m|a b]; [|eapply (P_removed _ wf_closed); eassumption|].
    + exfalso. assert (X : In m (rights v)) by (clear -HI; induction v as [|[x|x|x z] v IH]; [destruct HI|..]; cbn [rights]; destruct HI as [HI|HI]; try discriminate HI; try (injection HI as <-); cbn; auto). rewrite F1 in X. destruct X.
    + exfalso. destruct (changed_sides _ _ _ HI) as [_ HR]. rewrite F1 in HR. destruct HR.
Qed.
End Page.

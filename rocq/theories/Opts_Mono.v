From Verif Require Import Base Pack_Model ConstPool_Model ClassFile_Model Descr_Model Change_Model Change_Proofs Change_Report Classdiff_Model Manifest_Model Jardiff_Model Jardiff_Report
  Distdiff_Model Glob_Model Glob_Proofs P_Glob Opts_Model Opts_Spec Opts_Proofs.
From Verif Require Zip_Model Dir_Model Sign_Model.
From Coq Require Import Permutation.

(** All classes in a tree of changes. *)
Inductive every (Q : (options -> bool) -> Prop) : change -> Prop :=
| Every k ch d cs im : Q (k_own k) -> Forall (every Q) cs -> Forall (every Q) im -> every Q (Node k ch d cs im).

Lemma every_impl (Q R : (options -> bool) -> Prop) : (forall f, Q f -> R f) -> forall c, every Q c -> every R c.
Proof.
  intros H c. induction c as [k ch d cs im IH1 IH2] using change_rect'. intro HE. inversion HE as [? ? ? ? ? Hk H1 H2]; subst. constructor; [now apply H| |];
    (rewrite Forall_forall in *; auto).
Qed.
Lemma every_check Q : forall c c', every Q c -> check c = Ok c' -> every Q c'.
Proof.
  intro c. induction c as [k ch d cs im IH1 IH2] using change_rect'. intros c' HE H. inversion HE as [? ? ? ? ? Hk H1 H2]; subst. destruct (k_check k) as [|r|] eqn:Ek.
  - cbn [check] in H. rewrite Ek in H. injection H as <-. exact HE.
  - cbn [check] in H. rewrite Ek in H. destruct r as [[b d']|e]; [|discriminate]. cbn [rbind] in H. injection H as <-. now constructor.
  - apply check_parts in H; [|exact Ek]. destruct H as (ks & ks' & H3 & H4 & ->). constructor; [exact Hk| |exact H2].
    assert (HF : Forall (fun c => every Q c /\ forall c', every Q c -> check c = Ok c' -> every Q c') ks).
    { unfold collect_in in H3. refine (pick_Forall _ _ _ _ _ _ _ _ _ H3); rewrite Forall_forall in *; intros x Hx; split; eauto. }
    clear -HF H4. induction H4 as [|a b l r Hab H IH]; [constructor|]. inversion HF as [|? ? [Ha Hc] HF']; subst. constructor; [now apply Hc|now apply IH].
Qed.

(** If every class ignores at least as much, so does the whole. *)
Lemma ignored_weaker o o' : forall c, every (fun f => f o = true -> f o' = true) c -> is_ignored o c = Ok true -> is_ignored o' c = Ok true.
Proof.
  intro c. induction c as [k ch d cs im IH1 IH2] using change_rect'. intros HE H. inversion HE as [? ? ? ? ? Hk H1 H2]; subst. rewrite is_ignored_eq in *.
  destruct (k_own k o') eqn:E'; [reflexivity|]. destruct (k_own k o) eqn:E; [discriminate (Hk eq_refl)|]. destruct (negb (k_parts k)); [discriminate|]. destruct (negb _); [discriminate|].
  destruct (collect (Node k ch d cs im)) as [ks|] eqn:EC; [|discriminate]. cbn [rbind] in *.
  assert (HF : Forall (fun c => is_ignored o c = Ok true -> is_ignored o' c = Ok true) ks).
  { unfold collect in EC. refine (pick_Forall _ _ _ _ _ _ _ _ _ EC); rewrite Forall_forall in *; intros x Hx; auto. }
  destruct ks as [|x ks]; [exact H|]. revert HF H. generalize (x :: ks). clear. intro l. induction l as [|a l IH]; intros HF H; [exact H|]. inversion HF as [|? ? Ha HF']; subst. cbn [map all_ignored] in *.
  destruct (is_change a); [|now apply IH]. destruct (is_ignored o a) as [[|]|]; try discriminate. cbn [rbind] in H. rewrite (Ha eq_refl). cbn [rbind]. now apply IH.
Qed.
(** If every class ignores the same, so does the whole. *)
Lemma ignored_same o o' : forall c, every (fun f => f o = f o') c -> is_ignored o c = is_ignored o' c.
Proof.
  intro c. induction c as [k ch d cs im IH1 IH2] using change_rect'. intros HE. inversion HE as [? ? ? ? ? Hk H1 H2]; subst. rewrite !is_ignored_eq. cbv beta in Hk. rewrite Hk.
  destruct (k_own k o'); [reflexivity|]. destruct (negb (k_parts k)); [reflexivity|]. destruct (negb _); [reflexivity|].
  destruct (collect (Node k ch d cs im)) as [ks|] eqn:EC; [|reflexivity]. cbn [rbind].
  assert (HF : Forall (fun c => is_ignored o c = is_ignored o' c) ks).
  { unfold collect in EC. refine (pick_Forall _ _ _ _ _ _ _ _ _ EC); rewrite Forall_forall in *; intros x Hx; auto. }
  assert (HM : map (fun kid => (is_change kid, is_ignored o kid)) ks = map (fun kid => (is_change kid, is_ignored o' kid)) ks).
  { apply map_ext_in. intros a Ha. rewrite Forall_forall in HF. now rewrite (HF a Ha). }
  now rewrite HM.
Qed.
Lemma status_weaker o o' c : every (fun f => f o = true -> f o' = true) c -> exit_status o c = Ok 0 -> exit_status o' c = Ok 0.
Proof.
  intros HE H. unfold exit_status in *. destruct (negb (is_change c)); [reflexivity|]. destruct (is_ignored o c) as [[|]|] eqn:E; try discriminate. now rewrite (ignored_weaker _ _ _ HE E).
Qed.
Lemma status_same o o' c : every (fun f => f o = f o') c -> exit_status o c = exit_status o' c.
Proof. intros HE. unfold exit_status. now rewrite (ignored_same _ _ _ HE). Qed.

(** The conditions that occur. *)
Inductive form : (options -> bool) -> Prop :=
| form_never : form never
| form_flag f : In f [ignore_absolute_lines; ignore_relative_lines; ignore_deprecated; ignore_pool; ignore_jar_signature; ignore_manifest; ignore_manifest_subsections] -> form f
| form_version l r : form (version_own l r)
| form_keys l r : form (keys_own l r)
| form_section l r : form (fun o => ignore_manifest_subsections o || keys_own l r o)
| form_entry e : form (entry_own e)
| form_dist e : form (dist_own e)
| form_text e b : form (fun o => dist_own e o || (b && ignore_trailing_whitespace o)).

Lemma form_weaker o o' : more o o' -> forall f, form f -> f o = true -> f o' = true.
Proof.
  intros [HF HL] f H. rewrite Forall_forall in HF, HL. assert (HW : forall f, In f _ -> f o = true -> f o' = true) by exact HF. clear HF.
  assert (HK : forall l r, keys_own l r o = true -> keys_own l r o' = true).
  { intros l r. unfold keys_own. assert (HI : incl (ignore_manifest_key o) (ignore_manifest_key o')) by (apply HL; cbn [In]; auto). destruct (ignore_manifest_key o) as [|x xs]; [discriminate|].
    destruct (ignore_manifest_key o') as [|y ys]; [destruct (HI x); now left|]. rewrite !forallb_forall. intros H1 k Hk. specialize (H1 k Hk). apply smem_In in H1. apply smem_In. now apply HI. }
  assert (HE : forall f e, In f [ignore_jar_entry; ignore_manifest_key; ignore_filenames] -> fnmatches e (f o) = true -> fnmatches e (f o') = true) by (intros g e Hg; apply C76_monotone; exact (HL g Hg)).
  destruct H.
  - discriminate.
  - apply HW. cbn [In] in *. repeat match goal with H : _ \/ _ |- _ => destruct H as [<-|H] end; auto 15.
  - unfold version_own. rewrite !orb_true_iff, !andb_true_iff. intros [[H1 H2]|[H1 H2]]; [left|right]; (split; [|exact H2]); revert H1; apply HW; cbn [In]; auto.
  - apply HK.
  - cbv beta. rewrite !orb_true_iff. intros [H|H]; [left; revert H; apply HW; cbn [In]; auto 15|right; now apply HK].
  - unfold entry_own. apply HE. now left.
  - unfold dist_own. apply HE. cbn [In]. auto.
  - cbv beta. rewrite !orb_true_iff, !andb_true_iff. intros [H|[H1 H]]; [left; revert H; unfold dist_own; apply HE; cbn [In]; auto|right; split; [exact H1|revert H; apply HW; cbn [In]; auto 15]].
Qed.

(** The options that count. *)
Definition alike (o o' : options) : Prop :=
  Forall (fun f : options -> bool => f o = f o') [ignore_absolute_lines; ignore_relative_lines; ignore_deprecated; ignore_pool; ignore_jar_signature; ignore_manifest; ignore_manifest_subsections;
    ignore_version_up; ignore_version_down; ignore_trailing_whitespace] /\
  Forall (fun f : options -> list str => f o = f o') [ignore_jar_entry; ignore_manifest_key; ignore_filenames].
Lemma form_alike o o' : alike o o' -> forall f, form f -> f o = f o'.
Proof.
  intros [HF HL] f H. rewrite Forall_forall in HF, HL.
  assert (HK : forall l r, keys_own l r o = keys_own l r o') by (intros l r; unfold keys_own; now rewrite (HL ignore_manifest_key) by (cbn [In]; auto)).
  destruct H.
  - reflexivity.
  - apply HF. cbn [In] in *. repeat match goal with H : _ \/ _ |- _ => destruct H as [<-|H] end; auto 15.
  - unfold version_own. rewrite (HF ignore_version_up), (HF ignore_version_down) by (cbn [In]; auto 15). reflexivity.
  - apply HK.
  - cbv beta. rewrite HK, (HF ignore_manifest_subsections) by (cbn [In]; auto 15). reflexivity.
  - unfold entry_own. now rewrite (HL ignore_jar_entry) by (cbn [In]; auto).
  - unfold dist_own. now rewrite (HL ignore_filenames) by (cbn [In]; auto).
  - cbv beta. unfold dist_own. now rewrite (HL ignore_filenames), (HF ignore_trailing_whitespace) by (cbn [In]; auto 15).
Qed.

Notation fine := (every form).
Lemma fine_super n lb t rs kids : Forall fine kids -> fine (super n lb t rs kids).
Proof. intro H. unfold super. constructor; [exact form_never|constructor|exact H]. Qed.
Lemma fine_leaf n lb own r lp rp : form own -> fine (leaf n lb own r lp rp).
Proof. intro H. unfold leaf. constructor; [exact H|constructor..]. Qed.
Lemma fine_leaf_of {A} n lb own (ld rd : res A) eqf lt rt lp rp : form own -> fine (leaf_text n lb own ld rd eqf lt rt lp rp).
Proof. intro H. now apply fine_leaf. Qed.
Lemma fine_iterate ch f lt : Forall fine ch -> Forall fine (iterate_by_type f ch lt).
Proof. destruct (iterate_spec f ch lt) as [P _]. apply Permutation_Forall. now apply Permutation_sym. Qed.
Lemma fine_section name label always add rem txt own same old new : form own -> fine (section_node name label always add rem txt own same old new).
Proof. intro H. unfold section_node. constructor; [exact H|constructor..]. Qed.
Ltac form_tac := first [exact form_never|apply form_version|apply form_flag; cbn [In]; tauto].
Ltac leaf_tac := first [apply fine_leaf_of|apply fine_leaf]; form_tac.

Section Trees.
Variable fmt : pyval -> str.
Variable reprs : str -> str.
Variable ffmt : pyval -> str.
Variable text : bytes -> res str.
Variable order : list str -> list str.
Variable up : Z -> str.
Variable unzip : bytes -> jar.

Lemma fine_class l r : fine (class_change fmt reprs ffmt l r).
Proof.
  assert (HC : forall lp rp lc rc, fine (method_code fmt reprs lp rp lc rc)).
  { intros lp rp lc rc. unfold method_code. assert (HL : Forall fine (code_parts fmt reprs lp rp lc rc)) by (unfold code_parts; repeat (apply Forall_cons; [leaf_tac|]); constructor).
    constructor; [exact form_never|constructor|]. destruct lc, rc; first [exact HL|constructor]. }
  assert (HF : forall lp rp a b, fine (field_change fmt reprs lp rp a b)).
  { intros. unfold field_change. apply fine_super. repeat (apply Forall_cons; [leaf_tac|]). constructor. }
  assert (HM : forall lp rp a b, fine (method_change fmt reprs lp rp a b)).
  { intros. unfold method_change. cbv zeta. apply fine_super. do 10 (apply Forall_cons; [leaf_tac|]). apply Forall_cons; [|constructor]. destruct (get_code lp a), (get_code rp b); apply HC. }
  unfold class_change. apply fine_super. apply Forall_cons; [unfold class_info; apply fine_super; repeat (apply Forall_cons; [leaf_tac|]); constructor|].
  apply Forall_cons; [leaf_tac|]. apply Forall_cons; [leaf_tac|]. apply Forall_cons; [unfold pool_change; constructor; [form_tac|constructor..]|].
  apply Forall_cons; [|apply Forall_cons; [|constructor]].
  - unfold fields_change. cbv zeta. apply fine_super. destruct (collect_members _ _ _ _ _); [|constructor]. apply fine_iterate. rewrite Forall_map. apply Forall_forall. intros [x|x|x y] _; [constructor; [exact form_never|constructor..]..|apply HF].
  - unfold methods_change. cbv zeta. apply fine_super. destruct (collect_members _ _ _ _ _); [|constructor]. apply fine_iterate. rewrite Forall_map. apply Forall_forall. intros [x|x|x y] _; [constructor; [exact form_never|constructor..]..|apply HM].
Qed.
Lemma fine_manifest_parts l r : Forall fine (manifest_parts order l r).
Proof.
  unfold manifest_parts. cbv zeta. apply Forall_cons; [apply fine_section; apply form_keys|]. rewrite !Forall_app, !Forall_map. repeat split; apply Forall_forall; intros x _; apply fine_section; first [apply form_section|form_tac].
Qed.
Lemma fine_manifest l r : fine (manifest_change order l r).
Proof. unfold manifest_change. constructor; [form_tac|constructor|apply fine_manifest_parts]. Qed.
Lemma fine_signature l r : fine (signature_change order l r).
Proof. unfold signature_change. constructor; [form_tac|constructor|apply fine_manifest_parts]. Qed.
Lemma fine_data name label txt sh l r : fine (data_node name label txt sh l r).
Proof. unfold data_node. constructor; [form_tac|constructor..]. Qed.
Lemma fine_jar_node name label always add rem own parts changed sub entry : form own ->
  match sub with Some (Ok c) => fine c | _ => True end -> fine (jar_node name label always add rem own parts changed sub entry).
Proof. intros HO H. unfold jar_node. constructor; [exact HO|constructor|]. destruct sub as [[c|]|]; repeat constructor. exact H. Qed.
Lemma fine_event l r ev : fine (jar_event fmt reprs ffmt text order up l r ev).
Proof.
  assert (HM : forall mk e, (forall a b, fine (mk a b)) -> match Some (manifest_sub text l r mk e) with Some (Ok c) => fine c | _ => True end).
  { intros mk e H. unfold manifest_sub. destruct (read_entry text l e) as [p|]; cbn [rbind]; [|exact I]. destruct (parse_piece p); cbn [rbind]; [|exact I]. destruct (read_entry text r e) as [q|]; cbn [rbind]; [|exact I]. destruct (parse_piece q); cbn [rbind]; [apply H|exact I]. }
  assert (HD : forall mk e, (forall a b, fine (mk a b)) -> match Some (data_sub text l r mk e) with Some (Ok c) => fine c | _ => True end).
  { intros mk e H. unfold data_sub. destruct (read_entry text l e) as [p|]; cbn [rbind]; [|exact I]. destruct (read_entry text r e) as [q|]; cbn [rbind]; [apply H|exact I]. }
  assert (HC : forall e, match Some (class_sub fmt reprs ffmt text l r e) with Some (Ok c) => fine c | _ => True end).
  { intros e. unfold class_sub. destruct (read_entry text l e) as [p|]; cbn [rbind]; [|exact I]. destruct (unpack_piece p); cbn [rbind]; [|exact I]. destruct (read_entry text r e) as [q|]; cbn [rbind]; [|exact I]. destruct (unpack_piece q); cbn [rbind]; [apply fine_class|exact I]. }
  destruct ev as [e n]. destruct e; cbn [jar_event];
    repeat match goal with |- fine (if ?b then _ else _) => destruct b end; (apply fine_jar_node; [first [apply form_entry|form_tac]|]);
    first [exact I|apply HC|apply HM; intros; first [apply fine_manifest|apply fine_signature]|apply HD; intros; apply fine_data].
Qed.
Lemma fine_jar l r : fine (jar_change fmt reprs ffmt text order up l r).
Proof.
  unfold jar_change. apply fine_super. apply Forall_cons; [apply fine_leaf; form_tac|]. apply Forall_cons; [|constructor]. unfold jar_contents. constructor; [exact form_never|constructor|].
  unfold jar_entries. destruct (jar_events text order l r) as [[[a b] evs]|]; [|constructor]. apply fine_iterate. rewrite Forall_map. apply Forall_forall. intros ev _. apply fine_event.
Qed.
Lemma fine_dist_event l r s ev : fine (dist_event fmt reprs ffmt text order up unzip l r s ev).
Proof.
  destruct ev as [e n]. cbn [dist_event]. unfold dist_removed, dist_added, dist_node.
  repeat match goal with |- fine (if ?b then _ else _) => destruct b end; try (apply fine_jar_node; [apply form_dist|try exact I]).
  - unfold dist_jar_sub. destruct (both l r n) as [[a b]|]; cbn [rbind]; [apply fine_jar|exact I].
  - unfold dist_class_sub. destruct (read_file l n); cbn [rbind]; [|exact I]. destruct (unpack_class _ _); cbn [rbind]; [|exact I]. destruct (read_file r n); cbn [rbind]; [|exact I]. destruct (unpack_class _ _); cbn [rbind]; [apply fine_class|exact I].
  - unfold dist_text. constructor; [apply form_text|constructor|]. destruct (texts text l r n) as [[a b]|]; [|constructor]. destruct (seqb a b); constructor; [apply fine_leaf; form_tac|constructor].
  - unfold dist_manifest_sub. destruct (read_file l n); cbn [rbind]; [|exact I]. destruct (man_parse _ _); cbn [rbind]; [|exact I]. destruct (read_file r n); cbn [rbind]; [|exact I]. destruct (man_parse _ _); cbn [rbind]; [apply fine_manifest|exact I].
Qed.
Lemma fine_dist l r s : fine (dist_change fmt reprs ffmt text order up unzip l r s).
Proof.
  unfold dist_change. apply fine_super. destruct (dist_events _ _ _ _ _ _ _ _ _ s) as [evs|]; [|constructor]. rewrite Forall_map. apply Forall_forall. intros ev _. apply fine_dist_event.
Qed.

Theorem class_more o o' l r : more o o' -> classdiff fmt reprs ffmt o l r = Ok 0 -> classdiff fmt reprs ffmt o' l r = Ok 0.
Proof.
  intros HM. unfold classdiff. destruct (check (class_change fmt reprs ffmt l r)) as [c|] eqn:E; [|discriminate]. cbn [rbind]. apply status_weaker. eapply every_impl; [exact (form_weaker _ _ HM)|]. exact (every_check _ _ _ (fine_class l r) E).
Qed.
Theorem jar_more o o' l r : more o o' -> jardiff fmt reprs ffmt text order up o l r = Ok 0 -> jardiff fmt reprs ffmt text order up o' l r = Ok 0.
Proof.
  intros HM. unfold jardiff. destruct (check _) as [c|] eqn:E; [|discriminate]. cbn [rbind]. apply status_weaker. eapply every_impl; [exact (form_weaker _ _ HM)|]. exact (every_check _ _ _ (fine_jar l r) E).
Qed.
Theorem dist_more o o' l r s : more o o' -> distdiff fmt reprs ffmt text order up unzip l r o s = Ok 0 -> distdiff fmt reprs ffmt text order up unzip l r o' s = Ok 0.
Proof.
  intros HM. unfold distdiff. destruct (check _) as [c|] eqn:E; [|discriminate]. cbn [rbind]. apply status_weaker. eapply every_impl; [exact (form_weaker _ _ HM)|]. exact (every_check _ _ _ (fine_dist l r s) E).
Qed.
Theorem class_alike o o' l r : alike o o' -> classdiff fmt reprs ffmt o l r = classdiff fmt reprs ffmt o' l r.
Proof.
  intros HM. unfold classdiff. destruct (check (class_change fmt reprs ffmt l r)) as [c|] eqn:E; [|reflexivity]. cbn [rbind]. apply status_same. eapply every_impl; [exact (form_alike _ _ HM)|]. exact (every_check _ _ _ (fine_class l r) E).
Qed.
Theorem jar_alike o o' l r : alike o o' -> jardiff fmt reprs ffmt text order up o l r = jardiff fmt reprs ffmt text order up o' l r.
Proof.
  intros HM. unfold jardiff. destruct (check _) as [c|] eqn:E; [|reflexivity]. cbn [rbind]. apply status_same. eapply every_impl; [exact (form_alike _ _ HM)|]. exact (every_check _ _ _ (fine_jar l r) E).
Qed.
Theorem dist_alike o o' l r s : alike o o' -> distdiff fmt reprs ffmt text order up unzip l r o s = distdiff fmt reprs ffmt text order up unzip l r o' s.
Proof.
  intros HM. unfold distdiff. destruct (check _) as [c|] eqn:E; [|reflexivity]. cbn [rbind]. apply status_same. eapply every_impl; [exact (form_alike _ _ HM)|]. exact (every_check _ _ _ (fine_dist l r s) E).
Qed.
End Trees.

(** ** From the command line *)
Definition counting : list str := [lit "shallow"; lit "ignore_absolute_lines"; lit "ignore_relative_lines"; lit "ignore_deprecated"; lit "ignore_pool"; lit "ignore_jar_signature"; lit "ignore_manifest";
  lit "ignore_manifest_subsections"; lit "ignore_version_up"; lit "ignore_version_down"; lit "ignore_trailing_whitespace"].
Lemma runs_alike pr os os' o o' : Forall (offered pr) os -> sensible os -> Forall (offered pr) os' -> sensible os' ->
  (forall f, In f counting -> asked os f <-> asked os' f) -> (forall f, In f list_names -> given f os = given f os') -> runs pr os o -> runs pr os' o' -> alike o o'.
Proof.
  intros HF HS HF' HS' HA HG HR HR'. destruct (runs_spec _ _ _ HF HS HR) as [H1 H2]. destruct (runs_spec _ _ _ HF' HS' HR') as [H3 H4].
  rewrite Forall_forall in H1, H2, H3, H4. split.
  - assert (HE : forall k f, In (k, f) (flags_of Distdiff) -> In k counting -> f o = f o').
    { intros k f Hk Hc. specialize (H1 _ Hk). specialize (H3 _ Hk). specialize (HA k Hc). cbn [fst snd] in *. destruct (f o), (f o'); try reflexivity; intuition discriminate. }
    unfold flags_of, class_flags, jar_flags, dist_flags, counting in HE. cbn [app] in HE.
    apply Forall_forall. cbn [In]. intros f Hf. repeat (destruct Hf as [<-|Hf]; [eapply HE; [cbn [In]; do 25 (first [left; reflexivity|right])|cbn [In]; auto 15]|]). contradiction.
  - assert (HE : forall k f, In (k, f) (lists_of Distdiff) -> f o = f o').
    { intros k f Hk. specialize (H2 _ Hk). specialize (H4 _ Hk). cbn [fst snd] in *. rewrite H2, H4. apply HG. revert Hk. unfold lists_of, jar_lists, dist_lists. cbn [app In]. unfold list_names. intros [E|[E|[E|[]]]]; apply (f_equal fst) in E; cbn [fst] in E; subst k; cbn [In]; auto. }
    unfold lists_of, jar_lists, dist_lists in HE. cbn [app] in HE.
    apply Forall_forall. cbn [In]. intros f Hf. repeat (destruct Hf as [<-|Hf]; [eapply HE; cbn [In]; do 25 (first [left; reflexivity|right])|]). contradiction.
Qed.
Lemma main_runs pr os cmp : Forall (offered pr) os -> sensible os -> exists n o, runs pr os o /\ (truth n (lit "shallow") = true <-> asked os (lit "shallow")) /\
  main (parser_of pr) 2 os cmp = match cmp n o with Ok z => Returns z | Err e => Fails e end.
Proof.
  intros HF HS. destruct (accepts pr os HF HS) as [n Hn]. destruct (options_spec pr _ _ _ Hn HS) as (o & Ho & _). exists n, o. split; [now exists n|]. split.
  - apply (parsed_flags pr _ _ _ _ Hn). now left.
  - unfold main. now rewrite Hn, Ho.
Qed.

(** Command lines without some options. *)
Definition drop (ss : list str) (os : list occurrence) : list occurrence := filter (fun oc => negb (smem (fst oc) ss)) os.
Lemma drop_In ss os oc : In oc (drop ss os) <-> In oc os /\ ~ In (fst oc) ss.
Proof. unfold drop. rewrite filter_In, negb_true_iff. rewrite <- smem_In. destruct (smem (fst oc) ss); intuition congruence. Qed.
Definition idle_b (ss : list str) : bool :=
  forallb (fun s => negb (seqb s (lit "--ignore")) && forallb (fun f => negb (asks_b s f)) counting && forallb (fun f => negb (seqb s (dashed f))) list_names) ss.
Lemma drop_asked ss os f : idle_b ss = true -> In f counting -> (asked os f <-> asked (drop ss os) f).
Proof.
  intros HI HC. split; intros (oc & Ho & Ha); exists oc; (split; [|exact Ha]); [|now apply drop_In in Ho as [Ho _]]. apply drop_In. split; [exact Ho|]. intro Hs.
  unfold idle_b in HI. rewrite forallb_forall in HI. specialize (HI _ Hs). rewrite !andb_true_iff in HI. destruct HI as [[H1 H2] _]. rewrite forallb_forall in H2. specialize (H2 f HC). apply negb_true_iff in H2.
  destruct oc as [s [v|]]; cbn [fst] in *; [inversion Ha; subst; discriminate H1|]. apply asks_b_iff in Ha. congruence.
Qed.
Lemma drop_given ss os f : idle_b ss = true -> In f list_names -> given f os = given f (drop ss os).
Proof.
  intros HI HL. induction os as [|[s a] os IH]; [reflexivity|]. cbn [drop filter fst]. fold (drop ss os). destruct (smem s ss) eqn:E; cbn [negb].
  - cbn [given]. destruct a as [v|]; [|exact IH]. apply smem_In in E. unfold idle_b in HI. rewrite forallb_forall in HI. specialize (HI _ E). rewrite !andb_true_iff in HI. destruct HI as [_ H2]. rewrite forallb_forall in H2.
    specialize (H2 f HL). apply negb_true_iff in H2. fold (dashed f). now rewrite H2.
  - cbn [given]. destruct a as [v|]; [|exact IH]. now rewrite IH.
Qed.
Lemma drop_fine pr ss os : Forall (offered pr) os -> sensible os -> Forall (offered pr) (drop ss os) /\ sensible (drop ss os).
Proof.
  intros HF HS. split.
  - apply Forall_forall. intros oc Ho. apply drop_In in Ho as [Ho _]. rewrite Forall_forall in HF. auto.
  - intros v w f Hi. apply HS. now apply drop_In in Hi as [Hi _].
Qed.

Section Mains.
Variable fmt : pyval -> str.
Variable reprs : str -> str.
Variable ffmt : pyval -> str.
Variable text : bytes -> res str.
Variable order : list str -> list str.
Variable up : Z -> str.
Variable unzip : bytes -> jar.
Notation fine_line pr os := (Forall (offered pr) os /\ sensible os).

Lemma main_alike pr os os' cmp : fine_line pr os -> fine_line pr os' ->
  (forall f, In f counting -> asked os f <-> asked os' f) -> (forall f, In f list_names -> given f os = given f os') ->
  (forall n n' o o', alike o o' -> truth n (lit "shallow") = truth n' (lit "shallow") -> cmp n o = cmp n' o') ->
  main (parser_of pr) 2 os cmp = main (parser_of pr) 2 os' cmp.
Proof.
  intros [HF HS] [HF' HS'] HA HG HC. destruct (main_runs pr os cmp HF HS) as (n & o & HR & HT & ->). destruct (main_runs pr os' cmp HF' HS') as (n' & o' & HR' & HT' & ->).
  assert (HE : truth n (lit "shallow") = truth n' (lit "shallow")). { pose proof (HA (lit "shallow") (or_introl eq_refl)). destruct (truth n (lit "shallow")), (truth n' (lit "shallow")); try reflexivity; intuition discriminate. }
  now rewrite (HC n n' o o' (runs_alike _ _ _ _ _ HF HS HF' HS' HA HG HR HR') HE).
Qed.
Lemma main_drop pr ss os cmp : idle_b ss = true -> fine_line pr os ->
  (forall n n' o o', alike o o' -> truth n (lit "shallow") = truth n' (lit "shallow") -> cmp n o = cmp n' o') ->
  main (parser_of pr) 2 (drop ss os) cmp = main (parser_of pr) 2 os cmp.
Proof.
  intros HI HL HC. symmetry. destruct HL as [HF HS]. apply main_alike; auto using drop_fine.
  - intros f Hf. now apply drop_asked.
  - intros f Hf. now apply drop_given.
Qed.
Lemma class_drop ss os l r : idle_b ss = true -> fine_line Classdiff os -> classdiff_main fmt reprs ffmt 2 (drop ss os) l r = classdiff_main fmt reprs ffmt 2 os l r.
Proof. intros HI HL. apply (main_drop Classdiff); [exact HI|exact HL|]. intros n n' o o' HA _. now apply class_alike. Qed.
Lemma jar_drop ss os l r : idle_b ss = true -> fine_line Jardiff os -> jardiff_main fmt reprs ffmt text order up 2 (drop ss os) l r = jardiff_main fmt reprs ffmt text order up 2 os l r.
Proof. intros HI HL. apply (main_drop Jardiff); [exact HI|exact HL|]. intros n n' o o' HA _. now apply jar_alike. Qed.
Lemma dist_drop ss os l r : idle_b ss = true -> fine_line Distdiff os -> distdiff_main fmt reprs ffmt text order up unzip 2 (drop ss os) l r = distdiff_main fmt reprs ffmt text order up unzip 2 os l r.
Proof. intros HI HL. apply (main_drop Distdiff); [exact HI|exact HL|]. intros n n' o o' HA ->. now apply dist_alike. Qed.

Lemma main_more pr os os' cmp : fine_line pr os -> fine_line pr os' -> (forall oc, In oc os -> In oc os') -> (asked os' (lit "shallow") -> asked os (lit "shallow")) ->
  (forall n n' o o', more o o' -> truth n (lit "shallow") = truth n' (lit "shallow") -> cmp n o = Ok 0 -> cmp n' o' = Ok 0) ->
  main (parser_of pr) 2 os cmp = Returns 0 -> main (parser_of pr) 2 os' cmp = Returns 0.
Proof.
  intros [HF HS] [HF' HS'] HI HSh HC. destruct (main_runs pr os cmp HF HS) as (n & o & HR & HT & ->). destruct (main_runs pr os' cmp HF' HS') as (n' & o' & HR' & HT' & ->).
  assert (HX : asked os (lit "shallow") -> asked os' (lit "shallow")) by (intros (oc & Ho & Ha); exists oc; auto).
  assert (HE : truth n (lit "shallow") = truth n' (lit "shallow")) by (destruct (truth n (lit "shallow")), (truth n' (lit "shallow")); try reflexivity; intuition discriminate).
  destruct (cmp n o) as [z|] eqn:E; [|discriminate]. intro H. injection H as ->. now rewrite (HC n n' o o' (runs_more _ _ _ _ _ HF HS HF' HS' HI HR HR') HE E).
Qed.
End Mains.

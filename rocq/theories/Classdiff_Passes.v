From Verif Require Import Base Pack_Model ConstPool_Model ConstPool_Spec ConstPool_Deref Opcodes_Model Opcodes_Spec ClassFile_Model
  Descr_Model Anno_Model Anno_Spec Anno_Proofs Change_Model Change_Spec Change_Proofs Change_Report Classdiff_Model Classdiff_Spec Classdiff_Members Classdiff_Code Classdiff_Class.
From Coq Require Import Permutation.

Section Passes.
Variable o : options.
(** The check runs, and what it finds, if anything, is ignored. *)
Definition passes (c : change) : Prop := exists c', check c = Ok c' /\ (is_change c' = false \/ is_ignored o c' = Ok true).

Lemma exit_iff c' : exit_status o c' = Ok 0 <-> is_change c' = false \/ is_ignored o c' = Ok true.
Proof.
  unfold exit_status. destruct (is_change c'); cbn [negb]; [|tauto]. destruct (is_ignored o c') as [b|]; cbn [rbind].
  - destruct b; split; auto; try discriminate. intros [H|H]; discriminate.
  - split; [discriminate|]. intros [H|H]; discriminate.
Qed.

Lemma passes_own k ch d cs im r : k_check k = CheckOwn r -> k_always k = false -> k_parts k = false ->
  (passes (Node k ch d cs im) <-> exists b d', r = Ok (b, d') /\ (b = false \/ k_own k o = true)).
Proof.
  intros Hk Ha Hp. unfold passes. cbn [check]. rewrite Hk. split.
  - intros (c' & H & Hc). destruct r as [[b d']|]; [|discriminate]. cbn [rbind] in H. injection H as <-. exists b, d'. split; [reflexivity|].
    cbn [is_change] in Hc. rewrite Ha in Hc. cbn [orb] in Hc. destruct Hc as [Hc|Hc]; [now left|]. right. rewrite is_ignored_eq in Hc. destruct (k_own k o); [reflexivity|]. rewrite Hp in Hc. discriminate.
  - intros (b & d' & -> & H). cbn [rbind]. eexists. split; [reflexivity|]. cbn [is_change]. rewrite Ha, is_ignored_eq. destruct H as [-> | ->]; auto.
Qed.
Lemma all_ignored_true l : all_ignored l = Ok true <-> Forall (fun br => fst br = true -> snd br = Ok true) l.
Proof.
  induction l as [|[b r] l IH]; cbn [all_ignored]; [split; [constructor|reflexivity]|]. rewrite Forall_cons_eq, <- IH. cbn [fst snd]. destruct b.
  - destruct r as [x|]; cbn [rbind].
    + destruct x; [tauto|]. split; [discriminate|]. intros [H _]. specialize (H eq_refl). discriminate.
    + split; [discriminate|]. intros [H _]. specialize (H eq_refl). discriminate.
  - split; [intro H; split; [discriminate|exact H]|tauto].
Qed.
Lemma passes_kids k ch d im : k_check k = CheckParts -> k_always k = false -> k_super k = true -> k_gate k = false -> k_incheck k = false ->
  k_own k o = false -> k_parts k = true ->
  (passes (Node k ch d [] im) <-> k_raises k = None /\ Forall passes im).
Proof.
  intros Hk Ha Hs Hg Hi Ho Hp. unfold passes.
  assert (G : forall ks', existsb is_change ks' = true -> (is_ignored o (Node k true None ks' im) = Ok true <-> Forall (fun kid => is_change kid = false \/ is_ignored o kid = Ok true) ks')).
  { intros ks' HE. rewrite is_ignored_eq, Ho, Hp. cbn [negb is_change]. rewrite Ha. cbn [orb negb]. destruct ks' as [|x ks']; [discriminate|]. cbn [collect pick rbind].
    rewrite all_ignored_true, Forall_map. cbn [fst snd]. split; apply Forall_impl; intros a; destruct (is_change a); intuition congruence. }
  split.
  - intros (c' & H & Hc). apply (check_parts _ _ _ _ _ _ Hk) in H as (ks & ks' & H1 & H2 & ->). cbn [collect_in pick] in H1. rewrite Hs, Hg, Hi in H1. cbn [negb andb] in H1.
    destruct (k_raises k); [discriminate|]. injection H1 as <-. split; [reflexivity|].
    assert (HF : Forall (fun kid => is_change kid = false \/ is_ignored o kid = Ok true) ks').
    { destruct (existsb is_change ks') eqn:E.
      - cbn [is_change] in Hc. rewrite orb_true_r in Hc. destruct Hc as [Hc|Hc]; [discriminate|]. now apply G.
      - apply Forall_forall. intros kid Hk'. left. destruct (is_change kid) eqn:E2; [|reflexivity]. assert (existsb is_change ks' = true) by (apply existsb_exists; eauto). congruence. }
    clear -H2 HF. induction H2 as [|a b l r Hab H IH]; [constructor|]. inversion HF; subst. constructor; [exists b; now split|now apply IH].
  - intros [Hr HF]. assert (HK : exists ks', Forall2 (fun a b => check a = Ok b) im ks' /\ Forall (fun kid => is_change kid = false \/ is_ignored o kid = Ok true) ks').
    { clear -HF. induction HF as [|a l (b & Hb & Hc) HF (ks & H1 & H2)]; [exists []; split; constructor|]. exists (b :: ks). split; now constructor. }
    destruct HK as (ks' & HK1 & HK2). exists (Node k (existsb is_change ks') None ks' im). split.
    + apply (check_parts _ _ _ _ _ _ Hk). exists im, ks'. split; [|split; [exact HK1|reflexivity]]. cbn [collect_in pick]. rewrite Hs, Hg, Hi, Hr. reflexivity.
    + destruct (existsb is_change ks') eqn:E; [right; now apply G|left; cbn [is_change]; now rewrite Ha].
Qed.
Lemma passes_super n lb t rs kids : passes (super n lb t rs kids) <-> rs = None /\ Forall passes kids.
Proof. unfold super. now apply passes_kids. Qed.
Lemma passes_leaf n lb own r lp rp : passes (leaf n lb own r lp rp) <-> exists b d', r = Ok (b, d') /\ (b = false \/ own o = true).
Proof. unfold leaf. now apply passes_own. Qed.

Lemma generic_passes {A} label (ld rd : res A) eqf lp rp P :
  (exists b d, generic_check label ld rd eqf lp rp = Ok (b, d) /\ (b = false \/ P)) <->
  exists a b e, ld = Ok a /\ rd = Ok b /\ eqf a b = Ok e /\ (e = true \/ P /\ (exists t, lp = Ok t) /\ (exists t, rp = Ok t)).
Proof.
  unfold generic_check. split.
  - intros (x & d & H & HP). destruct ld as [a|]; [|discriminate]. destruct rd as [b|]; [|discriminate]. cbn [rbind] in H. destruct (eqf a b) as [e|] eqn:E; [|discriminate]. cbn [rbind] in H.
    exists a, b, e. repeat (split; [reflexivity || exact E|]). destruct e; [now left|]. destruct lp as [t|]; [|discriminate]. destruct rp as [t'|]; [|discriminate]. cbn [rbind] in H. injection H as <- _. right. destruct HP; [discriminate|eauto].
  - intros (a & b & e & -> & -> & E & HP). cbn [rbind]. rewrite E. cbn [rbind]. destruct e; [exists false, None; auto|]. destruct HP as [HP|(HP & (t & ->) & (t' & ->))]; [discriminate|]. cbn [rbind]. eexists _, _. split; [reflexivity|]. now right.
Qed.
(** A leaf nothing ignores. *)
Lemma passes_never {A} n lb (ld rd : res A) eqf lt rt lp rp R : (forall x y, eqf x y = Ok true <-> R x y) ->
  (passes (leaf_text n lb never ld rd eqf lt rt lp rp) <-> agree R ld rd).
Proof.
  intro HR. unfold leaf_text. rewrite passes_leaf, generic_passes. unfold agree, never. split.
  - intros (a & b & e & H1 & H2 & H3 & [->|[H _]]); [|discriminate]. exists a, b. repeat split; try assumption. now apply HR.
  - intros (a & b & H1 & H2 & H3). exists a, b, true. repeat split; try assumption; [now apply HR|now left].
Qed.
(** A leaf over total data that can be ignored. *)
Lemma passes_own_leaf {A} n lb own (ld rd : res A) f lt rt lp rp R : (forall x y, f x y = true <-> R x y) ->
  (forall a, ld = Ok a -> exists t, lt = Ok t) -> (forall a, rd = Ok a -> exists t, rt = Ok t) ->
  (passes (leaf_text n lb own ld rd (pure2 f) lt rt lp rp) <-> agree (fun x y => R x y \/ own o = true) ld rd).
Proof.
  intros HR TL TR. unfold leaf_text. rewrite passes_leaf, generic_passes. unfold agree, pure2. split.
  - intros (a & b & e & H1 & H2 & H3 & H). exists a, b. split; [exact H1|]. split; [exact H2|]. injection H3 as <-. destruct H as [H|[H _]]; [left; now apply HR|now right].
  - intros (a & b & H1 & H2 & H). exists a, b, (f a b). repeat (split; [assumption || reflexivity|]). destruct H as [H|H]; [left; now apply HR|right; eauto].
Qed.
Lemma tuple_eq_total {A B} (f : A -> B -> bool) l : forall r, exists e, tuple_eq (pure2 f) l r = Ok e.
Proof. induction l as [|x l IH]; intros [|y r]; cbn [tuple_eq]; try (eexists; reflexivity). unfold pure2 at 1. cbn [rbind]. destruct (f x y); [apply IH|eexists; reflexivity]. Qed.
Lemma passes_own_tuple {A} n lb own (ld rd : res (list A)) f lt rt lp rp : (forall x y, f x y = true <-> x = y) ->
  (forall a, ld = Ok a -> exists t, lt = Ok t) -> (forall a, rd = Ok a -> exists t, rt = Ok t) ->
  (passes (leaf_text n lb own ld rd (tuple_eq (pure2 f)) lt rt lp rp) <-> agree (fun x y => x = y \/ own o = true) ld rd).
Proof.
  intros HR TL TR. pose proof (tuple_eq_iff _ _ (pure2_iff _ _ HR)) as HT. unfold leaf_text. rewrite passes_leaf, generic_passes. unfold agree. split.
  - intros (a & b & e & H1 & H2 & H3 & H). exists a, b. split; [exact H1|]. split; [exact H2|]. destruct H as [->|[H _]]; [left; now apply Forall2_eq, HT|now right].
  - intros (a & b & H1 & H2 & H). destruct (tuple_eq_total f a b) as [e He]. exists a, b, e. repeat (split; [assumption || reflexivity|]). destruct H as [->|H]; [left|right; eauto].
    assert (E : tuple_eq (pure2 f) b b = Ok true) by (now apply HT, Forall2_eq). congruence.
Qed.

Ltac side := intros ? E; unfold pct; rewrite ?E; eexists; reflexivity.
Ltac never_tac := first
  [ rewrite (passes_never _ _ _ _ _ _ _ _ _ _ (pure2_iff _ _ pyeq_iff))
  | rewrite (passes_never _ _ _ _ _ _ _ _ _ _ (pure2_iff _ _ set_eqb_iff))
  | rewrite (passes_never _ _ _ _ _ _ _ _ _ _ (pure2_iff _ _ Z.eqb_eq))
  | rewrite (passes_never _ _ _ _ _ _ _ _ _ _ (pure2_iff _ _ eqb_iff'))
  | rewrite (passes_never _ _ _ _ _ _ _ _ _ _ (pure2_iff _ _ seqb_iff))
  | rewrite (passes_never _ _ _ _ _ _ _ _ _ _ (pure2_iff _ _ (fun x y => opt_eqb_iff _ _ x y pyeq_iff)))
  | rewrite (passes_never _ _ _ _ _ _ _ _ _ _ (tuple_eq_iff _ _ (pure2_iff _ _ pyeq_iff)))
  | rewrite (passes_never _ _ _ _ _ _ _ _ _ _ (tuple_eq_iff _ _ (pure2_iff _ _ seqb_iff)))
  | rewrite (passes_never _ _ _ _ _ _ _ _ _ _ (tuple_eq_iff _ _ (exinfo_iff _ _))) ].

Variable fmt : pyval -> str.
Variable reprs : str -> str.
Variable ffmt : pyval -> str.

Lemma passes_annos n lb attr lp rp la ra : passes (annos_leaf fmt reprs n lb attr lp rp la ra) <->
  agree (Forall2 (fun a b => annotation_eq lp rp a b = Ok true)) (annotations_of lp la attr) (annotations_of rp ra attr).
Proof. unfold annos_leaf, leaf_of. apply passes_never. apply tuple_eq_iff. reflexivity. Qed.

Lemma ver_lt_iff v w : ver_lt v w = true <-> older v w.
Proof. unfold ver_lt, older. rewrite orb_true_iff, andb_true_iff, !Z.ltb_lt, Z.eqb_eq. reflexivity. Qed.
Lemma version_own_iff l r : version_own l r o = true <->
  ignore_version_up o = true /\ older (c_version l) (c_version r) \/ ignore_version_down o = true /\ older (c_version r) (c_version l).
Proof. unfold version_own. rewrite orb_true_iff, !andb_true_iff, !ver_lt_iff. reflexivity. Qed.

Lemma passes_class_info l r : passes (class_info fmt reprs l r) <-> header_ok o l r.
Proof.
  unfold class_info, header_ok. rewrite passes_super, !Forall_cons_eq, Forall_nil_eq. unfold leaf_of. repeat never_tac.
  rewrite (passes_own_leaf _ _ _ _ _ _ _ _ _ _ _ pair_eqb_eq) by side. rewrite (passes_own_leaf _ _ _ _ _ _ _ _ _ _ _ eqb_iff') by side. rewrite (passes_own_leaf _ _ _ _ _ _ _ _ _ _ _ (fun x y => opt_eqb_iff _ _ x y seqb_iff)) by side.
  rewrite !agree_ok, version_own_iff. unfold version_ok, deprecation_ok. split.
  - tauto.
  - intros (H1 & H2 & H). split; [reflexivity|]. split; [exact H1|]. split; [exact H2|]. split; [|tauto].
    destruct H2 as [->|H2]; [left|now right]. destruct (platform_from_version _ _); constructor. reflexivity.
Qed.

Lemma relative_lines_spec t : relative_lines t = relative t.
Proof. unfold relative_lines, relative. destruct t as [|[a b] t]; reflexivity. Qed.

Lemma passes_method_code lp rp lc rc : passes (method_code fmt reprs lp rp lc rc) <->
  match lc, rc with Some l, Some r => code_ok o tool_resolved lp rp l r | _, _ => True end.
Proof.
  unfold method_code. destruct lc as [l|], rc as [r|].
  - rewrite passes_kids by reflexivity. unfold code_parts. rewrite !Forall_cons_eq, Forall_nil_eq. unfold leaf_of. repeat never_tac.
    rewrite !(passes_own_tuple _ _ _ _ _ _ _ _ _ _ pair_eqb_eq) by side. cbn [on_code]. rewrite !passes_leaf, !agree_ok. cbn [k_raises]. unfold never, code_ok.
    assert (EC : (exists b d, code_constants_check lp rp (Some l) (Some r) = Ok (b, d) /\ (b = false \/ false = true)) <-> same_body tool_resolved lp rp (k_code l) (k_code r)).
    { rewrite <- code_constants_iff. split; [intros (b & d & E & [->|H]); [now exists d|discriminate]|intros [d E]; exists false, d; auto]. }
    rewrite EC. split.
    + intros (_ & H1 & H2 & H3 & H4 & H5 & H6 & _). split; [|tauto]. destruct H1 as (a & b & E1 & E2 & H1). exists a, b. split; [exact E1|]. split; [exact E2|]. split; [exact H1|].
      rewrite E1, E2 in H2. cbn [rbind] in H2. rewrite agree_ok, !relative_lines_spec in H2. exact H2.
    + intros (H1 & H2 & H3 & H4 & H5). split; [reflexivity|]. destruct H1 as (a & b & E1 & E2 & H0 & H1). rewrite E1, E2. cbn [rbind]. rewrite !agree_ok, !relative_lines_spec.
      do 6 (split; [assumption|]). split; [|exact I]. exists false, None. split; [eapply code_body_same; exact H5|now left].
  - split; [auto|]. intros _. eexists. split; [reflexivity|]. right. reflexivity.
  - split; [auto|]. intros _. eexists. split; [reflexivity|]. right. reflexivity.
  - split; [auto|]. intros _. eexists. split; [reflexivity|]. left. reflexivity.
Qed.

Lemma passes_field lp rp l r : passes (field_change fmt reprs lp rp l r) <-> fld_ok o lp rp l r.
Proof.
  unfold field_change, fld_ok, same_annos, deprecation_ok. rewrite passes_super, !Forall_cons_eq, Forall_nil_eq, !passes_annos. unfold leaf_of. repeat never_tac.
  rewrite (passes_own_leaf _ _ _ _ _ _ _ _ _ _ _ eqb_iff') by side. rewrite !agree_ok. tauto.
Qed.
Lemma passes_method lp rp l r : passes (method_change fmt reprs lp rp l r) <-> mth_ok fmt o tool_resolved lp rp l r.
Proof.
  unfold method_change, mth_ok, same_annos, deprecation_ok. cbv zeta. rewrite passes_super, !Forall_cons_eq, Forall_nil_eq, !passes_annos. unfold leaf_of. repeat never_tac. rewrite (passes_own_leaf _ _ _ _ _ _ _ _ _ _ _ eqb_iff') by side. rewrite !agree_ok.
  assert (EA : agree (Forall2 eq) (m_arg_types fmt lp l) (m_arg_types fmt rp r) <-> agree eq (m_arg_types fmt lp l) (m_arg_types fmt rp r)) by (apply agree_mono; apply Forall2_eq). rewrite EA.
  destruct (get_code lp l) as [lc|] eqn:El; cbn [rbind]; [|split; [intros [H _]; discriminate|intros (_ & _ & _ & _ & _ & _ & _ & _ & (? & ? & ? & _)); discriminate]].
  destruct (get_code rp r) as [rc|] eqn:Er; cbn [rbind]; [|split; [intros [H _]; discriminate|intros (_ & _ & _ & _ & _ & _ & _ & _ & (? & ? & ? & ? & _)); discriminate]].
  rewrite passes_method_code, !agree_ok.
  assert (EC : opt_rel (code_ok o tool_resolved lp rp) lc rc <-> (match lc with None => true | Some _ => false end = match rc with None => true | Some _ => false end) /\
     match lc, rc with Some l, Some r => code_ok o tool_resolved lp rp l r | _, _ => True end).
  { destruct lc, rc; split; try (intro H; now inversion H); try (intros []; discriminate); try (intros []; now constructor). }
  rewrite EC. tauto.
Qed.

Lemma passes_iterate ch f lt : Forall passes (iterate_by_type f ch lt) <-> Forall passes ch.
Proof. destruct (iterate_spec f ch lt) as [P _]. split; apply Permutation_Forall; [exact P|now apply Permutation_sym]. Qed.
Lemma not_passes_added n lb p m : ~ passes (member_added fmt n lb p m).
Proof. intros (c' & H & Hc). unfold member_added in H. cbn in H. injection H as <-. destruct Hc; discriminate. Qed.
Lemma not_passes_removed n lb p m : ~ passes (member_removed fmt n lb p m).
Proof. intros (c' & H & Hc). unfold member_removed in H. cbn in H. injection H as <-. destruct Hc; discriminate. Qed.

Lemma passes_fields l r : passes (fields_change fmt reprs l r) <->
  exists ev, collect_members fmt (c_pool l) (c_pool r) (c_fields l) (c_fields r) = Ok ev /\ all_changed (fld_ok o (c_pool l) (c_pool r)) ev.
Proof.
  unfold fields_change. cbv zeta. rewrite passes_super. destruct (collect_members fmt _ _ (c_fields l) (c_fields r)) as [ev|e].
  - rewrite passes_iterate. split.
    + intros [_ H]. exists ev. split; [reflexivity|]. unfold all_changed. rewrite Forall_map in H. eapply Forall_impl; [|exact H]. intros [x|x|x y]; cbn beta; intro HQ.
      * now apply not_passes_added in HQ.
      * now apply not_passes_removed in HQ.
      * now apply passes_field.
    + intros (ev' & E & H). injection E as <-. split; [reflexivity|]. rewrite Forall_map. eapply Forall_impl; [|exact H]. intros [x|x|x y]; cbn beta; intro HQ; try contradiction. now apply passes_field.
  - split; [intros [H _]; discriminate|intros (ev & H & _); discriminate].
Qed.
Lemma passes_methods l r : passes (methods_change fmt reprs l r) <->
  exists ev, collect_members fmt (c_pool l) (c_pool r) (c_methods l) (c_methods r) = Ok ev /\ all_changed (mth_ok fmt o tool_resolved (c_pool l) (c_pool r)) ev.
Proof.
  unfold methods_change. cbv zeta. rewrite passes_super. destruct (collect_members fmt _ _ (c_methods l) (c_methods r)) as [ev|e].
  - rewrite passes_iterate. split.
    + intros [_ H]. exists ev. split; [reflexivity|]. unfold all_changed. rewrite Forall_map in H. eapply Forall_impl; [|exact H]. intros [x|x|x y]; cbn beta; intro HQ.
      * now apply not_passes_added in HQ.
      * now apply not_passes_removed in HQ.
      * now apply passes_method.
    + intros (ev' & E & H). injection E as <-. split; [reflexivity|]. rewrite Forall_map. eapply Forall_impl; [|exact H]. intros [x|x|x y]; cbn beta; intro HQ; try contradiction. now apply passes_method.
  - split; [intros [H _]; discriminate|intros (ev & H & _); discriminate].
Qed.

Lemma pretty_entry_ok c : (exists t, pretty_entry reprs ffmt c = Ok t) <->
  match c with
  | KRef t _ => In t [CONST_Class; CONST_String; CONST_MethodType; CONST_Module; CONST_Package]
  | KRef2 t _ _ => In t [CONST_Fieldref; CONST_Methodref; CONST_InterfaceMethodref; CONST_NameAndType; CONST_ModuleId; CONST_InvokeDynamic]
  | _ => True
  end.
Proof.
  destruct c; cbn [pretty_entry]; try (split; [auto|eexists; reflexivity]).
  - repeat match goal with |- context [?a =? ?b] => destruct (Z.eqb_spec a b) as [->|] end; split; intro H; try (eexists; reflexivity); try (cbn; tauto); try (destruct H; discriminate). cbn in H. exfalso. intuition congruence.
  - repeat match goal with |- context [?a =? ?b] => destruct (Z.eqb_spec a b) as [->|] end; split; intro H; try (eexists; reflexivity); try (cbn; tauto); try (destruct H; discriminate). cbn in H. exfalso. intuition congruence.
Qed.
Lemma pretty_constants_ok p : (exists t, pretty_constants reprs ffmt p = Ok t) <-> listable p.
Proof.
  unfold pretty_constants, listable. induction (tl p) as [|c l IH]; [split; [constructor|eexists; reflexivity]|]. rewrite Forall_cons_eq, <- IH, <- pretty_entry_ok. cbn [mapM].
  destruct (pretty_entry reprs ffmt c); cbn [rbind].
  2: { split; [intros []; discriminate|]. intros [[] _]. discriminate. }
  destruct (mapM _ l); cbn [rbind]; [split; eauto|]. split; [intros []; discriminate|]. intros [_ []]. discriminate.
Qed.
Lemma pool_obj_ok p : (exists t, pct reprs (pool_obj reprs ffmt p) = Ok t) <-> listable p.
Proof.
  rewrite <- pretty_constants_ok. unfold pct, pool_obj. destruct (pretty_constants reprs ffmt p); cbn [rbind]; [|split; intros []; discriminate]. split; eexists; reflexivity.
Qed.
Lemma passes_pool l r : passes (pool_change reprs ffmt l r) <-> pool_ok o (c_pool l) (c_pool r).
Proof.
  unfold pool_change. erewrite passes_own by reflexivity. rewrite generic_passes. unfold pool_ok, pool_eqb. cbn [k_own].
  rewrite <- !pool_obj_ok. pose proof (tuple_eq_iff _ _ (pure2_iff _ _ const_eqb_iff)) as HT. split.
  - intros (a & b & e & E1 & E2 & E3 & H). injection E1 as <-. injection E2 as <-. destruct H as [->|H]; [left; now apply HT|now right].
  - intro H. destruct (tuple_eq_total const_eqb (c_pool l) (c_pool r)) as [e E]. exists (c_pool l), (c_pool r), e. repeat (split; [reflexivity || assumption|]). destruct H as [H|H]; [left|now right].
    apply HT in H. congruence.
Qed.

Lemma passes_class l r : passes (class_change fmt reprs ffmt l r) <->
  header_ok o l r /\ same_annos (c_pool l) (c_pool r) (c_attrs l) (c_attrs r) /\ pool_ok o (c_pool l) (c_pool r) /\
  passes (fields_change fmt reprs l r) /\ passes (methods_change fmt reprs l r).
Proof.
  unfold class_change. rewrite passes_super, !Forall_cons_eq, Forall_nil_eq, !passes_annos, passes_class_info, passes_pool. unfold same_annos. tauto.
Qed.

(** What a successful exit of classdiff means. *)
Theorem class_passes_sound l r : distinct_ids fmt (c_pool l) (c_fields l) -> distinct_ids fmt (c_pool l) (c_methods l) ->
  passes (class_change fmt reprs ffmt l r) -> class_ok fmt o tool_resolved l r.
Proof.
  intros HF HM H. apply passes_class in H as (H1 & H2 & H3 & H4 & H5). apply passes_fields in H4 as (ev & E4 & H4). apply passes_methods in H5 as (ev' & E5 & H5).
  split; [exact H1|]. split; [exact H2|]. split; [exact H3|]. split; eapply members_same; eassumption.
Qed.
Theorem class_passes_complete l r : distinct_ids fmt (c_pool l) (c_fields l) -> distinct_ids fmt (c_pool l) (c_methods l) ->
  distinct_ids fmt (c_pool r) (c_fields r) -> distinct_ids fmt (c_pool r) (c_methods r) ->
  class_ok fmt o tool_resolved l r -> passes (class_change fmt reprs ffmt l r).
Proof.
  intros LF LM RF RM (H1 & H2 & H3 & H4 & H5). apply passes_class. split; [exact H1|]. split; [exact H2|]. split; [exact H3|]. split.
  - apply passes_fields. destruct (same_members_idents _ _ _ _ _ _ H4) as [[ks K1] [ks' K2]]. destruct (collect_members_ok _ _ _ _ _ _ _ K1 K2) as [ev E]. exists ev. split; [exact E|]. exact (members_same_conv _ _ _ _ _ _ _ LF RF H4 E).
  - apply passes_methods. destruct (same_members_idents _ _ _ _ _ _ H5) as [[ks K1] [ks' K2]]. destruct (collect_members_ok _ _ _ _ _ _ _ K1 K2) as [ev E]. exists ev. split; [exact E|]. exact (members_same_conv _ _ _ _ _ _ _ LM RM H5 E).
Qed.

Lemma classdiff_iff l r : classdiff fmt reprs ffmt o l r = Ok 0 <-> passes (class_change fmt reprs ffmt l r).
Proof.
  unfold classdiff, passes. destruct (check _) as [c|]; cbn [rbind].
  - rewrite exit_iff. split; [intro H; exists c; now split|]. intros (c' & E & H). injection E as <-. exact H.
  - split; [discriminate|]. intros (c' & E & _). discriminate.
Qed.

(** The same class passes whatever is ignored. *)
Lemma agree_impl {A} (R S : A -> A -> Prop) l r : (forall x y, R x y -> S x y) -> agree R l r -> agree S l r.
Proof. intros H (a & b & E1 & E2 & HR). exists a, b. eauto. Qed.
Lemma same_code_ok lp rp k k' : same_code tool_resolved lp rp k k' -> code_ok o tool_resolved lp rp k k'.
Proof.
  intros (H1 & H2). split; [|exact H2]. revert H1. apply agree_impl. intros x y <-. split; now left.
Qed.
Lemma opt_rel_impl {A} (R S : A -> A -> Prop) a b : (forall x y, R x y -> S x y) -> opt_rel R a b -> opt_rel S a b.
Proof. intros H [|x y HR]; constructor. auto. Qed.
Lemma same_members_impl (M N : member -> member -> Prop) lp rp ls rs : (forall x y, M x y -> N x y) -> same_members fmt M lp rp ls rs -> same_members fmt N lp rp ls rs.
Proof.
  intros H (ls' & HP & HF). exists ls'. split; [exact HP|]. clear HP. induction HF as [|x y l1 l2 [X1 X2] HF IH]; constructor; [split; auto|exact IH].
Qed.
Lemma same_class_ok l r : same_class fmt tool_resolved l r -> pool_ok o (c_pool l) (c_pool r) -> class_ok fmt o tool_resolved l r.
Proof.
  intros (H1 & H2 & H3 & H4) HP. split.
  { destruct H1 as (A1 & A2 & A3 & A4 & A5 & A6 & A7). repeat (split; [try assumption; try (now left)|]). assumption. }
  split; [exact H2|]. split; [exact HP|]. split.
  - eapply same_members_impl; [|exact H3]. intros x y (A1 & A2 & A3 & A4 & A5 & A6 & A7). repeat (split; [assumption|]). now left.
  - eapply same_members_impl; [|exact H4]. intros x y (A1 & A2 & A3 & A4 & A5 & A6 & A7 & A8 & A9). repeat (split; [assumption|]). split; [now left|].
    eapply agree_impl; [|exact A9]. intros a b. apply opt_rel_impl. apply same_code_ok.
Qed.
End Passes.

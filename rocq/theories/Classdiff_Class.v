From Verif Require Import Base Pack_Model ConstPool_Model ConstPool_Spec ConstPool_Deref Opcodes_Model Opcodes_Spec ClassFile_Model
  Descr_Model Anno_Model Anno_Spec Anno_Proofs Change_Model Change_Spec Change_Proofs Change_Report Classdiff_Model Classdiff_Spec Classdiff_Members Classdiff_Code.
From Coq Require Import Permutation.

(** The check runs and finds no change. *)
Definition quiet (c : change) : Prop := exists c', check c = Ok c' /\ is_change c' = false.

Lemma quiet_own k ch d cs im r : k_check k = CheckOwn r -> k_always k = false ->
  (quiet (Node k ch d cs im) <-> exists d', r = Ok (false, d')).
Proof.
  intros Hk Ha. unfold quiet. cbn [check]. rewrite Hk. split.
  - intros (c' & H & Hc). destruct r as [[b d']|]; [|discriminate]. cbn [rbind] in H. injection H as <-. cbn [is_change] in Hc. rewrite Ha in Hc. cbn [orb] in Hc. subst b. now exists d'.
  - intros [d' ->]. cbn [rbind]. eexists. split; [reflexivity|]. cbn [is_change]. now rewrite Ha.
Qed.
Lemma quiet_kids k ch d im : k_check k = CheckParts -> k_always k = false -> k_super k = true -> k_gate k = false -> k_incheck k = false ->
  (quiet (Node k ch d [] im) <-> k_raises k = None /\ Forall quiet im).
Proof.
  intros Hk Ha Hs Hg Hi. unfold quiet. split.
  - intros (c' & H & Hc). apply (check_parts _ _ _ _ _ _ Hk) in H as (ks & ks' & H1 & H2 & ->). cbn [collect_in pick] in H1. rewrite Hs, Hg, Hi in H1. cbn [negb andb] in H1.
    destruct (k_raises k); [discriminate|]. injection H1 as <-. split; [reflexivity|]. cbn [is_change] in Hc. rewrite Ha in Hc. cbn [orb] in Hc.
    clear -H2 Hc. induction H2 as [|a b l r Hab H IH]; [constructor|]. cbn [existsb] in Hc. apply orb_false_iff in Hc as [Hb Hc]. constructor; [exists b; now split|now apply IH].
  - intros [Hr HF]. assert (HK : exists ks', Forall2 (fun a b => check a = Ok b) im ks' /\ existsb is_change ks' = false).
    { clear -HF. induction HF as [|a l (b & Hb & Hc) HF (ks & H1 & H2)]; [exists []; split; [constructor|reflexivity]|]. exists (b :: ks). split; [now constructor|]. cbn [existsb]. now rewrite Hc. }
    destruct HK as (ks' & HK1 & HK2). exists (Node k (existsb is_change ks') None ks' im). split.
    + apply (check_parts _ _ _ _ _ _ Hk). exists im, ks'. split; [|split; [exact HK1|reflexivity]]. cbn [collect_in pick]. rewrite Hs, Hg, Hi, Hr. reflexivity.
    + cbn [is_change]. now rewrite Ha, HK2.
Qed.
Lemma quiet_super n lb t rs kids : quiet (super n lb t rs kids) <-> rs = None /\ Forall quiet kids.
Proof. unfold super. now apply quiet_kids. Qed.
Lemma quiet_leaf n lb own r lp rp : quiet (leaf n lb own r lp rp) <-> exists d', r = Ok (false, d').
Proof. unfold leaf. now apply quiet_own. Qed.
Lemma generic_false {A} label (ld rd : res A) eqf lp rp :
  (exists d, generic_check label ld rd eqf lp rp = Ok (false, d)) <-> exists a b, ld = Ok a /\ rd = Ok b /\ eqf a b = Ok true.
Proof.
  unfold generic_check. split.
  - intros [d H]. destruct ld as [a|]; [|discriminate]. destruct rd as [b|]; [|discriminate]. cbn [rbind] in H. destruct (eqf a b) as [e|] eqn:E; [|discriminate]. cbn [rbind] in H.
    destruct e; [exists a, b; repeat split; exact E|]. destruct lp; [|discriminate]. destruct rp; discriminate.
  - intros (a & b & -> & -> & E). cbn [rbind]. rewrite E. cbn [rbind]. eexists. reflexivity.
Qed.
Lemma quiet_leaf_of {A} n lb own (ld rd : res A) eqf lt rt lp rp R : (forall x y, eqf x y = Ok true <-> R x y) ->
  (quiet (leaf_text n lb own ld rd eqf lt rt lp rp) <-> agree R ld rd).
Proof.
  intro HR. unfold leaf_text. rewrite quiet_leaf, generic_false. unfold agree. split; intros (a & b & H1 & H2 & H3); exists a, b; repeat split; try assumption; now apply HR.
Qed.

Lemma pure2_iff {A} (f : A -> A -> bool) R : (forall x y, f x y = true <-> R x y) -> forall x y, pure2 f x y = Ok true <-> R x y.
Proof. intros H x y. unfold pure2. rewrite <- H. split; [intro E; now injection E|intros ->; reflexivity]. Qed.
Lemma agree_ok {A} (R : A -> A -> Prop) a b : agree R (Ok a) (Ok b) <-> R a b.
Proof. split; [intros (x & y & E1 & E2 & H); injection E1 as <-; now injection E2 as <-|intro H; now exists a, b]. Qed.
Lemma Forall2_eq {A} (l r : list A) : Forall2 eq l r <-> l = r.
Proof. split; [induction 1; congruence|intros <-; induction l; constructor; auto]. Qed.
Lemma agree_mono {A} (R S : A -> A -> Prop) l r : (forall x y, R x y <-> S x y) -> (agree R l r <-> agree S l r).
Proof. intro H. split; intros (a & b & H1 & H2 & H3); exists a, b; (repeat split; [assumption..|]); now apply H. Qed.
Lemma pair_eqb_eq a b : pair_eqb a b = true <-> a = b.
Proof. unfold pair_eqb. destruct a, b. cbn. rewrite andb_true_iff, !Z.eqb_eq. split; [intros []; congruence|intro H; injection H; auto]. Qed.
Lemma set_eqb_iff l r : set_eqb l r = true <-> same_set l r.
Proof.
  unfold set_eqb, same_set. rewrite andb_true_iff, !forallb_forall. split; intros [H1 H2]; split; intros x Hx.
  - apply existsb_exists. now apply H1.
  - apply existsb_exists. now apply H2.
  - apply existsb_exists. destruct (H1 x Hx) as (y & Hy & E). now exists y.
  - apply existsb_exists. destruct (H2 x Hx) as (y & Hy & E). now exists y.
Qed.
Lemma eqb_iff' a b : Bool.eqb a b = true <-> a = b.
Proof. apply eqb_true_iff. Qed.
Lemma seqb_iff a b : seqb a b = true <-> a = b.
Proof. split; [apply seqb_eq|intros ->; apply seqb_refl]. Qed.
Lemma pyeq_iff a b : py_eq a b = true <-> pyeq a b.
Proof. reflexivity. Qed.

Ltac leaf_tac := first
  [ rewrite (quiet_leaf_of _ _ _ _ _ _ _ _ _ _ _ (pure2_iff _ _ pyeq_iff))
  | rewrite (quiet_leaf_of _ _ _ _ _ _ _ _ _ _ _ (pure2_iff _ _ pair_eqb_eq))
  | rewrite (quiet_leaf_of _ _ _ _ _ _ _ _ _ _ _ (pure2_iff _ _ set_eqb_iff))
  | rewrite (quiet_leaf_of _ _ _ _ _ _ _ _ _ _ _ (pure2_iff _ _ Z.eqb_eq))
  | rewrite (quiet_leaf_of _ _ _ _ _ _ _ _ _ _ _ (pure2_iff _ _ eqb_iff'))
  | rewrite (quiet_leaf_of _ _ _ _ _ _ _ _ _ _ _ (pure2_iff _ _ seqb_iff))
  | rewrite (quiet_leaf_of _ _ _ _ _ _ _ _ _ _ _ (pure2_iff _ _ (fun x y => opt_eqb_iff _ _ x y pyeq_iff)))
  | rewrite (quiet_leaf_of _ _ _ _ _ _ _ _ _ _ _ (pure2_iff _ _ (fun x y => opt_eqb_iff _ _ x y seqb_iff)))
  | rewrite (quiet_leaf_of _ _ _ _ _ _ _ _ _ _ _ (tuple_eq_iff _ _ (pure2_iff _ _ pyeq_iff)))
  | rewrite (quiet_leaf_of _ _ _ _ _ _ _ _ _ _ _ (tuple_eq_iff _ _ (pure2_iff _ _ pair_eqb_eq)))
  | rewrite (quiet_leaf_of _ _ _ _ _ _ _ _ _ _ _ (tuple_eq_iff _ _ (pure2_iff _ _ seqb_iff)))
  | rewrite (quiet_leaf_of _ _ _ _ _ _ _ _ _ _ _ (tuple_eq_iff _ _ (exinfo_iff _ _))) ].

Lemma Forall_cons_eq {A} (P : A -> Prop) x l : Forall P (x :: l) <-> P x /\ Forall P l.
Proof. split; [intro H; inversion H; auto|intros []; constructor; auto]. Qed.
Lemma Forall_nil_eq {A} (P : A -> Prop) : Forall P [] <-> True.
Proof. split; constructor. Qed.

Section Class.
Variable fmt : pyval -> str.
Variable reprs : str -> str.
Variable ffmt : pyval -> str.

Lemma quiet_annos n lb attr lp rp la ra : quiet (annos_leaf fmt reprs n lb attr lp rp la ra) <->
  agree (Forall2 (fun a b => annotation_eq lp rp a b = Ok true)) (annotations_of lp la attr) (annotations_of rp ra attr).
Proof. unfold annos_leaf, leaf_of. apply quiet_leaf_of. apply tuple_eq_iff. reflexivity. Qed.

Lemma quiet_class_info l r : quiet (class_info fmt reprs l r) <-> same_header l r.
Proof.
  unfold class_info, leaf_of, same_header. rewrite quiet_super. rewrite !Forall_cons_eq, Forall_nil_eq. repeat leaf_tac. rewrite !agree_ok.
  split.
  - intros (_ & H1 & H2 & _ & H3 & H4 & H5 & H6 & H7 & _). auto 10.
  - intros (H1 & H2 & H3 & H4 & H5 & H6 & H7). rewrite H2. repeat (split; [assumption || reflexivity|]). split.
    { destruct (platform_from_version _ _); constructor. reflexivity. } auto 10.
Qed.

(** ** Code *)
Lemma quiet_method_code lp rp lc rc : quiet (method_code fmt reprs lp rp lc rc) <-> opt_rel (same_code tool_resolved lp rp) lc rc.
Proof.
  unfold method_code. destruct lc as [l|], rc as [r|].
  - rewrite quiet_kids by reflexivity. unfold code_parts, leaf_of. rewrite !Forall_cons_eq, Forall_nil_eq. repeat leaf_tac.
    cbn [on_code]. rewrite !quiet_leaf, !agree_ok, code_constants_iff. cbn [k_raises]. split.
    + intros (_ & H1 & _ & H3 & H4 & H5 & H6 & _). constructor. unfold same_code. split; [|tauto].
      destruct H1 as (a & b & E1 & E2 & H1). apply Forall2_eq in H1. now exists a, b.
    + intro H. inversion H as [|? ? HS]; subst. destruct HS as (H1 & H2 & H3 & H4 & H5). split; [reflexivity|].
      destruct H1 as (a & b & E1 & E2 & <-). rewrite E1, E2. cbn [rbind]. rewrite !agree_ok, !Forall2_eq. do 5 (split; [auto|]). split; [assumption|]. split; [|exact I].
      eexists. eapply code_body_same. exact H5.
  - erewrite quiet_own by reflexivity. split; [intros [d H]; discriminate|intro H; inversion H].
  - erewrite quiet_own by reflexivity. split; [intros [d H]; discriminate|intro H; inversion H].
  - erewrite quiet_own by reflexivity. split; [constructor|intros _; eexists; reflexivity].
Qed.

Lemma quiet_field lp rp l r : quiet (field_change fmt reprs lp rp l r) <-> same_field lp rp l r.
Proof.
  unfold field_change, same_field, same_annos. rewrite quiet_super, !Forall_cons_eq, Forall_nil_eq, !quiet_annos. unfold leaf_of. repeat leaf_tac. rewrite !agree_ok. tauto.
Qed.
Lemma quiet_method lp rp l r : quiet (method_change fmt reprs lp rp l r) <-> same_method fmt tool_resolved lp rp l r.
Proof.
  unfold method_change, same_method, same_annos. cbv zeta. rewrite quiet_super, !Forall_cons_eq, Forall_nil_eq, !quiet_annos. unfold leaf_of. repeat leaf_tac. rewrite !agree_ok.
  assert (EA : agree (Forall2 eq) (m_arg_types fmt lp l) (m_arg_types fmt rp r) <-> agree eq (m_arg_types fmt lp l) (m_arg_types fmt rp r)) by (apply agree_mono; apply Forall2_eq). rewrite EA.
  destruct (get_code lp l) as [lc|] eqn:El; cbn [rbind]; [|split; [intros [H _]; discriminate|intros (_ & _ & _ & _ & _ & _ & _ & _ & (? & ? & ? & _)); discriminate]].
  destruct (get_code rp r) as [rc|] eqn:Er; cbn [rbind]; [|split; [intros [H _]; discriminate|intros (_ & _ & _ & _ & _ & _ & _ & _ & (? & ? & ? & ? & _)); discriminate]].
  rewrite quiet_method_code, !agree_ok. split; [tauto|]. intros H. decompose [and] H. repeat (split; [assumption || reflexivity|]).
  split; [|tauto]. match goal with H : opt_rel _ lc rc |- _ => inversion H; reflexivity end.
Qed.

(** ** Members *)
Lemma quiet_iterate ch f lt : Forall quiet (iterate_by_type f ch lt) <-> Forall quiet ch.
Proof. destruct (iterate_spec f ch lt) as [P _]. split; apply Permutation_Forall; [exact P|now apply Permutation_sym]. Qed.
Lemma not_quiet_added n lb p m : ~ quiet (member_added fmt n lb p m).
Proof. intros (c' & H & Hc). unfold member_added in H. cbn in H. injection H as <-. discriminate. Qed.
Lemma not_quiet_removed n lb p m : ~ quiet (member_removed fmt n lb p m).
Proof. intros (c' & H & Hc). unfold member_removed in H. cbn in H. injection H as <-. discriminate. Qed.

(** All events are pairs in the relation. *)
Definition all_changed (M : member -> member -> Prop) (ev : list mevent) : Prop :=
  Forall (fun e => match e with MChanged a b => M a b | _ => False end) ev.

Lemma members_same M lp rp ls rs ev : collect_members fmt lp rp ls rs = Ok ev -> distinct_ids fmt lp ls ->
  all_changed M ev -> same_members fmt M lp rp ls rs.
Proof.
  intros H HD HA. exists (lefts ev). split; [symmetry; eapply collect_members_complete; eassumption|]. destruct (collect_members_facts _ _ _ _ _ _ H) as (<- & _ & HI & _).
  clear H HD. unfold all_changed in HA. induction ev as [|e ev IH]; [constructor|]. inversion HA as [|? ? He HA']; subst. destruct e as [|l0|l0 r0]; try contradiction.
  change (lefts (MChanged l0 r0 :: ev)) with (l0 :: lefts ev). change (rights (MChanged l0 r0 :: ev)) with (r0 :: rights ev). constructor.
  - split; [apply HI; now left|exact He].
  - apply IH; [exact HA'|]. intros l r Hin. apply HI. now right.
Qed.

Lemma same_members_idents M lp rp ls rs : same_members fmt M lp rp ls rs -> (exists ks, idents fmt lp ls ks) /\ exists ks, idents fmt rp rs ks.
Proof.
  intros (ls' & HP & HF). assert (HL : exists ks, idents fmt lp ls' ks).
  { clear HP. induction HF as [|a b l r ((x & y & Hx & Hy & _) & _) HF (ks & IH)]; [exists []; constructor|]. exists (x :: ks). now constructor. }
  split.
  - destruct HL as [ks HL]. assert (HA : Forall (fun m => exists k, get_identifier fmt lp m = Ok k) ls).
    { eapply Permutation_Forall; [symmetry; exact HP|]. clear -HL. induction HL; constructor; eauto. }
    clear -HA. induction HA as [|m ls (k & Hk) HA (ks & IH)]; [exists []; constructor|]. exists (k :: ks). now constructor.
  - clear HP HL. induction HF as [|a b l r ((x & y & Hx & Hy & _) & _) HF (ks & IH)]; [exists []; constructor|]. exists (y :: ks). now constructor.
Qed.

Lemma FOP_perm {A} (R : A -> A -> Prop) : (forall a b, R a b -> R b a) -> forall l l', Permutation l l' -> ForallOrdPairs R l -> ForallOrdPairs R l'.
Proof.
  intros HS l l' HP. induction HP as [|x l l' HP IH|x y l|l l' l'' H1 I1 H2 I2]; intro H.
  - constructor.
  - apply FOP_inv in H as [H1 H2]. constructor; [eapply Permutation_Forall; eassumption|now apply IH].
  - apply FOP_inv in H as [H1 H2]. apply FOP_inv in H2 as [H2 H3]. inversion H1 as [|? ? H4 H5]; subst. constructor; [constructor; [now apply HS|exact H2]|]. constructor; assumption.
  - auto.
Qed.
Lemma not_pyeq_sym a b : ~ pyeq a b -> ~ pyeq b a.
Proof. intros H E. apply H. now apply pyeq_sym. Qed.

Lemma idents_perm p ls ls' ks : Permutation ls ls' -> idents fmt p ls ks -> exists ks', Permutation ks ks' /\ idents fmt p ls' ks'.
Proof.
  intros HP. revert ks. induction HP as [|x l l' HP IH|x y l|l l' l'' H1 I1 H2 I2]; intros ks H.
  - exists ks. split; [reflexivity|exact H].
  - inversion H as [|? k ? ks0 Hk H0]; subst. destruct (IH _ H0) as (ks' & P & I). exists (k :: ks'). split; [now apply perm_skip|now constructor].
  - inversion H as [|? k ? ks0 Hk H0]; subst. inversion H0 as [|? k' ? ks1 Hk' H0']; subst. exists (k' :: k :: ks1). split; [apply perm_swap|]. constructor; [assumption|]. now constructor.
  - destruct (I1 _ H) as (k1 & P1 & J1). destruct (I2 _ J1) as (k2 & P2 & J2). exists k2. split; [now transitivity k1|exact J2].
Qed.

Lemma In_lefts l ev : In l (lefts ev) <-> In (MRemoved l) ev \/ exists r, In (MChanged l r) ev.
Proof.
  unfold lefts. rewrite in_flat_map. split.
  - intros (e & He & Hl). destruct e; cbn in Hl; [destruct Hl|destruct Hl as [<-|[]]; eauto..].
  - intros [H|[r H]]; eexists; (split; [exact H|now left]).
Qed.

(** Members in correspondence, one per identity: only matching pairs are compared. *)
Lemma members_same_conv M lp rp ls rs ev : distinct_ids fmt lp ls -> distinct_ids fmt rp rs ->
  same_members fmt M lp rp ls rs -> collect_members fmt lp rp ls rs = Ok ev -> all_changed M ev.
Proof.
  intros HL HR (ls' & HP & HF) H. destruct (collect_members_facts _ _ _ _ _ _ H) as (F1 & _ & F3 & F4 & F5). specialize (F5 HR).
  pose proof (collect_members_complete _ _ _ _ _ _ H HL) as HC.
  apply Forall_forall. intros e He. destruct e as [r|l|l r].
  - assert (Hr : In r rs). { rewrite <- F1. unfold rights. apply in_flat_map. eexists. split; [exact He|now left]. }
    assert (HX : exists l, In l ls' /\ same_identity fmt lp rp l r).
    { clear -HF Hr. induction HF as [|a b l rr [Hab _] HF IH]; [destruct Hr|]. destruct Hr as [<-|Hr]; [exists a; split; [now left|exact Hab]|]. destruct (IH Hr) as (x & Hx & E). exists x. split; [now right|exact E]. }
    destruct HX as (l & Hl & E). apply (F5 l r He); [|exact E]. eapply Permutation_in; [symmetry; exact HP|exact Hl].
  - assert (Hl : In l ls). { eapply Permutation_in; [exact HC|]. apply In_lefts. now left. }
    assert (HX : exists r, In r rs /\ same_identity fmt lp rp l r).
    { apply (Permutation_in _ HP) in Hl. clear -HF Hl. induction HF as [|a b ll rr [Hab _] HF IH]; [destruct Hl|]. destruct Hl as [<-|Hl]; [exists b; split; [now left|exact Hab]|]. destruct (IH Hl) as (x & Hx & E). exists x. split; [now right|exact E]. }
    destruct HX as (r & Hr & E). exact (F4 l r He Hr E).
  - assert (Hl : In l ls). { eapply Permutation_in; [exact HC|]. apply In_lefts. eauto. }
    assert (HX : exists r', In r' rs /\ same_identity fmt lp rp l r' /\ M l r').
    { apply (Permutation_in _ HP) in Hl. clear -HF Hl. induction HF as [|a b ll rr Hab HF IH]; [destruct Hl|]. destruct Hl as [<-|Hl]; [exists b; split; [now left|exact Hab]|]. destruct (IH Hl) as (x & Hx & E). exists x. split; [now right|exact E]. }
    destruct HX as (r' & Hr' & E' & HM). pose proof (F3 l r He) as E.
    assert (Hr : In r rs). { rewrite <- F1. unfold rights. apply in_flat_map. eexists. split; [exact He|now left]. }
    assert (r = r'); [|now subst]. destruct E as (a & b & Ha & Hb & Hab). destruct E' as (a' & b' & Ha' & Hb' & Hab'). rewrite Ha in Ha'. injection Ha' as <-.
    assert (HBB : pyeq b b') by (eapply pyeq_trans; [apply pyeq_sym; exact Hab|exact Hab']).
    destruct HR as (ks & K1 & K2). clear -Hr Hr' Hb Hb' HBB K1 K2. induction K1 as [|m k rs ks Hk K1 IH]; [destruct Hr|]. apply FOP_inv in K2 as [O1 O2]. rewrite Forall_forall in O1.
    assert (HIn : forall m x, In m rs -> get_identifier fmt rp m = Ok x -> In x ks). { clear -K1. intros m x Hm Hx. induction K1 as [|m0 k0 ms0 ks0 H0 H1 IH0]; [destruct Hm|]. destruct Hm as [<-|Hm]; [left; congruence|right; now apply IH0]. }
    destruct Hr as [<-|Hr], Hr' as [<-|Hr'].
    + reflexivity.
    + exfalso. rewrite Hk in Hb. injection Hb as <-. exact (O1 _ (HIn _ _ Hr' Hb') HBB).
    + exfalso. rewrite Hk in Hb'. injection Hb' as <-. apply (O1 _ (HIn _ _ Hr Hb)). now apply pyeq_sym.
    + now apply IH.
Qed.

Lemma quiet_fields l r : quiet (fields_change fmt reprs l r) <->
  exists ev, collect_members fmt (c_pool l) (c_pool r) (c_fields l) (c_fields r) = Ok ev /\ all_changed (same_field (c_pool l) (c_pool r)) ev.
Proof.
  unfold fields_change. cbv zeta. rewrite quiet_super. destruct (collect_members fmt _ _ (c_fields l) (c_fields r)) as [ev|e].
  - rewrite quiet_iterate. split.
    + intros [_ H]. exists ev. split; [reflexivity|]. unfold all_changed. rewrite Forall_map in H. eapply Forall_impl; [|exact H]. intros [x|x|x y]; cbn beta; intro HQ.
      * now apply not_quiet_added in HQ.
      * now apply not_quiet_removed in HQ.
      * now apply quiet_field.
    + intros (ev' & E & H). injection E as <-. split; [reflexivity|]. rewrite Forall_map. eapply Forall_impl; [|exact H]. intros [x|x|x y]; cbn beta; intro HQ; try contradiction. now apply quiet_field.
  - split; [intros [H _]; discriminate|intros (ev & H & _); discriminate].
Qed.
Lemma quiet_methods l r : quiet (methods_change fmt reprs l r) <->
  exists ev, collect_members fmt (c_pool l) (c_pool r) (c_methods l) (c_methods r) = Ok ev /\ all_changed (same_method fmt tool_resolved (c_pool l) (c_pool r)) ev.
Proof.
  unfold methods_change. cbv zeta. rewrite quiet_super. destruct (collect_members fmt _ _ (c_methods l) (c_methods r)) as [ev|e].
  - rewrite quiet_iterate. split.
    + intros [_ H]. exists ev. split; [reflexivity|]. unfold all_changed. rewrite Forall_map in H. eapply Forall_impl; [|exact H]. intros [x|x|x y]; cbn beta; intro HQ.
      * now apply not_quiet_added in HQ.
      * now apply not_quiet_removed in HQ.
      * now apply quiet_method.
    + intros (ev' & E & H). injection E as <-. split; [reflexivity|]. rewrite Forall_map. eapply Forall_impl; [|exact H]. intros [x|x|x y]; cbn beta; intro HQ; try contradiction. now apply quiet_method.
  - split; [intros [H _]; discriminate|intros (ev & H & _); discriminate].
Qed.

Lemma const_eqb_iff a b : const_eqb a b = true <-> same_entry a b.
Proof.
  split.
  - destruct a, b; cbn [const_eqb same_entry]; intro H; try discriminate; rewrite ?andb_true_iff, ?Z.eqb_eq, ?seqb_iff in H;
      try (eexists; split; [reflexivity|exact H]); try (destruct H as [[-> ->] ->]); try (destruct H as [-> ->]); try rewrite H; reflexivity.
  - destruct a; cbn [same_entry]; try (intros (y & -> & H); exact H); intros <-; cbn [const_eqb]; rewrite ?Z.eqb_refl, ?seqb_refl; reflexivity.
Qed.
Lemma quiet_pool l r : quiet (pool_change reprs ffmt l r) <-> same_pool (c_pool l) (c_pool r).
Proof.
  unfold pool_change. erewrite quiet_own by reflexivity. rewrite generic_false. unfold pool_eqb. split.
  - intros (a & b & E1 & E2 & H). injection E1 as <-. injection E2 as <-. revert H. apply tuple_eq_iff. apply pure2_iff. apply const_eqb_iff.
  - intro H. exists (c_pool l), (c_pool r). split; [reflexivity|]. split; [reflexivity|]. revert H. apply tuple_eq_iff. apply pure2_iff. apply const_eqb_iff.
Qed.

Lemma quiet_class l r : quiet (class_change fmt reprs ffmt l r) <->
  same_header l r /\ same_annos (c_pool l) (c_pool r) (c_attrs l) (c_attrs r) /\ same_pool (c_pool l) (c_pool r) /\
  quiet (fields_change fmt reprs l r) /\ quiet (methods_change fmt reprs l r).
Proof.
  unfold class_change. rewrite quiet_super, !Forall_cons_eq, Forall_nil_eq, !quiet_annos, quiet_class_info, quiet_pool. unfold same_annos. tauto.
Qed.

(** An unchanged verdict means the same class and the same pool. *)
Theorem class_quiet_sound l r : distinct_ids fmt (c_pool l) (c_fields l) -> distinct_ids fmt (c_pool l) (c_methods l) ->
  quiet (class_change fmt reprs ffmt l r) -> same_class fmt tool_resolved l r /\ same_pool (c_pool l) (c_pool r).
Proof.
  intros HF HM H. apply quiet_class in H as (H1 & H2 & H3 & H4 & H5). apply quiet_fields in H4 as (ev & E4 & H4). apply quiet_methods in H5 as (ev' & E5 & H5).
  split; [|exact H3]. split; [exact H1|]. split; [exact H2|]. split; eapply members_same; eassumption.
Qed.
Theorem class_quiet_complete l r : distinct_ids fmt (c_pool l) (c_fields l) -> distinct_ids fmt (c_pool l) (c_methods l) ->
  distinct_ids fmt (c_pool r) (c_fields r) -> distinct_ids fmt (c_pool r) (c_methods r) ->
  same_class fmt tool_resolved l r -> same_pool (c_pool l) (c_pool r) -> quiet (class_change fmt reprs ffmt l r).
Proof.
  intros LF LM RF RM (H1 & H2 & H4 & H5) H3. apply quiet_class. split; [exact H1|]. split; [exact H2|]. split; [exact H3|]. split.
  - apply quiet_fields. destruct (same_members_idents _ _ _ _ _ H4) as [[ks K1] [ks' K2]]. destruct (collect_members_ok _ _ _ _ _ _ _ K1 K2) as [ev E]. exists ev. split; [exact E|]. exact (members_same_conv _ _ _ _ _ _ LF RF H4 E).
  - apply quiet_methods. destruct (same_members_idents _ _ _ _ _ H5) as [[ks K1] [ks' K2]]. destruct (collect_members_ok _ _ _ _ _ _ _ K1 K2) as [ev E]. exists ev. split; [exact E|]. exact (members_same_conv _ _ _ _ _ _ LM RM H5 E).
Qed.
End Class.

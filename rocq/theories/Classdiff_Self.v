From Verif Require Import Base Pack_Model Pack_Spec Pack_Proofs ConstPool_Model ConstPool_Spec ConstPool_Deref Opcodes_Model Opcodes_Spec ClassFile_Model ClassFile_Proofs
  Descr_Model Anno_Model Anno_Spec Anno_Proofs Change_Model Change_Spec Change_Proofs Change_Report Classdiff_Model Classdiff_Spec Classdiff_Members Classdiff_Code Classdiff_Class.
From Coq Require Import Permutation.

(** If the check succeeds, it finds no change. *)
Definition calm (c : change) : Prop := forall c', check c = Ok c' -> is_change c' = false.

Lemma calm_kids k ch d im : k_check k = CheckParts -> k_always k = false -> k_super k = true -> k_gate k = false -> k_incheck k = false ->
  (k_raises k = None -> Forall calm im) -> calm (Node k ch d [] im).
Proof.
  intros Hk Ha Hs Hg Hi HF c' H. apply (check_parts _ _ _ _ _ _ Hk) in H as (ks & ks' & H1 & H2 & ->). cbn [collect_in pick] in H1. rewrite Hs, Hg, Hi in H1. cbn [negb andb] in H1.
  destruct (k_raises k); [discriminate|]. injection H1 as <-. specialize (HF eq_refl). cbn [is_change]. rewrite Ha. cbn [orb].
  clear -H2 HF. induction H2 as [|a b l r Hab H IH]; [reflexivity|]. inversion HF as [|? ? Hc HF']; subst. cbn [existsb]. now rewrite (Hc _ Hab), IH.
Qed.
Lemma calm_super n lb t rs kids : (rs = None -> Forall calm kids) -> calm (super n lb t rs kids).
Proof. intro H. unfold super. now apply calm_kids. Qed.
Lemma calm_own k ch d cs im r : k_check k = CheckOwn r -> k_always k = false -> (forall b d', r = Ok (b, d') -> b = false) -> calm (Node k ch d cs im).
Proof.
  intros Hk Ha H c' Hc. cbn [check] in Hc. rewrite Hk in Hc. destruct r as [[b d']|]; [|discriminate]. cbn [rbind] in Hc. injection Hc as <-. cbn [is_change]. rewrite Ha. now apply (H b d').
Qed.
Lemma generic_self {A} label (m : res A) eqf lp rp : (forall a, m = Ok a -> eqf a a <> Ok false) ->
  forall b d, generic_check label m m eqf lp rp = Ok (b, d) -> b = false.
Proof.
  intros H b d E. unfold generic_check in E. destruct m as [a|]; [|discriminate]. specialize (H a eq_refl). cbn [rbind] in E. destruct (eqf a a) as [e|]; [|discriminate]. cbn [rbind] in E.
  destruct e; [now injection E|contradiction].
Qed.
Lemma calm_leaf_of {A} n lb own (m : res A) eqf lt rt lp rp : (forall a, m = Ok a -> eqf a a <> Ok false) -> calm (leaf_text n lb own m m eqf lt rt lp rp).
Proof. intro H. unfold leaf_text, leaf. eapply calm_own; [reflexivity|reflexivity|]. now apply generic_self. Qed.

Lemma pure2_self {A} (f : A -> A -> bool) a : f a a = true -> pure2 f a a <> Ok false.
Proof. unfold pure2. intros ->. discriminate. Qed.
Lemma tuple_self {A} (f : A -> A -> res bool) l : Forall (fun a => f a a <> Ok false) l -> tuple_eq f l l <> Ok false.
Proof. induction 1 as [|a l H HF IH]; cbn [tuple_eq]; [discriminate|]. destruct (f a a) as [[|]|]; cbn [rbind]; [exact IH|contradiction|discriminate]. Qed.

Section Self.
Variable p : pool.
Hypothesis HN : pool_no_nan p = true.

Lemma deref_f_no_nan fuel : forall i v, deref_f fuel p i = Ok v -> no_nan v = true.
Proof.
  induction fuel as [|fu IH]; intros i v H; cbn [deref_f] in H; [discriminate|]. destruct (i =? 0); [discriminate|].
  destruct (get_const p i) as [c|] eqn:E; [|discriminate]. cbn [rbind] in H.
  assert (HI : In c p). { unfold get_const, py_index in E. repeat match type of E with context [if ?b then _ else _] => destruct b end; try discriminate; match type of E with context [nth_error ?x ?y] => destruct (nth_error x y) eqn:E2; [|discriminate] end; injection E as <-; eapply nth_error_In; exact E2. }
  unfold pool_no_nan in HN. rewrite forallb_forall in HN. specialize (HN c HI). destruct c as [|s|z|b|z|b|t j|t a b|k j].
  - discriminate.
  - now injection H as <-.
  - now injection H as <-.
  - injection H as <-. exact HN.
  - now injection H as <-.
  - injection H as <-. exact HN.
  - exact (IH _ _ H).
  - destruct ((t =? CONST_InvokeDynamic) || (t =? CONST_Dynamic)).
    + destruct (deref_f fu p b) eqn:Eb; [|discriminate]. injection H as <-. cbn [no_nan]. now rewrite (IH _ _ Eb).
    + destruct (deref_f fu p a) eqn:Ea; [|discriminate]. destruct (deref_f fu p b) eqn:Eb; [|discriminate]. injection H as <-. cbn [no_nan]. now rewrite (IH _ _ Ea), (IH _ _ Eb).
  - destruct (deref_f fu p j) eqn:Eb; [|discriminate]. injection H as <-. cbn [no_nan]. now rewrite (IH _ _ Eb).
Qed.
Lemma deref_self i v : deref_const p i = Ok v -> py_eq v v = true.
Proof. intro H. rewrite py_eq_refl. eapply deref_f_no_nan. exact H. Qed.
Lemma u2_deref_self d n v : u2_attribute_deref p d n = Ok v -> opt_eqb py_eq v v = true.
Proof.
  unfold u2_attribute_deref. destruct (u2_attribute d n) as [[i|]|]; cbn [rbind]; try discriminate.
  - destruct (deref_const p i) as [w|] eqn:E; [|discriminate]. intro H. injection H as <-. cbn [opt_eqb]. eapply deref_self. exact E.
  - intro H. now injection H as <-.
Qed.
Lemma const_eq_self i : const_eq p p i i <> Ok false.
Proof. unfold const_eq. destruct (deref_const p i) as [v|] eqn:E; cbn [rbind]; [|discriminate]. rewrite (deref_self _ _ E). discriminate. Qed.

(** ** Outcomes of parsers *)
Definition pall {A} (P : A -> Prop) (q : prog A) : Prop := forall bs a rest, prun q bs = Ok (a, rest) -> P a.
Lemma pall_bind {A B} (P : A -> Prop) (Q : B -> Prop) (q : prog A) (k : A -> prog B) : pall P q -> (forall a, P a -> pall Q (k a)) -> pall Q (pbind q k).
Proof.
  intros H1 H2 bs b rest H. rewrite prun_bind in H. destruct (prun q bs) as [[a r]|] eqn:E; [|discriminate]. cbn in H. eapply H2; [eapply H1; exact E|exact H].
Qed.
Lemma pall_any {A} (q : prog A) : pall (fun _ => True) q.
Proof. intros bs a rest _. exact I. Qed.
Lemma pall_ret {A} (P : A -> Prop) a : P a -> pall P (PRet a).
Proof. intros H bs b rest E. cbn in E. now injection E as <- _. Qed.
Lemma pall_lift {A} (P : A -> Prop) m : (forall a, m = Ok a -> P a) -> pall P (p_lift m).
Proof. intros H bs a rest E. destruct m as [x|]; [|discriminate]. cbn in E. injection E as <- _. now apply H. Qed.
Lemma pall_raise {A} (P : A -> Prop) e : pall P (PRaise e).
Proof. intros bs a rest E. discriminate. Qed.
Lemma pall_repeat {A} (P : A -> Prop) n (q : prog A) : pall P q -> pall (Forall P) (p_repeat n q).
Proof.
  intro H. induction n as [|n IH]; cbn [p_repeat]; [apply pall_ret; constructor|]. eapply pall_bind; [exact H|]. intros a Ha. eapply pall_bind; [exact IH|]. intros l Hl. apply pall_ret. now constructor.
Qed.
Lemma pall_objects {A} (P : A -> Prop) (q : prog A) : pall P q -> pall (Forall P) (p_objects q).
Proof. intro H. unfold p_objects. eapply pall_bind; [apply pall_any|]. intros c _. now apply pall_repeat. Qed.
Lemma parse_all {A} (P : A -> Prop) (q : prog A) b a : pall P q -> parse_buf q b = Ok a -> P a.
Proof. intros H E. unfold parse_buf in E. rewrite (proj1 (run_both q b)) in E. destruct (prun q b) as [[x r]|] eqn:E2; [|discriminate]. injection E as <-. eapply H. exact E2. Qed.

(** Exceptions of a method. *)
Lemma deref_each_all n : pall (Forall (fun v => py_eq v v = true)) (p_deref_each p n).
Proof.
  induction n as [|n IH]; cbn [p_deref_each]; [apply pall_ret; constructor|]. eapply pall_bind; [apply pall_any|]. intros i _.
  eapply pall_bind; [apply (pall_lift (fun v => py_eq v v = true)); intros v Hv; eapply deref_self; exact Hv|]. intros v Hv. eapply pall_bind; [exact IH|]. intros l Hl. apply pall_ret. now constructor.
Qed.
Lemma exceptions_self m l : get_exceptions p m = Ok l -> Forall (fun v => py_eq v v = true) l.
Proof.
  unfold get_exceptions. destruct (get_attribute _ _) as [b|]; [|intro H; injection H as <-; constructor]. apply parse_all. eapply pall_bind; [apply pall_any|]. intros n _. apply deref_each_all.
Qed.

(** ** Annotations *)
(** Element dicts have distinct keys. *)
Inductive dict_ok : aval -> Prop :=
| dk_const t i : dict_ok (AConst t i)
| dk_enum t n : dict_ok (AEnum t n)
| dk_class i : dict_ok (AClass i)
| dk_anno t es : elems_ok es -> dict_ok (AAnno t es)
| dk_arr l : Forall dict_ok l -> dict_ok (AArr l)
with elems_ok : list (pyval * aval) -> Prop :=
| ek es : Forall (fun e => py_eq (fst e) (fst e) = true) es -> ForallOrdPairs (fun a b => ~ pyeq (fst a) (fst b)) es -> Forall (fun e => dict_ok (snd e)) es -> elems_ok es.

Lemma eset_ok es k v : py_eq k k = true -> dict_ok v -> elems_ok es -> elems_ok (eset es k v).
Proof.
  intros Hk Hv H. inversion H as [? H1 H2 H3]; subst. clear H.
  assert (HIn : forall es, forall e, In e (eset es k v) -> (exists x, In (fst e, x) es) \/ pyeq (fst e) k).
  { clear -Hk. induction es as [|[k' v'] es IH]; cbn [eset]; intros e.
    - intros [<-|[]]. right. exact Hk.
    - destruct (py_eq k k') eqn:E.
      + intros [<-|Hin]; [left; exists v'; now left|left; exists (snd e); right; now destruct e].
      + intros [<-|Hin]; [left; exists v'; now left|]. destruct (IH e Hin) as [[x Hx]|Hx]; [left; exists x; now right|now right]. }
  constructor.
  - induction es as [|[k' v'] es IH]; cbn [eset]; [constructor; [exact Hk|constructor]|]. inversion H1 as [|? ? A1 A2]; subst. apply FOP_inv in H2 as [B1 B2]. inversion H3; subst.
    destruct (py_eq k k'); constructor; auto.
  - induction es as [|[k' v'] es IH]; cbn [eset]; [constructor; [constructor|constructor]|]. inversion H1 as [|? ? A1 A2]; subst. apply FOP_inv in H2 as [B1 B2]. inversion H3; subst.
    destruct (py_eq k k') eqn:E; constructor; auto. apply Forall_forall. intros e He Heq. cbn [fst] in Heq. destruct (HIn es e He) as [[x Hx]|Hx].
    + rewrite Forall_forall in B1. exact (B1 _ Hx Heq).
    + assert (pyeq k k') by (apply pyeq_sym; eapply pyeq_trans; [exact Heq|exact Hx]). congruence.
  - induction es as [|[k' v'] es IH]; cbn [eset]; [constructor; [exact Hv|constructor]|]. inversion H1 as [|? ? A1 A2]; subst. apply FOP_inv in H2 as [B1 B2]. inversion H3; subst.
    destruct (py_eq k k'); constructor; auto.
Qed.
Lemma elems_all q n : pall dict_ok q -> forall d, elems_ok d -> pall elems_ok (p_elems p q n d).
Proof.
  intro Hq. induction n as [|n IH]; intros d Hd; cbn [p_elems]; [now apply pall_ret|]. eapply pall_bind; [apply pall_any|]. intros r _. eapply pall_bind; [exact Hq|]. intros v Hv.
  eapply pall_bind; [apply (pall_lift (fun v => py_eq v v = true)); intros k Hk; eapply deref_self; exact Hk|]. intros k Hk. apply IH. now apply eset_ok.
Qed.
Lemma elems_nil : elems_ok [].
Proof. constructor; constructor. Qed.
Lemma aval_all fuel : pall dict_ok (p_aval fuel p).
Proof.
  induction fuel as [|fu IH]; cbn [p_aval]; [apply pall_raise|]. eapply pall_bind; [apply pall_any|]. intros t _.
  destruct (is_const_tag t); [eapply pall_bind; [apply pall_any|]; intros; apply pall_ret; constructor|].
  destruct (t =? 101); [eapply pall_bind; [apply pall_any|]; intros; apply pall_ret; constructor|].
  destruct (t =? 99); [eapply pall_bind; [apply pall_any|]; intros; apply pall_ret; constructor|].
  destruct (t =? 64). { eapply pall_bind; [apply pall_any|]. intros tc _. eapply pall_bind; [apply elems_all; [exact IH|apply elems_nil]|]. intros d Hd. apply pall_ret. now constructor. }
  destruct (t =? 91). { eapply pall_bind; [apply pall_any|]. intros n _. eapply pall_bind; [apply pall_repeat; exact IH|]. intros l Hl. apply pall_ret. now constructor. }
  apply pall_raise.
Qed.
Lemma annotations_ok d n l : annotations_of p d n = Ok l -> Forall (fun a => elems_ok (snd a)) l.
Proof.
  unfold annotations_of. destruct (get_attribute d n) as [b|]; [|intro H; injection H as <-; constructor]. apply parse_all. apply pall_objects. unfold p_annotation.
  eapply pall_bind; [apply pall_any|]. intros tc _. eapply pall_bind; [apply elems_all; [apply aval_all|apply elems_nil]|]. intros e He. apply pall_ret. exact He.
Qed.

Lemma eget_self es k v : ForallOrdPairs (fun a b => ~ pyeq (fst a) (fst b)) es -> py_eq k k = true -> In (k, v) es -> eget es k = Some v.
Proof.
  intros HD Hk. induction es as [|[k' v'] es IH]; [intros []|]. apply FOP_inv in HD as [H1 H2]. cbn [eget]. intros [E|HI].
  - injection E as -> ->. now rewrite Hk.
  - destruct (py_eq k k') eqn:E; [|now apply IH]. exfalso. rewrite Forall_forall in H1. apply (H1 _ HI). apply pyeq_sym. exact E.
Qed.
Lemma aval_self a : dict_ok a -> aval_eq p p a a <> Ok false.
Proof.
  induction a as [t i|t n|i|t es IH|vs IH] using aval_ind'; intro H; cbn [aval_eq].
  - rewrite Z.eqb_refl. apply const_eq_self.
  - pose proof (const_eq_self t). destruct (const_eq p p t t) as [[|]|]; cbn [rbind]; [apply const_eq_self|contradiction|discriminate].
  - apply const_eq_self.
  - inversion H as [| | |? ? HE|]; subst. inversion HE as [? H1 H2 H3]; subst. pose proof (const_eq_self t). destruct (const_eq p p t t) as [[|]|]; cbn [rbind negb]; [|contradiction|discriminate].
    assert (HK : same_keys es es = true).
    { unfold same_keys. rewrite Nat.eqb_refl. cbn [andb]. apply forallb_forall. intros [k v] Hin. cbn [fst]. rewrite (eget_self es k v H2); [reflexivity| |exact Hin]. rewrite Forall_forall in H1. exact (H1 _ Hin). }
    rewrite HK. cbn [negb].
    assert (G : forall l, incl l es -> (fix loop (le : list (pyval * aval)) : res bool :=
           match le with
           | [] => Ok true
           | (k, v) :: le' => match eget es k with None => Err KeyError | Some w => e <- aval_eq p p v w ;; if e then loop le' else Ok false end
           end) l <> Ok false).
    { induction l as [|[k v] l IHl]; intro HI; [discriminate|]. assert (Hin : In (k, v) es) by (apply HI; now left).
      rewrite (eget_self es k v H2); [| |exact Hin]. 2: { rewrite Forall_forall in H1. exact (H1 _ Hin). }
      assert (HV : aval_eq p p v v <> Ok false). { rewrite Forall_forall in IH, H3. exact (IH _ Hin (H3 _ Hin)). }
      destruct (aval_eq p p v v) as [[|]|]; cbn [rbind]; [apply IHl; intros x Hx; apply HI; now right|contradiction|discriminate]. }
    apply G. apply incl_refl.
  - inversion H as [| | | |? HL]; subst. rewrite Nat.eqb_refl. cbn [negb]. clear H. induction vs as [|v vs IHv]; [discriminate|]. inversion IH as [|? ? I1 I2]; subst. inversion HL as [|? ? L1 L2]; subst.
    specialize (I1 L1). destruct (aval_eq p p v v) as [[|]|]; cbn [rbind]; [now apply IHv|contradiction|discriminate].
Qed.

Lemma calm_annos fmt reprs n lb attr d : calm (annos_leaf fmt reprs n lb attr p p d d).
Proof.
  unfold annos_leaf. apply calm_leaf_of. intros l Hl. apply tuple_self. apply annotations_ok in Hl. eapply Forall_impl; [|exact Hl]. intros [t es] He. unfold annotation_eq. cbn [fst snd] in *. apply aval_self. now constructor.
Qed.

(** ** Code *)
Lemma opargs_self a : opargs_eqb a a = true.
Proof. now apply opargs_eqb_eq. Qed.
Lemma args_self c a : args_eq p p c a a <> Ok false.
Proof.
  unfold args_eq. destruct (has_const_arg c) as [[|]|]; cbn [rbind]; try discriminate; [|rewrite opargs_self; discriminate].
  destruct a as [[|i l]|d l|d lo hi l]; try discriminate. pose proof (const_eq_self i). destruct (const_eq p p i i) as [[|]|]; cbn [rbind]; try discriminate; [|contradiction]. rewrite seqb_refl. discriminate.
Qed.
Lemma const_loop_self l : forall x, const_loop p p l l = Ok x -> x = Some [].
Proof.
  induction l as [|a l IH]; intros x H; cbn [const_loop] in H; [now injection H as <-|]. rewrite Nat.eqb_refl, Z.eqb_refl in H. cbn [andb negb] in H.
  pose proof (args_self (i_code a) (i_args a)) as HA. destruct (args_eq p p _ _ _) as [[|]|]; [|contradiction|discriminate]. cbn [rbind] in H.
  destruct (const_loop p p l l) as [y|]; [|discriminate]. cbn [rbind] in H. injection H as <-. now rewrite (IH y eq_refl).
Qed.
Lemma body_loop_self l : body_loop l l = false.
Proof. induction l as [|a l IH]; [reflexivity|]. cbn [body_loop]. rewrite Nat.eqb_refl, Z.eqb_refl. exact IH. Qed.
Lemma exinfo_self e : exinfo_eq p p e e <> Ok false.
Proof.
  unfold exinfo_eq, get_catch_type. destruct (ex_type_ref e =? 0); cbn [rbind].
  - rewrite !Z.eqb_refl. discriminate.
  - destruct (deref_const p (ex_type_ref e)) as [v|] eqn:E; cbn [rbind]; [|discriminate]. rewrite !Z.eqb_refl. cbn [andb opt_eqb]. rewrite (deref_self _ _ E). discriminate.
Qed.
Lemma pair_self l : Forall (fun a => pure2 pair_eqb a a <> Ok false) l.
Proof. apply Forall_forall. intros a _. apply pure2_self. now apply pair_eqb_eq. Qed.

Lemma calm_method_code fmt reprs c : calm (method_code fmt reprs p p c c).
Proof.
  unfold method_code. destruct c as [k|]; [|eapply calm_own; [reflexivity|reflexivity|]; intros b d H; now injection H].
  apply calm_kids; try reflexivity. intros _. unfold code_parts. repeat apply Forall_cons; try apply Forall_nil; try (apply calm_leaf_of; intros a _).
  - apply tuple_self, pair_self.
  - apply tuple_self, pair_self.
  - apply pure2_self, Z.eqb_refl.
  - apply pure2_self, Z.eqb_refl.
  - apply tuple_self. apply Forall_forall. intros e _. apply exinfo_self.
  - unfold leaf. eapply calm_own; [reflexivity|reflexivity|]. intros b d H. unfold code_constants_check, code_offsets in H. rewrite Nat.eqb_refl in H. cbn [negb] in H.
    destruct (disassemble_all (k_code k)) as [dl|]; [|discriminate]. cbn [rbind] in H. destruct (const_loop p p dl dl) as [x|] eqn:E; [|discriminate]. cbn [rbind] in H. apply const_loop_self in E. subst x. now injection H.
  - unfold leaf. eapply calm_own; [reflexivity|reflexivity|]. intros b d H. unfold code_body_check in H. rewrite Nat.eqb_refl in H. cbn [negb] in H.
    destruct (disassemble_all (k_code k)) as [dl|]; [|discriminate]. cbn [rbind] in H. rewrite body_loop_self in H. now injection H.
Qed.

Variable fmt : pyval -> str.
Variable reprs : str -> str.
Ltac calm_tac := first
  [ apply calm_annos
  | apply calm_leaf_of; let a := fresh "a" in let Ha := fresh "Ha" in intros a Ha;
    first [ apply pure2_self; first [apply Z.eqb_refl|apply seqb_refl|apply eqb_reflx|eapply deref_self; exact Ha|eapply u2_deref_self; exact Ha|now apply pair_eqb_eq]
          | apply tuple_self; apply Forall_forall; intros ? _; apply pure2_self; apply seqb_refl
          | apply tuple_self; apply exceptions_self in Ha; (eapply Forall_impl; [|exact Ha]); intros ? ?; now apply pure2_self ] ].
Lemma calm_field m : calm (field_change fmt reprs p p m m).
Proof. unfold field_change. apply calm_super. intros _. repeat apply Forall_cons; try apply Forall_nil; calm_tac. Qed.
Lemma calm_method m : calm (method_change fmt reprs p p m m).
Proof.
  unfold method_change. cbv zeta. apply calm_super. intros _. repeat apply Forall_cons; try apply Forall_nil; try calm_tac.
  destruct (get_code p m); cbn [rbind]; apply calm_method_code.
Qed.

Lemma ident_self m k : get_identifier fmt p m = Ok k -> pyeq k k.
Proof.
  unfold get_identifier. destruct (m_name p m) as [n|] eqn:En; [|discriminate]. cbn [rbind]. destruct (m_is_method m); [|intro H; injection H as <-; eapply deref_self; exact En].
  destruct (m_arg_types fmt p m); [|discriminate]. cbn [rbind]. destruct (flag _ _).
  - destruct (m_descriptor p m); [|discriminate]. cbn [rbind]. intro H. injection H as <-. unfold pyeq. cbn [py_eq]. apply seqb_refl.
  - intro H. injection H as <-. unfold pyeq. cbn [py_eq]. apply seqb_refl.
Qed.
Lemma same_members_self ms : distinct_ids fmt p ms -> same_members fmt eq p p ms ms.
Proof.
  intros (ks & H & _). exists ms. split; [reflexivity|]. induction H as [|m k ms ks Hk H IH]; constructor; [|exact IH]. split; [|reflexivity]. exists k, k. split; [exact Hk|]. split; [exact Hk|]. eapply ident_self. exact Hk.
Qed.
Lemma calm_iterate ch f lt : Forall calm ch -> Forall calm (iterate_by_type f ch lt).
Proof. destruct (iterate_spec f ch lt) as [P _]. apply Permutation_Forall. now apply Permutation_sym. Qed.
End Self.

Lemma calm_self fmt reprs ffmt c : pool_no_nan (c_pool c) = true -> distinct_ids fmt (c_pool c) (c_fields c) -> distinct_ids fmt (c_pool c) (c_methods c) ->
  calm (class_change fmt reprs ffmt c c).
Proof.
  intros HN HF HM. unfold class_change. apply calm_super. intros _. repeat apply Forall_cons; try apply Forall_nil; try (now apply calm_annos).
  - unfold class_info. apply calm_super. intros _. repeat apply Forall_cons; try apply Forall_nil; apply calm_leaf_of; intros a Ha; apply pure2_self.
    + eapply deref_self; [exact HN|exact Ha].
    + now apply pair_eqb_eq.
    + destruct a; [apply seqb_refl|reflexivity].
    + unfold get_super in Ha. destruct (c_super_ref c =? 0); [now injection Ha as <-|]. eapply deref_self; [exact HN|exact Ha].
    + apply set_eqb_iff. assert (HA : forall x, In x a -> pyeq x x).
      { unfold get_interfaces in Ha. revert a Ha. induction (c_interfaces c) as [|i l IH]; intros a Ha; cbn [mapM] in Ha; [injection Ha as <-; intros x []|].
        destruct (deref_const (c_pool c) i) as [v|] eqn:E; [|discriminate]. cbn [rbind] in Ha. destruct (mapM _ l) as [vs|]; [|discriminate]. cbn [rbind] in Ha. injection Ha as <-. intros x [<-|Hx]; [eapply deref_self; [exact HN|exact E]|now apply (IH vs)]. }
      split; intros x Hx; exists x; (split; [exact Hx|now apply HA]).
    + apply Z.eqb_refl.
    + apply eqb_reflx.
    + eapply u2_deref_self; [exact HN|exact Ha].
  - unfold pool_change. eapply calm_own; [reflexivity|reflexivity|]. apply generic_self. intros a Ha. injection Ha as <-. unfold pool_eqb. apply tuple_self. apply Forall_forall. intros e He. apply pure2_self. apply const_eqb_iff.
    unfold pool_no_nan in HN. rewrite forallb_forall in HN. specialize (HN e He). destruct e; try reflexivity; eexists; (split; [reflexivity|]); unfold pyeq; now rewrite py_eq_refl.
  - unfold fields_change. cbv zeta. apply calm_super. destruct (collect_members fmt _ _ (c_fields c) (c_fields c)) as [ev|] eqn:E; [|discriminate]. intros _. apply calm_iterate. rewrite Forall_map.
    pose proof (members_same_conv _ _ _ _ _ _ _ HF HF (same_members_self _ HN fmt _ HF) E) as HA. eapply Forall_impl; [|exact HA]. intros [x|x|x y]; cbn beta; intro HQ; try contradiction. subst y. now apply calm_field.
  - unfold methods_change. cbv zeta. apply calm_super. destruct (collect_members fmt _ _ (c_methods c) (c_methods c)) as [ev|] eqn:E; [|discriminate]. intros _. apply calm_iterate. rewrite Forall_map.
    pose proof (members_same_conv _ _ _ _ _ _ _ HM HM (same_members_self _ HN fmt _ HM) E) as HA. eapply Forall_impl; [|exact HA]. intros [x|x|x y]; cbn beta; intro HQ; try contradiction. subst y. now apply calm_method.
Qed.

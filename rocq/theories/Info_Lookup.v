(** Proofs about looking up the members of a class. *)
From Verif Require Import Base Pack_Model ConstPool_Model ConstPool_Spec ConstPool_Deref ClassFile_Model
  ClassFile_Spec ClassFile_Proofs Descr_Model Descr_Spec Descr_Proofs Manifest_Model
  Change_Model Classdiff_Model Info_Model Info_Spec Info_Class.

Section Generic.
Context {A : Type}.
Variable R : A -> member -> Prop.
Variable P : A -> Prop.
Variable test : member -> res bool.
Hypothesis test_ok : forall x m, R x m -> exists b, test m = Ok b /\ (b = true <-> P x).

Lemma find_member_spec p xs ms : Forall2 R xs ms -> (forall x m, In x xs -> R x m -> exists b, test m = Ok b /\ (b = true <-> P x)) ->
  exists o, find_member p test ms = Ok (match o with Some i => nth_error ms i | None => None end) /\ first_of P xs o.
Proof.
  clear test_ok. induction 1 as [|x m xs ms H1 H2 IH]; intro HT.
  - exists None. split; [reflexivity|]. intros x [].
  - destruct (HT x m (or_introl eq_refl) H1) as (b & Eb & Hb). cbn [find_member]. rewrite Eb. cbn [rbind]. destruct b.
    + exists (Some 0%nat). split; [reflexivity|]. split; [exists x; split; [reflexivity|now apply Hb]|]. intros j y Hj. lia.
    + destruct IH as (o & E & Ho); [intros; eapply HT; [right|]; eassumption|]. destruct o as [i|].
      * exists (Some (S i)). split; [exact E|]. destruct Ho as [(y & Y1 & Y2) Ho]. split; [exists y; split; [exact Y1|exact Y2]|].
        intros [|j] z Hj Hz; [injection Hz as <-; intro X; apply Hb in X; discriminate|]. apply (Ho j z); [lia|exact Hz].
      * exists None. split; [exact E|]. intros y [<-|Hy]; [intro X; apply Hb in X; discriminate|now apply Ho].
Qed.
Lemma filterM_spec xs ms : Forall2 R xs ms -> (forall x m, In x xs -> R x m -> exists b, test m = Ok b /\ (b = true <-> P x)) ->
  exists r, filterM test ms = Ok (map snd r) /\ picks (fun xm => P (fst xm)) (combine xs ms) r.
Proof.
  clear test_ok. induction 1 as [|x m xs ms H1 H2 IH]; intro HT.
  - exists []. split; [reflexivity|constructor].
  - destruct (HT x m (or_introl eq_refl) H1) as (b & Eb & Hb). destruct IH as (r & E & HP); [intros; eapply HT; [right|]; eassumption|].
    cbn [filterM]. rewrite Eb. cbn [rbind]. rewrite E. cbn [rbind combine]. destruct b.
    + exists ((x, m) :: r). split; [reflexivity|]. constructor; [now apply Hb|exact HP].
    + exists r. split; [reflexivity|]. constructor; [|exact HP]. intro X. apply Hb in X. discriminate.
Qed.
End Generic.

Lemma tuple_eqb_iff l : forall r, tuple_eqb l (STuple r) = true <-> l = r.
Proof.
  unfold tuple_eqb. induction l as [|x l IH]; intros [|y r]; cbn [length combine forallb fst snd].
  - split; reflexivity.
  - split; discriminate.
  - split; discriminate.
  - specialize (IH r). change ((S (length l) =? S (length r))%nat) with ((length l =? length r)%nat). destruct (seqb_spec x y) as [->|N].
    + cbn [andb]. rewrite IH. split; [now intros ->|congruence].
    + cbn [andb]. rewrite andb_false_r. split; [discriminate|congruence].
Qed.

Section Lookup.
Variable fmt : pyval -> str.
Variables (c : jclassfile) (r : classinfo).
Hypothesis W : api_wf c.
Hypothesis HC : class_shows c r.

Lemma named_test is_m jm m nm s : declares c jm nm s -> member_shows (jc_pool c) is_m jm m -> forall name, named (c_pool r) name m = Ok (seqb nm name).
Proof.
  intros HD (HF & HN & HT & HM & _) name. destruct HC as (_ & HP & _). unfold named, m_name. rewrite HN.
  assert (E : jutf8_at (jc_pool c) (jm_name jm) = Some nm) by (inversion HD; assumption). rewrite (jutf8_deref _ _ _ _ HP E). cbn [rbind]. reflexivity.
Qed.
Lemma arg_types jm m nm a ret : declares c jm nm (SMethod a ret) -> member_shows (jc_pool c) true jm m -> m_arg_types fmt (c_pool r) m = Ok (map desc a).
Proof.
  intros HD (HF & HN & HT & HM & _). destruct HC as (_ & HP & _). inversion HD as [|? ? ? ? Hin En Ed Ok1]; subst. unfold m_arg_types, m_desc_str, m_descriptor. rewrite HT, (jutf8_deref _ _ _ _ HP Ed). cbn [rbind pct_s].
  cbn [sig_ok] in Ok1. apply andb_true_iff in Ok1 as [Ok1 O3]. apply andb_true_iff in Ok1 as [O1 O2]. destruct (method_split a ret O1 O2 O3) as [E _]. rewrite HM, E. reflexivity.
Qed.
Lemma flag_bridge f : flag ACC_BRIDGE f = Z.testbit f 6.
Proof. exact (flag_bit 6 f ltac:(lia)). Qed.

Lemma method_test jm m name args bridge : In jm (jc_methods c) -> member_shows (jc_pool c) true jm m ->
  exists b, (b <- named (c_pool r) name m ;; if (b : bool) then bridge_and_args fmt r bridge (STuple args) m else Ok false) = Ok b /\
    (b = true <-> method_named c jm name args bridge).
Proof.
  intros Hin HS. destruct (aw_methods c W jm Hin) as (nm & a & ret & HD). rewrite (named_test true jm m nm _ HD HS name). cbn [rbind].
  assert (HU : forall nm' a' ret', declares c jm nm' (SMethod a' ret') -> nm' = nm /\ map desc a' = map desc a).
  { intros nm' a' ret' HD'. split.
    - inversion HD; inversion HD'; congruence.
    - pose proof (arg_types jm m _ _ _ HD HS) as X. rewrite (arg_types jm m _ _ _ HD' HS) in X. congruence. }
  assert (HB : flag ACC_BRIDGE (m_flags m) = Z.testbit (jm_flags jm) 6) by (destruct HS as (E & _); now rewrite flag_bridge, E).
  unfold bridge_and_args. rewrite HB, (arg_types jm m _ _ _ HD HS). cbn [rbind]. destruct (seqb_spec nm name) as [->|N].
  - destruct (Bool.eqb (Z.testbit (jm_flags jm) 6) bridge) eqn:EB.
    + apply Bool.eqb_prop in EB. eexists. split; [reflexivity|]. rewrite tuple_eqb_iff. split; [intro E; exists a, ret; auto|]. intros (a' & ret' & HD' & <- & _). symmetry. exact (proj2 (HU _ _ _ HD')).
    + eexists. split; [reflexivity|]. split; [discriminate|]. intros (a' & ret' & HD' & _ & E). rewrite E, Bool.eqb_reflx in EB. discriminate.
  - eexists. split; [reflexivity|]. split; [discriminate|]. intros (a' & ret' & HD' & _). destruct (HU _ _ _ HD') as [E _]. congruence.
Qed.

Theorem get_method_spec name s : exists o,
  get_method fmt r name s = Ok (match o with Some i => nth_error (c_methods r) i | None => None end) /\
  first_of (fun jm => method_named c jm name (seq_items s) false) (jc_methods c) o.
Proof.
  assert (HC' := HC). destruct HC' as (_ & _ & _ & _ & _ & _ & _ & HM & _).
  apply (find_member_spec (member_shows (jc_pool c) true)); [exact HM|]. intros jm m Hin HS. now apply method_test.
Qed.
Theorem get_bridges_spec name args : exists l,
  get_method_bridges fmt r name (STuple args) = Ok (map snd l) /\
  picks (fun xm => method_named c (fst xm) name args true) (combine (jc_methods c) (c_methods r)) l.
Proof.
  assert (HC' := HC). destruct HC' as (_ & _ & _ & _ & _ & _ & _ & HM & _).
  apply (filterM_spec (member_shows (jc_pool c) true) (fun jm => method_named c jm name args true)); [exact HM|]. intros jm m Hin HS. now apply method_test.
Qed.
Theorem bridges_of_list name args : get_method_bridges fmt r name (SList args) = Ok [].
Proof.
  assert (HC' := HC). destruct HC' as (_ & _ & _ & _ & _ & _ & _ & HM & _). unfold get_method_bridges. assert (HA := aw_methods c W). revert HA. induction HM as [|jm m js ms H1 H2 IH]; intro HA; [reflexivity|].
  cbn [filterM]. destruct (HA jm (or_introl eq_refl)) as (nm & a & ret & HD). rewrite (named_test true jm m nm _ HD H1 name). cbn [rbind].
  rewrite IH by (intros; apply HA; now right). unfold bridge_and_args. rewrite (arg_types jm m _ _ _ HD H1). cbn [rbind tuple_eqb]. destruct (seqb nm name); [|reflexivity]. now destruct (Bool.eqb _ true).
Qed.
Theorem methods_by_name_spec name : exists l,
  get_methods_by_name r name = Ok (map snd l) /\
  picks (fun xm => exists s, declares c (fst xm) name s) (combine (jc_methods c) (c_methods r)) l.
Proof.
  assert (HC' := HC). destruct HC' as (_ & _ & _ & _ & _ & _ & _ & HM & _).
  apply (filterM_spec (member_shows (jc_pool c) true) (fun jm => exists s, declares c jm name s)); [exact HM|]. intros jm m Hin HS. destruct (aw_methods c W jm Hin) as (nm & a & ret & HD).
  exists (seqb nm name). split; [exact (named_test true jm m nm _ HD HS name)|]. destruct (seqb_spec nm name) as [->|N]; split; try discriminate; eauto. intros (s & HD'). exfalso. apply N. inversion HD; inversion HD'; congruence.
Qed.
Theorem field_by_name_spec name : exists o,
  get_field_by_name r name = Ok (match o with Some i => nth_error (c_fields r) i | None => None end) /\
  first_of (fun jm => exists s, declares c jm name s) (jc_fields c) o.
Proof.
  assert (HC' := HC). destruct HC' as (_ & _ & _ & _ & _ & _ & HF & _).
  apply (find_member_spec (member_shows (jc_pool c) false)); [exact HF|]. intros jm m Hin HS. destruct (aw_fields c W jm Hin) as (nm & t & HD).
  exists (seqb nm name). split; [exact (named_test false jm m nm _ HD HS name)|]. destruct (seqb_spec nm name) as [->|N]; split; try discriminate; eauto. intros (s & HD'). exfalso. apply N. inversion HD; inversion HD'; congruence.
Qed.
End Lookup.

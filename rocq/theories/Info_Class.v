(** Proofs about what one class provides and requires. *)
From Verif Require Export Glob_Spec Glob_Proofs.
From Verif Require Import Base Pack_Model ConstPool_Model ConstPool_Spec ConstPool_Proofs ConstPool_Deref ClassFile_Model
  ClassFile_Spec ClassFile_Proofs ClassFile_Names Descr_Model Descr_Spec Descr_Proofs Manifest_Model
  Change_Model Classdiff_Model Jardiff_Model Distdiff_Model Info_Model Info_Spec.
From Verif Require Zip_Model.
From Coq Require Import Permutation.

(** ** Generalities *)
Lemma mapM_ok {A B} (f : A -> res B) l : (forall x, In x l -> exists y, f x = Ok y) ->
  exists r, mapM f l = Ok r /\ forall y, In y r <-> exists x, In x l /\ f x = Ok y.
Proof.
  induction l as [|x l IH]; intro H.
  - exists []. split; [reflexivity|]. intro y. split; [intros []|intros (x & [] & _)].
  - destruct (H x (or_introl eq_refl)) as [y E]. destruct IH as (r & HR & HI); [intros; apply H; now right|].
    exists (y :: r). split; [cbn [mapM]; rewrite E; cbn [rbind]; rewrite HR; reflexivity|].
    intro z. split.
    + intros [<-|Hz]; [exists x; split; [now left|exact E]|]. apply HI in Hz as (w & Hw & Ew). exists w. split; [now right|exact Ew].
    + intros (w & [<-|Hw] & Ew); [left; congruence|]. right. apply HI. now exists w.
Qed.
Lemma Forall2_In_l {A B} (R : A -> B -> Prop) l r x : Forall2 R l r -> In x l -> exists y, In y r /\ R x y.
Proof. induction 1 as [|a b l r HR HF IH]; intros []; [subst; exists b; split; [now left|exact HR]|]. destruct IH as (y & Hy & E); [assumption|]. exists y. split; [now right|exact E]. Qed.
Lemma Forall2_In_r {A B} (R : A -> B -> Prop) l r y : Forall2 R l r -> In y r -> exists x, In x l /\ R x y.
Proof. induction 1 as [|a b l r HR HF IH]; intros []; [subst; exists a; split; [now left|exact HR]|]. destruct IH as (x & Hx & E); [assumption|]. exists x. split; [now right|exact E]. Qed.
Lemma nodup_names_In x l : In x (Zip_Model.nodup_names l) <-> In x l.
Proof.
  induction l as [|y l IH]; [reflexivity|]. cbn [Zip_Model.nodup_names]. destruct (smem y l) eqn:E.
  - rewrite IH. split; [now right|]. intros [<-|H]; [now apply smem_In|exact H].
  - cbn [In]. rewrite IH. reflexivity.
Qed.
Lemma nodup_names_NoDup l : NoDup (Zip_Model.nodup_names l).
Proof.
  induction l as [|y l IH]; [constructor|]. cbn [Zip_Model.nodup_names]. destruct (smem y l) eqn:E; [exact IH|].
  constructor; [|exact IH]. rewrite nodup_names_In. intro H. apply smem_In in H. congruence.
Qed.

Section Order.
Variable order : list str -> list str.
Hypothesis order_perm : forall s, Permutation (order s) s.
Lemma set_list_In x l : In x (set_list order l) <-> In x l.
Proof.
  unfold set_list. rewrite <- (nodup_names_In x l). split; apply Permutation_in; [apply order_perm|apply Permutation_sym, order_perm].
Qed.
Lemma set_list_NoDup l : NoDup (set_list order l).
Proof. unfold set_list. apply (Permutation_NoDup (Permutation_sym (order_perm _))). apply nodup_names_NoDup. Qed.
End Order.

(** A pattern among the ignored ones matches *)
Definition ignored_by (ignored : list str) (s : str) : Prop := matched_by ignored s.
Lemma not_ignored_iff ig s : not_ignored ig s = true <-> ~ ignored_by ig s.
Proof.
  unfold not_ignored, ignored_by. rewrite <- fnmatches_matched, negb_true_iff. destruct (fnmatches s ig); split; congruence.
Qed.

(** ** Constants of a well-formed pool *)
Lemma jutf8_deref l p i s : pool_shows l p -> jutf8_at l i = Some s -> deref_const p i = Ok (PStr s).
Proof.
  intros [_ HP] H. unfold jutf8_at in H. destruct (jat l i) as [[]|] eqn:E; try discriminate. injection H as ->.
  pose proof (jat_pos _ _ _ E) as Hi. apply deref_const_iff. apply d_utf8; [lia|]. rewrite (HP i) by lia. now rewrite E.
Qed.
Lemma jclass_deref l p i s : pool_shows l p -> jclass_at l i = Some s -> deref_const p i = Ok (PStr s).
Proof.
  intros HS H. unfold jclass_at in H. destruct (jat l i) as [[]|] eqn:E; try discriminate. pose proof (jat_pos _ _ _ E) as Hi.
  apply deref_const_iff. apply d_ref with 7 i0; [lia| |].
  - destruct HS as [_ HP]. rewrite (HP i) by lia. now rewrite E.
  - apply deref_const_iff. now apply jutf8_deref with l.
Qed.
Lemma jnt_deref l p i a b : pool_shows l p -> jnt_at l i = Some (a, b) -> deref_const p i = Ok (PPair (PStr a) (PStr b)).
Proof.
  intros HS H. unfold jnt_at in H. destruct (jat l i) as [[]|] eqn:E; try discriminate. pose proof (jat_pos _ _ _ E) as Hi.
  destruct (jutf8_at l a0) eqn:Ea; [|discriminate]. destruct (jutf8_at l b0) eqn:Eb; [|discriminate]. injection H as <- <-.
  apply deref_const_iff. apply d_ref2 with 12 a0 b0; try lia.
  - destruct HS as [_ HP]. rewrite (HP i) by lia. now rewrite E.
  - apply deref_const_iff. now apply jutf8_deref with l.
  - apply deref_const_iff. now apply jutf8_deref with l.
Qed.
Lemma jat_from_ex l c : In c l -> forall b, exists i, jat_from l b i = Some c.
Proof.
  induction l as [|x l IH]; [intros []|]. intros H b. destruct H as [->|H]; [exists b; cbn [jat_from]; now rewrite Z.eqb_refl|].
  destruct (IH H (b + jwidth x)) as [i E]. exists i. cbn [jat_from].
  pose proof (jat_from_ge _ _ _ _ E). destruct (Z.eqb_spec i b) as [->|_]; [|exact E]. unfold jwidth in *. destruct (jwide x); lia.
Qed.
Lemma jat_ex l c : In c l -> exists i, jat l i = Some c.
Proof. intro H. exact (jat_from_ex _ _ H 1). Qed.

Section Class.
Variable fmt : pyval -> str.
Variable repr : pyval -> str.
Variable order : list str -> list str.
Hypothesis order_perm : forall s, Permutation (order s) s.

(** ** Members *)
Lemma member_identifier c r jm m nm s : class_shows c r -> declares c jm nm s ->
  (forall b, (b = match s with SField _ => false | _ => true end) -> member_shows (jc_pool c) b jm m ->
   pretty_identifier fmt (c_pool r) m = Ok (nm ++ sig_name s)).
Proof.
  intros HC HD b Hb (HF & HN & HT & HM & _). destruct HC as (_ & HP & _).
  destruct HD as [jm nm t Hin En Ed Ok1|jm nm a ret Hin En Ed Ok1]; subst b; unfold pretty_identifier, m_name, m_pretty_type, m_type, m_pretty_arg_types, m_arg_types, m_desc_str, m_descriptor; rewrite HM, HN, HT.
  - rewrite (jutf8_deref _ _ _ _ HP En), (jutf8_deref _ _ _ _ HP Ed). cbn [rbind pct_s].
    destruct (field_split t Ok1) as [_ ->]. cbn [rbind]. rewrite pretty_desc. cbn [rbind]. reflexivity.
  - rewrite (jutf8_deref _ _ _ _ HP En), (jutf8_deref _ _ _ _ HP Ed). cbn [rbind pct_s].
    cbn [sig_ok] in Ok1. apply andb_true_iff in Ok1 as [Ok1 O3]. apply andb_true_iff in Ok1 as [O1 O2].
    destruct (method_split a ret O1 O2 O3) as [-> ->]. cbn [rbind]. rewrite mapM_pretty, pretty_ret. cbn [rbind]. reflexivity.
Qed.

Lemma this_name c r : class_shows c r -> forall n, jclass_at (jc_pool c) (jc_this c) = Some n -> pretty_this r = Ok (dotted n).
Proof.
  intros (_ & HP & _ & HT & _) n H. unfold pretty_this, get_this. rewrite HT, (jclass_deref _ _ _ _ HP H). reflexivity.
Qed.

Lemma flag_public f : flag ACC_PUBLIC f = Z.testbit f 0.
Proof. exact (flag_bit 0 f (Z.le_refl 0)). Qed.

Lemma filter_In' {A} (f : A -> bool) x l : In x l /\ f x = true <-> In x (filter f l).
Proof. symmetry. apply filter_In. Qed.

Lemma provides_all c r private : api_wf c -> class_shows c r ->
  exists l, get_provides_all fmt r private = Ok l /\ forall s, In s l <-> provided c private s.
Proof.
  intros W HC. destruct (aw_this c W) as (n & Hn & Hcn). pose proof (this_name c r HC n Hn) as HT.
  unfold get_provides_all. rewrite HT. cbn [rbind].
  set (one := fun m : member => s <- pretty_identifier fmt (c_pool r) m ;; Ok (dotted n ++ lit "." ++ s)).
  set (keep := fun m : member => private || flag ACC_PUBLIC (m_flags m)).
  assert (HC' := HC). destruct HC' as (_ & HP & _ & _ & _ & _ & HF & HM & _).
  assert (KF : forall jm m b, member_shows (jc_pool c) b jm m -> keep m = true <-> (private = true \/ Z.testbit (jm_flags jm) 0 = true)).
  { intros jm m b (E & _). unfold keep. rewrite orb_true_iff, flag_public, E. reflexivity. }
  assert (G1 : exists fs, mapM one (filter keep (c_fields r)) = Ok fs /\
     forall s, In s fs <-> exists jm nm t, declares c jm nm (SField t) /\ (private = true \/ Z.testbit (jm_flags jm) 0 = true) /\ s = member_symbol n nm (SField t)).
  { assert (X : forall jm m, In jm (jc_fields c) -> member_shows (jc_pool c) false jm m -> forall nm t, declares c jm nm (SField t) -> one m = Ok (member_symbol n nm (SField t))).
    { intros jm m _ HS nm t HD. unfold one. rewrite (member_identifier c r jm m nm (SField t) HC HD false eq_refl HS). cbn [rbind]. reflexivity. }
    destruct (mapM_ok one (filter keep (c_fields r))) as (fs & E & HI).
    { intros m Hm. apply filter_In in Hm as [Hm _]. destruct (Forall2_In_r _ _ _ _ HF Hm) as (jm & Hjm & HS). destruct (aw_fields c W jm Hjm) as (nm & t & HD). eauto. }
    exists fs. split; [exact E|]. intro s. rewrite HI. split.
    - intros (m & Hm & Em). apply filter_In in Hm as [Hm K]. destruct (Forall2_In_r _ _ _ _ HF Hm) as (jm & Hjm & HS). destruct (aw_fields c W jm Hjm) as (nm & t & HD).
      exists jm, nm, t. split; [exact HD|]. split; [now apply (KF jm m false HS)|]. rewrite (X jm m Hjm HS nm t HD) in Em. congruence.
    - intros (jm & nm & t & HD & K & ->). assert (Hjm : In jm (jc_fields c)) by (inversion HD; assumption). destruct (Forall2_In_l _ _ _ _ HF Hjm) as (m & Hm & HS).
      exists m. split; [apply filter_In; split; [exact Hm|now apply (KF jm m false HS)]|]. now apply X with jm. }
  assert (G2 : exists ms, mapM one (filter keep (c_methods r)) = Ok ms /\
     forall s, In s ms <-> exists jm nm a t, declares c jm nm (SMethod a t) /\ (private = true \/ Z.testbit (jm_flags jm) 0 = true) /\ s = member_symbol n nm (SMethod a t)).
  { assert (X : forall jm m, In jm (jc_methods c) -> member_shows (jc_pool c) true jm m -> forall nm a t, declares c jm nm (SMethod a t) -> one m = Ok (member_symbol n nm (SMethod a t))).
    { intros jm m _ HS nm a t HD. unfold one. rewrite (member_identifier c r jm m nm (SMethod a t) HC HD true eq_refl HS). cbn [rbind]. reflexivity. }
    destruct (mapM_ok one (filter keep (c_methods r))) as (fs & E & HI).
    { intros m Hm. apply filter_In in Hm as [Hm _]. destruct (Forall2_In_r _ _ _ _ HM Hm) as (jm & Hjm & HS). destruct (aw_methods c W jm Hjm) as (nm & a & t & HD). eauto. }
    exists fs. split; [exact E|]. intro s. rewrite HI. split.
    - intros (m & Hm & Em). apply filter_In in Hm as [Hm K]. destruct (Forall2_In_r _ _ _ _ HM Hm) as (jm & Hjm & HS). destruct (aw_methods c W jm Hjm) as (nm & a & t & HD).
      exists jm, nm, a, t. split; [exact HD|]. split; [now apply (KF jm m true HS)|]. rewrite (X jm m Hjm HS nm a t HD) in Em. congruence.
    - intros (jm & nm & a & t & HD & K & ->). assert (Hjm : In jm (jc_methods c)) by (inversion HD; assumption). destruct (Forall2_In_l _ _ _ _ HM Hjm) as (m & Hm & HS).
      exists m. split; [apply filter_In; split; [exact Hm|now apply (KF jm m true HS)]|]. now apply X with jm. }
  destruct G1 as (fs & E1 & I1). destruct G2 as (ms & E2 & I2). rewrite E1. cbn [rbind]. rewrite E2. cbn [rbind].
  eexists. split; [reflexivity|]. intro s. cbn [In]. rewrite in_app_iff, I1, I2. split.
  - intros [<-|[(jm & nm & t & HD & K & ->)|(jm & nm & a & t & HD & K & ->)]]; [now apply pv_class|now apply pv_member with jm|now apply pv_member with jm].
  - intros H. destruct H as [n' Hn'|n' jm nm s Hn' HD K]; rewrite Hn in Hn'; injection Hn' as <-; [now left|]. right. destruct s as [t|a t]; [left|right]; eauto 8.
Qed.

Lemma class_provides c r ignored private : api_wf c -> class_shows c r ->
  exists l, get_provides fmt order r ignored private = Ok l /\ NoDup l /\
    forall s, In s l <-> provided c private s /\ ~ ignored_by ignored s.
Proof.
  intros W HC. destruct (provides_all c r private W HC) as (l & E & HI). unfold get_provides. rewrite E. cbn [rbind]. eexists. split; [reflexivity|].
  split; [apply NoDup_filter, set_list_NoDup, order_perm|]. intro s. rewrite filter_In, (set_list_In order order_perm), HI, not_ignored_iff. reflexivity.
Qed.

(** ** The loop over the constants *)
Lemma requires_loop_spec p provided : forall l pre, p = pre ++ l -> pre <> [] ->
  (forall i k t, Z.of_nat (length pre) <= i -> get_const p i = Ok k -> ctag k = Some t ->
     (exists v, deref_const p i = Ok v) /\
     (is_api_tag t = true -> exists v o, pretty_deref_const fmt repr p i = Ok v /\ strip_array (pct_s fmt v) = Ok o)) ->
  exists r, requires_loop fmt repr p provided l (Z.of_nat (length pre)) = Ok r /\
    forall s, In s r <-> (exists i k t v, Z.of_nat (length pre) <= i /\ get_const p i = Ok k /\ ctag k = Some t /\ is_api_tag t = true /\
       pretty_deref_const fmt repr p i = Ok v /\ strip_array (pct_s fmt v) = Ok (Some s)) /\ s <> [] /\ ~ In s provided.
Proof.
  induction l as [|c l IH]; intros pre Hp Hne H.
  - exists []. split; [reflexivity|]. intro s. split; [intros []|]. intros ((i & k & t & v & Hi & HG & _) & _). exfalso.
    unfold get_const, py_index in HG. rewrite (proj2 (Z.leb_le 0 i)) in HG by lia.
    rewrite (proj2 (nth_error_None p (Z.to_nat i))) in HG; [discriminate|]. rewrite Hp, app_nil_r. lia.
  - assert (HC : get_const p (Z.of_nat (length pre)) = Ok c).
    { unfold get_const, py_index. rewrite (proj2 (Z.leb_le 0 _)) by lia. rewrite Nat2Z.id, Hp. rewrite nth_error_app2, Nat.sub_diag by lia. reflexivity. }
    assert (Hp' : p = (pre ++ [c]) ++ l) by now rewrite <- app_assoc.
    assert (Hne' : pre ++ [c] <> []) by now destruct pre.
    assert (HL : Z.of_nat (length (pre ++ [c])) = Z.of_nat (length pre) + 1) by (rewrite app_length; cbn [length]; lia).
    destruct (IH (pre ++ [c]) Hp' Hne') as (r & ER & HR). { intros i k t Hi. apply H. lia. }
    rewrite HL in ER, HR.
    assert (SPL : forall (Q : Z -> Prop), (exists i, Z.of_nat (length pre) <= i /\ Q i) <-> Q (Z.of_nat (length pre)) \/ exists i, Z.of_nat (length pre) + 1 <= i /\ Q i).
    { intro Q. split.
      - intros (i & Hi & HQ). destruct (Z.eq_dec i (Z.of_nat (length pre))) as [->|Hn]; [now left|]. right. exists i. split; [lia|exact HQ].
      - intros [HQ|(i & Hi & HQ)]; [exists (Z.of_nat (length pre)); split; [lia|exact HQ]|exists i; split; [lia|exact HQ]]. }
    cbn [requires_loop]. destruct (ctag c) as [t|] eqn:ET.
    + destruct (H _ c t (Z.le_refl _) HC ET) as [(v0 & E0) HA]. rewrite E0. cbn [rbind]. destruct (is_api_tag t) eqn:EA.
      * destruct (HA eq_refl) as (v & o & E1 & E2). rewrite E1. cbn [rbind]. rewrite E2. cbn [rbind]. rewrite ER. cbn [rbind].
        assert (KEY : forall s, (exists i k t v, Z.of_nat (length pre) <= i /\ get_const p i = Ok k /\ ctag k = Some t /\ is_api_tag t = true /\
             pretty_deref_const fmt repr p i = Ok v /\ strip_array (pct_s fmt v) = Ok (Some s)) <->
           o = Some s \/ (exists i k t v, Z.of_nat (length pre) + 1 <= i /\ get_const p i = Ok k /\ ctag k = Some t /\ is_api_tag t = true /\
             pretty_deref_const fmt repr p i = Ok v /\ strip_array (pct_s fmt v) = Ok (Some s))).
        { intro s. split.
          - intros (i & k & t' & v' & Hi & HG & R). destruct (Z.eq_dec i (Z.of_nat (length pre))) as [->|Hn].
            + left. destruct R as (_ & _ & R1 & R2). rewrite E1 in R1. injection R1 as <-. rewrite E2 in R2. congruence.
            + right. exists i, k, t', v'. split; [lia|]. split; [exact HG|exact R].
          - intros [->|(i & k & t' & v' & Hi & R)]; [exists (Z.of_nat (length pre)), c, t, v; repeat split; auto; lia|].
            exists i, k, t', v'. split; [lia|exact R]. }
        destruct o as [pv|].
        -- destruct (negb (seqb pv []) && negb (smem pv provided)) eqn:EK.
           ++ exists (pv :: r). split; [reflexivity|]. intro s. rewrite KEY. cbn [In]. rewrite HR. apply andb_true_iff in EK as [K1 K2].
              rewrite negb_true_iff in K1, K2. split.
              ** intros [<-|(R1 & R2)]; [|tauto]. split; [now left|]. split; [intros ->; discriminate|]. intro X. apply smem_In in X. congruence.
              ** intros ([E|R1] & R2 & R3); [left; congruence|right; tauto].
           ++ exists r. split; [reflexivity|]. intro s. rewrite KEY, HR. split; [tauto|]. intros ([E|R1] & R2 & R3); [|tauto]. exfalso. injection E as ->.
              apply andb_false_iff in EK as [K|K]; rewrite negb_false_iff in K; [apply seqb_eq in K; auto|apply smem_In in K; auto].
        -- exists r. split; [reflexivity|]. intro s. rewrite KEY, HR. split; [tauto|]. intros ([E|R1] & R2 & R3); [discriminate|tauto].
      * exists r. split; [exact ER|]. intro s. rewrite HR. split; intros ((i & k & t' & v' & Hi & HG & R) & S).
        -- split; [|exact S]. exists i, k, t', v'. split; [lia|]. now split.
        -- split; [|exact S]. exists i, k, t', v'. split; [|now split]. destruct (Z.eq_dec i (Z.of_nat (length pre))) as [->|Hn]; [|lia].
           exfalso. rewrite HC in HG. injection HG as <-. destruct R as (RT & RA & _). congruence.
    + exists r. split; [exact ER|]. intro s. rewrite HR. split; intros ((i & k & t' & v' & Hi & HG & R) & S).
      * split; [|exact S]. exists i, k, t', v'. split; [lia|]. now split.
      * split; [|exact S]. exists i, k, t', v'. split; [|now split]. destruct (Z.eq_dec i (Z.of_nat (length pre))) as [->|Hn]; [|lia].
        exfalso. rewrite HC in HG. injection HG as <-. destruct R as (RT & RA & _). congruence.
Qed.

(** ** Arrays *)
(** the type with its class name dotted *)
Fixpoint dot_type (t : jtype) : jtype :=
  match t with TPrim p => TPrim p | TObj n => TObj (dotted n) | TArr t => TArr (dot_type t) end.
Lemma dotted_desc t : dotted (desc t) = desc (dot_type t).
Proof.
  induction t as [p|n|t IH]; cbn [desc dot_type].
  - destruct p; reflexivity.
  - unfold dotted. cbn [map]. f_equal. now rewrite map_app.
  - unfold dotted in *. cbn [map]. f_equal. exact IH.
Qed.
Lemma dotted_idem n : dotted (dotted n) = dotted n.
Proof. unfold dotted. rewrite map_map. apply map_ext. intro c. destruct (c =? 47) eqn:E; [reflexivity|now rewrite E]. Qed.
Fixpoint no_semi (t : jtype) : Prop := match t with TPrim _ => True | TObj n => ~ In 59 n | TArr t => no_semi t end.
Lemma dot_no_semi t : jtype_ok t = true -> no_semi (dot_type t).
Proof.
  induction t as [p|n|t IH]; cbn [jtype_ok dot_type no_semi]; auto. intros H HI. unfold dotted in HI. apply in_map_iff in HI as (c & E & Hc).
  destruct (c =? 47) eqn:E7; [discriminate|]. subst c. revert Hc. apply name_char_not; [|auto]. destruct n; [discriminate|exact H].
Qed.
Lemma next_argsig_semi t rest : no_semi t -> next_argsig (desc t ++ rest) = Ok (desc t, rest).
Proof.
  induction t as [p|n|t IH]; intro H.
  - destruct p; reflexivity.
  - cbn [desc app next_argsig]. cbn [no_semi] in H. change (is_prim_char 76) with false. cbn [Z.eqb Pos.eqb]. unfold find_split.
    rewrite <- app_assoc. cbn [app]. change (76 :: n ++ 59 :: rest) with ((76 :: n) ++ 59 :: rest). rewrite split_after_app; [reflexivity|].
    intros [E|E]; [discriminate|auto].
  - cbn [desc app next_argsig]. change (is_prim_char 91) with false. cbn [Z.eqb Pos.eqb]. rewrite IH by exact H. reflexivity.
Qed.
(** the text of an array class, alone or followed by ".member" *)
Lemma typeseq_array t suffix : no_semi t -> (suffix = [] \/ exists x, suffix = 46 :: x) ->
  exists ts, typeseq (desc t ++ suffix) = Ok (desc t :: ts).
Proof.
  intros H HS. unfold typeseq. pose proof (desc_nonempty t) as HN. destruct (desc t ++ suffix) as [|a s] eqn:E; [destruct (desc t); [congruence|discriminate]|].
  cbn [typeseq_f]. rewrite <- E, (next_argsig_semi t suffix H). cbn [rbind fst snd].
  replace (seqb (desc t) []) with false by (destruct (desc t); [congruence|reflexivity]). rewrite andb_false_r.
  destruct HS as [->|(x & ->)].
  - assert (T0 : forall fu, typeseq_f fu [] = Ok []) by (intros []; reflexivity). rewrite T0. cbn [rbind]. eexists. reflexivity.
  - assert (HL : exists k, length (desc t ++ 46 :: x) = S k) by (rewrite app_length; cbn [length]; exists (length (desc t) + length x)%nat; lia).
    destruct HL as [k ->]. cbn [typeseq_f]. change (next_argsig (46 :: x)) with (@Ok (str * str) (x, [])). cbn [rbind fst snd].
    change (seqb (46 :: x) []) with false. cbn [andb]. destruct k; cbn [typeseq_f rbind]; eexists; reflexivity.
Qed.
Lemma strip_array_arr t suffix : jtype_ok t = true -> (suffix = [] \/ exists x, suffix = 46 :: x) ->
  strip_array (desc (dot_type (TArr t)) ++ suffix) = Ok (match t with TObj n => Some (dotted n) | _ => None end).
Proof.
  intros H HS. unfold strip_array. cbn [dot_type desc app]. cbn [Z.eqb Pos.eqb].
  destruct (typeseq_array (dot_type (TArr t)) suffix) as (ts & E); [exact (dot_no_semi (TArr t) H)|exact HS|].
  cbn [dot_type desc app] in E. rewrite E. cbn [rbind py_first].
  destruct t as [p|n|t].
  - destruct p; reflexivity.
  - cbn [dot_type desc]. cbn [Z.eqb Pos.eqb]. change (76 :: dotted n ++ [59]) with (desc (TObj (dotted n))). rewrite pretty_desc.
    cbn [rbind]. unfold type_name. cbn [elem dims elem_name repeat concat]. rewrite app_nil_r. change (map (fun c => if c =? 47 then 46 else c) (dotted n)) with (dotted (dotted n)). now rewrite dotted_idem.
  - cbn [dot_type desc]. reflexivity.
Qed.
Lemma dotted_first n c r : class_name n = true -> dotted n = c :: r -> c <> 91.
Proof.
  intros H E. destruct n as [|x n]; [discriminate|]. unfold dotted in E. cbn [map] in E. apply (f_equal (fun l => hd 0 l)) in E. cbn [hd] in E.
  unfold class_name in H. cbn [forallb] in H. apply andb_true_iff in H as [H _]. unfold name_char in H. rewrite <- E. destruct (x =? 47); lia.
Qed.
Lemma strip_array_plain n suffix : class_name n = true -> strip_array (dotted n ++ suffix) = Ok (Some (dotted n ++ suffix)).
Proof.
  intro H. unfold strip_array. destruct (dotted n) as [|c r] eqn:E; [destruct n; discriminate|]. cbn [app].
  pose proof (dotted_first n c r H E). now rewrite (proj2 (Z.eqb_neq c 91)).
Qed.

(** ** Class and member constants *)
Lemma pretty_deref_class l p i n : pool_shows l p -> jclass_at l i = Some n -> pretty_deref_const fmt repr p i = Ok (PStr (dotted n)).
Proof.
  intros HS H. unfold jclass_at in H. destruct (jat l i) as [[]|] eqn:E; try discriminate. pose proof (jat_pos _ _ _ E) as Hi.
  unfold pretty_deref_const. assert (HS' := HS). destruct HS' as [_ HP]. rewrite (HP i) by lia. rewrite E. cbn [rbind shown_const].
  change (7 =? CONST_String) with false. change (7 =? CONST_Class) with true. cbn match. rewrite (jutf8_deref _ _ _ _ HS H). reflexivity.
Qed.
Lemma pretty_typeseq_method x ret : forallb jtype_ok x = true -> forallb no_paren x = true -> ret_ok ret = true ->
  pretty_typeseq fmt (PStr (method_desc x ret)) = Ok [lit "(" ++ concat_with (lit ",") (map type_name x) ++ lit ")"; ret_name ret].
Proof.
  intros O1 O2 O3. unfold pretty_typeseq. cbn [pct_s]. rewrite (typeseq_method x ret O1 O2 O3). cbn [rbind mapM]. rewrite pretty_ret. cbn [rbind].
      assert (Y : pretty_type (40 :: concat (map desc x) ++ [41]) = Ok (lit "(" ++ concat_with (lit ",") (map type_name x) ++ lit ")")).
      { unfold pretty_type. assert (HL : Nat.lt (length (concat (map desc x))) (length (40 :: concat (map desc x) ++ [41]))) by (cbn [length]; rewrite app_length; cbn [length]; lia).
        revert HL. generalize (length (40 :: concat (map desc x) ++ [41])). intros fu HL. cbn [pretty_type_f]. cbn [Z.eqb Pos.eqb]. rewrite removelast_last. rewrite typeseq_fields by exact O1. cbn [rbind].
        assert (Z : forall ts fu, (length (concat (map desc ts)) < fu)%nat -> mapM (pretty_type_f fu) (map desc ts) = Ok (map type_name ts)).
        { induction ts as [|t0 ts IH]; intros f HF; [reflexivity|]. cbn [map mapM concat] in *. rewrite app_length in HF. rewrite pretty_type_f_desc by lia. cbn [rbind]. rewrite IH by lia. reflexivity. }
        rewrite Z by exact HL. reflexivity. }
      rewrite Y. reflexivity.
Qed.
Lemma pretty_typeseq_field t : jtype_ok t = true -> pretty_typeseq fmt (PStr (desc t)) = Ok [type_name t].
Proof.
  intro H. unfold pretty_typeseq. cbn [pct_s]. pose proof (typeseq_fields [t]) as X. cbn [forallb map concat] in X. rewrite app_nil_r in X. rewrite X by now rewrite H.
  cbn [rbind mapM]. rewrite pretty_desc. reflexivity.
Qed.
Lemma pretty_deref_nt l p i n s : pool_shows l p -> jnt_at l i = Some (n, sig_desc s) -> sig_ok s = true ->
  pretty_deref_const fmt repr p i =
  Ok (PStr (n ++ lit ":" ++ match s with SField t => type_name t | SMethod x ret => lit "(" ++ concat_with (lit ",") (map type_name x) ++ lit ")" ++ ret_name ret end)).
Proof.
  intros HS H HO. unfold jnt_at in H. destruct (jat l i) as [[]|] eqn:E; try discriminate. pose proof (jat_pos _ _ _ E) as Hi.
  destruct (jutf8_at l a) as [x|] eqn:Ea; [|discriminate]. destruct (jutf8_at l b) as [y|] eqn:Eb; [|discriminate]. injection H as -> ->.
  unfold pretty_deref_const. assert (HS' := HS). destruct HS' as [_ HP]. rewrite (HP i) by lia. rewrite E. cbn [rbind shown_const].
  change (12 =? CONST_Fieldref) with false. change ((12 =? CONST_Methodref) || (12 =? CONST_InterfaceMethodref)) with false. change (12 =? CONST_NameAndType) with true. cbn match.
  rewrite (jutf8_deref _ _ _ _ HS Ea), (jutf8_deref _ _ _ _ HS Eb). cbn [rbind pct_s]. destruct s as [t|x0 ret]; cbn [sig_desc sig_ok] in *.
  - rewrite pretty_typeseq_field by exact HO. cbn [rbind concat]. now rewrite app_nil_r.
  - apply andb_true_iff in HO as [HO O3]. apply andb_true_iff in HO as [O1 O2]. rewrite pretty_typeseq_method by assumption. cbn [rbind concat]. now rewrite app_nil_r, <- !app_assoc.
Qed.
Lemma pretty_deref_member c p i k cls nm s : pool_shows (jc_pool c) p -> jat (jc_pool c) i = Some k -> refers_to c k cls nm s ->
  pretty_deref_const fmt repr p i = Ok (PStr (member_symbol cls nm s)).
Proof.
  intros HS E (a & b & HK & HCl & HN & HO). pose proof (jat_pos _ _ _ E) as Hi. unfold pretty_deref_const. assert (HS' := HS). destruct HS' as [_ HP].
  rewrite (HP i) by lia. rewrite E. cbn [rbind]. destruct s as [t|x ret].
  - subst k. cbn [shown_const]. change (9 =? CONST_Fieldref) with true. cbn match. rewrite (jclass_deref _ _ _ _ HS HCl). cbn [rbind pretty_class_v].
    rewrite (jnt_deref _ _ _ _ _ HS HN). cbn [rbind unpair fst snd pretty_type_v sig_desc pct_s]. rewrite pretty_desc. cbn [rbind]. reflexivity.
  - cbn [sig_ok] in HO. apply andb_true_iff in HO as [HO O3]. apply andb_true_iff in HO as [O1 O2].
    pose proof (pretty_typeseq_method x ret O1 O2 O3) as X.
    assert (G : forall tg, (tg = 10 \/ tg = 11) ->
      (if tg =? CONST_Fieldref then
        vc <- deref_const p a ;; cn <- pretty_class_v vc ;; nt <- deref_const p b ;; nt <- unpair nt ;; ty <- pretty_type_v (snd nt) ;;
        Ok (PStr (cn ++ lit "." ++ pct_s fmt (fst nt) ++ lit ":" ++ ty))
      else if (tg =? CONST_Methodref) || (tg =? CONST_InterfaceMethodref) then
        vc <- deref_const p a ;; cn <- pretty_class_v vc ;; nt <- deref_const p b ;; nt <- unpair nt ;; ts <- pretty_typeseq fmt (snd nt) ;;
        match ts with [args; ret] => Ok (PStr (cn ++ lit "." ++ pct_s fmt (fst nt) ++ args ++ lit ":" ++ ret)) | _ => Err ValueError end
      else Err UnknownConstantPoolTag) = Ok (PStr (member_symbol cls nm (SMethod x ret)))).
    { intros tg [->| ->]; (change (10 =? CONST_Fieldref) with false || change (11 =? CONST_Fieldref) with false);
      (change ((10 =? CONST_Methodref) || (10 =? CONST_InterfaceMethodref)) with true || change ((11 =? CONST_Methodref) || (11 =? CONST_InterfaceMethodref)) with true);
      cbn match; rewrite (jclass_deref _ _ _ _ HS HCl); cbn [rbind pretty_class_v]; rewrite (jnt_deref _ _ _ _ _ HS HN); cbn [rbind unpair fst snd sig_desc]; rewrite X; cbn [rbind pct_s];
      unfold member_symbol, sig_name; repeat rewrite <- app_assoc; reflexivity. }
    destruct HK as [->| ->]; cbn [shown_const]; [exact (G 10 (or_introl eq_refl))|exact (G 11 (or_intror eq_refl))].
Qed.

(** ** What a class requires *)
Lemma class_name_not_array n t : class_name n = true -> n <> desc (TArr t).
Proof. intros H ->. cbn in H. discriminate. Qed.
Lemma dotted_nonempty n : class_name n = true -> dotted n <> [].
Proof. destruct n; [discriminate|]. intros _ H. discriminate. Qed.

(** The symbols found: as [mentioned], but of arrays only one-dimensional ones *)
Inductive found_symbol (c : jclassfile) : str -> Prop :=
| fs_class i n : jclass_at (jc_pool c) i = Some n -> class_name n = true -> found_symbol c (dotted n)
| fs_array i n : jclass_at (jc_pool c) i = Some (desc (TArr (TObj n))) -> class_name n = true -> found_symbol c (dotted n)
| fs_member k cls nm s : In k (jc_pool c) -> refers_to c k cls nm s -> class_name cls = true -> found_symbol c (member_symbol cls nm s).

Lemma found_mentioned {deep} c s : found_symbol c s -> mentioned c deep s.
Proof.
  destruct 1 as [i n H1 H2|i n H1 H2|k cls nm s H1 H2 H3]; [now apply mn_class with i|apply (mn_array c deep i (TObj n) n); auto|now apply mn_member with k].
Qed.
Lemma mentioned_found {deep} c s : flat_arrays deep c -> mentioned c deep s -> found_symbol c s.
Proof.
  intros F. destruct 1 as [i n H1 H2|i t n H1 H2 H3 H4|k cls nm s H1 H2 H3]; [now apply fs_class with i| |now apply fs_member with k].
  destruct t as [q|m|t]; [discriminate| |exfalso; destruct H4 as [H4|H4]; [exact (F H4 i t n H1 H3)|discriminate H4]]. cbn [elem] in H3. injection H3 as <-. now apply fs_array with i.
Qed.

Lemma jtag_api j : is_api_tag (jtag j) = true ->
  (exists a, j = JClass a) \/ (exists a b, j = JFieldref a b) \/ exists a b, (j = JMethodref a b \/ j = JInterfaceMethodref a b).
Proof. destruct j; try discriminate; eauto 8. Qed.

Lemma member_found c p i k cls nm s : api_wf c -> pool_shows (jc_pool c) p -> jat (jc_pool c) i = Some k -> refers_to c k cls nm s ->
  exists o, strip_array (member_symbol cls nm s) = Ok o /\ (forall x, o = Some x -> found_symbol c x) /\ (class_name cls = true -> o = Some (member_symbol cls nm s)).
Proof.
  intros W HS E HR. destruct HR as (a & b & HK & HCl & HN & HO).
  assert (HR : refers_to c k cls nm s) by (exists a, b; auto). assert (Hin : In k (jc_pool c)) by exact (jat_from_in _ _ _ _ E).
  destruct (aw_classes c W a cls HCl) as [Hc|(t & -> & Ht)].
  - exists (Some (member_symbol cls nm s)). split; [now apply strip_array_plain|]. split; [|reflexivity]. intros x [= <-]. now apply fs_member with k.
  - eexists. split; [unfold member_symbol; rewrite dotted_desc; apply strip_array_arr; [exact Ht|right; eexists; reflexivity]|]. split.
    + intros x Hx. destruct t as [q|m|t]; try discriminate. injection Hx as <-. now apply fs_array with a.
    + intro X. exfalso. now apply (class_name_not_array _ t X).
Qed.

Lemma api_const c p i j : api_wf c -> pool_shows (jc_pool c) p -> jat (jc_pool c) i = Some j -> is_api_tag (jtag j) = true ->
  exists v o, pretty_deref_const fmt repr p i = Ok v /\ strip_array (pct_s fmt v) = Ok o /\ (forall x, o = Some x -> found_symbol c x).
Proof.
  intros W HS E HA. pose proof (jat_from_in _ _ _ _ E) as Hin. destruct (jtag_api j HA) as [(a & ->)|[(a & b & ->)|(a & b & HK)]].
  - pose proof (aw_pool c W) as HW. assert (HC : exists n, jclass_at (jc_pool c) i = Some n).
    { unfold jpool_wf in HW. apply andb_true_iff in HW as [_ HW]. rewrite forallb_forall in HW. specialize (HW _ Hin). unfold jclass_at. rewrite E. cbn [jresolve] in HW.
      destruct (jutf8_at (jc_pool c) a) as [n|]; [now exists n|discriminate]. }
    destruct HC as [n Hn]. exists (PStr (dotted n)). rewrite (pretty_deref_class _ _ _ _ HS Hn). cbn [pct_s].
    destruct (aw_classes c W i n Hn) as [Hc|(t & -> & Ht)].
    + exists (Some (dotted n)). split; [reflexivity|]. split; [rewrite <- (app_nil_r (dotted n)) at 1; rewrite strip_array_plain by exact Hc; now rewrite app_nil_r|].
      intros x [= <-]. now apply fs_class with i.
    + eexists. split; [reflexivity|]. rewrite dotted_desc, <- (app_nil_r (desc _)). split; [apply strip_array_arr; [exact Ht|now left]|].
      intros x Hx. destruct t as [q|m|t]; try discriminate. injection Hx as <-. now apply fs_array with i.
  - destruct (aw_fieldrefs c W a b Hin) as (cls & n & t & HR). destruct (member_found c p i _ _ _ _ W HS E HR) as (o & E1 & E2 & _).
    exists (PStr (member_symbol cls n (SField t))), o. rewrite (pretty_deref_member c p i _ _ _ _ HS E HR). cbn [pct_s]. auto.
  - destruct (aw_methodrefs c W j a b HK Hin) as (cls & n & x & r & HR). destruct (member_found c p i _ _ _ _ W HS E HR) as (o & E1 & E2 & _).
    exists (PStr (member_symbol cls n (SMethod x r))), o. rewrite (pretty_deref_member c p i _ _ _ _ HS E HR). cbn [pct_s]. auto.
Qed.

Lemma shown_at l p i k t : pool_shows l p -> 0 <= i -> get_const p i = Ok k -> ctag k = Some t -> exists j, jat l i = Some j /\ k = shown_const j /\ t = jtag j.
Proof.
  intros [_ HP] Hi HG HT. rewrite (HP i Hi) in HG. destruct (jat l i) as [j|].
  - injection HG as <-. exists j. split; [reflexivity|]. split; [reflexivity|]. rewrite ctag_shown in HT. congruence.
  - destruct (i <? 1 + jslots l); [|discriminate]. injection HG as <-. discriminate.
Qed.

Lemma requires_all c r : api_wf c -> class_shows c r ->
  exists l, get_requires_all fmt repr order r = Ok l /\ forall s, In s l <-> found_symbol c s /\ ~ provided c true s.
Proof.
  intros W HC. assert (HC' := HC). destruct HC' as (_ & HS & _). unfold get_requires_all.
  destruct (class_provides c r [] true W HC) as (pr & EP & _ & HPr). rewrite EP. cbn [rbind].
  assert (HPr' : forall s, In s pr <-> provided c true s). { intro s. rewrite HPr. split; [tauto|]. intro H. split; [exact H|]. intros (p & [] & _). }
  assert (HX : exists x0, c_pool r = x0 :: tl (c_pool r)).
  { destruct HS as [HL _]. pose proof (jslots_nonneg (jc_pool c)). destruct (c_pool r) as [|x q]; [cbn [length] in HL; lia|now exists x]. }
  destruct HX as [x0 HX].
  destruct (requires_loop_spec (c_pool r) pr (tl (c_pool r)) [x0] HX ltac:(discriminate)) as (l & El & HI).
  { intros i k t Hi HG HT. cbn [length] in Hi. destruct (shown_at _ _ i k t HS ltac:(lia) HG HT) as (j & Ej & _ & ->). split.
    - destruct (deref_wf _ _ i j (aw_pool c W) HS Ej) as (v & _ & E). now exists v.
    - intro HA. destruct (api_const c (c_pool r) i j W HS Ej HA) as (v & o & E1 & E2 & _). eauto. }
  cbn [length] in El, HI. change (Z.of_nat 1) with 1 in El, HI. exists l. split; [exact El|]. intro s. rewrite HI, HPr'. split.
  - intros ((i & k & t & v & Hi & HG & HT & HA & E1 & E2) & _ & H2). split; [|exact H2]. destruct (shown_at _ _ i k t HS ltac:(lia) HG HT) as (j & Ej & _ & ->).
    destruct (api_const c (c_pool r) i j W HS Ej HA) as (v' & o & F1 & F2 & F3). rewrite E1 in F1. injection F1 as <-. rewrite E2 in F2. injection F2 as <-. now apply F3.
  - intros (HF & HN). split; [|split; [|exact HN]].
    + assert (GC : forall i j, jat (jc_pool c) i = Some j -> 1 <= i /\ get_const (c_pool r) i = Ok (shown_const j)).
      { intros i j Ej. pose proof (jat_pos _ _ _ Ej). split; [lia|]. destruct HS as [_ HP]. rewrite (HP i) by lia. now rewrite Ej. }
      destruct HF as [i n H1 H2|i n H1 H2|k cls nm s H1 H2 H3].
      * assert (H1' := H1). unfold jclass_at in H1'. destruct (jat (jc_pool c) i) as [[]|] eqn:E; try discriminate. destruct (GC _ _ E) as [G1 G2].
        exists i, (shown_const (JClass i0)), 7, (PStr (dotted n)). repeat (split; [first [assumption|reflexivity]|]). split; [now apply pretty_deref_class with (jc_pool c)|].
        cbn [pct_s]. rewrite <- (app_nil_r (dotted n)) at 1. rewrite strip_array_plain by exact H2. now rewrite app_nil_r.
      * assert (H1' := H1). unfold jclass_at in H1'. destruct (jat (jc_pool c) i) as [[]|] eqn:E; try discriminate. destruct (GC _ _ E) as [G1 G2].
        exists i, (shown_const (JClass i0)), 7, (PStr (dotted (desc (TArr (TObj n))))). repeat (split; [first [assumption|reflexivity]|]). split; [now apply pretty_deref_class with (jc_pool c)|].
        cbn [pct_s]. rewrite dotted_desc, <- (app_nil_r (desc _)). apply strip_array_arr; [exact H2|now left].
      * destruct (jat_ex _ _ H1) as [i Ei]. destruct (GC _ _ Ei) as [G1 G2]. exists i, (shown_const k), (jtag k), (PStr (member_symbol cls nm s)).
        split; [exact G1|]. split; [exact G2|]. split; [apply ctag_shown|]. split.
        { destruct H2 as (a & b & HK & _). destruct s; [subst k; reflexivity|]. destruct HK as [->| ->]; reflexivity. }
        split; [exact (pretty_deref_member c _ _ _ _ _ _ HS Ei H2)|]. cbn [pct_s]. now apply strip_array_plain.
    + destruct HF as [i n H1 H2|i n H1 H2|k cls nm s H1 H2 H3]; try (now apply dotted_nonempty). unfold member_symbol. pose proof (dotted_nonempty cls H3). destruct (dotted cls); [congruence|discriminate].
Qed.

Lemma class_requires_found c r ignored : api_wf c -> class_shows c r ->
  exists l, get_requires fmt repr order r ignored = Ok l /\ NoDup l /\
    forall s, In s l <-> (found_symbol c s /\ ~ provided c true s) /\ ~ ignored_by ignored s.
Proof.
  intros W HC. destruct (requires_all c r W HC) as (l & E & HI). unfold get_requires. rewrite E. cbn [rbind]. eexists. split; [reflexivity|].
  split; [apply NoDup_filter, set_list_NoDup, order_perm|]. intro s. rewrite filter_In, (set_list_In order order_perm), HI, not_ignored_iff. reflexivity.
Qed.
Lemma class_requires {deep} c r ignored : api_wf c -> flat_arrays deep c -> class_shows c r ->
  exists l, get_requires fmt repr order r ignored = Ok l /\ NoDup l /\
    forall s, In s l <-> required deep c s /\ ~ ignored_by ignored s.
Proof.
  intros W F HC. destruct (class_requires_found c r ignored W HC) as (l & E & ND & HI). exists l. split; [exact E|]. split; [exact ND|]. intro s. rewrite HI.
  unfold required. split; intros ((H1 & H2) & H3); (split; [split|]); auto; [now apply found_mentioned|apply (@mentioned_found deep); assumption].
Qed.
End Class.

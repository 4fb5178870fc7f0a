(** The JSON document of two writable classes can be written. *)
From Verif Require Import Base Pack_Model ConstPool_Model ConstPool_Spec ConstPool_Deref ClassFile_Model ClassFile_Spec Descr_Model Descr_Spec Descr_Proofs Opcodes_Model Opcodes_Spec Opcodes_Proofs Anno_Model
  Change_Model Change_Spec Change_Proofs Change_Report Change_Tame Classdiff_Model Classdiff_Spec Classdiff_Members Classdiff_Code Classdiff_Class Classdiff_Merge Classdiff_Passes
  Info_Model Info_Spec Info_Class Info_More Print_Spec Print_Decl Print_List Html_Spec Html_Page Html_Values Html_Class Text_Spec Text_Proofs Text_Class Doc_Spec Doc_Proofs Doc_Code Doc_Class Written_Spec.
From Verif Require Jardiff_Report.
From Coq Require Import Permutation.

(** ** Trees of which everything can be written *)
Definition written_cls (k : cls) : Prop := articulate k /\ (exists x, k_old k = Ok x) /\ exists y, k_new k = Ok y.
Lemma everywhere_storable o c t : everywhere written_cls c -> unfolds c t -> storable o t.
Proof.
  intros H1 H2 ch Hc _. destruct (everywhere_tips _ _ _ H1 H2 ch Hc) as (A & B & C). split; [now apply articulate_speaks|]. split; assumption.
Qed.
Lemma json_written o c0 c : everywhere written_cls c0 -> check c0 = Ok c -> Jardiff_Report.ready c0 -> exists j, json_of o c = Ok j.
Proof.
  intros H HC HR. destruct (Jardiff_Report.ready_unfolds _ HR _ HC) as [t Ht]. destruct (json_spec o t c Ht) as (j & Hj & _); [|eauto]. refine (everywhere_storable o c t _ Ht). exact (everywhere_check _ _ H _ HC).
Qed.
Definition is_ok {A} (m : res A) : Prop := exists x, m = Ok x.
(** The comparison can be made and everything in it be written *)
Definition fine (c : change) : Prop := is_ok (check c) /\ everywhere written_cls c.
Lemma leaf_fine n lb own x lp rp : is_ok x -> is_ok lp -> is_ok rp -> fine (leaf n lb own x lp rp).
Proof.
  intros [[b d] ->] [u ->] [v ->]. split; [eexists; reflexivity|]. unfold leaf. constructor; [|constructor|constructor]. split; [intros f b' H; discriminate H|]. split; eexists; reflexivity.
Qed.
Lemma generic_ok {A} label (ld rd : res A) eqf lp rp : is_ok ld -> is_ok rd -> (forall x y, ld = Ok x -> rd = Ok y -> is_ok (eqf x y)) -> is_ok lp -> is_ok rp -> is_ok (generic_check label ld rd eqf lp rp).
Proof. intros [x Hx] [y Hy] HE [u ->] [v ->]. unfold generic_check. destruct (HE x y Hx Hy) as [e E]. rewrite Hx, Hy. cbn [rbind]. rewrite E. cbn [rbind]. destruct e; eexists; reflexivity. Qed.
Lemma leaf_text_fine {A} n lb own (ld rd : res A) eqf lt rt lp rp : is_ok ld -> is_ok rd -> (forall x y, ld = Ok x -> rd = Ok y -> is_ok (eqf x y)) -> is_ok lt -> is_ok rt -> is_ok lp -> is_ok rp ->
  fine (leaf_text n lb own ld rd eqf lt rt lp rp).
Proof. intros H1 H2 H3 H4 H5 H6 H7. unfold leaf_text. apply leaf_fine; [apply generic_ok| |]; assumption. Qed.
Lemma super_fine n lb tx kids : match tx with Some g => forall b, is_ok (g b) | None => True end -> Forall fine kids -> fine (super n lb tx None kids).
Proof.
  intros HG H. split.
  - assert (S : exists ks, sequence (map check kids) = Ok ks) by (clear HG; induction H as [|c l [[c' E] _] _ [ks IH]]; [eexists; reflexivity|cbn [map sequence]; rewrite E, IH; eexists; reflexivity]).
    destruct S as [ks S]. exists (Node (k_of (super n lb tx None kids)) (existsb is_change ks) None ks kids). unfold super. cbn [check]. unfold pick. cbn. rewrite S. reflexivity.
  - apply everywhere_super; [|revert H; apply Forall_impl; intros c [_ X]; exact X]. split; [|split; eexists; reflexivity]. intros f b E. cbn in E. subst tx. apply HG.
Qed.
Lemma pure_ok {A} (f : A -> A -> bool) x y : is_ok (pure2 f x y).
Proof. eexists. reflexivity. Qed.
Lemma tuple_ok {A} (f : A -> A -> res bool) l : forall r, (forall x y, In x l -> In y r -> is_ok (f x y)) -> is_ok (tuple_eq f l r).
Proof.
  induction l as [|x l IH]; intros [|y r] H; try (eexists; reflexivity). cbn [tuple_eq]. destruct (H x y (or_introl eq_refl) (or_introl eq_refl)) as [e ->]. cbn [rbind]. destruct e; [|eexists; reflexivity]. apply IH. intros a b Ha Hb. apply H; now right.
Qed.

Section Written.
Variable fmt : pyval -> str.
Variable reprs : str -> str.
Variable ffmt : pyval -> str.

(** ** Constants and code *)
Lemma const_written repr l p i : pool_shows l p -> writable_const l i -> is_ok (pretty_deref_const fmt repr p i).
Proof.
  intros HS H. destruct (pretty_consts fmt repr l p HS) as (P1 & P2 & P3 & P4 & P5).
  assert (PM : forall k cls nm s, jat l i = Some k -> refers_to (mkjclass 0 0 l 0 0 0 [] [] [] []) k cls nm s -> is_ok (pretty_deref_const fmt repr p i)).
  { intros k cls nm s E R. eexists. exact (pretty_deref_member fmt repr (mkjclass 0 0 l 0 0 0 [] [] [] []) p i k cls nm s HS E R). }
  destruct H as [n H|j s H1 H2|z H|z H|b H|b H|a b cls n t H1 H2 H3 H4|k a b cls n args ret H1 H2 H3 H4 H5|a b [n t] H1 H2].
  - eexists. exact (P1 _ _ H).
  - eexists. exact (P4 _ _ _ H1 H2).
  - eexists. exact (P5 _ _ (or_introl H)).
  - eexists. exact (P5 _ _ (or_intror H)).
  - unfold pretty_deref_const. rewrite (at_const l p HS _ _ H). eexists. reflexivity.
  - unfold pretty_deref_const. rewrite (at_const l p HS _ _ H). eexists. reflexivity.
  - apply (PM _ cls n (SField t) H1). exists a, b. auto.
  - apply (PM _ cls n (SMethod args ret) H1). exists a, b. auto.
  - unfold pretty_deref_const. rewrite (at_const l p HS _ _ H1). cbn [rbind shown_const]. change (18 =? CONST_Fieldref) with false. change ((18 =? CONST_Methodref) || (18 =? CONST_InterfaceMethodref)) with false.
    change (18 =? CONST_NameAndType) with false. change (18 =? CONST_ModuleId) with false. change (18 =? CONST_InvokeDynamic) with true. cbn match. rewrite (jnt_deref _ _ _ _ _ HS H2). eexists. reflexivity.
Qed.
Lemma opname_written i : listed i -> is_ok (get_opname_by_code (i_code i)).
Proof.
  intros [[b Hb] _]. destruct (code_defined (i_code i)) as [H1 H2].
  destruct (Z_le_dec 0 (i_code i)), (Z_lt_dec (i_code i) 202); [destruct H1 as (n & f & b' & A & _); [lia|]; now exists n|exfalso; destruct H2 as (_ & _ & E); [lia|]; congruence..].
Qed.
Lemma mapM_written {A B} (f : A -> res B) l : Forall (fun a => is_ok (f a)) l -> is_ok (mapM f l).
Proof. induction 1 as [|a l [b Hb] H [bs Hbs]]; [eexists; reflexivity|]. cbn [mapM]. rewrite Hb, Hbs. eexists. reflexivity. Qed.
Lemma body_written l k : match k with Some k => writable_code l (k_code k) | None => True end -> is_ok (body_obj k).
Proof.
  destruct k as [k|]; [|eexists; reflexivity]. intros (ds & HD & _). unfold body_obj. rewrite (proj2 (disassemble_all_iff _ _) HD). cbn [rbind].
  assert (LL : Forall listed ds) by (eapply dis_loop_listed; exact HD).
  match goal with |- is_ok (rbind ?m _) => assert (X : is_ok m); [|destruct X as [rows ->]; eexists; reflexivity] end.
  apply mapM_written. revert LL. apply Forall_impl. intros i HI. destruct (opname_written i HI) as [n ->]. eexists. reflexivity.
Qed.
Lemma constants_written os l p k : pool_shows l p -> match k with Some k => writable_code l (k_code k) | None => True end -> is_ok (constants_obj fmt reprs os p k).
Proof.
  intros HS HK. unfold constants_obj. destruct os as [[[|x xs]|]|]; [eexists; reflexivity| |eexists; reflexivity..]. destruct k as [k|]; [|eexists; reflexivity].
  destruct HK as (ds & HD & HI). rewrite (proj2 (disassemble_all_iff _ _) HD). cbn [rbind]. assert (LL : Forall listed ds) by (eapply dis_loop_listed; exact HD).
  match goal with |- is_ok (rbind ?m _) => assert (X : is_ok m); [|destruct X as [rows ->]; eexists; reflexivity] end.
  apply mapM_written. apply Forall_forall. intros i Hin. rewrite Forall_forall in LL. specialize (LL i Hin). pose proof LL as [L1 L2]. destruct (existsb _ _); [|eexists; reflexivity].
  pose proof (has_const_tool _ L1) as HT. rewrite HT in L2 |- *. cbn [rbind]. destruct (tool_resolved (i_code i)) eqn:ET; [|eexists; reflexivity]. destruct (opname_written i LL) as [n ->]. cbn [rbind]. destruct (L2 eq_refl) as (a & rest & EA). rewrite EA.
  destruct (const_written (fun v => repr_o reprs (obj fmt v)) l p a HS (HI i a rest Hin ET EA)) as [v ->]. eexists. reflexivity.
Qed.
Lemma pool_written l p : pool_shows l p -> (forall a b, ~ In (JDynamic a b) l) -> is_ok (pool_obj reprs ffmt p).
Proof.
  intros HS HN. unfold pool_obj, pretty_constants. rewrite (pool_list l p HS).
  assert (X : is_ok (mapM (pretty_entry reprs ffmt) (concat (map expand l)))); [|destruct X as [ts ->]; eexists; reflexivity]. apply mapM_written. apply Forall_concat. apply Forall_map. apply Forall_forall. intros k Hk.
  unfold expand. apply Forall_cons; [|destruct (jwidth k =? 2); constructor; [eexists; reflexivity|constructor]]. destruct (pretty_entry_ok reprs ffmt k) as (v & E & _); [|eexists; exact E]. destruct k; try reflexivity. destruct (HN _ _ Hk).
Qed.
Lemma const_derefs l p i : pool_shows l p -> writable_const l i -> is_ok (deref_const p i).
Proof.
  intros HS H. assert (PO : forall k, jat l i = Some k -> i <> 0 /\ get_const p i = Ok (shown_const k)) by (intros k E; split; [pose proof (jat_pos _ _ _ E); lia|exact (at_const l p HS _ _ E)]).
  assert (PM : forall k a b cls nt, jat l i = Some k -> (exists t, shown_const k = KRef2 t a b /\ t <> 17 /\ t <> 18) -> jclass_at l a = Some cls -> jnt_at l b = Some nt -> is_ok (deref_const p i)).
  { intros k a b cls [x y] E (t & ES & T1 & T2) H1 H2. destruct (PO _ E) as [N G]. rewrite ES in G. eexists. apply deref_const_iff. refine (d_ref2 p i t a b _ _ N G T1 T2 _ _); apply deref_const_iff; [exact (jclass_deref _ _ _ _ HS H1)|exact (jnt_deref _ _ _ _ _ HS H2)]. }
  destruct H as [n H|j s H1 H2|z H|z H|b H|b H|a b cls n t H1 H2 H3 H4|k a b cls n args ret H1 H2 H3 H4 H5|a b [n t] H1 H2].
  - eexists. exact (jclass_deref _ _ _ _ HS H).
  - destruct (PO _ H1) as [N G]. eexists. apply deref_const_iff. refine (d_ref p i _ j _ N G _). apply deref_const_iff. exact (jutf8_deref _ _ _ _ HS H2).
  - destruct (PO _ H) as [N G]. eexists. apply deref_const_iff. exact (d_int p i z N G).
  - destruct (PO _ H) as [N G]. eexists. apply deref_const_iff. exact (d_long p i z N G).
  - destruct (PO _ H) as [N G]. eexists. apply deref_const_iff. exact (d_float p i b N G).
  - destruct (PO _ H) as [N G]. eexists. apply deref_const_iff. exact (d_double p i b N G).
  - refine (PM _ a b _ _ H1 _ H2 H3). eexists. split; [reflexivity|]. split; discriminate.
  - refine (PM _ a b _ _ H1 _ H3 H4). destruct H2 as [-> | ->]; (eexists; split; [reflexivity|]; split; discriminate).
  - destruct (PO _ H1) as [N G]. eexists. apply deref_const_iff. refine (d_dyn p i 18 a b _ N G (or_intror eq_refl) _). apply deref_const_iff. exact (jnt_deref _ _ _ _ _ HS H2).
Qed.
Lemma loop_ok lp rp l : forall r, Forall listed l -> Forall listed r ->
  (forall i a rest, In i l -> tool_resolved (i_code i) = true -> i_args i = AInts (a :: rest) -> is_ok (deref_const lp a)) ->
  (forall i a rest, In i r -> tool_resolved (i_code i) = true -> i_args i = AInts (a :: rest) -> is_ok (deref_const rp a)) -> is_ok (const_loop lp rp l r).
Proof.
  induction l as [|a l IH]; intros [|b r] Hl Hr DL DR; try (eexists; reflexivity). inversion Hl as [|? ? Ha Hl']; subst. inversion Hr as [|? ? Hb Hr']; subst. cbn [const_loop].
  destruct (negb _) eqn:EN; [eexists; reflexivity|]. apply negb_false_iff, andb_prop in EN as [_ EC]. apply Z.eqb_eq in EC.
  assert (X : is_ok (args_eq lp rp (i_code a) (i_args a) (i_args b))).
  { destruct Ha as [La1 La2], Hb as [Lb1 Lb2]. rewrite <- EC in Lb1, Lb2. unfold args_eq. pose proof (has_const_tool _ La1) as E. rewrite E in La2, Lb2 |- *. cbn [rbind]. destruct (tool_resolved (i_code a)) eqn:ET; [|eexists; reflexivity].
    destruct (La2 eq_refl) as (i & u & Ea). destruct (Lb2 eq_refl) as (j & v & Eb). rewrite Ea, Eb. unfold const_eq.
    destruct (DL a i u (or_introl eq_refl) ET Ea) as [x ->]. rewrite EC in ET. destruct (DR b j v (or_introl eq_refl) ET Eb) as [y ->]. eexists. reflexivity. }
  destruct X as [e ->]. cbn [rbind]. destruct (IH r Hl' Hr') as [o ->]; [intros i x u Hi; apply (DL i x u); now right|intros i x u Hi; apply (DR i x u); now right|]. eexists. reflexivity.
Qed.
Lemma offsets_ok lp rp ll lr k h : pool_shows ll lp -> pool_shows lr rp -> writable_code ll (k_code k) -> writable_code lr (k_code h) -> is_ok (code_offsets lp rp (Some k) (Some h)).
Proof.
  intros SL SR (dl & HL & WL) (dr & HR & WR). unfold code_offsets. destruct (negb _); [eexists; reflexivity|]. rewrite (proj2 (disassemble_all_iff _ _) HL), (proj2 (disassemble_all_iff _ _) HR). cbn [rbind].
  apply loop_ok; [eapply dis_loop_listed; exact HL|eapply dis_loop_listed; exact HR| |]; intros i a rest Hi ET EA; [exact (const_derefs ll lp a SL (WL i a rest Hi ET EA))|exact (const_derefs lr rp a SR (WR i a rest Hi ET EA))].
Qed.
Lemma catch_ok p e s : catch_shown p e s -> is_ok (get_catch_type p e).
Proof.
  intros [E|c n E D]; unfold get_catch_type; [rewrite E; eexists; reflexivity|]. destruct (ex_type_ref e =? 0); [eexists; reflexivity|]. rewrite D. eexists. reflexivity.
Qed.
Lemma handlers_ok lp rp k h ts us : Forall2 (catch_shown lp) k ts -> Forall2 (catch_shown rp) h us -> is_ok (tuple_eq (exinfo_eq lp rp) k h).
Proof.
  assert (IN : forall p l ls e, Forall2 (catch_shown p) l ls -> In e l -> is_ok (get_catch_type p e)) by (intros p l ls e H; induction H as [|a s l ls H _ IH]; intros []; [subst; exact (catch_ok _ _ _ H)|auto]).
  intros H1 H2. apply tuple_ok. intros x y Hx Hy. unfold exinfo_eq. destruct (IN _ _ _ _ H1 Hx) as [u ->], (IN _ _ _ _ H2 Hy) as [v ->]. eexists. reflexivity.
Qed.
Lemma pct_ok m : is_ok m -> is_ok (pct reprs m).
Proof. intros [x ->]. eexists. reflexivity. Qed.
Lemma leaf_of_fine {A} n lb own (ld rd : res A) eqf lp rp : is_ok ld -> is_ok rd -> (forall x y, ld = Ok x -> rd = Ok y -> is_ok (eqf x y)) -> is_ok lp -> is_ok rp -> fine (leaf_of reprs n lb own ld rd eqf lp rp).
Proof. intros H1 H2 H3 H4 H5. unfold leaf_of. apply leaf_text_fine; try assumption; now apply pct_ok. Qed.
Lemma code_fine lp rp K H ll lr : side_is lp K -> side_is rp H -> pool_shows ll lp -> pool_shows lr rp ->
  match K with Some K => writable_code ll (k_code (cd_code K)) | None => True end -> match H with Some H => writable_code lr (k_code (cd_code H)) | None => True end ->
  fine (method_code fmt reprs lp rp (option_map cd_code K) (option_map cd_code H)).
Proof.
  intros IK IH SL SR WK WH.
  assert (WK' : match option_map cd_code K with Some k => writable_code ll (k_code k) | None => True end) by now destruct K.
  assert (WH' : match option_map cd_code H with Some k => writable_code lr (k_code k) | None => True end) by now destruct H.
  assert (HP : Forall fine (code_parts fmt reprs lp rp (option_map cd_code K) (option_map cd_code H))).
  { unfold code_parts. repeat apply Forall_cons; [..|apply Forall_nil].
    - rewrite (side_lines _ _ IK), (side_lines _ _ IH). apply leaf_of_fine; try (eexists; reflexivity). intros x y _ _. apply tuple_ok. intros. apply pure_ok.
    - rewrite (side_relative _ _ IK), (side_relative _ _ IH). apply leaf_of_fine; try (eexists; reflexivity). intros x y _ _. apply tuple_ok. intros. apply pure_ok.
    - rewrite !side_size. apply leaf_of_fine; eexists; reflexivity.
    - rewrite !side_size. apply leaf_of_fine; eexists; reflexivity.
    - rewrite (side_handlers reprs _ _ IK), (side_handlers reprs _ _ IH). apply leaf_of_fine; try (eexists; reflexivity); [destruct K; eexists; reflexivity|destruct H; eexists; reflexivity|].
      intros x y Hx Hy. destruct K as [K|], H as [H|]; cbn in Hx, Hy; injection Hx as <-; injection Hy as <-; try (eexists; reflexivity).
      + exact (handlers_ok _ _ _ _ _ _ (ci_catch _ _ IK) (ci_catch _ _ IH)).
      + destruct (k_exceptions (cd_code K)); eexists; reflexivity.
      + destruct (k_exceptions (cd_code H)); eexists; reflexivity.
    - apply leaf_fine; [|exact (constants_written _ ll lp _ SL WK')|exact (constants_written _ lr rp _ SR WH')]. unfold code_constants_check.
      assert (X : is_ok (code_offsets lp rp (option_map cd_code K) (option_map cd_code H))) by (destruct K as [K|], H as [H|]; [exact (offsets_ok lp rp ll lr _ _ SL SR WK WH)|eexists; reflexivity..]). destruct X as [x ->]. eexists. reflexivity.
    - apply leaf_fine; [|exact (body_written ll _ WK')|exact (body_written lr _ WH')]. destruct K as [K|], H as [H|]; try (eexists; reflexivity). cbn [option_map]. unfold code_body_check.
      destruct (negb _); [eexists; reflexivity|]. destruct WK as (dl & HL & _), WH as (dr & HR & _). rewrite (proj2 (disassemble_all_iff _ _) HL), (proj2 (disassemble_all_iff _ _) HR). eexists. reflexivity. }
  split.
  - unfold method_code. destruct K as [K|], H as [H|]; cbn [option_map] in *; try (eexists; reflexivity).
    destruct (super_fine "" "" None _ I HP) as [[c E] _]. unfold super in E. cbn [check k_check] in E |- *. unfold pick in E |- *. cbn [k_super k_incheck k_gate k_raises negb andb map] in E |- *. cbn [rbind] in E |- *.
    destruct (sequence (map check (code_parts fmt reprs lp rp (Some (cd_code K)) (Some (cd_code H))))) as [ks|]; [|discriminate E]. eexists. reflexivity.
  - assert (HE : Forall (everywhere written_cls) (code_parts fmt reprs lp rp (option_map cd_code K) (option_map cd_code H))) by (revert HP; apply Forall_impl; intros c [_ X]; exact X).
    unfold method_code. constructor; [split; [intros f b X; discriminate X|split; eexists; reflexivity]|constructor|]. destruct (option_map cd_code K), (option_map cd_code H); first [exact HE|constructor].
Qed.

(** ** Members and classes *)
Lemma annos_fine n lb attr lp rp la ra old new : annos_shown fmt lp la attr old -> annos_shown fmt rp ra attr new -> resolved_annos lp la attr -> resolved_annos rp ra attr -> fine (annos_leaf fmt reprs n lb attr lp rp la ra).
Proof.
  intros (l & L1 & L2) (r & R1 & R2) ML MR. specialize (ML l L1). specialize (MR r R1). rewrite Forall_forall in ML, MR. unfold annos_leaf. rewrite L1, R1. cbn [rbind]. rewrite L2, R2. apply leaf_of_fine; try (eexists; reflexivity).
  intros x y Ex Ey. injection Ex as <-. injection Ey as <-. apply tuple_ok. intros x y Hx Hy. destruct (ML x Hx) as [v Hv], (MR y Hy) as [w Hw]. destruct (Anno_Proofs.aval_eq_decides lp rp _ _ _ _ Hv Hw) as (b & E & _). exists b. exact E.
Qed.
Lemma sig_written p d s : get_signature p d = Ok s -> is_ok (obj_signature fmt p d).
Proof. intro H. unfold obj_signature. rewrite H. eexists. reflexivity. Qed.
Definition resolved_member (p : pool) (m : member) : Prop := resolved_annos p (m_attrs m) A_vis /\ resolved_annos p (m_attrs m) A_invis.
Ltac given := first [eexists; reflexivity | intros ? ? _ _; first [apply pure_ok | apply tuple_ok; intros; apply pure_ok] | eapply sig_written; eassumption].
Lemma field_fine lp rp a b F G : field_is fmt lp a F -> field_is fmt rp b G -> resolved_member lp a -> resolved_member rp b -> fine (field_change fmt reprs lp rp a b).
Proof.
  intros KF KG [VA IA] [VB IB]. pose proof KF as [K KC KN KX KV KI]. pose proof KG as [H HCo HN HX HV HI]. unfold field_change. cbv zeta.
  assert (TL : m_pretty_type fmt lp a = Ok (type_name (fd_type F))) by (unfold m_pretty_type, m_type, m_desc_str; rewrite (kf_desc _ _ _ _ _ _ K); cbn [rbind pct_s]; rewrite (proj2 (field_split _ (kf_ok _ _ _ _ _ _ K))); apply pretty_desc).
  assert (TR : m_pretty_type fmt rp b = Ok (type_name (fd_type G))) by (unfold m_pretty_type, m_type, m_desc_str; rewrite (kf_desc _ _ _ _ _ _ H); cbn [rbind pct_s]; rewrite (proj2 (field_split _ (kf_ok _ _ _ _ _ _ H))); apply pretty_desc).
  pose proof (kf_sig _ _ _ _ _ _ K) as SK. pose proof (kf_sig _ _ _ _ _ _ H) as SH.
  rewrite TL, TR, (kf_desc _ _ _ _ _ _ K), (kf_desc _ _ _ _ _ _ H), (kf_name _ _ _ _ _ _ K), (kf_name _ _ _ _ _ _ H), (kf_const _ _ _ _ _ _ K), (kf_const _ _ _ _ _ _ H).
  apply super_fine; [intros _; rewrite (field_descr fmt _ _ _ KF); eexists; reflexivity|].
  repeat apply Forall_cons; [..|apply Forall_nil]; try (eapply annos_fine; eassumption); first [apply leaf_of_fine|apply leaf_text_fine]; try given; eexists; eassumption.
Qed.
Lemma method_fine lp rp a b M N ll lr : method_is fmt lp a M -> method_is fmt rp b N -> pool_shows ll lp -> pool_shows lr rp ->
  (forall k, get_code lp a = Ok (Some k) -> writable_code ll (k_code k)) -> (forall k, get_code rp b = Ok (Some k) -> writable_code lr (k_code k)) ->
  resolved_member lp a -> resolved_member rp b -> fine (method_change fmt reprs lp rp a b).
Proof.
  intros KM KN SL SR WL WR [VA IA] [VB IB]. unfold method_change. cbv zeta. rewrite (mi_code _ _ _ _ KM), (mi_code _ _ _ _ KN) in *. cbn [rbind].
  pose proof KM as [K KX KV KI KC KD]. pose proof KN as [H HX HV HI HCo HD].
  destruct (known_texts fmt _ _ _ _ _ _ _ K) as (K1 & K2 & K3 & K4 & K5 & _). destruct (known_texts fmt _ _ _ _ _ _ _ H) as (H1 & H2 & H3 & H4 & H5 & _).
  pose proof (km_method _ _ _ _ _ _ _ K) as MK. pose proof (km_method _ _ _ _ _ _ _ H) as MH.
  pose proof (km_sig _ _ _ _ _ _ _ K) as SK. pose proof (km_sig _ _ _ _ _ _ _ H) as SH. pose proof (km_ex _ _ _ _ _ _ _ K) as EK. pose proof (km_ex _ _ _ _ _ _ _ H) as EH.
  rewrite K1, K2, K3, K4, K5, H1, H2, H3, H4, H5, (im_name _ _ _ _ _ MK), (im_name _ _ _ _ _ MH).
  apply super_fine; [intros _; rewrite (method_descr fmt _ _ _ KM); eexists; reflexivity|].
  repeat apply Forall_cons; [..|apply Forall_nil].
  11: { apply (code_fine lp rp (md_code M) (md_code N) ll lr KD HD SL SR); [destruct (md_code M) as [k|] eqn:EM|destruct (md_code N) as [k|] eqn:EM]; try exact I; [apply WL|apply WR]; first [rewrite EM|idtac]; reflexivity. }
  all: try (eapply annos_fine; eassumption); first [apply leaf_of_fine|apply leaf_text_fine]; try given; eexists; eassumption.
Qed.
Lemma iterate_fine {A} key (f : A -> change) types evs : Forall (fun e => fine (f e)) evs -> Forall fine (iterate_by_type key (map f evs) types).
Proof. intro H. destruct (iterate_spec key (map f evs) types) as [Q _]. apply (Permutation_Forall (Permutation_sym Q)). now rewrite Forall_map. Qed.
Theorem class_fine l r L R : class_is fmt l L -> class_is fmt r R -> writable l -> writable r -> resolved l -> resolved r -> fine (class_change fmt reprs ffmt l r).
Proof.
  intros HL HR (ll & SL & NL & WL) (lr & SR & NR & WR) DL DR. pose proof HL as [K VL IL FL ML FI MI]. pose proof HR as [H VR IR FR MR FI' MI'].
  assert (HA : forall n lb p m s, member_descriptor fmt p m = Ok s -> fine (member_added fmt n lb p m)).
  { intros n lb p m s E. split; [eexists; reflexivity|]. unfold member_added. constructor; [|constructor|constructor]. split; [|split; eexists; reflexivity]. intros f b X. injection X as <-. rewrite E. eexists. reflexivity. }
  assert (HD : forall n lb p m s, member_descriptor fmt p m = Ok s -> fine (member_removed fmt n lb p m)).
  { intros n lb p m s E. split; [eexists; reflexivity|]. unfold member_removed. constructor; [|constructor|constructor]. split; [|split; eexists; reflexivity]. intros f b X. injection X as <-. rewrite E. eexists. reflexivity. }
  destruct (pool_written ll _ SL NL) as [x Ex], (pool_written lr _ SR NR) as [y Ey].
  destruct (DL _ (or_introl eq_refl)) as [DL1 DL2], (DR _ (or_introl eq_refl)) as [DR1 DR2].
  assert (RL : forall m, In m (c_fields l ++ c_methods l) -> resolved_member (c_pool l) m) by (intros m Hm; apply DL; right; eauto).
  assert (RR : forall m, In m (c_fields r ++ c_methods r) -> resolved_member (c_pool r) m) by (intros m Hm; apply DR; right; eauto).
  unfold class_change. apply super_fine; [intros _; unfold pretty_this; rewrite (kc_this _ _ _ _ _ K); eexists; reflexivity|].
  apply Forall_cons; [|apply Forall_cons; [|apply Forall_cons; [|apply Forall_cons; [|apply Forall_cons; [|apply Forall_cons; [|constructor]]]]]].
  - pose proof (kc_sig _ _ _ _ _ K) as SK. pose proof (kc_sig _ _ _ _ _ H) as SH.
    unfold class_info, pretty_this, pretty_super, pretty_interfaces. rewrite (kc_this _ _ _ _ _ K), (kc_this _ _ _ _ _ H), (kc_super _ _ _ _ _ K), (kc_super _ _ _ _ _ H), (kc_ifs _ _ _ _ _ K), (kc_ifs _ _ _ _ _ H). cbn [rbind]. rewrite !mapM_class.
    apply super_fine; [exact I|]. repeat apply Forall_cons; [..|apply Forall_nil]; apply leaf_of_fine; try given; eexists; eassumption.
  - eapply annos_fine; eassumption.
  - eapply annos_fine; eassumption.
  - split.
    + unfold pool_change. rewrite Ex, Ey. cbn [check k_check]. destruct (generic_ok (lit "Constant pool") (Ok (c_pool l)) (Ok (c_pool r)) pool_eqb (pct reprs (Ok x)) (pct reprs (Ok y))) as [[b d] E]; try (eexists; reflexivity); [|rewrite E; eexists; reflexivity].
      intros u v _ _. unfold pool_eqb. apply tuple_ok. intros. apply pure_ok.
    + unfold pool_change. constructor; [|constructor|constructor]. split; [intros f b X; injection X as <-; eexists; reflexivity|]. cbn [k_old k_new]. rewrite Ex, Ey. split; eexists; reflexivity.
  - destruct FI as (ks & I1 & _), FI' as (ks' & I2 & _). unfold fields_change. cbv zeta. destruct (collect_members_ok fmt _ _ _ _ _ _ I1 I2) as [evs E]. rewrite E. apply super_fine; [exact I|]. apply iterate_fine. apply Forall_forall. intros ev Hev.
    destruct ev as [u|u|u v].
    + destruct (in_known _ _ _ FR (added_in _ _ _ _ _ _ _ E Hev)) as (G & HG). exact (HA _ _ _ _ _ (field_descr fmt _ _ _ HG)).
    + destruct (in_known _ _ _ FL (removed_in _ _ _ _ _ _ _ E Hev)) as (G & HG). exact (HD _ _ _ _ _ (field_descr fmt _ _ _ HG)).
    + destruct (changed_in _ _ _ _ _ _ E _ _ Hev) as [Hx Hy]. destruct (in_known _ _ _ FL Hx) as (F & HF), (in_known _ _ _ FR Hy) as (G & HG).
      exact (field_fine _ _ _ _ _ _ HF HG (RL u (in_or_app _ _ _ (or_introl Hx))) (RR v (in_or_app _ _ _ (or_introl Hy)))).
  - destruct MI as (ks & I1 & _), MI' as (ks' & I2 & _). unfold methods_change. cbv zeta. destruct (collect_members_ok fmt _ _ _ _ _ _ I1 I2) as [evs E]. rewrite E. apply super_fine; [exact I|]. apply iterate_fine. apply Forall_forall. intros ev Hev.
    destruct ev as [u|u|u v].
    + destruct (in_known _ _ _ MR (added_in _ _ _ _ _ _ _ E Hev)) as (G & HG). exact (HA _ _ _ _ _ (method_descr fmt _ _ _ HG)).
    + destruct (in_known _ _ _ ML (removed_in _ _ _ _ _ _ _ E Hev)) as (G & HG). exact (HD _ _ _ _ _ (method_descr fmt _ _ _ HG)).
    + destruct (changed_in _ _ _ _ _ _ E _ _ Hev) as [Hx Hy]. destruct (in_known _ _ _ ML Hx) as (F & HF), (in_known _ _ _ MR Hy) as (G & HG).
      exact (method_fine _ _ _ _ _ _ ll lr HF HG SL SR (fun k => WL u k Hx) (fun k => WR v k Hy) (RL u (in_or_app _ _ _ (or_intror Hx))) (RR v (in_or_app _ _ _ (or_intror Hy)))).
Qed.
End Written.

(** More on checking and ignoring trees of changes: completion, and when
    [is_ignored] cannot fail. *)
From Verif Require Import Base Pack_Model ConstPool_Model ConstPool_Spec ClassFile_Model Opcodes_Model Descr_Model Anno_Model
  Change_Model Change_Spec Change_Proofs Change_Report Classdiff_Model Classdiff_Spec Classdiff_Members Classdiff_Code Classdiff_Class Classdiff_Passes.
From Coq Require Import Permutation.

Definition completes (c : change) : Prop := exists c', check c = Ok c'.

Lemma completes_own k ch d cs im r : k_check k = CheckOwn r -> (completes (Node k ch d cs im) <-> exists x, r = Ok x).
Proof.
  intro Hk. unfold completes. cbn [check]. rewrite Hk. destruct r as [[b d']|].
  - cbn [rbind]. split; intros _; eexists; reflexivity.
  - cbn [rbind]. split; intros [x H]; discriminate.
Qed.
Lemma kids_complete im : Forall completes im <-> exists ks, Forall2 (fun a b => check a = Ok b) im ks.
Proof.
  split.
  - induction 1 as [|a l [b Hb] HF (ks & H)]; [exists []; constructor|]. exists (b :: ks). now constructor.
  - intros [ks H]. induction H; constructor; [eexists; eassumption|assumption].
Qed.
Lemma completes_kids k ch d im : k_check k = CheckParts -> k_super k = true -> (k_gate k = false \/ k_always k || ch = true) ->
  (completes (Node k ch d [] im) <-> k_raises k = None /\ Forall completes im).
Proof.
  intros Hk Hs Hg. rewrite kids_complete. unfold completes.
  assert (HP : collect_in (Node k ch d [] im) = match k_raises k with Some e => Err e | None => Ok im end).
  { cbn [collect_in pick]. rewrite Hs. cbn [negb]. rewrite andb_false_r. destruct Hg as [-> | ->]; [reflexivity|]. cbn [negb]. rewrite andb_false_r. reflexivity. }
  split.
  - intros (c' & H). apply (check_parts _ _ _ _ _ _ Hk) in H as (ks & ks' & H1 & H2 & ->). rewrite HP in H1.
    destruct (k_raises k); [discriminate|]. injection H1 as <-. split; [reflexivity|]. now exists ks'.
  - intros [Hr [ks' HK]]. exists (Node k (existsb is_change ks') None ks' im). apply (check_parts _ _ _ _ _ _ Hk). exists im, ks'. split; [|split; [exact HK|reflexivity]]. rewrite HP, Hr. reflexivity.
Qed.
Lemma completes_super n lb t rs kids : completes (super n lb t rs kids) <-> rs = None /\ Forall completes kids.
Proof. unfold super. apply completes_kids; auto. Qed.
Lemma passes_completes o c : passes o c -> completes c.
Proof. intros (c' & H & _). now exists c'. Qed.
Lemma quiet_completes c : quiet c -> completes c.
Proof. intros (c' & H & _). now exists c'. Qed.
Lemma completes_iterate ch f lt : Forall completes (iterate_by_type f ch lt) <-> Forall completes ch.
Proof. destruct (iterate_spec f ch lt) as [P _]. split; apply Permutation_Forall; [exact P|now apply Permutation_sym]. Qed.

(** The rule of SuperChange.is_ignored on a checked node with sub-changes. *)
Lemma ignored_parts o k ks im : k_parts k = true -> existsb is_change ks = true ->
  (is_ignored o (Node k true None ks im) = Ok true <-> k_own k o = true \/ Forall (fun kid => is_change kid = false \/ is_ignored o kid = Ok true) ks).
Proof.
  intros Hp HE. rewrite is_ignored_eq, Hp. cbn [negb is_change]. rewrite orb_true_r. cbn [negb]. destruct (k_own k o); [tauto|]. destruct ks as [|x ks]; [discriminate|]. cbn [collect pick rbind].
  rewrite all_ignored_true, Forall_map. cbn [fst snd]. split.
  - intro H. right. revert H. apply Forall_impl. intro a. destruct (is_change a); intuition congruence.
  - intros [H|H]; [discriminate|]. revert H. apply Forall_impl. intro a. destruct (is_change a); intuition congruence.
Qed.
Lemma none_changed ks : existsb is_change ks = false -> Forall (fun kid => is_change kid = false) ks.
Proof.
  intro E. apply Forall_forall. intros kid Hk. destruct (is_change kid) eqn:E2; [|reflexivity]. assert (existsb is_change ks = true) by (apply existsb_exists; eauto). congruence.
Qed.
Lemma passes_parts o k ch d im : k_check k = CheckParts -> k_always k = false -> k_super k = true -> (k_gate k = false \/ ch = true) -> k_parts k = true ->
  (passes o (Node k ch d [] im) <-> k_raises k = None /\ Forall completes im /\ (k_own k o = true \/ Forall (passes o) im)).
Proof.
  intros Hk Ha Hs Hg Hp.
  assert (HC : completes (Node k ch d [] im) <-> k_raises k = None /\ Forall completes im) by (apply completes_kids; auto; rewrite Ha; exact Hg).
  assert (HP : forall ks', Forall2 (fun a b => check a = Ok b) im ks' -> (Forall (passes o) im <-> Forall (fun kid => is_change kid = false \/ is_ignored o kid = Ok true) ks')).
  { clear. induction 1 as [|a b l r Hab H IH]; [split; constructor|]. rewrite !Forall_cons_eq, IH. split; intros [H1 H2]; (split; [|exact H2]).
    - destruct H1 as (x & Hx & H1). rewrite Hab in Hx. now injection Hx as <-.
    - exists b. now split. }
  assert (HX : forall ks', k_raises k = None -> Forall2 (fun a b => check a = Ok b) im ks' -> check (Node k ch d [] im) = Ok (Node k (existsb is_change ks') None ks' im)).
  { intros ks' Hr HF. apply (check_parts _ _ _ _ _ _ Hk). exists im, ks'. split; [|split; [exact HF|reflexivity]]. cbn [collect_in pick]. rewrite Hs, Hr, Ha. cbn [negb orb]. rewrite andb_false_r. destruct Hg as [-> | ->]; cbn [negb andb]; rewrite ?andb_false_r; reflexivity. }
  split.
  - intro H. pose proof (proj1 HC (passes_completes _ _ H)) as [Hr HF]. split; [exact Hr|]. split; [exact HF|].
    apply kids_complete in HF as [ks' HF]. destruct H as (c' & H & Hc). rewrite (HX ks' Hr HF) in H. injection H as <-.
    rewrite (HP ks' HF). cbn [is_change] in Hc. rewrite Ha in Hc. cbn [orb] in Hc. destruct (existsb is_change ks') eqn:E.
    + destruct Hc as [Hc|Hc]; [discriminate|]. now apply (ignored_parts o k ks' im Hp E).
    + right. eapply Forall_impl; [|apply none_changed; exact E]. auto.
  - intros (Hr & HF & H). apply kids_complete in HF as [ks' HF]. exists (Node k (existsb is_change ks') None ks' im). split; [now apply HX|].
    rewrite (HP ks' HF) in H. destruct (existsb is_change ks') eqn:E; [right; now apply (ignored_parts o k ks' im Hp E)|left; cbn [is_change]; now rewrite Ha].
Qed.

(** ** When is_ignored cannot fail after a check *)
Inductive tame : change -> Prop :=
| tame_node k ch d cs im :
    (k_parts k = true -> (k_check k = CheckParts /\ (k_always k = true -> k_incheck k = false /\ k_raises k = None /\ im = [])) \/
       ((exists r, k_check k = CheckOwn r) /\ k_incheck k = false /\ k_raises k = None /\ cs = [] /\ existsb is_change im = false)) ->
    Forall tame cs -> Forall tame im -> tame (Node k ch d cs im).
Lemma tame_checked o c : tame c -> forall c', check c = Ok c' -> exists b, is_ignored o c' = Ok b.
Proof.
  induction c as [k ch d cs im IH1 IH2] using change_rect'. intros HT c' H. inversion HT as [? ? ? ? ? HK HT1 HT2]; subst. destruct (k_parts k) eqn:Hp.
  - assert (G : forall l, Forall (fun kid => exists b, is_ignored o kid = Ok b) l -> exists b, all_ignored (map (fun kid => (is_change kid, is_ignored o kid)) l) = Ok b).
    { clear. induction 1 as [|a l [b Hb] H [b' IH]]; [exists true; reflexivity|]. cbn [map all_ignored]. rewrite Hb. cbn [rbind]. destruct (is_change a); [destruct b; eauto|eauto]. }
    destruct (HK eq_refl) as [[Hk HA]|([r Hk] & A1 & A2 & -> & A3)].
    2: { cbn [check] in H. rewrite Hk in H. destruct r as [[b0 d0]|]; cbn [rbind] in H; [|discriminate]. injection H as <-. rewrite is_ignored_eq. destruct (k_own k o); [eauto|]. rewrite Hp. cbn [negb]. destruct (negb _); [eauto|].
      assert (HC : exists l, collect (Node k b0 d0 [] im) = Ok l /\ Forall (fun kid => is_change kid = false) l).
      { apply none_changed in A3. cbn [collect pick]. rewrite A1, A2. destruct (k_super k); cbn; [|exists []; split; [reflexivity|constructor]]. destruct (k_gate k && _); [exists []; split; [reflexivity|constructor]|exists im; auto]. }
      destruct HC as (l & -> & Hl). cbn [rbind]. assert (HA : all_ignored (map (fun kid => (is_change kid, is_ignored o kid)) l) = Ok true).
      { apply all_ignored_true. rewrite Forall_map. eapply Forall_impl; [|exact Hl]. intros a Ha. cbn [fst snd]. congruence. }
      rewrite HA. destruct l; eauto. }
    apply (check_parts _ _ _ _ _ _ Hk) in H as (ks & ks' & H1 & H2 & ->).
    assert (HB : Forall (fun kid => exists b, is_ignored o kid = Ok b) ks').
    { cbn [collect_in] in H1. assert (HF : Forall (fun a => forall b, check a = Ok b -> exists x, is_ignored o b = Ok x) ks).
      { eapply pick_Forall; [| |exact H1].
        - clear -IH1 HT1. induction IH1 as [|a l Ha IH1 IH]; inversion HT1; subst; constructor; auto.
        - clear -IH2 HT2. induction IH2 as [|a l Ha IH2 IH]; inversion HT2; subst; constructor; auto. }
      clear -H2 HF. induction H2 as [|a b l r Hab H2 IH]; inversion HF; subst; constructor; auto. }
    rewrite is_ignored_eq, Hp. cbn [negb]. destruct (k_own k o); [eauto|]. cbn [is_change]. destruct (k_always k || existsb is_change ks') eqn:E; cbn [negb]; [|eauto].
    assert (HC : exists l, collect (Node k (existsb is_change ks') None ks' im) = Ok l /\ Forall (fun kid => exists b, is_ignored o kid = Ok b) l).
    { destruct ks' as [|x ks']; [|exists (x :: ks'); split; [reflexivity|exact HB]]. cbn [existsb] in E. rewrite orb_false_r in E. destruct (HA E) as (A1 & A2 & ->). exists []. split; [|constructor].
      cbn [collect pick]. rewrite A1, A2, E. cbn. destruct (k_super k); cbn; [|reflexivity]. rewrite andb_false_r. reflexivity. }
    destruct HC as (l & -> & Hl). cbn [rbind]. destruct l as [|x l]; cbn [map]; [eauto|].
    apply (G (x :: l) Hl).
  - destruct c' as [k' ch' d' cs' im']. assert (k' = k) as ->.
    { cbn [check] in H. destruct (k_check k) as [|[[b0 d0]|]|]; cbn [rbind] in H; try discriminate; try (injection H; congruence).
      destruct (pick true k ch (map check cs) (map check im)); cbn [rbind] in H; [|discriminate]. destruct (sequence _); cbn [rbind] in H; [|discriminate]. injection H; congruence. }
    rewrite is_ignored_eq, Hp. cbn [negb]. destruct (k_own k o); eauto.
Qed.
Lemma tame_super n lb t rs kids : Forall tame kids -> tame (super n lb t rs kids).
Proof. intro H. unfold super. constructor; [|constructor|exact H]. intros _. left. split; [reflexivity|discriminate]. Qed.
Lemma tame_leaf n lb own r lp rp : tame (leaf n lb own r lp rp).
Proof. unfold leaf. constructor; [discriminate|constructor|constructor]. Qed.
Lemma tame_iterate ch f lt : Forall tame ch -> Forall tame (iterate_by_type f ch lt).
Proof. destruct (iterate_spec f ch lt) as [P _]. apply Permutation_Forall. now apply Permutation_sym. Qed.

Lemma exit_total o c c' : tame c -> check c = Ok c' -> exists s, exit_status o c' = Ok s /\ (s = 0 \/ s = 1).
Proof.
  intros HT H. destruct (tame_checked o c HT c' H) as [b Hb]. unfold exit_status. rewrite Hb. destruct (is_change c'); cbn [negb rbind]; [|eauto]. destruct b; eauto.
Qed.

(** Classes with a description of their own that is always given *)
Definition vocal (k : cls) : Prop := exists f, k_text k = Some f /\ forall b, exists s, f b = Ok s.
Lemma vocal_speaks k ch d cs im : vocal k -> exists s, get_description (Node k ch d cs im) = Ok s.
Proof. intros (f & H & HF). cbn [get_description]. rewrite H. apply HF. Qed.
Lemma check_cls c c' : check c = Ok c' -> k_of c' = k_of c.
Proof.
  destruct c as [k ch d cs im]. cbn [check]. destruct (k_check k) as [|[[b x]|]|]; cbn [rbind]; intro H; try discriminate; try (injection H as <-; reflexivity).
  destruct (pick true k ch (map check cs) (map check im)); cbn [rbind] in H; [|discriminate]. destruct (sequence _); cbn [rbind] in H; [|discriminate]. injection H as <-. reflexivity.
Qed.
Lemma squash_total o c : (exists x, is_ignored o c = Ok x) -> vocal (k_of c) -> exists s, squash c false (Some o) = Ok s.
Proof. intros [x Hx] HV. unfold squash. rewrite Hx. cbn [rbind]. destruct c as [k ch d cs im]. destruct (vocal_speaks k ch d cs im HV) as [s ->]. eexists. reflexivity. Qed.

(** A condition on the classes of all nodes of a tree *)
Inductive everywhere (P : cls -> Prop) : change -> Prop :=
| everywhere_node k ch d cs im : P k -> Forall (everywhere P) cs -> Forall (everywhere P) im -> everywhere P (Node k ch d cs im).
Lemma everywhere_check P c : everywhere P c -> forall c', check c = Ok c' -> everywhere P c'.
Proof.
  induction c as [k ch d cs im IH1 IH2] using change_rect'. intros HE c' H. inversion HE as [? ? ? ? ? HP HC HI]; subst. destruct (k_check k) as [|r|] eqn:Hk.
  - cbn [check] in H. rewrite Hk in H. injection H as <-. now constructor.
  - cbn [check] in H. rewrite Hk in H. destruct r as [[b d']|]; cbn [rbind] in H; [|discriminate]. injection H as <-. now constructor.
  - apply (check_parts _ _ _ _ _ _ Hk) in H as (ks & ks' & H1 & H2 & ->). constructor; [exact HP| |exact HI].
    assert (HF : Forall (fun a => forall b, check a = Ok b -> everywhere P b) ks).
    { cbn [collect_in] in H1. eapply pick_Forall; [| |exact H1].
      - clear -IH1 HC. induction IH1 as [|a l Ha IH1 IH]; inversion HC; subst; constructor; auto.
      - clear -IH2 HI. induction IH2 as [|a l Ha IH2 IH]; inversion HI; subst; constructor; auto. }
    clear -H2 HF. induction H2 as [|a b l r Hab H2 IH]; inversion HF; subst; constructor; auto.
Qed.
Lemma everywhere_tips P t : forall c, everywhere P c -> unfolds c t -> forall ch, In ch (chains t) -> P (k_of (tip ch)).
Proof.
  induction t as [c0 subs IH] using rose_rect'. intros c HE HU ch Hch. apply unfolds_inv in HU as (ks & subs' & E & H1 & H2 & H3). injection E as -> <-. inversion HE as [k chg d cs im HP HC HI]; subst.
  cbn [chains] in Hch. destruct Hch as [<-|Hch]; [exact HP|]. apply in_concat in Hch as (l & Hl & Hch). apply in_map_iff in Hl as (s & <- & Hs). apply in_map_iff in Hch as (q & <- & Hq). rewrite tip_cons by exact (chain_ne _ _ Hq).
  assert (HK : Forall (everywhere P) ks) by (eapply pick_Forall; [exact HC|exact HI|exact H1]).
  clear -IH H3 HK Hs Hq. induction H3 as [|a b l r Hab H3 IH3]; [destruct Hs|]. inversion IH; inversion HK; subst. destruct Hs as [->|Hs]; [eauto|auto].
Qed.
Lemma everywhere_super (P : cls -> Prop) n lb t rs kids : P (k_of (super n lb t rs kids)) -> Forall (everywhere P) kids -> everywhere P (super n lb t rs kids).
Proof. intros H1 H2. unfold super in *. constructor; [exact H1|constructor|exact H2]. Qed.
Lemma everywhere_iterate P ch f lt : Forall (everywhere P) ch -> Forall (everywhere P) (iterate_by_type f ch lt).
Proof. destruct (iterate_spec f ch lt) as [Q _]. apply Permutation_Forall. now apply Permutation_sym. Qed.
(** Classes whose own descriptions are always given *)
Definition articulate (k : cls) : Prop := forall f b, k_text k = Some f -> exists s, f b = Ok s.
Lemma articulate_speaks c : articulate (k_of c) -> speaks c.
Proof. destruct c as [k ch d cs im]. unfold speaks, articulate. cbn [get_description k_of]. intro H. destruct (k_text k); [now apply H|eexists; reflexivity]. Qed.
Lemma everywhere_tellable o c t : everywhere articulate c -> unfolds c t -> tellable o t.
Proof. intros H1 H2 ch Hc _. apply articulate_speaks. exact (everywhere_tips _ _ _ H1 H2 ch Hc). Qed.

Section Classes.
Variable fmt : pyval -> str.
Variable reprs : str -> str.
Variable ffmt : pyval -> str.
Lemma tame_class l r : tame (class_change fmt reprs ffmt l r).
Proof.
  assert (HC : forall lp rp lc rc, tame (method_code fmt reprs lp rp lc rc)).
  { intros lp rp lc rc. unfold method_code. assert (HL : Forall tame (code_parts fmt reprs lp rp lc rc)) by (unfold code_parts; repeat (apply Forall_cons; [apply tame_leaf|]); constructor).
    destruct lc, rc; (constructor; [intros _|constructor|first [exact HL|constructor]]).
    - left. split; [reflexivity|discriminate].
    - right. repeat split; try reflexivity. eexists. reflexivity.
    - right. repeat split; try reflexivity. eexists. reflexivity.
    - right. repeat split; try reflexivity. eexists. reflexivity. }
  assert (HF : forall lp rp a b, tame (field_change fmt reprs lp rp a b)).
  { intros. unfold field_change. apply tame_super. repeat (apply Forall_cons; [apply tame_leaf|]). constructor. }
  assert (HM : forall lp rp a b, tame (method_change fmt reprs lp rp a b)).
  { intros. unfold method_change. cbv zeta. apply tame_super. do 10 (apply Forall_cons; [apply tame_leaf|]). apply Forall_cons; [|constructor]. destruct (get_code lp a), (get_code rp b); apply HC. }
  unfold class_change. apply tame_super. apply Forall_cons; [unfold class_info; apply tame_super; repeat (apply Forall_cons; [apply tame_leaf|]); constructor|].
  apply Forall_cons; [apply tame_leaf|]. apply Forall_cons; [apply tame_leaf|]. apply Forall_cons; [unfold pool_change; constructor; [discriminate|constructor|constructor]|].
  apply Forall_cons; [|apply Forall_cons; [|constructor]].
  - unfold fields_change. cbv zeta. apply tame_super. destruct (collect_members _ _ _ _ _); [|constructor]. apply tame_iterate. rewrite Forall_map. apply Forall_forall. intros [x|x|x y] _; [constructor; [discriminate|constructor|constructor]..|apply HF].
  - unfold methods_change. cbv zeta. apply tame_super. destruct (collect_members _ _ _ _ _); [|constructor]. apply tame_iterate. rewrite Forall_map. apply Forall_forall. intros [x|x|x y] _; [constructor; [discriminate|constructor|constructor]..|apply HM].
Qed.
Lemma survivors_in kms m : In m (survivors kms) -> In m (map snd kms).
Proof. induction kms as [|[k x] kms IH]; [intros []|]. cbn [survivors map snd]. destruct (existsb _ _); [right; auto|]. intros [->|H]; [now left|right; auto]. Qed.
Lemma event_left lp rp ls rs ev m : collect_members fmt lp rp ls rs = Ok ev -> In m (lefts ev) -> In m ls.
Proof.
  intros E H. destruct (collect_members_facts _ _ _ _ _ _ E) as (_ & (ks & _ & P) & _). apply (Permutation_in _ P) in H. apply survivors_in in H. apply in_map_iff in H as ([k x] & <- & H). now apply in_combine_r in H.
Qed.
Lemma event_right lp rp ls rs ev m : collect_members fmt lp rp ls rs = Ok ev -> In m (rights ev) -> In m rs.
Proof. intros E H. destruct (collect_members_facts _ _ _ _ _ _ E) as (<- & _). exact H. Qed.
Lemma added_in lp rp ls rs ev m : collect_members fmt lp rp ls rs = Ok ev -> In (MAdded m) ev -> In m rs.
Proof. intros E H. apply (event_right _ _ _ _ _ _ E). unfold rights. apply in_flat_map. eexists. split; [exact H|now left]. Qed.
Lemma removed_in lp rp ls rs ev m : collect_members fmt lp rp ls rs = Ok ev -> In (MRemoved m) ev -> In m ls.
Proof. intros E H. apply (event_left _ _ _ _ _ _ E). unfold lefts. apply in_flat_map. eexists. split; [exact H|now left]. Qed.
Lemma changed_in lp rp ls rs ev : collect_members fmt lp rp ls rs = Ok ev -> forall a b, In (MChanged a b) ev -> In a ls /\ In b rs.
Proof. intros E a b H. split; [apply (event_left _ _ _ _ _ _ E)|apply (event_right _ _ _ _ _ _ E)]; apply in_flat_map; eexists; (split; [exact H|now left]). Qed.
(** A class whose name and members can be named *)
Definition describable (c : classinfo) : Prop := (exists s, pretty_this c = Ok s) /\
  forall m, In m (c_fields c) \/ In m (c_methods c) -> exists s, member_descriptor fmt (c_pool c) m = Ok s.
Lemma class_articulate l r : describable l -> describable r -> everywhere articulate (class_change fmt reprs ffmt l r).
Proof.
  intros [[sl Hl] Ml] [_ Mr].
  assert (HL : forall n lb own x lp rp, everywhere articulate (leaf n lb own x lp rp)) by (intros; unfold leaf; constructor; [intros f b H; discriminate H|constructor|constructor]).
  assert (HC : forall lp rp lc rc, everywhere articulate (method_code fmt reprs lp rp lc rc)).
  { intros lp rp lc rc. unfold method_code. assert (HP : Forall (everywhere articulate) (code_parts fmt reprs lp rp lc rc)) by (unfold code_parts; repeat (apply Forall_cons; [apply HL|]); constructor).
    constructor; [intros f b H; discriminate H|constructor|]. destruct lc, rc; first [exact HP|constructor]. }
  assert (HS : forall n lb rs kids, Forall (everywhere articulate) kids -> everywhere articulate (super n lb None rs kids)) by (intros n lb rs kids H; apply everywhere_super; [intros f b H'; discriminate H'|exact H]).
  assert (HT : forall n lb (g : bool -> res str) rs kids, (forall b, exists s, g b = Ok s) -> Forall (everywhere articulate) kids -> everywhere articulate (super n lb (Some g) rs kids)).
  { intros n lb g rs kids Hg H. apply everywhere_super; [intros f b H'; injection H' as <-; apply Hg|exact H]. }
  assert (HW : forall p m (w : str), (exists s, member_descriptor fmt p m = Ok s) -> exists s, (d <- member_descriptor fmt p m ;; Ok (w ++ d)) = Ok s) by (intros p m w [s ->]; eexists; reflexivity).
  unfold class_change. apply HT; [intros _; rewrite Hl; eexists; reflexivity|]. apply Forall_cons; [unfold class_info; apply HS; repeat (apply Forall_cons; [apply HL|]); constructor|].
  apply Forall_cons; [apply HL|]. apply Forall_cons; [apply HL|]. apply Forall_cons; [unfold pool_change; constructor; [intros f b H; injection H as <-; eexists; reflexivity|constructor|constructor]|].
  apply Forall_cons; [|apply Forall_cons; [|constructor]].
  - unfold fields_change. cbv zeta. apply HS. destruct (collect_members _ _ _ _ _) as [evs|] eqn:E; [|constructor]. apply everywhere_iterate. rewrite Forall_map. apply Forall_forall. intros ev Hev.
    destruct ev as [x|x|x y]; [| |unfold field_change; cbv zeta; apply HT; [intros _; apply HW, Ml; left; exact (proj1 (changed_in _ _ _ _ _ E _ _ Hev))|repeat (apply Forall_cons; [apply HL|]); constructor]].
    + constructor; [intros f b H; injection H as <-; destruct (Mr x) as [s ->]; [left; eapply added_in; eassumption|eexists; reflexivity]|constructor|constructor].
    + constructor; [intros f b H; injection H as <-; destruct (Ml x) as [s ->]; [left; eapply removed_in; eassumption|eexists; reflexivity]|constructor|constructor].
  - unfold methods_change. cbv zeta. apply HS. destruct (collect_members _ _ _ _ _) as [evs|] eqn:E; [|constructor]. apply everywhere_iterate. rewrite Forall_map. apply Forall_forall. intros ev Hev.
    destruct ev as [x|x|x y].
    + constructor; [intros f b H; injection H as <-; destruct (Mr x) as [s ->]; [right; eapply added_in; eassumption|eexists; reflexivity]|constructor|constructor].
    + constructor; [intros f b H; injection H as <-; destruct (Ml x) as [s ->]; [right; eapply removed_in; eassumption|eexists; reflexivity]|constructor|constructor].
    + unfold method_change. cbv zeta. apply HT; [intros _; apply HW, Ml; right; exact (proj1 (changed_in _ _ _ _ _ E _ _ Hev))|]. do 10 (apply Forall_cons; [apply HL|]). apply Forall_cons; [|constructor]. destruct (get_code (c_pool l) x), (get_code (c_pool r) y); apply HC.
Qed.
(** classdiff completes exactly if the check does *)
Lemma classdiff_completes o l r : (exists s, classdiff fmt reprs ffmt o l r = Ok s) <-> completes (class_change fmt reprs ffmt l r).
Proof.
  unfold classdiff, completes. split.
  - intros [s H]. destruct (check _) as [c|]; [eauto|discriminate].
  - intros [c H]. rewrite H. cbn [rbind]. destruct (exit_total o _ _ (tame_class l r) H) as (s & Hs & _). eauto.
Qed.
Lemma classdiff_status o l r s : classdiff fmt reprs ffmt o l r = Ok s -> s = 0 \/ s = 1.
Proof.
  unfold classdiff. destruct (check _) as [c|] eqn:E; [|discriminate]. cbn [rbind]. intro H. destruct (exit_total o _ _ (tame_class l r) E) as (s' & Hs & Hd). rewrite Hs in H. injection H as <-. exact Hd.
Qed.
End Classes.

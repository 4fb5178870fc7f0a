(** The parts of the page of a class comparison. *)
From Verif Require Import Base Pack_Model ConstPool_Model ClassFile_Model Descr_Model Opcodes_Model Opcodes_Spec Opcodes_Proofs Anno_Model
  Change_Model Change_Spec Change_Proofs Change_Report Classdiff_Model Classdiff_Spec Classdiff_Members Classdiff_Merge Info_Model Print_Model Print_Code Report_Model Html_Model Html_Spec Html_Table.
From Coq Require Import Permutation.

(** ** Parts *)
Lemma within_refl x : within x x.
Proof. exists [], []. now rewrite app_nil_r. Qed.
Lemma within_trans x y z : within x y -> within y z -> within x z.
Proof. intros (a & b & ->) (c & d & ->). exists (c ++ a), (b ++ d). now rewrite <- !app_assoc. Qed.
Lemma within_l x y z : within x y -> within x (y ++ z).
Proof. intros (a & b & ->). exists a, (b ++ z). now rewrite <- !app_assoc. Qed.
Lemma within_r x y z : within x z -> within x (y ++ z).
Proof. intros (a & b & ->). exists (y ++ a), b. now rewrite <- !app_assoc. Qed.
Lemma within_cons x t z : within x z -> within x (t :: z).
Proof. intro H. now apply (within_r x [t]). Qed.
Lemma within_el x tag a body : within x body -> within x (el tag a body).
Proof. intro H. unfold el. apply within_cons, within_l, H. Qed.
Lemma within_concat x l : In x l -> within x (concat l).
Proof. intro H. apply in_split in H as (a & b & ->). rewrite concat_app. cbn [concat]. apply within_r, within_l, within_refl. Qed.
Lemma within_change_div o c body h : change_div o c body = Ok h -> within body h.
Proof. unfold change_div. destruct (state_words o c) as [w|]; [|discriminate]. cbn [rbind]. intro H. injection H as <-. apply within_el, within_refl. Qed.
Lemma within_details body : within body (details_div body).
Proof. unfold details_div. now apply within_el, within_el, within_refl. Qed.

(** ** Unwinding *)
Ltac step H :=
  match type of H with
  | rbind ?m _ = Ok _ => let E := fresh "E" in let v := fresh "v" in destruct m as [v|] eqn:E; [|discriminate H]; cbn [rbind] in H
  end.
Ltac steps H := repeat step H.

Lemma mapM_Forall2 {A B} (f : A -> res B) l : forall ys, mapM f l = Ok ys -> Forall2 (fun x y => f x = Ok y) l ys.
Proof.
  induction l as [|x l IH]; intros ys H; cbn [mapM] in H; [injection H as <-; constructor|].
  destruct (f x) eqn:E; [|discriminate]. cbn [rbind] in H. destruct (mapM f l); [|discriminate]. cbn [rbind] in H. injection H as <-. constructor; [exact E|now apply IH].
Qed.

Lemma check_super n lb t rs kids c : check (super n lb t rs kids) = Ok c ->
  rs = None /\ exists kids', Forall2 (fun a b => check a = Ok b) kids kids' /\ collect c = Ok kids' /\
  k_of c = k_of (super n lb t rs kids) /\ is_change c = existsb is_change kids'.
Proof.
  intro H. unfold super in H. apply check_parts in H; [|reflexivity]. destruct H as (ks & ks' & H1 & H2 & ->). cbn in H1. destruct rs; [discriminate|]. injection H1 as <-.
  split; [reflexivity|]. exists ks'. split; [exact H2|]. split; [|split; reflexivity]. cbn [collect pick]. destruct ks'; [|reflexivity]. inversion H2. reflexivity.
Qed.
Lemma check_leaf n lb own r lp rp c : check (leaf n lb own r lp rp) = Ok c -> exists b d, r = Ok (b, d) /\ k_of c = k_of (leaf n lb own r lp rp) /\ is_change c = b.
Proof. unfold leaf. cbn [check k_check]. destruct r as [[b d]|]; [|discriminate]. cbn [rbind]. intro H. injection H as <-. exists b, d. repeat split. Qed.
Lemma check_leaf_of {A} n lb own (ld rd : res A) eqf lt rt lp rp c : check (leaf_text n lb own ld rd eqf lt rt lp rp) = Ok c ->
  exists x y e, ld = Ok x /\ rd = Ok y /\ eqf x y = Ok e /\ k_name (k_of c) = lit n /\ is_change c = negb e.
Proof.
  unfold leaf_text. intro H. apply check_leaf in H as (b & d & H & K & C). unfold generic_check in H. destruct ld as [x|]; [|discriminate]. destruct rd as [y|]; [|discriminate]. cbn [rbind] in H.
  destruct (eqf x y) as [e|] eqn:E; [|discriminate]. cbn [rbind] in H. exists x, y, e. rewrite K, C. repeat split; try assumption. destruct e; [now injection H as <-|]. destruct lt; [|discriminate]. destruct rt; [|discriminate]. now injection H as <-.
Qed.

Lemma iterate_map {A B} (f : A -> B) (ty : B -> str) l ts :
  iterate_by_type ty (map f l) ts = map f (iterate_by_type (fun x => ty (f x)) l ts).
Proof.
  assert (G : forall d k, dget (map (fun kv : str * list A => (fst kv, map f (snd kv))) d) k = option_map (map f) (dget d k)).
  { clear. induction d as [|[k' v] d IH]; intro k; [reflexivity|]. cbn [map dget fst snd]. destruct (seqb k k'); [reflexivity|apply IH]. }
  assert (S : forall d k v, dset (map (fun kv : str * list A => (fst kv, map f (snd kv))) d) k (map f v) = map (fun kv => (fst kv, map f (snd kv))) (dset d k v)).
  { clear. induction d as [|[k' v'] d IH]; intros k v; [reflexivity|]. cbn [map dset fst snd]. destruct (seqb k k'); cbn [map fst snd]; [reflexivity|]. now rewrite IH. }
  assert (D : forall d k, ddel (map (fun kv : str * list A => (fst kv, map f (snd kv))) d) k = map (fun kv => (fst kv, map f (snd kv))) (ddel d k)).
  { clear. induction d as [|[k' v'] d IH]; intros k; [reflexivity|]. cbn [map ddel fst snd]. destruct (seqb k k'); cbn [map fst snd]; [reflexivity|]. now rewrite IH. }
  assert (C : collect_by_type ty (map f l) = map (fun kv => (fst kv, map f (snd kv))) (collect_by_type (fun x => ty (f x)) l)).
  { unfold collect_by_type. change (@nil (str * list B)) with (map (fun kv : str * list A => (fst kv, map f (snd kv))) []) at 1. generalize (@nil (str * list A)).
    induction l as [|x l IH]; intro d; [reflexivity|]. cbn [map fold_left]. rewrite G. destruct (dget d (ty (f x))) as [b|]; cbn [option_map].
    - change [f x] with (map f [x]). rewrite <- map_app, S. apply IH.
    - change [f x] with (map f [x]). rewrite S. apply IH. }
  assert (P : forall ts d, pop_types (map (fun kv : str * list A => (fst kv, map f (snd kv))) d) ts =
     (map f (fst (pop_types d ts)), map (fun kv => (fst kv, map f (snd kv))) (snd (pop_types d ts)))).
  { clear -G D. induction ts as [|t ts IH]; intro d; [reflexivity|]. cbn [pop_types]. rewrite G, D, IH. destruct (pop_types (ddel d t) ts) as [r c]. cbn [fst snd]. destruct (dget d t); cbn [option_map]; [now rewrite map_app|reflexivity]. }
  unfold iterate_by_type. rewrite C, P. destruct (pop_types _ ts) as [r c]. cbn [fst snd]. rewrite map_app. f_equal. rewrite map_map. cbn [snd]. rewrite concat_map, map_map. reflexivity.
Qed.
Lemma iterate_in {A} (ty : A -> str) l ts x : In x (iterate_by_type ty l ts) <-> In x l.
Proof. destruct (iterate_spec ty l ts) as [P _]. split; intro H; [eapply Permutation_in; [exact P|exact H]|eapply Permutation_in; [symmetry; exact P|exact H]]. Qed.

Section Page.
Variable fmt : pyval -> str.
Variable repr : pyval -> str.
Variable reprs : str -> str.
Variable ffmt : pyval -> str.

(** The objects made for the events, classdiff.py:778-831 *)
Definition method_node (lp rp : pool) (e : mevent) : change :=
  match e with
  | MAdded b => member_added fmt "MethodAdded" "Method added" rp b
  | MRemoved a => member_removed fmt "MethodRemoved" "Method removed" lp a
  | MChanged a b => method_change fmt reprs lp rp a b
  end.
Definition field_node (lp rp : pool) (e : mevent) : change :=
  match e with
  | MAdded b => member_added fmt "FieldAdded" "Field added" rp b
  | MRemoved a => member_removed fmt "FieldRemoved" "Field removed" lp a
  | MChanged a b => field_change fmt reprs lp rp a b
  end.
Lemma iterate_ext {A} (f g : A -> str) l ts : (forall x, f x = g x) -> iterate_by_type f l ts = iterate_by_type g l ts.
Proof.
  intro H. unfold iterate_by_type. replace (collect_by_type f l) with (collect_by_type g l); [reflexivity|]. unfold collect_by_type. generalize (@nil (str * list A)).
  induction l as [|x l IH]; intro d; [reflexivity|]. cbn [fold_left]. rewrite H. apply IH.
Qed.

Lemma combine_in {A B} (R : A -> B -> Prop) l m : Forall2 R l m -> forall x, In x l -> exists y, In (y, x) (combine m l) /\ R x y.
Proof. induction 1 as [|a b l m H1 H IH]; intros x; [intros []|]. intros [<-|HI]; [exists b; split; [now left|exact H1]|]. destruct (IH x HI) as (y & H2 & H3). exists y. split; [now right|exact H3]. Qed.

Lemma members_within o c (hs : list (list html)) h : members_html o c hs = Ok h -> forall x, In x hs -> within x h.
Proof.
  intros H x HI. unfold members_html in H. destruct (subreport_head c) as [hd|] eqn:EH; [|discriminate]. cbn [rbind] in H. eapply within_trans; [|eapply within_change_div; exact H]. apply within_r. destruct hs; [destruct HI|]. now apply within_el, within_concat.
Qed.

Lemma methods_parts_all o c l r h : check (methods_change fmt reprs l r) = Ok c -> methods_html fmt o c l r = Ok h ->
  exists evs, collect_members fmt (c_pool l) (c_pool r) (c_methods l) (c_methods r) = Ok evs /\
  forall ev, In ev evs -> exists c' x, check (method_node (c_pool l) (c_pool r) ev) = Ok c' /\
    method_event_html fmt o (c_pool l) (c_pool r) (c', ev) = Ok x /\
    exists hs, members_html o c hs = Ok h /\ In x hs /\
      Forall (fun y => exists c'' ev', In ev' evs /\ method_event_html fmt o (c_pool l) (c_pool r) (c'', ev') = Ok y) hs.
Proof.
  intros HC HH. unfold methods_html in HH. steps HH. rename v into evs, v1 into hs. exists evs. split; [reflexivity|].
  unfold methods_change in HC. cbv zeta in HC. rewrite E in HC. apply check_super in HC as (_ & kids' & HF & HK & _). rewrite HK in E0. injection E0 as <-.
  assert (EL : iterate_by_type (fun c => k_name (k_of c)) (map (method_node (c_pool l) (c_pool r)) evs) [lit "MethodAdded"; lit "MethodRemoved"; lit "MethodChange"] =
               map (method_node (c_pool l) (c_pool r)) (sorted_events method_names evs)).
  { rewrite iterate_map. f_equal. apply iterate_ext. intros [?|?|? ?]; reflexivity. }
  assert (HF1 : Forall2 (fun a b => check a = Ok b) (map (method_node (c_pool l) (c_pool r)) (sorted_events method_names evs)) kids') by (rewrite <- EL; exact HF).
  clear HF EL. rename HF1 into HF. intros ev HI.
  assert (HI' : In ev (sorted_events method_names evs)) by (apply iterate_in; exact HI).
  assert (HF' : Forall2 (fun e c' => check (method_node (c_pool l) (c_pool r) e) = Ok c') (sorted_events method_names evs) kids').
  { clear -HF. revert HF. generalize (sorted_events method_names evs). intros s HF. revert kids' HF. induction s as [|e s IH]; intros kids' HF; cbn [map] in HF; inversion HF; subst; constructor; auto. }
  destruct (combine_in _ _ _ HF' ev HI') as (c' & HIn & Hc). apply mapM_Forall2 in E1. 
  assert (HX : exists x, In x hs /\ method_event_html fmt o (c_pool l) (c_pool r) (c', ev) = Ok x).
  { clear -E1 HIn. induction E1 as [|a b s t H1 H IH]; [destruct HIn|]. destruct HIn as [->|HIn]; [exists b; split; [now left|exact H1]|]. destruct (IH HIn) as (x & ? & ?). exists x. split; [now right|assumption]. }
  destruct HX as (x & HX1 & HX2). exists c', x. split; [exact Hc|]. split; [exact HX2|]. exists hs. split; [exact HH|]. split; [exact HX1|]. apply Forall_forall. intros y HY.
  clear -E1 HY. assert (SUB : forall z, In z (combine kids' (sorted_events method_names evs)) -> In (snd z) evs) by (intros [u w] HZ; apply in_combine_r in HZ; now apply iterate_in in HZ).
  induction E1 as [|[c1 e1] b s t H1 H IH]; [destruct HY|]. destruct HY as [<-|HY]; [exists c1, e1; split; [exact (SUB _ (or_introl eq_refl))|exact H1]|]. apply IH; [exact HY|]. intros z HZ. apply SUB. now right.
Qed.
Lemma methods_parts o c l r h : check (methods_change fmt reprs l r) = Ok c -> methods_html fmt o c l r = Ok h ->
  exists evs, collect_members fmt (c_pool l) (c_pool r) (c_methods l) (c_methods r) = Ok evs /\
  forall ev, In ev evs -> exists c' x, check (method_node (c_pool l) (c_pool r) ev) = Ok c' /\
    method_event_html fmt o (c_pool l) (c_pool r) (c', ev) = Ok x /\ within x h.
Proof.
  intros HC HH. destruct (methods_parts_all _ _ _ _ _ HC HH) as (evs & E & G). exists evs. split; [exact E|]. intros ev HI. destruct (G ev HI) as (c' & x & G1 & G2 & hs & G3 & G4 & _).
  exists c', x. split; [exact G1|]. split; [exact G2|]. eapply members_within; [exact G3|exact G4].
Qed.
Lemma fields_parts_all o c l r h : check (fields_change fmt reprs l r) = Ok c -> fields_html fmt repr o c l r = Ok h ->
  exists evs, collect_members fmt (c_pool l) (c_pool r) (c_fields l) (c_fields r) = Ok evs /\
  forall ev, In ev evs -> exists c' x, check (field_node (c_pool l) (c_pool r) ev) = Ok c' /\
    field_event_html fmt repr o (c_pool l) (c_pool r) (c', ev) = Ok x /\
    exists hs, members_html o c hs = Ok h /\ In x hs /\
      Forall (fun y => exists c'' ev', In ev' evs /\ field_event_html fmt repr o (c_pool l) (c_pool r) (c'', ev') = Ok y) hs.
Proof.
  intros HC HH. unfold fields_html in HH. steps HH. rename v into evs, v1 into hs. exists evs. split; [reflexivity|].
  unfold fields_change in HC. cbv zeta in HC. rewrite E in HC. apply check_super in HC as (_ & kids' & HF & HK & _). rewrite HK in E0. injection E0 as <-.
  assert (EL : iterate_by_type (fun c => k_name (k_of c)) (map (field_node (c_pool l) (c_pool r)) evs) [lit "FieldAdded"; lit "FieldRemoved"; lit "FieldChange"] =
               map (field_node (c_pool l) (c_pool r)) (sorted_events field_names evs)).
  { rewrite iterate_map. f_equal. apply iterate_ext. intros [?|?|? ?]; reflexivity. }
  assert (HF1 : Forall2 (fun a b => check a = Ok b) (map (field_node (c_pool l) (c_pool r)) (sorted_events field_names evs)) kids') by (rewrite <- EL; exact HF).
  clear HF EL. rename HF1 into HF. intros ev HI.
  assert (HI' : In ev (sorted_events field_names evs)) by (apply iterate_in; exact HI).
  assert (HF' : Forall2 (fun e c' => check (field_node (c_pool l) (c_pool r) e) = Ok c') (sorted_events field_names evs) kids').
  { clear -HF. revert HF. generalize (sorted_events field_names evs). intros s HF. revert kids' HF. induction s as [|e s IH]; intros kids' HF; cbn [map] in HF; inversion HF; subst; constructor; auto. }
  destruct (combine_in _ _ _ HF' ev HI') as (c' & HIn & Hc). apply mapM_Forall2 in E1. 
  assert (HX : exists x, In x hs /\ field_event_html fmt repr o (c_pool l) (c_pool r) (c', ev) = Ok x).
  { clear -E1 HIn. induction E1 as [|a b s t H1 H IH]; [destruct HIn|]. destruct HIn as [->|HIn]; [exists b; split; [now left|exact H1]|]. destruct (IH HIn) as (x & ? & ?). exists x. split; [now right|assumption]. }
  destruct HX as (x & HX1 & HX2). exists c', x. split; [exact Hc|]. split; [exact HX2|]. exists hs. split; [exact HH|]. split; [exact HX1|]. apply Forall_forall. intros y HY.
  clear -E1 HY. assert (SUB : forall z, In z (combine kids' (sorted_events field_names evs)) -> In (snd z) evs) by (intros [u w] HZ; apply in_combine_r in HZ; now apply iterate_in in HZ).
  induction E1 as [|[c1 e1] b s t H1 H IH]; [destruct HY|]. destruct HY as [<-|HY]; [exists c1, e1; split; [exact (SUB _ (or_introl eq_refl))|exact H1]|]. apply IH; [exact HY|]. intros z HZ. apply SUB. now right.
Qed.
Lemma fields_parts o c l r h : check (fields_change fmt reprs l r) = Ok c -> fields_html fmt repr o c l r = Ok h ->
  exists evs, collect_members fmt (c_pool l) (c_pool r) (c_fields l) (c_fields r) = Ok evs /\
  forall ev, In ev evs -> exists c' x, check (field_node (c_pool l) (c_pool r) ev) = Ok c' /\
    field_event_html fmt repr o (c_pool l) (c_pool r) (c', ev) = Ok x /\ within x h.
Proof.
  intros HC HH. destruct (fields_parts_all _ _ _ _ _ HC HH) as (evs & E & G). exists evs. split; [exact E|]. intros ev HI. destruct (G ev HI) as (c' & x & G1 & G2 & hs & G3 & G4 & _).
  exists c', x. split; [exact G1|]. split; [exact G2|]. eapply members_within; [exact G3|exact G4].
Qed.

(** The page as a whole *)
Lemma page_within e t kids x : In x kids -> within x (page_html e t kids).
Proof. intro H. unfold page_html. apply within_cons, within_el, within_r, within_el, within_r, within_r, within_l, within_el, within_concat, H. Qed.
Record page_parts (o : options) (l r : classinfo) (page : list html) (info va ia po fs ms : list html) : Prop := {
  pp_info : within info page; pp_va : within va page; pp_ia : within ia page; pp_po : within po page; pp_fs : within fs page; pp_ms : within ms page;
  pp_info_ok : exists c, check (class_info fmt reprs l r) = Ok c /\ class_info_html o c l r = Ok info;
  pp_va_ok : exists c, check (annos_leaf fmt reprs "ClassAnnotationsChange" "Class runtime annotations" A_vis (c_pool l) (c_pool r) (c_attrs l) (c_attrs r)) = Ok c /\
                       annos_html fmt o c A_vis (c_pool l) (c_pool r) (c_attrs l) (c_attrs r) = Ok va;
  pp_ia_ok : exists c, check (annos_leaf fmt reprs "ClassInvisibleAnnotationsChange" "Class runtime invisible annotations" A_invis (c_pool l) (c_pool r) (c_attrs l) (c_attrs r)) = Ok c /\
                       annos_html fmt o c A_invis (c_pool l) (c_pool r) (c_attrs l) (c_attrs r) = Ok ia;
  pp_po_ok : exists c, check (pool_change reprs ffmt l r) = Ok c /\ pool_html reprs ffmt o c l r = Ok po;
  pp_fs_ok : exists c, check (fields_change fmt reprs l r) = Ok c /\ fields_html fmt repr o c l r = Ok fs;
  pp_ms_ok : exists c, check (methods_change fmt reprs l r) = Ok c /\ methods_html fmt o c l r = Ok ms }.
Lemma class_parts e o l r page : class_html fmt repr reprs ffmt e o l r = Ok page ->
  exists info va ia po fs ms n, pretty_this l = Ok n /\ page_parts o l r page info va ia po fs ms /\
    page = page_html e (xml_entity_escape (lit "JavaClassReport " ++ last_part n)) [info; va; ia; po; fs; ms].
Proof.
  intro H. unfold class_html in H. do 3 step H. rename v into c, v0 into n, v1 into kids.
  unfold class_change in E. apply check_super in E as (_ & kids' & HF & HK & _). rewrite HK in E1. injection E1 as <-.
  inversion HF as [|? k1 ? ? C1 F1]; subst. inversion F1 as [|? k2 ? ? C2 F2]; subst. inversion F2 as [|? k3 ? ? C3 F3]; subst. inversion F3 as [|? k4 ? ? C4 F4]; subst. inversion F4 as [|? k5 ? ? C5 F5]; subst. inversion F5 as [|? k6 ? ? C6 F6]; subst. inversion F6; subst.
  do 6 step H. injection H as <-. exists v, v0, v1, v2, v3, v4, n. split; [reflexivity|]. split; [|reflexivity]. constructor; try (apply page_within; cbn; tauto).
  - now exists k1.
  - now exists k2.
  - now exists k3.
  - now exists k4.
  - now exists k5.
  - now exists k6.
Qed.
Lemma page_method e o l r page : class_html fmt repr reprs ffmt e o l r = Ok page ->
  exists evs, collect_members fmt (c_pool l) (c_pool r) (c_methods l) (c_methods r) = Ok evs /\
  forall ev, In ev evs -> exists c' x, check (method_node (c_pool l) (c_pool r) ev) = Ok c' /\
    method_event_html fmt o (c_pool l) (c_pool r) (c', ev) = Ok x /\ within x page.
Proof.
  intro H. destruct (class_parts _ _ _ _ _ H) as (i & va & ia & po & fs & ms & n & _ & P & _). destruct (pp_ms_ok _ _ _ _ _ _ _ _ _ _ P) as (c & C1 & C2).
  destruct (methods_parts _ _ _ _ _ C1 C2) as (evs & E & G). exists evs. split; [exact E|]. intros ev HI. destruct (G ev HI) as (c' & x & G1 & G2 & G3). exists c', x. repeat split; try assumption.
  eapply within_trans; [exact G3|]. apply (pp_ms _ _ _ _ _ _ _ _ _ _ P).
Qed.
Lemma page_field e o l r page : class_html fmt repr reprs ffmt e o l r = Ok page ->
  exists evs, collect_members fmt (c_pool l) (c_pool r) (c_fields l) (c_fields r) = Ok evs /\
  forall ev, In ev evs -> exists c' x, check (field_node (c_pool l) (c_pool r) ev) = Ok c' /\
    field_event_html fmt repr o (c_pool l) (c_pool r) (c', ev) = Ok x /\ within x page.
Proof.
  intro H. destruct (class_parts _ _ _ _ _ H) as (i & va & ia & po & fs & ms & n & _ & P & _). destruct (pp_fs_ok _ _ _ _ _ _ _ _ _ _ P) as (c & C1 & C2).
  destruct (fields_parts _ _ _ _ _ C1 C2) as (evs & E & G). exists evs. split; [exact E|]. intros ev HI. destruct (G ev HI) as (c' & x & G1 & G2 & G3). exists c', x. repeat split; try assumption.
  eapply within_trans; [exact G3|]. apply (pp_fs _ _ _ _ _ _ _ _ _ _ P).
Qed.
End Page.

(** The tables of annotations. *)
From Verif Require Import Base Pack_Model ConstPool_Model ConstPool_Spec ClassFile_Model ClassFile_Spec Descr_Model Descr_Spec Opcodes_Model Anno_Model Anno_Spec Anno_Proofs
  Change_Model Change_Spec Change_Proofs Change_Report Classdiff_Model Classdiff_Spec Classdiff_Members Classdiff_Code Classdiff_Class Classdiff_Merge Info_Model Print_Model Report_Model
  Html_Model Html_Spec Html_Table Html_Page Html_Members Html_Values Html_Pool Html_Pages Verbose_Spec Verbose_Proofs Annopage_Spec.

(** ** Lists *)
Lemma combine_seq {A} (d : A) ps : forall k, combine (seq k (length ps)) ps = map (fun i => ((k + i)%nat, nth i ps d)) (seq 0 (length ps)).
Proof.
  induction ps as [|p ps IH]; intro k; [reflexivity|]. cbn [length seq combine map nth]. rewrite Nat.add_0_r. apply f_equal. rewrite IH, <- seq_shift, map_map. apply map_ext. intro i. now rewrite Nat.add_succ_r.
Qed.
Lemma zip_nil_r {A} (r : list A) : zip_longest [] r = map (fun y => (None, Some y)) r.
Proof. destruct r as [|y r]; [reflexivity|]. cbn [zip_longest map]. apply f_equal. induction r as [|z r IH]; [reflexivity|]. cbn [map]. now apply f_equal. Qed.
Lemma zip_length {A} (l r : list A) : length (zip_longest l r) = Nat.max (length l) (length r).
Proof.
  revert r. induction l as [|x l IH]; intro r; [rewrite zip_nil_r, map_length; reflexivity|]. destruct r as [|y r]; cbn [zip_longest length]; rewrite IH; [cbn [length]; now rewrite Nat.max_0_r|reflexivity].
Qed.
Lemma zip_nth {A} (l r : list A) : forall i, nth i (zip_longest l r) (None, None) = (nth_error l i, nth_error r i).
Proof.
  revert r. induction l as [|x l IH]; intros r i.
  - rewrite zip_nil_r. revert i. induction r as [|y r IHr]; intro i; destruct i; cbn [map nth nth_error]; try reflexivity. rewrite IHr. destruct i; reflexivity.
  - destruct r as [|y r], i as [|i]; cbn [zip_longest nth nth_error]; try reflexivity; rewrite IH; [|reflexivity]. destruct i; reflexivity.
Qed.
Lemma Forall2_at {A B} (R : A -> B -> Prop) l m i : Forall2 R l m ->
  match nth_error l i, nth_error m i with Some x, Some y => R x y | None, None => True | _, _ => False end.
Proof. intro H. revert i. induction H as [|x y l m H1 H IH]; intros [|i]; cbn [nth_error]; auto. apply IH. Qed.
Lemma Forall2_map_l {A B C} (R : B -> C -> Prop) (f : A -> B) l m : Forall2 R (map f l) m <-> Forall2 (fun x y => R (f x) y) l m.
Proof. split; revert m; induction l as [|x l IH]; intros m H; inversion H; subst; constructor; auto. Qed.

Lemma Forall2_weaken {A B} (R S : A -> B -> Prop) l m : (forall x y, R x y -> S x y) -> Forall2 R l m -> Forall2 S l m.
Proof. induction 2; constructor; auto. Qed.

Section Annos.
Variable fmt : pyval -> str.
Variable reprs : str -> str.

(** ** Reading *)
Lemma carried l p al d name vs : pool_shows l p -> attrs_show l al d -> carries l al name vs ->
  exists annos, annotations_of p d name = Ok (map (shown_anno l) annos) /\ Forall2 (seen_as l) annos vs.
Proof.
  intros HP HA [[HN ->]|(annos & HN & HS & HF)].
  - exists []. split; [|constructor]. destruct HA as [HA _]. unfold annotations_of. now rewrite HA, HN.
  - exists annos. split; [|exact HF]. apply (annotations_decode l p HP d annos al name HA); [|exact HS|exact HN].
    clear -HF. induction HF as [|a v annos vs H HF IH]; [reflexivity|]. cbn [forallb]. destruct H as [a t m H1 _ _]. now rewrite H1, IH.
Qed.
Lemma seen_text l p a v : pool_shows l p -> seen_as l a v -> pretty_annotation fmt p (shown_anno l a) = Ok (sn_text v).
Proof. intros HP [a0 t m _ HT _]. now apply anno_ok. Qed.
Lemma seen_blank l p a v : pool_shows l p -> seen_as l a v -> anno_or_blank fmt p (Some (shown_anno l a)) = Ok (if sn_full v then sn_text v else []).
Proof. intros HP H. pose proof (seen_text _ _ _ _ HP H) as E. destruct H as [[t [|e es]] s m _ HT _]; cbn [sn_full snd sn_text anno_or_blank shown_anno fst map] in *; [reflexivity|exact E]. Qed.
Lemma side_ok l p annos vs i : pool_shows l p -> Forall2 (seen_as l) annos vs -> anno_or_blank fmt p (nth_error (map (shown_anno l) annos) i) = Ok (side_text vs i).
Proof.
  intros HP HF. pose proof (Forall2_at _ _ _ i HF) as H. unfold side_text. rewrite nth_error_map. destruct (nth_error annos i) as [a|], (nth_error vs i) as [v|]; try contradiction; [|reflexivity]. cbn [option_map]. exact (seen_blank _ _ _ _ HP H).
Qed.
Lemma same_ok l r lp rp la ra vs ws i e : pool_shows l lp -> pool_shows r rp -> Forall2 (seen_as l) la vs -> Forall2 (seen_as r) ra ws -> (i < Nat.max (length la) (length ra))%nat ->
  match nth_error (map (shown_anno l) la) i, nth_error (map (shown_anno r) ra) i with
  | Some x, Some y => annotation_eq lp rp x y | None, None => Ok true | _, _ => Ok false end = Ok e -> (e = true <-> same_at vs ws i).
Proof.
  intros PL PR FL FR HI. pose proof (Forall2_at _ _ _ i FL) as HL. pose proof (Forall2_at _ _ _ i FR) as HR. unfold same_at. rewrite !nth_error_map.
  destruct (nth_error la i) as [a|] eqn:EA, (nth_error vs i) as [v|]; try contradiction; destruct (nth_error ra i) as [b|] eqn:EB, (nth_error ws i) as [w|]; try contradiction; cbn [option_map].
  - destruct HL as [a t m O1 _ M1], HR as [b t' m' O2 _ M2]. cbn [sn_means]. destruct (decoded_eq _ _ _ _ _ _ _ _ PL PR O1 O2 M1 M2) as (x & E & X). rewrite E. intro H. injection H as <-. exact X.
  - intro H. injection H as <-. split; [discriminate|contradiction].
  - intro H. injection H as <-. split; [discriminate|contradiction].
  - intros _. exfalso. apply nth_error_None in EA. apply nth_error_None in EB. lia.
Qed.
Lemma agree_seen l r lp rp la ra vs ws : pool_shows l lp -> pool_shows r rp -> Forall2 (seen_as l) la vs -> Forall2 (seen_as r) ra ws ->
  (Forall2 (fun a b => annotation_eq lp rp a b = Ok true) (map (shown_anno l) la) (map (shown_anno r) ra) <-> same_seen vs ws).
Proof.
  intros PL PR FL. revert ra ws. induction FL as [|a v la vs HA FL IH]; intros ra ws FR; destruct FR as [|b w ra ws HB FR]; cbn [map]; split; intro H; try (inversion H; fail); try constructor;
    inversion H as [|? ? ? ? H1 H2]; subst; destruct HA as [a t m O1 _ M1], HB as [b t' m' O2 _ M2]; cbn [sn_means] in *; destruct (decoded_eq _ _ _ _ _ _ _ _ PL PR O1 O2 M1 M2) as (x & E & X).
  - apply X. congruence.
  - now apply (IH ra ws FR).
  - rewrite E. f_equal. now apply X.
  - now apply (IH ra ws FR).
Qed.

(** ** Tables *)
Definition named_description (t : html) : bool := match t with Open _ a => existsb (fun x => seqb (snd x) (lit "description")) a | _ => false end.
Definition row1 (i : nat) (s : str) : list html := el "tr" [] (const_index i ++ el "td" (class_is "const-value") (txt s)).
Definition row2 (i : nat) (old new : str) (same : bool) : list html :=
  el "tr" [] (const_index i ++ el "td" (class_is "const-value") (txt old) ++ el "td" (class_is (if same then "const-value is_unchanged" else "const-value is_changed")%string) (txt new)).
Lemma block_row1 i s : block 2 (row1 i s) [[dec (Z.of_nat i); s]].
Proof. split; [reflexivity|]. exists [map one [dec (Z.of_nat i); s]]. split; reflexivity. Qed.
Lemma block_row2 i old new e : block 3 (row2 i old new e) [[dec (Z.of_nat i); old; new]].
Proof. split; [destruct e; reflexivity|]. exists [map one [dec (Z.of_nat i); old; new]]. split; [destruct e; reflexivity|reflexivity]. Qed.
Lemma block_head1 : block 2 (el "thead" [] (th_row (th "Index" ++ th "Annotation"))) [map lit ["Index"; "Annotation"]%string].
Proof. split; [reflexivity|]. exists [map one (map lit ["Index"; "Annotation"]%string)]. split; reflexivity. Qed.
Definition head2 : list html := el "thead" [] (th_row (el "th" (attrs_of [("rowspan", "2")]%string) (txt (lit "Index")) ++
                               el "th" (attrs_of [("colspan", "2")]%string) (txt (lit "Annotation"))) ++ th_row (th "Original" ++ th "Changed")).
Lemma block_head2 : block 3 head2 [map lit ["Index"; "Annotation"; "Annotation"]%string; map lit ["Index"; "Original"; "Changed"]%string].
Proof. split; [reflexivity|]. exists [[(1%nat, 2%nat, lit "Index"); (2%nat, 1%nat, lit "Annotation")]; [one (lit "Original"); one (lit "Changed")]]. split; reflexivity. Qed.
Lemma block_map {A} n (f : A -> list html) g l : (forall x, block n (f x) [g x]) -> block n (flat_map f l) (map g l).
Proof. intro H. induction l as [|x l IH]; [apply block_nil|]. cbn [flat_map map]. apply (block_app n _ _ [g x]); auto. Qed.
Lemma block_rows {A} n (g : A -> list str) (rs : list (list html)) l : Forall2 (fun x r => block n r [g x]) l rs -> block n (concat rs) (map g l).
Proof. induction 1 as [|x r l rs H1 H IH]; [apply block_nil|]. cbn [concat map]. apply (block_app n _ _ [g x]); auto. Qed.
Lemma clear_map {A} (f : A -> list html) l : (forall x, existsb named_description (f x) = false) -> existsb named_description (flat_map f l) = false.
Proof. intro H. induction l as [|x l IH]; [reflexivity|]. cbn [flat_map]. now rewrite existsb_app, H, IH. Qed.
Lemma clear_concat rs : Forall (fun r => existsb named_description r = false) rs -> existsb named_description (concat rs) = false.
Proof. induction 1 as [|r rs H1 H IH]; [reflexivity|]. cbn [concat]. now rewrite existsb_app, H1, IH. Qed.

Lemma single_ok l p annos vs h : pool_shows l p -> Forall2 (seen_as l) annos vs -> annos_single fmt p (map (shown_anno l) annos) = Ok h ->
  existsb named_description h = false /\ shows_table h 2 (alone_grid vs).
Proof.
  intros HP HF H. unfold annos_single in H.
  assert (E : mapM (pretty_annotation fmt p) (map (shown_anno l) annos) = Ok (map sn_text vs)).
  { clear H. induction HF as [|a v annos vs Ha HF IH]; [reflexivity|]. cbn [map mapM]. rewrite (seen_text _ _ _ _ HP Ha). cbn [rbind]. rewrite IH. reflexivity. }
  rewrite E in H. cbn [rbind] in H. apply ok_inj in H. subst h. change (fun it : nat * str => el "tr" [] (const_index (fst it) ++ el "td" (class_is "const-value") (txt (snd it)))) with (fun it : nat * str => row1 (fst it) (snd it)). split.
  - unfold el at 1. rewrite <- app_comm_cons || idtac. cbn [existsb]. rewrite !existsb_app. rewrite clear_map by reflexivity. reflexivity.
  - apply block_table. unfold alone_grid. apply (block_app 2 _ _ [map lit ["Index"; "Annotation"]%string]); [exact block_head1|].
    replace (map (fun i => [dec (Z.of_nat i); match nth_error vs i with Some v => sn_text v | None => [] end]) (seq 0 (length vs)))
      with (map (fun it : nat * str => [dec (Z.of_nat (fst it)); snd it]) (combine (seq 0 (length (map sn_text vs))) (map sn_text vs))).
    + apply block_map. intro x. apply block_row1.
    + rewrite (combine_seq ([] : str)), map_map, map_length. apply map_ext_in. intros i HI. cbn [fst snd]. f_equal. f_equal. apply in_seq in HI.
      destruct (nth_error vs i) as [v|] eqn:EV; [|apply nth_error_None in EV; lia]. apply nth_error_nth. now rewrite nth_error_map, EV.
Qed.

Lemma dual_ok l r lp rp la ra vs ws h : pool_shows l lp -> pool_shows r rp -> Forall2 (seen_as l) la vs -> Forall2 (seen_as r) ra ws ->
  annos_dual fmt lp rp (map (shown_anno l) la) (map (shown_anno r) ra) = Ok h ->
  existsb named_description h = false /\ shows_table h 3 (both_grid vs ws) /\
  forall i, (i < Nat.max (length vs) (length ws))%nat -> exists b, marks_row h i (side_text vs i) (side_text ws i) b /\ (b = false <-> same_at vs ws i).
Proof.
  intros PL PR FL FR H. unfold annos_dual in H. cbv zeta in H. set (ps := zip_longest _ _) in *.
  destruct (mapM _ _) as [rs|] eqn:E in H; [|discriminate]. cbn [rbind] in H. apply ok_inj in H. subst h. fold head2. apply mapM_Forall2 in E.
  rewrite (combine_seq (None, None)), Forall2_map_l in E.
  assert (LEN : length ps = Nat.max (length vs) (length ws)). { unfold ps. rewrite zip_length, !map_length. now rewrite (Forall2_length FL), (Forall2_length FR). }
  assert (G : Forall2 (fun i row => (i < length ps)%nat /\ exists e, row = row2 i (side_text vs i) (side_text ws i) e /\ (e = true <-> same_at vs ws i)) (seq 0 (length ps)) rs).
  { assert (HS : Forall (fun i => (i < length ps)%nat) (seq 0 (length ps))) by (apply Forall_forall; intros i HI; apply in_seq in HI; lia).
    revert HS. revert E. generalize (seq 0 (length ps)) as is. intros is E. induction E as [|i row is rs H E IH]; intro HS; [constructor|]. inversion HS as [|? ? HI HS']; subst. constructor; [|auto]. split; [exact HI|].
    clear IH HS' E. unfold ps in H. rewrite zip_nth in H. cbn [dual_anno_row Nat.add] in H. rewrite (side_ok l lp la vs i PL FL), (side_ok r rp ra ws i PR FR) in H. cbn [rbind] in H.
    destruct (match nth_error _ i with Some x => _ | None => _ end) as [e|] eqn:EE in H; [|discriminate]. cbn [rbind] in H. apply ok_inj in H. exists e. split; [now subst row|].
    apply (same_ok l r lp rp la ra vs ws i e PL PR FL FR); [|exact EE]. rewrite <- (Forall2_length FL), <- (Forall2_length FR) in LEN. lia. }
  split; [|split].
  - unfold el. cbn [existsb]. rewrite !existsb_app. rewrite clear_concat; [reflexivity|]. clear -G. induction G as [|i row is rs (_ & e & -> & _) G IH]; constructor; [destruct e; reflexivity|exact IH].
  - apply block_table. unfold both_grid. apply (block_app 3 _ _ [map lit ["Index"; "Annotation"; "Annotation"]%string; map lit ["Index"; "Original"; "Changed"]%string]); [exact block_head2|]. rewrite <- LEN.
    apply block_rows. eapply Forall2_weaken; [|exact G]. intros i row (_ & e & -> & _). apply block_row2.
  - intros i HI. rewrite <- LEN in HI. pose proof (Forall2_at _ _ _ i G) as HG. assert (EI : nth_error (seq 0 (length ps)) i = Some i).
    { rewrite nth_error_nth' with (d := O) by (rewrite seq_length; exact HI). now rewrite seq_nth. }
    rewrite EI in HG. destruct (nth_error rs i) as [row|] eqn:ER; [|contradiction]. destruct HG as (_ & e & -> & HE). exists (negb e). split.
    + unfold marks_row. eapply within_trans; [|apply within_el, within_r, within_concat; eapply nth_error_In; exact ER]. exists [], []. rewrite app_nil_r. destruct e; reflexivity.
    + rewrite <- HE. destruct e; cbn; split; congruence.
Qed.

(** ** A part of the page *)
Lemma annos_part o c n lb attr l r lp rp al ar dl dr vs ws h : check (annos_leaf fmt reprs n lb attr lp rp dl dr) = Ok c -> annos_html fmt o c attr lp rp dl dr = Ok h ->
  pool_shows l lp -> pool_shows r rp -> attrs_show l al dl -> attrs_show r ar dr -> carries l al attr vs -> carries r ar attr ws ->
  exists b, (b = false <-> same_seen vs ws) /\
    titled_part h h (lit "Change " ++ lit n ++ (if b then lit " is_changed" else lit " is_unchanged")) (lit lb) /\
    if b then shows_table h 3 (both_grid vs ws) /\
         (forall i, (i < Nat.max (length vs) (length ws))%nat -> exists m, marks_row h i (side_text vs i) (side_text ws i) m /\ (m = false <-> same_at vs ws i))
    else shows_table h 2 (alone_grid vs).
Proof.
  intros C H PL PR AL AR CL CR. destruct (carried _ _ _ _ _ _ PL AL CL) as (la & EL & FL). destruct (carried _ _ _ _ _ _ PR AR CR) as (ra & ER & FR).
  pose proof (quiet_annos fmt reprs n lb attr lp rp dl dr) as Q. rewrite EL, ER, agree_ok, (agree_seen _ _ _ _ _ _ _ _ PL PR FL FR) in Q.
  pose proof (changed_iff _ _ _ C Q) as IC. exists (is_change c). split.
  { destruct (is_change c) eqn:EC; split; intro X; try discriminate; [exfalso; now apply IC|apply Q; now exists c|reflexivity]. }
  unfold annos_html in H. rewrite EL, ER in H. cbn [rbind] in H.
  assert (KC : k_of c = k_of (annos_leaf fmt reprs n lb attr lp rp dl dr)) by (unfold annos_leaf, leaf_of, leaf_text in *; apply check_leaf in C as (? & ? & _ & K & _); exact K).
  assert (ST : state_words o c = Ok (lit "Change " ++ lit n ++ (if is_change c then lit " is_changed" else lit " is_unchanged"))).
  { unfold state_words. destruct (is_change c) eqn:EC.
    - assert (IG : is_ignored o c = Ok false) by (destruct c as [k ch d cs im]; cbn [k_of] in KC; subst k; reflexivity). rewrite IG. cbn [rbind]. rewrite KC. rewrite app_nil_r. reflexivity.
    - rewrite KC. reflexivity. }
  destruct (if is_change c then _ else _) as [body|] eqn:EB in H; [|discriminate]. cbn [rbind] in H. unfold change_div in H. rewrite ST in H. cbn [rbind] in H. apply ok_inj in H.
  assert (W : within body h) by (subst h; apply within_el, within_r, within_details).
  assert (TP : existsb named_description body = false -> titled_part h h (lit "Change " ++ lit n ++ (if is_change c then lit " is_changed" else lit " is_unchanged")) (lit lb)).
  { intro ND. split; [apply within_refl|]. exists (details_div body). split.
    - subst h. rewrite KC. reflexivity.
    - change (existsb named_description (details_div body) = false). unfold details_div, el. cbn [existsb]. rewrite !existsb_app. cbn [existsb]. rewrite !existsb_app, ND. reflexivity. }
  destruct (is_change c).
  - destruct (dual_ok _ _ _ _ _ _ _ _ _ PL PR FL FR EB) as (D1 & D2 & D3). split; [now apply TP|]. split; [eapply shows_within; eassumption|].
    intros i HI. destruct (D3 i HI) as (m & M1 & M2). exists m. split; [eapply within_trans; eassumption|exact M2].
  - destruct (single_ok _ _ _ _ _ PL FL EB) as (D1 & D2). split; [now apply TP|]. eapply shows_within; eassumption.
Qed.
Definition kind_name (kind : String.string) (visible : bool) : String.string := String.append kind (if visible then "AnnotationsChange" else "InvisibleAnnotationsChange").
Definition kind_label (kind : String.string) (visible : bool) : String.string := String.append kind (if visible then " runtime annotations" else " runtime invisible annotations").
Variables (repr : pyval -> str) (ffmt : pyval -> str).
Lemma field_annos o c lp rp a b h visible : check (field_change fmt reprs lp rp a b) = Ok c -> field_html fmt repr o c lp rp a b = Ok h ->
  exists k p, check (annos_leaf fmt reprs (kind_name "Field" visible) (kind_label "Field" visible) (attr_name visible) lp rp (m_attrs a) (m_attrs b)) = Ok k /\
    annos_html fmt o k (attr_name visible) lp rp (m_attrs a) (m_attrs b) = Ok p /\ within p h.
Proof.
  intros HC HH. unfold field_change in HC. apply check_super in HC as (HR & kids & HF & HK & _).
  unfold field_html in HH. rewrite HK in HH. cbn [rbind] in HH. split_parts HF. names. find_part HH. steps HH.
  apply within_change_div in HH. destruct visible; cbn [kind_name kind_label attr_name String.append].
  - eexists _, _. split; [eassumption|]. split; [eassumption|]. eapply within_trans; [|exact HH]. apply within_r, within_r, within_el, within_l, within_refl.
  - eexists _, _. split; [eassumption|]. split; [eassumption|]. eapply within_trans; [|exact HH]. apply within_r, within_r, within_el, within_r, within_refl.
Qed.
Lemma method_annos o c lp rp a b h visible : check (method_change fmt reprs lp rp a b) = Ok c -> method_html fmt o c lp rp a b = Ok h ->
  exists k p, check (annos_leaf fmt reprs (kind_name "Method" visible) (kind_label "Method" visible) (attr_name visible) lp rp (m_attrs a) (m_attrs b)) = Ok k /\
    annos_html fmt o k (attr_name visible) lp rp (m_attrs a) (m_attrs b) = Ok p /\ within p h.
Proof.
  intros HC HH. unfold method_change in HC. cbv zeta in HC. apply check_super in HC as (HR & kids & HF & HK & _).
  unfold method_html in HH. rewrite HK in HH. cbn [rbind] in HH.
  destruct (get_code lp a) as [lc|] eqn:EL; [|discriminate HR]. destruct (get_code rp b) as [rc|] eqn:ER; [|discriminate HR]. cbn [rbind] in HF.
  split_parts HF. names. find_part HH. steps HH.
  apply within_change_div in HH. destruct visible; cbn [kind_name kind_label attr_name String.append].
  - eexists _, _. split; [eassumption|]. split; [eassumption|]. eapply within_trans; [|exact HH]. apply within_r, within_r, within_el, within_l, within_refl.
  - eexists _, _. split; [eassumption|]. split; [eassumption|]. eapply within_trans; [|exact HH]. apply within_r, within_r, within_el, within_r, within_l, within_refl.
Qed.
Lemma page_annos e o l r page kind visible dl dr : class_html fmt repr reprs ffmt e o l r = Ok page -> compared fmt l r kind dl dr ->
  exists k p, check (annos_leaf fmt reprs (kind_name kind visible) (kind_label kind visible) (attr_name visible) (c_pool l) (c_pool r) dl dr) = Ok k /\
    annos_html fmt o k (attr_name visible) (c_pool l) (c_pool r) dl dr = Ok p /\ within p page.
Proof.
  intros H [|a b DL DR Ha Hb S|a b DL DR Ha Hb S].
  - destruct (class_parts _ _ _ _ _ _ _ _ _ H) as (i & va & ia & po & fs & ms & n & _ & P & _). destruct visible.
    + destruct (pp_va_ok _ _ _ _ _ _ _ _ _ _ _ _ _ _ P) as (c & C & HH). exists c, va. split; [exact C|]. split; [exact HH|]. exact (pp_va _ _ _ _ _ _ _ _ _ _ _ _ _ _ P).
    + destruct (pp_ia_ok _ _ _ _ _ _ _ _ _ _ _ _ _ _ P) as (c & C & HH). exists c, ia. split; [exact C|]. split; [exact HH|]. exact (pp_ia _ _ _ _ _ _ _ _ _ _ _ _ _ _ P).
  - destruct (field_pair_page _ _ _ _ _ _ _ _ _ _ _ H DL DR Ha Hb S) as (c & h & C & HH & W). destruct (field_annos _ _ _ _ _ _ _ visible C HH) as (k & p & K1 & K2 & K3). exists k, p. split; [exact K1|]. split; [exact K2|]. eapply within_trans; eassumption.
  - destruct (pair_page _ _ _ _ _ _ _ _ _ _ _ H DL DR Ha Hb S) as (c & h & C & HH & W). destruct (method_annos _ _ _ _ _ _ _ visible C HH) as (k & p & K1 & K2 & K3). exists k, p. split; [exact K1|]. split; [exact K2|]. eapply within_trans; eassumption.
Qed.
Lemma lit_append a b : lit (String.append a b) = lit a ++ lit b.
Proof. induction a as [|x a IH]; [reflexivity|]. cbn [String.append]. unfold lit in *. cbn. now rewrite IH. Qed.
End Annos.

(** Proofs about jarinfo and distinfo. *)
From Verif Require Import Base Pack_Model ConstPool_Model ClassFile_Model ClassFile_Spec Manifest_Model Sign_Model Glob_Model Glob_Spec Zip_Model Zip_Spec Jardiff_Model ClassFile_Proofs Info_Model Info_Spec Info_Class Info_Jar Dir_Spec Distdiff_Spec Print_Model Jinfo_Model Jinfo_Spec.
From Verif Require Jardiff_Jar.
From Coq Require Import Sorting.Sorted Permutation.

(** ** Order *)
Lemma before_trans a b : before a b -> forall c, before b c -> before a c.
Proof.
  induction 1 as [x b|x a y b L|x a b H IH]; intros c K.
  - inversion K; subst; constructor.
  - inversion K; subst; constructor; lia.
  - inversion K; subst; [now constructor|]. apply bf_later. now apply IH.
Qed.
Lemma sle_before a : forall b, a <> b -> (sle a b = true <-> before a b).
Proof.
  induction a as [|x a IH]; intros [|y b] N.
  - congruence.
  - split; [constructor|reflexivity].
  - split; [discriminate|intro H; inversion H].
  - cbn [sle]. rewrite Bool.orb_true_iff, Bool.andb_true_iff, Z.ltb_lt, Z.eqb_eq. destruct (Z.eq_dec x y) as [->|NE].
    + split.
      * intros [H|[_ H]]; [lia|]. apply bf_later. apply IH; [congruence|exact H].
      * intro H. inversion H; subst; [lia|]. right. split; [reflexivity|]. apply IH; [congruence|assumption].
    + split; [intros [H|[H _]]; [now constructor|congruence]|]. intro H. inversion H; subst; [now left|congruence].
Qed.
Lemma sle_total a : forall b, sle a b = false -> before b a.
Proof.
  induction a as [|x a IH]; intros [|y b] H; try discriminate; [constructor|].
  cbn [sle] in H. apply Bool.orb_false_iff in H as [H1 H2]. apply Z.ltb_ge in H1. destruct (Z.eq_dec x y) as [->|NE]; [|constructor; lia]. rewrite Z.eqb_refl in H2. apply bf_later. now apply IH.
Qed.
Lemma insert_item_In {V} (x y : str * V) l : In y (insert_item x l) <-> y = x \/ In y l.
Proof. induction l as [|z l IH]; cbn [insert_item]; [cbn; intuition|]. destruct (sle (fst x) (fst z)); cbn [In]; [intuition|]. rewrite IH. intuition. Qed.
Lemma insert_item_perm {V} (x : str * V) l : Permutation (x :: l) (insert_item x l).
Proof. induction l as [|z l IH]; cbn [insert_item]; [reflexivity|]. destruct (sle (fst x) (fst z)); [reflexivity|]. rewrite <- IH. apply perm_swap. Qed.
Lemma insert_item_sorted {V} (x : str * V) l : ~ In (fst x) (map fst l) -> StronglySorted (fun a b => before (fst a) (fst b)) l -> StronglySorted (fun a b => before (fst a) (fst b)) (insert_item x l).
Proof.
  induction l as [|y l IH]; cbn [insert_item map]; intros N S; [repeat constructor|]. apply StronglySorted_inv in S as [S F]. destruct (sle (fst x) (fst y)) eqn:E.
  - apply sle_before in E; [|intro Q; apply N; now left]. constructor; [now constructor|]. constructor; [exact E|]. rewrite Forall_forall in F |- *. intros z Hz. eapply before_trans; [exact E|]. now apply F.
  - apply sle_total in E. constructor; [apply IH; [|exact S]; intro Q; apply N; now right|]. rewrite Forall_forall in F |- *. intros z Hz. apply insert_item_In in Hz as [->|Hz]; [exact E|]. now apply F.
Qed.
Lemma sorted_items_ok {V} (d : dict V) : NoDup (dkeys d) -> in_key_order d (sorted_items d).
Proof.
  unfold dkeys. induction d as [|x d IH]; cbn [map]; intro N; [split; [reflexivity|constructor]|]. inversion N as [|? ? N1 N2]; subst. specialize (IH N2) as [P S]. unfold sorted_items. cbn [fold_right]. fold (sorted_items d). split.
  - rewrite <- insert_item_perm. now constructor.
  - apply insert_item_sorted; [|exact S]. intro Q. apply N1. eapply Permutation_in; [|exact Q]. symmetry. now apply Permutation_map.
Qed.
Lemma insert_name_sorted x l : ~ In x l -> StronglySorted before l -> StronglySorted before (insert_name x l).
Proof.
  induction l as [|y l IH]; cbn [insert_name]; intros N S; [repeat constructor|]. apply StronglySorted_inv in S as [S F]. destruct (sle x y) eqn:E.
  - apply sle_before in E; [|intro Q; apply N; now left]. constructor; [now constructor|]. constructor; [exact E|]. rewrite Forall_forall in F |- *. intros z Hz. eapply before_trans; [exact E|]. now apply F.
  - apply sle_total in E. constructor; [apply IH; [|exact S]; intro Q; apply N; now right|]. rewrite Forall_forall in F |- *. intros z Hz. apply (Permutation_in _ (Permutation_sym (Zip_Proofs.insert_perm _ _))) in Hz as [<-|Hz]; [exact E|]. now apply F.
Qed.
Lemma sort_names_sorted l : NoDup l -> StronglySorted before (sort_names l).
Proof.
  induction l as [|x l IH]; intro N; [constructor|]. inversion N as [|? ? N1 N2]; subst. unfold sort_names. cbn [fold_right]. fold (sort_names l). apply insert_name_sorted; [|now apply IH]. intro Q. apply N1. eapply Permutation_in; [symmetry; apply Zip_Proofs.sort_perm|exact Q].
Qed.
Lemma filter_sorted (f : str -> bool) l : StronglySorted before l -> StronglySorted before (filter f l).
Proof.
  induction l as [|x l IH]; intro S; [constructor|]. apply StronglySorted_inv in S as [S F]. cbn [filter]. destruct (f x); [|now apply IH]. constructor; [now apply IH|]. rewrite Forall_forall in F |- *. intros z Hz. apply filter_In in Hz as [Hz _]. now apply F.
Qed.
Lemma sort_names_In l s : In s (sort_names l) <-> In s l.
Proof. split; apply Permutation_in; [symmetry|]; apply Zip_Proofs.sort_perm. Qed.
Lemma symbol_lines_text title syms : symbol_lines title syms = symbol_list (lit title) syms.
Proof.
  unfold symbol_lines, symbol_list, lines, line. cbn [map concat]. rewrite map_app, concat_app, map_map. cbn [map concat]. now rewrite app_nil_r.
Qed.

(** ** Deciding what a class provides and requires *)
Section Jar.
Variable fmt : pyval -> str.
Variable repr : pyval -> str.
Variable text : bytes -> res str.
Variable order : list str -> list str.
Hypothesis order_perm : forall l, Permutation (order l) l.

Lemma picks_total {A} (P : A -> Prop) l : (forall x, In x l -> P x \/ ~ P x) -> exists r, picks P l r.
Proof.
  induction l as [|x l IH]; intro H; [exists []; constructor|]. destruct IH as [r R]; [intros y Hy; apply H; now right|]. destruct (H x (or_introl eq_refl)) as [Y|N]; [exists (x :: r)|exists r]; now constructor.
Qed.
Lemma picks_In {A} (P : A -> Prop) l r : picks P l r -> forall x, In x r <-> In x l /\ P x.
Proof.
  induction 1 as [|x l r H K IH|x l r H K IH]; intro y; [cbn; intuition|..]; cbn [In]; rewrite IH; [|]; intuition (subst; auto); contradiction.
Qed.
Lemma picks_some {A} (P : A -> Prop) l : (forall x, In x l -> P x \/ ~ P x) -> ((exists r, picks P l r /\ r <> []) <-> exists x, In x l /\ P x).
Proof.
  intro D. split.
  - intros (r & R & N). destruct r as [|x r]; [congruence|]. exists x. apply (picks_In _ _ _ R). now left.
  - intros (x & Hx & Px). destruct (picks_total P l D) as [r R]. exists r. split; [exact R|]. intros ->. now apply (proj2 (picks_In _ _ _ R x)).
Qed.
Lemma in_dec_str (s : str) l : In s l \/ ~ In s l.
Proof. destruct (in_dec (list_eq_dec Z.eq_dec) s l); tauto. Qed.
Lemma empty_ignored s : ~ ignored_by [] s.
Proof. intros (p & [] & _). Qed.
Lemma provided_dec c private s : class_ok c -> provided c private s \/ ~ provided c private s.
Proof.
  intros [K W]. destruct (unpack_class_roundtrip c [] K) as (r & _ & _ & _ & _ & R).
  destruct (class_provides fmt order order_perm c r [] private W R) as (l & _ & _ & HI). destruct (in_dec_str s l) as [Y|N]; [left; now apply HI|right]. intro Q. apply N, HI. split; [exact Q|apply empty_ignored].
Qed.
Lemma required_dec {deep} c s : class_ok c -> flat_arrays deep c -> required deep c s \/ ~ required deep c s.
Proof.
  intros [K W] F. destruct (unpack_class_roundtrip c [] K) as (r & _ & _ & _ & _ & R).
  destruct (class_requires fmt repr order order_perm c r [] W F R) as (l & _ & _ & HI). destruct (in_dec_str s l) as [Y|N]; [left; now apply HI|right]. intro Q. apply N, HI. split; [exact Q|apply empty_ignored].
Qed.
Definition good (cs : jclasses) : Prop := forall e c, In (e, c) cs -> class_ok c.
Definition flat (deep : bool) (cs : jclasses) : Prop := forall e c, In (e, c) cs -> flat_arrays deep c.
Lemma holds_good a cs : jar_holds a cs -> good cs.
Proof. intros H e c K. exact (proj2 (jh_data _ _ H _ _ K)). Qed.
Lemma gives_iff cs s : good cs -> ((exists by_, jar_provides_spec cs s by_) <-> jar_gives cs s).
Proof.
  intro G. pose proof (picks_some (fun ec : str * jclassfile => provided (snd ec) false s) cs (fun x Hx => provided_dec _ _ _ (G _ _ (eq_ind _ (fun y => In y cs) Hx _ (surjective_pairing x))))) as PS. split.
  - intros (by_ & r & R & N & _). destruct (proj1 PS (ex_intro _ r (conj R N))) as ([e c] & H1 & H2). now exists e, c.
  - intros (e & c & H1 & H2). destruct (proj2 PS (ex_intro _ (e, c) (conj H1 H2))) as (r & R & N). exists (map fst r), r. auto.
Qed.
Lemma wants_iff {deep} cs s : good cs -> flat deep cs -> ((exists by_, jar_requires_spec deep cs s by_) <-> jar_wants deep cs s).
Proof.
  intros G F. pose proof (picks_some (fun ec : str * jclassfile => required deep (snd ec) s) cs (fun x Hx => required_dec _ _ (G _ _ (eq_ind _ (fun y => In y cs) Hx _ (surjective_pairing x))) (F _ _ (eq_ind _ (fun y => In y cs) Hx _ (surjective_pairing x))))) as PS. split.
  - intros (by_ & (r & R & N & _) & X). split; [|exact X]. destruct (proj1 PS (ex_intro _ r (conj R N))) as ([e c] & H1 & H2). now exists e, c.
  - intros ((e & c & H1 & H2) & X). destruct (proj2 PS (ex_intro _ (e, c) (conj H1 H2))) as (r & R & N). exists (map fst r). split; [|exact X]. exists r. auto.
Qed.
Lemma lists_jar d ignored (Q : str -> Prop) : NoDup (dkeys d) -> (forall s, (exists v : list str, dget d s = Some v) <-> Q s) ->
  lists (fun s => Q s /\ ~ ignored_by ignored s) (filter (not_ignored ignored) (sort_names (dkeys d))).
Proof.
  intros N H. split; [apply filter_sorted, sort_names_sorted, N|]. intro s. rewrite filter_In, sort_names_In, not_ignored_iff, Jardiff_Proofs.dkeys_get, H. reflexivity.
Qed.
Theorem jar_provides_text a cs ignored : jar_holds a cs -> exists l, print_jar_provides fmt repr text order ignored (Ok a) = Ok (symbol_list (lit "jar provides:") l) /\
  lists (fun s => jar_gives cs s /\ ~ ignored_by ignored s) l.
Proof.
  intro H. destruct (jar_provides_ok fmt repr text order order_perm a cs [] H) as (d & E & N & HI). exists (filter (not_ignored ignored) (sort_names (dkeys d))). split.
  - unfold print_jar_provides. rewrite E. cbn [rbind]. now rewrite symbol_lines_text.
  - apply lists_jar; [exact N|]. intro s. rewrite <- (gives_iff cs s (holds_good _ _ H)). split; intros [v V]; exists v; apply HI in V || apply HI; [tauto|]. split; [exact V|apply empty_ignored].
Qed.
Theorem jar_requires_text {deep} a cs ignored : jar_holds a cs -> flat deep cs -> exists l, print_jar_requires fmt repr text order ignored (Ok a) = Ok (symbol_list (lit "jar requires:") l) /\
  lists (fun s => jar_wants deep cs s /\ ~ ignored_by ignored s) l.
Proof.
  intros H F. destruct (jar_requires_ok fmt repr text order order_perm a cs [] H F) as (d & E & N & HI). exists (filter (not_ignored ignored) (sort_names (dkeys d))). split.
  - unfold print_jar_requires. rewrite E. cbn [rbind]. now rewrite symbol_lines_text.
  - apply lists_jar; [exact N|]. intro s. rewrite <- (wants_iff cs s (holds_good _ _ H) F). split; intros [v V]; exists v; apply HI in V || apply HI; [tauto|]. split; [exact V|apply empty_ignored].
Qed.

(** ** Distributions *)
Variable unzip : bytes -> jar.
Lemma dist_good t jd e cs : dist_holds unzip t jd -> In (e, cs) (jd_jars jd) -> good cs.
Proof. intros H K. destruct (dh_jars _ _ _ H _ _ K) as (_ & p & d & a & _ & _ & _ & J). exact (holds_good _ _ J). Qed.
Lemma loose_good t jd : dist_holds unzip t jd -> good (jd_loose jd).
Proof. intros H e c K. destruct (dh_loose _ _ _ H _ _ K) as (_ & p & _ & _ & J). exact J. Qed.
Lemma origins_total (P : jclasses -> list str -> Prop) js : (forall e cs, In (e, cs) js -> (exists b, P cs b) \/ forall b, ~ P cs b) -> exists r, origins P js r.
Proof.
  induction js as [|[e cs] js IH]; intro H; [exists []; constructor|]. destruct IH as [r R]; [intros; eapply H; right; eassumption|]. destruct (H e cs (or_introl eq_refl)) as [[b B]|N]; [exists (InJar e b :: r)|exists r]; now constructor.
Qed.
Lemma origins_none (P : jclasses -> list str -> Prop) js r : origins P js r -> (r <> [] <-> exists e cs b, In (e, cs) js /\ P cs b).
Proof.
  induction 1 as [|e cs b js r H K IH|e cs js r H K IH].
  - split; [congruence|intros (? & ? & ? & [] & _)].
  - split; [|discriminate]. intros _. exists e, cs, b. split; [now left|exact H].
  - rewrite IH. split.
    + intros (e' & cs' & b & H1 & H2). exists e', cs', b. split; [now right|exact H2].
    + intros (e' & cs' & b & [[= <- <-]|H1] & H2); [now apply H in H2|]. now exists e', cs', b.
Qed.
Lemma all_origins_iff (P : jclasses -> list str -> Prop) (Q : jclassfile -> Prop) jd :
  (forall e cs, In (e, cs) (jd_jars jd) -> (exists b, P cs b) \/ forall b, ~ P cs b) -> (forall e c, In (e, c) (jd_loose jd) -> Q c \/ ~ Q c) ->
  ((exists o, all_origins P Q jd o) <-> (exists e cs b, In (e, cs) (jd_jars jd) /\ P cs b) \/ exists e c, In (e, c) (jd_loose jd) /\ Q c).
Proof.
  intros D1 D2. split.
  - intros (o & r1 & r2 & O & K & -> & N). destruct r1 as [|x r1].
    + right. destruct r2 as [|[e c] r2]; [now cbn in N|]. exists e, c. apply (picks_In _ _ _ K (e, c)). now left.
    + left. apply (origins_none _ _ _ O). discriminate.
  - intro H. destruct (origins_total P _ D1) as [r1 O]. destruct (picks_total (fun ec : str * jclassfile => Q (snd ec)) (jd_loose jd)) as [r2 K]; [intros [e c] X; exact (D2 e c X)|].
    exists (r1 ++ map (fun ec => Loose (fst ec)) r2). exists r1, r2. split; [exact O|]. split; [exact K|]. split; [reflexivity|]. destruct H as [H|(e & c & H1 & H2)].
    + apply (origins_none _ _ _ O) in H. destruct r1; [congruence|discriminate].
    + assert (In (e, c) r2) by (apply (picks_In _ _ _ K); now split). destruct r2; [contradiction|]. destruct r1; discriminate.
Qed.
Lemma gives_dec cs s : good cs -> jar_gives cs s \/ ~ jar_gives cs s.
Proof.
  intro G. destruct (picks_total (fun ec : str * jclassfile => provided (snd ec) false s) cs) as [r R]; [intros [e c] X; exact (provided_dec _ _ _ (G _ _ X))|]. destruct r as [|[e c] r].
  - right. intros (e & c & H1 & H2). now apply (proj2 (picks_In _ _ _ R (e, c))).
  - left. exists e, c. apply (picks_In _ _ _ R (e, c)). now left.
Qed.
Lemma wants_dec {deep} cs s : good cs -> flat deep cs -> jar_wants deep cs s \/ ~ jar_wants deep cs s.
Proof.
  intros G F. destruct (picks_total (fun ec : str * jclassfile => required deep (snd ec) s) cs) as [r R]; [intros [e c] X; exact (required_dec _ _ (G _ _ X) (F _ _ X))|].
  destruct (picks_total (fun ec : str * jclassfile => provided (snd ec) true s) cs) as [q T]; [intros [e c] X; exact (provided_dec _ _ _ (G _ _ X))|].
  destruct r as [|[e c] r]; [right; intros ((e & c & H1 & H2) & _); now apply (proj2 (picks_In _ _ _ R (e, c)))|]. destruct q as [|[e' c'] q].
  - left. split; [exists e, c; apply (picks_In _ _ _ R (e, c)); now left|]. intros e' c' H1 H2. now apply (proj2 (picks_In _ _ _ T (e', c'))).
  - right. intros [_ X]. destruct (proj1 (picks_In _ _ _ T (e', c')) (or_introl eq_refl)) as [H1 H2]. exact (X _ _ H1 H2).
Qed.
Lemma dist_gives_iff t jd s : dist_holds unzip t jd -> ((exists o, dist_provides_spec jd s o) <-> dist_gives jd s).
Proof.
  intro H. unfold dist_provides_spec. rewrite all_origins_iff.
  - unfold dist_gives. split; (intros [X|X]; [left|right; exact X]).
    + destruct X as (e & cs & b & X1 & X2). exists e, cs. split; [exact X1|]. apply gives_iff; [exact (dist_good _ _ _ _ H X1)|now exists b].
    + destruct X as (e & cs & X1 & X2). apply gives_iff in X2 as [b X2]; [|exact (dist_good _ _ _ _ H X1)]. now exists e, cs, b.
  - intros e cs X. destruct (gives_dec cs s (dist_good _ _ _ _ H X)) as [Y|N]; [left; now apply gives_iff; [exact (dist_good _ _ _ _ H X)|]|right]. intros b B. apply N. apply gives_iff; [exact (dist_good _ _ _ _ H X)|now exists b].
  - intros e c X. exact (provided_dec _ _ _ (loose_good _ _ H _ _ X)).
Qed.
Lemma dist_wants_iff {deep} t jd s : dist_holds unzip t jd -> (forall c, dist_class jd c -> flat_arrays deep c) -> ((exists o, dist_requires_spec deep jd s o) <-> dist_wants deep jd s).
Proof.
  intros H F. assert (FJ : forall e cs, In (e, cs) (jd_jars jd) -> flat deep cs) by (intros e cs X e' c Y; apply F; left; now exists e, cs, e').
  assert (AO := all_origins_iff (fun cs by_ => jar_requires_spec deep cs s by_) (fun c => required deep c s) jd). 
  assert (A : (exists o, all_origins (fun cs by_ => jar_requires_spec deep cs s by_) (fun c => required deep c s) jd o) <->
    ((exists e cs, In (e, cs) (jd_jars jd) /\ jar_wants deep cs s) \/ exists e c, In (e, c) (jd_loose jd) /\ required deep c s)).
  { rewrite AO.
    - split; (intros [X|X]; [left|right; exact X]).
      + destruct X as (e & cs & b & X1 & X2). exists e, cs. split; [exact X1|]. apply wants_iff; [exact (dist_good _ _ _ _ H X1)|exact (FJ _ _ X1)|now exists b].
      + destruct X as (e & cs & X1 & X2). apply wants_iff in X2 as [b X2]; [|exact (dist_good _ _ _ _ H X1)|exact (FJ _ _ X1)]. now exists e, cs, b.
    - intros e cs X. destruct (wants_dec cs s (dist_good _ _ _ _ H X) (FJ _ _ X)) as [Y|N]; [left; now apply wants_iff; [exact (dist_good _ _ _ _ H X)|exact (FJ _ _ X)|]|right]. intros b B. apply N. apply wants_iff; [exact (dist_good _ _ _ _ H X)|exact (FJ _ _ X)|now exists b].
    - intros e c X. apply required_dec; [exact (loose_good _ _ H _ _ X)|]. apply F. right. now exists e. }
  unfold dist_wants. rewrite <- A. unfold dist_requires_spec. split.
  - intros (o & O & X1 & X2). split; [now exists o|]. split; [|exact X2]. intros e cs Y (e' & c & Y1 & Y2). exact (X1 _ _ _ _ Y Y1 Y2).
  - intros ((o & O) & X1 & X2). exists o. split; [exact O|]. split; [|exact X2]. intros e cs e' c Y Y1 Y2. apply (X1 _ _ Y). now exists e', c.
Qed.
Lemma perm_ex {A} (l m : list A) (P : A -> Prop) : Permutation l m -> ((exists x, In x l /\ P x) <-> exists x, In x m /\ P x).
Proof. intro H. split; intros (x & X & Y); exists x; (split; [|exact Y]); eapply Permutation_in; try eassumption; now symmetry. Qed.
Lemma holds_perm t jd jd' : Permutation (jd_jars jd) (jd_jars jd') -> Permutation (jd_loose jd) (jd_loose jd') -> dist_holds unzip t jd -> dist_holds unzip t jd'.
Proof.
  intros P Q [A B C D E F]. constructor.
  - eapply Permutation_NoDup; [apply Permutation_map; exact P|exact A].
  - eapply Permutation_NoDup; [apply Permutation_map; exact Q|exact B].
  - intros p X Y. eapply Permutation_in; [apply Permutation_map; exact P|]. now apply C.
  - intros p X Y. eapply Permutation_in; [apply Permutation_map; exact Q|]. now apply D.
  - intros e cs X. apply E. eapply Permutation_in; [symmetry; exact P|exact X].
  - intros e c X. apply F. eapply Permutation_in; [symmetry; exact Q|exact X].
Qed.
Lemma flat_perm {deep} jd jd' : Permutation (jd_jars jd) (jd_jars jd') -> Permutation (jd_loose jd) (jd_loose jd') -> (forall c, dist_class jd c -> flat_arrays deep c) -> forall c, dist_class jd' c -> flat_arrays deep c.
Proof.
  intros P Q F c [(e & cs & e' & X & Y)|(e & X)]; apply F; [left; exists e, cs, e'; split; [|exact Y]|right; exists e]; eapply Permutation_in; try eassumption; now symmetry.
Qed.
Lemma gives_perm jd jd' s : Permutation (jd_jars jd) (jd_jars jd') -> Permutation (jd_loose jd) (jd_loose jd') -> dist_gives jd s -> dist_gives jd' s.
Proof.
  intros P Q [(e & cs & X & Y)|(e & c & X & Y)]; [left; exists e, cs|right; exists e, c]; (split; [|exact Y]); eapply Permutation_in; eassumption.
Qed.
Lemma wants_perm {deep} jd jd' s : Permutation (jd_jars jd) (jd_jars jd') -> Permutation (jd_loose jd) (jd_loose jd') -> dist_wants deep jd s -> dist_wants deep jd' s.
Proof.
  intros P Q (H & G1 & G2). split; [|split].
  - destruct H as [(e & cs & X & Y)|(e & c & X & Y)]; [left; exists e, cs|right; exists e, c]; (split; [|exact Y]); eapply Permutation_in; eassumption.
  - intros e cs X. apply (G1 e). eapply Permutation_in; [symmetry; exact P|exact X].
  - intros e c X. apply (G2 e). eapply Permutation_in; [symmetry; exact Q|exact X].
Qed.
Lemma lists_dist (d : dict (list source)) (Q : str -> Prop) : NoDup (dkeys d) -> (forall s, (exists v, dget d s = Some v) <-> Q s) -> lists Q (sort_names (dkeys d)).
Proof. intros N H. split; [apply sort_names_sorted, N|]. intro s. now rewrite sort_names_In, Jardiff_Proofs.dkeys_get, H. Qed.
Theorem dist_provides_text t jd ignored : is_dir t = true -> Dir_Spec.plain t -> names_ok t -> dist_holds unzip t jd ->
  exists l, print_dist_provides fmt repr text order unzip ignored (mkdist false t) = Ok (symbol_list (lit "distribution provides:") l) /\ lists (fun s => dist_gives jd s /\ ~ ignored_by ignored s) l.
Proof.
  intros T P N H. destruct (dist_provides_ok fmt repr text order order_perm unzip t T P N jd ignored H) as (jd' & d & P1 & P2 & E & ND & HI). exists (sort_names (dkeys d)). split.
  - unfold print_dist_provides. rewrite E. cbn [rbind]. now rewrite symbol_lines_text.
  - apply lists_dist; [exact ND|]. intro s. pose proof (dist_gives_iff t jd' s (holds_perm _ _ _ P1 P2 H)) as G. split.
    + intros [v V]. apply HI in V as (o & _ & O & I). split; [|exact I]. apply (gives_perm jd' jd s (Permutation_sym P1) (Permutation_sym P2)). apply G. now exists o.
    + intros [V I]. apply (gives_perm jd jd' s P1 P2) in V. apply G in V as [o O]. exists (map shown_origin o). apply HI. now exists o.
Qed.
Theorem dist_requires_text {deep} t jd ignored : is_dir t = true -> Dir_Spec.plain t -> names_ok t -> dist_holds unzip t jd -> (forall c, dist_class jd c -> flat_arrays deep c) ->
  exists l, print_dist_requires fmt repr text order unzip ignored (mkdist false t) = Ok (symbol_list (lit "distribution requires:") l) /\ lists (fun s => dist_wants deep jd s /\ ~ ignored_by ignored s) l.
Proof.
  intros T P N H F. destruct (dist_requires_ok fmt repr text order order_perm unzip t T P N jd ignored H F) as (jd' & d & P1 & P2 & E & ND & HI). exists (sort_names (dkeys d)). split.
  - unfold print_dist_requires. rewrite E. cbn [rbind]. now rewrite symbol_lines_text.
  - apply lists_dist; [exact ND|]. intro s. pose proof (dist_wants_iff t jd' s (holds_perm _ _ _ P1 P2 H) (flat_perm _ _ P1 P2 F)) as G. split.
    + intros [v V]. apply HI in V as (o & _ & O & I). split; [|exact I]. apply (wants_perm jd' jd s (Permutation_sym P1) (Permutation_sym P2)). apply G. now exists o.
    + intros [V I]. apply (wants_perm jd jd' s P1 P2) in V. apply G in V as [o O]. exists (map shown_origin o). apply HI. now exists o.
Qed.
(** One jar: as by jarinfo *)
Lemma provided_private c s : provided c false s -> provided c true s.
Proof. intros [n H|n m nm x H1 H2 H3]; [now constructor|]. econstructor; eauto. Qed.
Lemma one_jar {deep} e cs s : dist_wants deep (mkjdist [(e, cs)] []) s <-> jar_wants deep cs s.
Proof.
  unfold dist_wants. cbn [jd_jars jd_loose]. split.
  - intros ([(e' & cs' & [[= <- <-]|[]] & W)|(? & ? & [] & _)] & _). exact W.
  - intro W. split; [left; exists e, cs; split; [now left|exact W]|]. split; [|intros ? ? []]. intros e' cs' [[= <- <-]|[]] (e'' & c & X & Y). apply (proj2 W e'' c X). exact (provided_private c s Y).
Qed.
End Jar.

(** ** Manifest *)
Lemma sec_load_nodup items : forall s s', sec_load s items = Ok s' -> NoDup (dkeys s) -> NoDup (dkeys s').
Proof.
  induction items as [|[k v] items IH]; cbn [sec_load]; intros s s' H N; [injection H as <-; exact N|]. unfold sec_set in H. destruct (Z.of_nat (length k) >? 68); [discriminate|]. cbn [rbind] in H. eapply IH; [exact H|]. now apply Change_Report.NoDup_dset.
Qed.
Lemma sec_load_some items : forall s s', sec_load s items = Ok s' -> s <> [] -> s' <> [].
Proof.
  induction items as [|[k v] items IH]; cbn [sec_load]; intros s s' H N; [injection H as <-; exact N|]. unfold sec_set in H. destruct (Z.of_nat (length k) >? 68); [discriminate|]. cbn [rbind] in H. eapply IH; [exact H|]. destruct s as [|[a b] s]; [congruence|]. cbn [dset]. destruct (seqb k a); discriminate.
Qed.
Lemma load_subs_nodup l : forall d d', load_subs d l = Ok d' -> NoDup (dkeys d) -> (forall n s, In (n, s) d -> NoDup (dkeys s)) -> NoDup (dkeys d') /\ forall n s, In (n, s) d' -> NoDup (dkeys s).
Proof.
  induction l as [|items l IH]; cbn [load_subs]; intros d d' H N K; [injection H as <-; now split|]. destruct (sec_load (new_section S_None) items) as [s|] eqn:E; [|discriminate]. cbn [rbind] in H. destruct (dget s K_Name) as [n|]; [|discriminate]. eapply IH; [exact H|now apply Change_Report.NoDup_dset|].
  assert (NS : NoDup (dkeys s)) by (eapply sec_load_nodup; [exact E|repeat constructor; intros []]).
  clear - K NS. induction d as [|[a b] d IH]; cbn [dset].
  - intros n' s' [[= <- <-]|[]]. exact NS.
  - destruct (seqb n a).
    + intros n' s' [[= <- <-]|X]; [exact NS|]. apply (K n'). now right.
    + intros n' s' [[= <- <-]|X]; [apply (K a); now left|]. apply IH in X; [exact X|]. intros m q Y. apply (K m). now right.
Qed.
Lemma parse_shape data m : man_parse (new_manifest None) data = Ok m -> m_main m <> [] /\ NoDup (dkeys (m_main m)) /\ NoDup (dkeys (m_subs m)) /\ forall n s, In (n, s) (m_subs m) -> NoDup (dkeys s).
Proof.
  unfold man_parse. destruct (parse_sections (utf8_ignore data)) as [[|main subs] e]; [discriminate|]. destruct (sec_load _ main) as [mn|] eqn:E1; [|discriminate]. destruct (load_subs _ subs) as [sb|] eqn:E2; [|discriminate]. cbn [rbind]. destruct e; [discriminate|]. intro H. injection H as <-. cbn [m_main m_subs].
  split; [eapply sec_load_some; [exact E1|discriminate]|]. split; [eapply sec_load_nodup; [exact E1|repeat constructor; intros []]|]. eapply load_subs_nodup; [exact E2|constructor|intros ? ? []].
Qed.
Lemma pair_lines_ok d : NoDup (dkeys d) -> exists l, in_key_order d l /\ pair_lines d = lines (pairs l).
Proof.
  intro N. exists (sorted_items d). split; [now apply sorted_items_ok|]. unfold pair_lines, lines, pairs, line. rewrite map_map. reflexivity.
Qed.
Definition manifest_lines (main : list (str * str)) (subs : list (list (str * str))) : list str :=
  lit "Manifest main section:" :: pairs main ++ concat (map (fun l => [] :: lit "Manifest sub-section:" :: pairs l) subs) ++ [[]].
Lemma lines_app a b : lines (a ++ b) = lines a ++ lines b.
Proof. unfold lines. now rewrite map_app, concat_app. Qed.
Lemma lines_concat l : lines (concat l) = concat (map lines l).
Proof. induction l as [|x l IH]; [reflexivity|]. cbn [concat map]. now rewrite lines_app, IH. Qed.
Lemma manifest_text_ok m : m_main m <> [] -> NoDup (dkeys (m_main m)) -> NoDup (dkeys (m_subs m)) -> (forall n s, In (n, s) (m_subs m) -> NoDup (dkeys s)) ->
  exists main order subs, in_key_order (m_main m) main /\ in_key_order (m_subs m) order /\ Forall2 (fun ns l => in_key_order (snd ns) l) order subs /\
    manifest_text m = lines (manifest_lines main subs).
Proof.
  intros NE N1 N2 N3. destruct (pair_lines_ok _ N1) as (main & M1 & M2). pose proof (sorted_items_ok _ N2) as O. exists main, (sorted_items (m_subs m)).
  assert (Q : exists subs, Forall2 (fun (ns : str * dict str) l => in_key_order (snd ns) l) (sorted_items (m_subs m)) subs /\
    concat (map (fun ns : str * dict str => line [] ++ line (lit "Manifest sub-section:") ++ pair_lines (snd ns)) (sorted_items (m_subs m))) = lines (concat (map (fun l => [] :: lit "Manifest sub-section:" :: pairs l) subs))).
  { assert (A : forall n s, In (n, s) (sorted_items (m_subs m)) -> NoDup (dkeys s)) by (intros n s X; apply (N3 n); eapply Permutation_in; [symmetry; apply O|exact X]).
    clear - A. induction (sorted_items (m_subs m)) as [|[n s] l IH]; [exists []; split; [constructor|reflexivity]|].
    destruct IH as (subs & S1 & S2); [intros n' s' X; apply (A n'); now right|]. destruct (pair_lines_ok s (A n s (or_introl eq_refl))) as (x & X1 & X2). exists (x :: subs). split; [now constructor|].
    cbn [map concat fst snd]. rewrite S2, X2. unfold line. rewrite lines_app. unfold lines at 2. cbn [map concat]. fold (lines (pairs x)). rewrite <- ?app_assoc. reflexivity. }
  destruct Q as (subs & S1 & S2). exists subs. split; [exact M1|]. split; [exact O|]. split; [exact S1|].
  unfold manifest_text. destruct (m_main m) as [|kv rest] eqn:EM; [congruence|]. rewrite <- EM in *. rewrite M2, S2. unfold manifest_lines. unfold lines at 3. cbn [map concat]. fold (lines (pairs main ++ concat (map (fun l => [] :: lit "Manifest sub-section:" :: pairs l) subs) ++ [[]])). rewrite !lines_app. reflexivity.
Qed.
Lemma zread_content a n d : content a n d -> zread (map (fun e => (e_name e, e_data e)) (a_entries a)) n = Ok d.
Proof.
  intros (l1 & e & l2 & E & EN & ED & N). unfold zread. rewrite E, map_app. cbn [map]. rewrite rev_app_distr. cbn [rev]. rewrite <- app_assoc. cbn [app].
  assert (G : forall l : list zentry, ~ In n (map e_name l) -> forall r : dict bytes, dget (rev (map (fun e => (e_name e, e_data e)) l) ++ r) n = dget r n).
  { induction l as [|x l IH]; intros NI r; [reflexivity|]. cbn [map rev]. rewrite <- app_assoc. cbn [map] in NI. rewrite IH; [|intro X; apply NI; now right]. cbn [app dget]. destruct (seqb n (e_name x)) eqn:Q; [|reflexivity]. apply seqb_eq in Q. exfalso. apply NI. now left. }
  rewrite (G _ N). cbn [dget]. rewrite EN, seqb_refl. now rewrite ED.
Qed.
Lemma names_zip a : Sign_Model.namelist (map (fun e => (e_name e, e_data e)) (a_entries a)) = names a.
Proof. unfold Sign_Model.namelist, names. rewrite map_map. reflexivity. Qed.
Theorem manifest_shown a data m : a_kind a = Zip -> content a (lit "META-INF/MANIFEST.MF") data -> man_parse (new_manifest None) data = Ok m ->
  exists main order subs, in_key_order (m_main m) main /\ in_key_order (m_subs m) order /\ Forall2 (fun ns l => in_key_order (snd ns) l) order subs /\
    print_manifest (Ok a) = Ok (lines (manifest_lines main subs)).
Proof.
  intros K C M. destruct (parse_shape _ _ M) as (P1 & P2 & P3 & P4). destruct (manifest_text_ok m P1 P2 P3 P4) as (main & order & subs & X1 & X2 & X3 & X4). exists main, order, subs. do 3 (split; [assumption|]).
  unfold print_manifest, jar_manifest. cbn [rbind]. unfold zip_of. rewrite K. cbn [rbind]. unfold load_from_jar. rewrite names_zip.
  assert (S : smem MANIFEST_NAME (names a) = true) by (apply smem_In, Zip_Proofs.names_content; exists data; exact C). rewrite S. cbn [negb]. rewrite (zread_content a MANIFEST_NAME data C). cbn [rbind]. rewrite M. cbn [rbind]. now rewrite X4.
Qed.
Theorem manifest_missing a : ~ In (lit "META-INF/MANIFEST.MF") (names a) -> exists e, print_manifest (Ok a) = Err e.
Proof.
  intro N. unfold print_manifest, jar_manifest. cbn [rbind]. destruct (zip_of a) as [z|e] eqn:Z; [|now exists e]. unfold zip_of in Z. destruct (a_kind a); [|discriminate]. injection Z as <-. cbn [rbind]. unfold load_from_jar. rewrite names_zip.
  destruct (smem MANIFEST_NAME (names a)) eqn:S; [apply smem_In in S; contradiction|]. cbn [negb rbind]. now exists MissingManifestError.
Qed.
Theorem manifest_never j s : print_manifest j = Ok s -> exists rest, s = lines [lit "Manifest main section:"] ++ rest.
Proof.
  unfold print_manifest. destruct (jar_manifest j) as [m|] eqn:E; [|discriminate]. cbn [rbind]. intro H. injection H as <-.
  assert (N : m_main m <> []).
  { unfold jar_manifest in E. destruct j as [a|]; [|discriminate]. cbn [rbind] in E. destruct (zip_of a) as [z|]; [|discriminate]. cbn [rbind] in E. unfold load_from_jar in E. destruct (negb _); [discriminate|]. destruct (zread z MANIFEST_NAME) as [d|]; [|discriminate]. cbn [rbind] in E. now apply parse_shape in E. }
  unfold manifest_text. destruct (m_main m) eqn:EM; [congruence|]. assert (L : forall x, lines [x] = line x) by (intro x; unfold lines; cbn [map concat]; apply app_nil_r). rewrite L. eexists. reflexivity.
Qed.

(** ** Classes *)
Section Classes.
Variable fmt : pyval -> str.
Variable repr : pyval -> str.
Variable reprs : str -> str.
Variable ffmt : pyval -> str.
Variable text : bytes -> res str.
Variable order : list str -> list str.
Definition class_text (o : popts) (ec : str * jclassfile) : res str :=
  r <- unpack_class_stream (enc_class (snd ec)) MNone ;; s <- cli_print fmt repr reprs ffmt order o r ;; Ok (lines [lit "Entry:  " ++ fst ec] ++ s ++ [10]).
Theorem classes_shown o a cs : jar_holds a cs -> print_classes fmt repr reprs ffmt text order (cli_options o) (Ok a) = (ss <- mapM (class_text o) cs ;; Ok (concat ss)).
Proof.
  intro H. unfold print_classes. cbn [rbind]. assert (JC : jar_classes a = Ok (map fst cs)).
  { unfold jar_classes, Zip_Model.namelist. rewrite (jh_kind _ _ H). cbn [rbind]. f_equal. symmetry. exact (picks_fun _ _ _ (picks_filter _ _ _ class_entry_iff) _ (jh_names _ _ H)). }
  rewrite JC. cbn [rbind].
  assert (D := jh_data _ _ H). assert (K := jh_kind _ _ H). assert (OP := jh_open _ _ H). clear H JC. induction cs as [|[e c] cs IH]; [reflexivity|]. cbn [map class_entries mapM fst].
  destruct (D e c (or_introl eq_refl)) as [C _]. unfold jar_classinfo at 1. rewrite (Jardiff_Jar.read_content text a e _ K OP C). cbn [rbind]. unfold class_text at 1. cbn [fst snd]. destruct (unpack_class_stream (enc_class c) MNone) as [r|x]; [|reflexivity]. cbn [rbind]. unfold cli_print. destruct (print_classinfo fmt repr reprs ffmt order (cli_options o) r) as [s|x]; [|reflexivity]. cbn [rbind].
  rewrite IH; [|intros e' c' X; apply D; now right]. destruct (mapM (class_text o) cs) as [ss|x]; [|reflexivity]. cbn [rbind concat]. unfold lines, line. cbn [map concat]. rewrite app_nil_r, <- !app_assoc. reflexivity.
Qed.
End Classes.

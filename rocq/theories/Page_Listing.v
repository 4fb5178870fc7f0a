(** How the templates list changes by type: proofs. *)
From Verif Require Import Base Change_Model Change_Spec Change_Proofs Change_Report Zip_Model Zip_Proofs Html_Model Html_Spec Report_Model Jinfo_Spec Jinfo_Proofs Page_Model Page_Spec.
From Verif Require Jardiff_Jar.
From Coq Require Import Permutation Sorting.Sorted.

(** ** Sequences *)
Lemma rank_In ts x : In x ts -> (rank ts x < length ts)%nat.
Proof. induction ts as [|y ts IH]; [intros []|]. cbn [rank length]. destruct (seqb_spec x y) as [->|N]; [lia|]. intros [->|H]; [contradiction|]. specialize (IH H). lia. Qed.
Lemma rank_before ts x y : In x ts -> In y ts -> (rank ts x < rank ts y)%nat -> exists p q s, ts = p ++ x :: q ++ y :: s.
Proof.
  induction ts as [|z ts IH]; [intros []|]. cbn [rank]. destruct (seqb_spec x z) as [->|N]; destruct (seqb_spec y z) as [->|N'].
  - lia.
  - intros _ [->|H] _; [contradiction|]. apply in_split in H as (q & s & ->). now exists [], q, s.
  - lia.
  - intros [->|H1] [->|H2] L; try contradiction. destruct (IH H1 H2 ltac:(lia)) as (p & q & s & ->). now exists (z :: p), q, s.
Qed.
Lemma rank_inj ts x y : In x ts -> In y ts -> rank ts x = rank ts y -> x = y.
Proof.
  induction ts as [|z ts IH]; [intros []|]. cbn [rank]. destruct (seqb_spec x z) as [->|N]; destruct (seqb_spec y z) as [->|N']; try discriminate; [reflexivity|].
  intros [->|H1] [->|H2] L; try contradiction. injection L as L. auto.
Qed.
(** The order of ranks in [ts] is the one in [all]. *)
Definition same_order (ts all : list str) : bool :=
  forallb (fun x => forallb (fun y => negb (rank ts x <=? rank ts y)%nat || (rank all x <=? rank all y)%nat) all) all.
Lemma in_sequence_ranks ts all l : same_order ts all = true -> NoDup l -> Forall (fun x => In x all) l ->
  StronglySorted (fun x y => (rank ts x <= rank ts y)%nat) l -> in_sequence all l.
Proof.
  intros HO N F S. split; [exact F|]. induction S as [|x l S IH FX]; [constructor|]. inversion N as [|? ? N1 N2]; subst. inversion F as [|? ? F1 F2]; subst. constructor; [auto|].
  apply Forall_forall. intros y HY. rewrite Forall_forall in FX, F2. apply rank_before; [exact F1|now apply F2|]. specialize (FX y HY). unfold same_order in HO.
  rewrite forallb_forall in HO. specialize (HO x F1). rewrite forallb_forall in HO. specialize (HO y (F2 y HY)). apply Nat.leb_le in FX. rewrite FX in HO. cbn [negb orb] in HO. apply Nat.leb_le in HO.
  destruct (Nat.eq_dec (rank all x) (rank all y)) as [E|]; [|lia]. apply rank_inj in E; [|exact F1|now apply F2]. subst. contradiction.
Qed.
Lemma in_sequence_map (f : str -> str) all l : in_sequence all l -> in_sequence (map f all) (map f l).
Proof.
  intros [F S]. split; [rewrite Forall_map; revert F; apply Forall_impl; intros; now apply in_map|]. clear F. induction S as [|x l S IH FX]; [constructor|]. cbn [map]. constructor; [exact IH|].
  rewrite Forall_map. revert FX. apply Forall_impl. intros y (p & q & s & ->). exists (map f p), (map f q), (map f s). now rewrite !map_app, !map_cons, map_app, map_cons.
Qed.

Lemma NoDup_right {A} (l m : list A) : NoDup (l ++ m) -> NoDup m.
Proof. induction l as [|x l IH]; [auto|]. intro N. inversion N; subst. auto. Qed.
Lemma NoDup_left {A} (l m : list A) : NoDup (l ++ m) -> NoDup l.
Proof. induction l as [|x l IH]; [constructor|]. intro N. inversion N; subst. constructor; [|auto]. intro. apply H1, in_or_app. now left. Qed.

(** ** One category *)
Definition html_of (x : kid) : list html := match snd x with Ok h => h | Err _ => [] end.
Definition name_of_kid (x : kid) : str := match k_entry (k_of (fst x)) with Some e => e | None => [] end.
Definition good_kid (x : kid) : Prop := k_entry (k_of (fst x)) = Some (name_of_kid x) /\ snd x = Ok (html_of x).
Lemma good_entry x : good_kid x -> entry_of (fst x) = Ok (name_of_kid x).
Proof. intros [H _]. unfold entry_of. now rewrite H. Qed.
Lemma mapM_ok {A B} (f : A -> res B) (g : A -> B) l : (forall x, In x l -> f x = Ok (g x)) -> mapM f l = Ok (map g l).
Proof. induction l as [|x l IH]; intro H; [reflexivity|]. cbn [mapM map]. rewrite (H x (or_introl eq_refl)). cbn [rbind]. rewrite IH; [reflexivity|]. intros y HY. apply H. now right. Qed.
Lemma fold_dset {V} (l d : list (str * V)) : NoDup (map fst d ++ map fst l) -> fold_left (fun d ex => dset d (fst ex) (snd ex)) l d = d ++ l.
Proof.
  revert d. induction l as [|[k v] l IH]; intros d N; [now rewrite app_nil_r|]. cbn [fold_left fst snd map] in *.
  assert (E : dset d k v = d ++ [(k, v)]).
  { assert (NI : ~ In k (map fst d)). { intro H. apply NoDup_remove_2 in N. apply N, in_or_app. now left. } clear -NI. induction d as [|[k' v'] d IH]; [reflexivity|]. cbn [dset app]. cbn [map fst] in NI. destruct (seqb_spec k k') as [->|]; [exfalso; apply NI; now left|]. now rewrite IH by (intro; apply NI; now right). }
  rewrite E, IH; [now rewrite <- app_assoc|]. rewrite map_app, <- app_assoc. exact N.
Qed.
Lemma by_entry_ok b : Forall good_kid b -> NoDup (map name_of_kid b) -> by_entry b = Ok (map (fun x => (name_of_kid x, x)) b).
Proof.
  intros F N. unfold by_entry. rewrite (mapM_ok _ (fun x => (name_of_kid x, x))). 2:{ intros x HX. rewrite Forall_forall in F. now rewrite (good_entry x (F x HX)). }
  cbn [rbind]. rewrite fold_dset; [reflexivity|]. rewrite map_map. exact N.
Qed.
Lemma dget_own (b : list kid) x : NoDup (map name_of_kid b) -> In x b -> dget (map (fun x => (name_of_kid x, x)) b) (name_of_kid x) = Some x.
Proof.
  induction b as [|y b IH]; [intros _ []|]. cbn [map dget]. intros N [->|H]; [now rewrite seqb_refl|]. inversion N as [|? ? N1 N2]; subst. destruct (seqb_spec (name_of_kid x) (name_of_kid y)) as [E|]; [|auto].
  exfalso. apply N1. rewrite <- E. now apply in_map.
Qed.
Lemma category_ok b lb : b <> [] -> Forall good_kid b -> NoDup (map name_of_kid b) -> exists b', Permutation b' b /\ StronglySorted before (map name_of_kid b') /\
  category b lb = Ok (group_html (mkgroup lb (map (fun x => (name_of_kid x, html_of x)) b'))).
Proof.
  intros HB F N. assert (E : dkeys (map (fun x : kid => (name_of_kid x, x)) b) = map name_of_kid b) by (unfold dkeys; now rewrite map_map).
  destruct (Permutation_map_inv _ _ (Permutation_sym (sort_perm (map name_of_kid b)))) as (b' & EB & PB). exists b'. split; [now apply Permutation_sym|]. rewrite <- EB. split; [now apply sort_names_sorted|].
  unfold category. destruct b as [|x b]; [contradiction|]. set (B := x :: b) in *. rewrite by_entry_ok by assumption. cbn [rbind]. rewrite E, EB.
  assert (M : mapM (fun e => match dget (map (fun x => (name_of_kid x, x)) B) e with Some x => snd x | None => Err KeyError end) (map name_of_kid b') = Ok (map html_of b')).
  { clear EB. assert (I : forall x, In x b' -> In x B) by (intros z HZ; eapply Permutation_in; [apply Permutation_sym; exact PB|exact HZ]). clear PB HB E. induction b' as [|y b' IH]; [reflexivity|]. cbn [map mapM]. rewrite dget_own by (auto; apply I; now left).
    rewrite Forall_forall in F. rewrite (proj2 (F y (I y (or_introl eq_refl)))). cbn [rbind]. rewrite IH; [reflexivity|]. intros z HZ. apply I. now right. }
  rewrite M. cbn [rbind]. f_equal. unfold group_html, el, class_is, attrs_of, txt. cbn [g_heading g_items map fst snd app]. rewrite map_map. cbn [snd]. reflexivity.
Qed.

(** ** Buckets *)
Section Listing.
Variable ts : list str.
Variable aliases : list (str * str).
Definition is_squashed (x : kid) : bool := seqb (kid_type x) (lit "SquashedChange").
Definition key (x : kid) : str :=
  if is_squashed x then match k_orig (k_of (fst x)) with Some oc => match dget aliases oc with Some t => t | None => oc end | None => [] end else kid_type x.
Definition buckets (m : dict (list kid)) : Prop := NoDup (dkeys m) /\ Forall (fun tb => snd tb <> [] /\ Forall (fun x => key x = fst tb) (snd tb)) m.
Lemma dset_perm (m : dict (list kid)) k x :
  Permutation (concat (map snd (dset m k ((match dget m k with Some b => b | None => [] end) ++ [x])))) (x :: concat (map snd m)).
Proof.
  induction m as [|[k' b'] m IH]; cbn [dget dset]; [reflexivity|]. destruct (seqb k k').
  - cbn [map concat snd]. rewrite <- app_assoc. cbn [app]. symmetry. apply Permutation_middle.
  - cbn [map concat snd]. etransitivity; [apply Permutation_app_head; exact IH|]. symmetry. apply Permutation_middle.
Qed.
Lemma dset_buckets m k x : buckets m -> key x = k -> buckets (dset m k ((match dget m k with Some b => b | None => [] end) ++ [x])).
Proof.
  intros [N F] HK. split; [now apply NoDup_dset|]. clear N. induction m as [|[k' b'] m IH]; cbn [dget dset].
  - constructor; [|constructor]. cbn [fst snd app]. split; [discriminate|]. repeat constructor. exact HK.
  - inversion F as [|? ? [F0 F1] F2]; subst. cbn [fst snd] in *. destruct (seqb_spec (key x) k') as [E|].
    + constructor; [|exact F2]. cbn [fst snd]. split; [destruct b'; discriminate|]. apply Forall_app. split; [exact F1|]. repeat constructor. exact E.
    + constructor; [split; assumption|]. now apply IH.
Qed.
Lemma gather_ok sqs : forall m, buckets m -> Forall (fun x => is_squashed x = true /\ k_orig (k_of (fst x)) <> None) sqs ->
  exists m', gather aliases m sqs = Ok m' /\ buckets m' /\ Permutation (concat (map snd m')) (concat (map snd m) ++ sqs).
Proof.
  induction sqs as [|x sqs IH]; intros m HB F; cbn [gather]; [exists m; rewrite app_nil_r; auto|]. inversion F as [|? ? [F0 F1] F2]; subst. unfold original.
  assert (EK : key x = match k_orig (k_of (fst x)) with Some oc => match dget aliases oc with Some t => t | None => oc end | None => [] end) by (unfold key; now rewrite F0).
  destruct (k_orig (k_of (fst x))) as [oc|]; [|contradiction]. cbn [rbind]. rewrite <- EK.
  destruct (IH _ (dset_buckets m (key x) x HB eq_refl) F2) as (m' & G & B & P). exists m'. split; [exact G|]. split; [exact B|]. etransitivity; [exact P|]. etransitivity; [apply Permutation_app_tail, dset_perm|]. cbn [app]. apply Permutation_middle.
Qed.
Definition filled (tb : str * list kid) : bool := match snd tb with [] => false | _ => true end.
Lemma ddel_buckets m k : buckets m -> buckets (ddel m k) /\ ~ In k (dkeys (ddel m k)).
Proof.
  intros [N F]. destruct (dget m k) as [b|] eqn:E.
  - destruct (dget_split _ _ _ E) as (d1 & d2 & -> & ->). unfold buckets, dkeys in *. rewrite map_app in *. cbn [map fst] in *. apply Forall_app in F as [F1 F2]. inversion F2; subst. split.
    + split; [now apply NoDup_remove_1 in N|apply Forall_app; now split].
    + now apply NoDup_remove_2 in N.
  - destruct (ddel_none _ _ E) as [-> HN]. split; [split; assumption|exact HN].
Qed.
Lemma ddel_perm (m : dict (list kid)) k : Permutation (concat (map snd m)) ((match dget m k with Some b => b | None => [] end) ++ concat (map snd (ddel m k))).
Proof.
  destruct (dget m k) as [b|] eqn:E; [|destruct (ddel_none _ _ E) as [-> _]; reflexivity].
  destruct (dget_split _ _ _ E) as (d1 & d2 & -> & ->). rewrite !map_app, !concat_app. cbn [map concat snd]. rewrite !app_assoc. apply Permutation_app_tail, Permutation_app_comm.
Qed.
Lemma dget_bucket m k b : buckets m -> dget m k = Some b -> b <> [] /\ Forall (fun x => key x = k) b.
Proof. intros [_ F] E. destruct (dget_split _ _ _ E) as (d1 & d2 & -> & _). apply Forall_app in F as [_ F]. now inversion F. Qed.
Lemma pop_ok : forall us m, buckets m -> let L := filter filled (pop_each m us) in
  buckets L /\ Permutation (concat (map snd L)) (concat (map snd m)) /\ (forall k, In k (map fst L) -> In k (dkeys m)) /\
  StronglySorted (fun x y => (rank us x <= rank us y)%nat) (map fst L).
Proof.
  induction us as [|u us IH]; intros m HB L.
  - subst L. cbn [pop_each]. assert (E : filter filled m = m). { destruct HB as [_ F]. induction F as [|[t b] m [H _] _ IH]; [reflexivity|]. cbn [filter]. unfold filled at 1. cbn [snd] in *. destruct b; [contradiction|]. now rewrite IH. }
    rewrite E. split; [exact HB|]. split; [reflexivity|]. split; [auto|]. clear. induction (map fst m) as [|x l IHl]; constructor; [exact IHl|]. apply Forall_forall. intros. cbn [rank]. lia.
  - cbn [pop_each] in L. destruct (ddel_buckets m u HB) as [HD HN]. destruct (IH (ddel m u) HD) as (B1 & B2 & B3 & B4). set (L' := filter filled (pop_each (ddel m u) us)) in *.
    assert (S' : StronglySorted (fun x y => (rank (u :: us) x <= rank (u :: us) y)%nat) (map fst L') /\ Forall (fun y => y <> u) (map fst L')).
    { assert (FN : Forall (fun y => y <> u) (map fst L')) by (apply Forall_forall; intros y HY ->; apply HN; now apply B3). split; [|exact FN]. clear -B4 FN. induction B4 as [|x l S IHS FX]; [constructor|]. inversion FN as [|? ? N1 N2]; subst. constructor; [auto|].
      apply Forall_forall. intros y HY. rewrite Forall_forall in FX, N2. specialize (FX y HY). specialize (N2 y HY). cbn [rank]. destruct (seqb_spec x u); [contradiction|]. destruct (seqb_spec y u); [contradiction|]. lia. }
    destruct S' as [S' FN]. assert (KD : forall k, In k (dkeys (ddel m u)) -> In k (dkeys m)).
    { intros k. destruct (dget m u) as [b|] eqn:E; [|destruct (ddel_none _ _ E) as [-> _]; auto]. destruct (dget_split _ _ _ E) as (d1 & d2 & -> & ->). unfold dkeys. rewrite !map_app. cbn [map fst]. rewrite !in_app_iff. cbn [In]. tauto. }
    pose proof (ddel_perm m u) as PM. subst L. cbn [filter]. unfold filled at 1 4 7 10. cbn [snd]. fold L'. destruct (dget m u) as [b|] eqn:E.
    + destruct (dget_bucket m u b HB E) as [NB FB]. destruct b as [|x b]; [contradiction|]. cbn [app] in PM. split; [|split; [|split]].
      * split; [|constructor; [now split|apply B1]]. unfold dkeys. cbn [map fst]. constructor; [|apply B1]. rewrite Forall_forall in FN. intro HI. now apply (FN u HI).
      * cbn [map concat snd]. rewrite PM. cbn [app]. constructor. now apply Permutation_app_head.
      * cbn [map fst]. intros k [<-|HI]; [|apply KD, B3, HI]. apply (dget_split m u) in E as (d1 & d2 & -> & _). unfold dkeys. rewrite map_app. apply in_or_app. right. now left.
      * cbn [map fst]. constructor; [exact S'|]. apply Forall_forall. intros. cbn [rank]. rewrite seqb_refl. lia.
    + cbn [app] in PM. split; [exact B1|]. split; [now rewrite PM|]. split; [auto|exact S'].
Qed.

Variable label_of : str -> str.
Variable all : list str.
Hypothesis labels_ok : forall t, In t all \/ In t ts -> class_label t = Ok (label_of t).
Hypothesis order_ok : same_order ts all = true.
Theorem listing_ok kids : Forall good_kid kids -> NoDup (map name_of_kid kids) -> Forall (fun x => is_squashed x = true -> k_orig (k_of (fst x)) <> None) kids -> Forall (fun x => In (key x) all) kids ->
  exists cats, listing ts aliases kids = Ok (flat_map (fun tb => group_html (mkgroup (label_of (fst tb)) (map (fun x => (name_of_kid x, html_of x)) (snd tb)))) cats) /\
    Permutation (concat (map snd cats)) kids /\ in_sequence all (map fst cats) /\
    Forall (fun tb => snd tb <> [] /\ StronglySorted before (map name_of_kid (snd tb)) /\ Forall (fun x => key x = fst tb) (snd tb)) cats.
Proof.
  intros FG N FS FA. unfold listing. destruct (blocks_collect kid_type kids) as [[B1 B2] P0]. destruct (good_collect kid_type kids) as [_ G0]. set (m0 := collect_by_type kid_type kids) in *.
  set (S := lit "SquashedChange"). set (sqs := match dget m0 S with Some b => b | None => [] end).
  assert (HS : Forall (fun x => is_squashed x = true /\ k_orig (k_of (fst x)) <> None) sqs).
  { subst sqs. destruct (dget m0 S) as [b|] eqn:E; [|constructor]. destruct (G0 S) as [[E1 _]|[E1 _]]; [congruence|]. rewrite E in E1. injection E1 as ->. apply Forall_forall. intros x HX. unfold of_type in HX. apply filter_In in HX as [HI HX]. split; [exact HX|]. rewrite Forall_forall in FS. now apply FS. }
  assert (HB : buckets (ddel m0 S)).
  { split.
    - destruct (dget m0 S) as [b|] eqn:E; [|destruct (ddel_none _ _ E) as [-> _]; exact B1]. destruct (dget_split _ _ _ E) as (d1 & d2 & E1 & ->). rewrite E1 in B1. unfold dkeys in *. rewrite map_app in *. now apply NoDup_remove_1 in B1.
    - assert (HI : forall tb, In tb (ddel m0 S) -> In tb m0 /\ fst tb <> S).
      { intros tb HT. destruct (dget m0 S) as [b|] eqn:E.
        - destruct (dget_split _ _ _ E) as (d1 & d2 & E1 & E2). rewrite E2 in HT. rewrite E1 in B1. unfold dkeys in B1. rewrite map_app in B1. apply NoDup_remove_2 in B1. split; [rewrite E1; apply in_or_app; apply in_app_or in HT as [|]; [now left|right; now right]|].
          intro ET. apply B1. rewrite <- ET. apply in_app_or in HT as [HT|HT]; apply in_or_app; [left|right]; exact (in_map fst _ _ HT).
        - destruct (ddel_none _ _ E) as [E2 HN]. rewrite E2 in HT. split; [exact HT|]. intro ET. apply HN. rewrite <- ET. exact (in_map fst _ _ HT). }
      apply Forall_forall. intros [t b] HT. destruct (HI _ HT) as [HM HNE]. cbn [fst snd] in *. rewrite Forall_forall in B2. specialize (B2 _ HM). cbn [fst snd] in B2. split.
      + assert (EG : dget m0 t = Some b). { clear -HM B1. induction m0 as [|[k v] d IH]; [destruct HM|]. unfold dkeys in B1. cbn [map fst] in B1. inversion B1 as [|? ? N1 N2]; subst. cbn [dget]. destruct HM as [E|HM]; [injection E as -> ->; now rewrite seqb_refl|]. destruct (seqb_spec t k) as [->|]; [|now apply IH]. exfalso. apply N1. change k with (fst (k, b)). now apply in_map. }
        destruct (G0 t) as [[E _]|[E NE]]; congruence.
      + revert B2. apply Forall_impl. intros x HX. unfold key, is_squashed. rewrite HX. destruct (seqb_spec t (lit "SquashedChange")); [contradiction|reflexivity]. }
  destruct (gather_ok sqs _ HB HS) as (m & -> & BM & PM). cbn [rbind]. destruct (pop_ok ts m BM) as (L1 & L2 & L3 & L4). set (L := pop_each m ts) in *. set (LF := filter filled L) in *.
  assert (PK : Permutation (concat (map snd LF)) kids).
  { etransitivity; [exact L2|]. etransitivity; [exact PM|]. etransitivity; [apply Permutation_app_comm|]. etransitivity; [|exact P0]. symmetry. apply ddel_perm. }
  assert (IK : forall t b x, In (t, b) LF -> In x b -> In x kids).
  { intros t b x HT HX. eapply Permutation_in; [exact PK|]. apply in_concat. exists b. split; [|exact HX]. change b with (snd (t, b)). now apply in_map. }
  assert (CL : forall tb, In tb LF -> exists b', Permutation b' (snd tb) /\ StronglySorted before (map name_of_kid b') /\
    forall lb, category (snd tb) lb = Ok (group_html (mkgroup lb (map (fun x => (name_of_kid x, html_of x)) b')))).
  { intros [t b] HT. cbn [snd]. destruct L1 as [_ F1]. rewrite Forall_forall in F1. destruct (F1 _ HT) as [NE _]. cbn [snd] in NE.
    assert (GB : Forall good_kid b) by (apply Forall_forall; intros x HX; rewrite Forall_forall in FG; apply FG; eapply IK; eassumption).
    assert (NB : NoDup (map name_of_kid b)).
    { assert (NK : NoDup (map name_of_kid (concat (map snd LF)))) by (eapply Permutation_NoDup; [apply Permutation_map, Permutation_sym, PK|exact N]). apply in_split in HT as (u & v & E). rewrite E in NK. rewrite map_app, concat_app, map_app in NK. cbn [map concat snd] in NK. rewrite map_app in NK. apply NoDup_right in NK. now apply NoDup_left in NK. }
    destruct (category_ok b [] NE GB NB) as (b' & P1 & S1 & _). destruct (category_ok b [] NE GB NB) as (b0 & _). exists b'. split; [exact P1|]. split; [exact S1|]. intro lb.
    destruct (category_ok b lb NE GB NB) as (b2 & P2 & S2 & E2). rewrite E2. assert (b2 = b') as ->; [|reflexivity]. clear -P1 P2 S1 S2 NB. assert (P : Permutation b2 b') by (etransitivity; [exact P2|now apply Permutation_sym]). assert (N2 : NoDup (map name_of_kid b2)) by (eapply Permutation_NoDup; [apply Permutation_map, Permutation_sym, P2|exact NB]). clear P1 P2 NB b.
    revert b' S1 P. induction b2 as [|x b2 IH]; intros b' S1 P; [now apply Permutation_nil in P|]. destruct b' as [|y b']; [apply Permutation_sym, Permutation_nil in P; discriminate|].
    cbn [map] in *. inversion S2 as [|? ? S2' F2]; subst. inversion S1 as [|? ? S1' F1]; subst. inversion N2 as [|? ? NX N2']; subst. rewrite Forall_map, Forall_forall in F1, F2.
    assert (x = y) as ->.
    { assert (HX : In x (y :: b')) by (eapply Permutation_in; [exact P|now left]). assert (HY : In y (x :: b2)) by (eapply Permutation_in; [apply Permutation_sym; exact P|now left]).
      destruct HX as [<-|HX]; [reflexivity|]. destruct HY as [<-|HY]; [reflexivity|]. exfalso. specialize (F1 _ HX). specialize (F2 _ HY). clear -F1 F2. revert F2. induction F1; intro F2; inversion F2; subst; try lia; auto. }
    f_equal. apply IH; auto. now apply Permutation_cons_inv in P. }
  (* choose the sorted buckets *)
  assert (CH : exists cats, Forall2 (fun tb ct => fst ct = fst tb /\ Permutation (snd ct) (snd tb) /\ StronglySorted before (map name_of_kid (snd ct)) /\ forall lb, category (snd tb) lb = Ok (group_html (mkgroup lb (map (fun x => (name_of_kid x, html_of x)) (snd ct))))) LF cats).
  { clear -CL. induction LF as [|tb LF IH]; [exists []; constructor|]. destruct IH as [cats HC]; [intros; apply CL; now right|]. destruct (CL tb (or_introl eq_refl)) as (b' & P1 & S1 & E1). exists ((fst tb, b') :: cats). constructor; [auto|exact HC]. }
  destruct CH as [cats HC]. exists cats.
  assert (FC : map fst cats = map fst LF) by (clear -HC; induction HC as [|tb ct x y (H & _) _ IH]; [reflexivity|]; cbn [map]; now rewrite H, IH).
  assert (KA : Forall (fun t => In t all) (map fst LF)).
  { apply Forall_forall. intros t HT. apply in_map_iff in HT as ([t' b] & <- & HT). cbn [fst]. destruct L1 as [_ F1]. rewrite Forall_forall in F1. destruct (F1 _ HT) as [NE FK]. cbn [fst snd] in *. destruct b as [|x b]; [contradiction|]. inversion FK as [|? ? KX _]; subst. rewrite Forall_forall in FA. apply FA. eapply IK; [exact HT|now left]. }
  split; [|split; [|split]].
  - assert (HM : exists hs, mapM (fun tb => lb <- class_label (fst tb) ;; category (snd tb) lb) L = Ok hs /\ concat hs = flat_map (fun tb => group_html (mkgroup (label_of (fst tb)) (map (fun x => (name_of_kid x, html_of x)) (snd tb)))) cats).
    { assert (LT : forall t b, In (t, b) L -> b = [] -> In t ts).
      { subst L. clear -BM. revert m BM. induction ts as [|u us IH]; intros m BM t b HT E; cbn [pop_each] in HT; [destruct BM as [_ F]; rewrite Forall_forall in F; destruct (F _ HT) as [H _]; cbn [snd] in H; contradiction|]. destruct HT as [E'|HT]; [injection E' as <- _; now left|]. right. eapply IH; [|exact HT|exact E]. now apply ddel_buckets. }
      assert (LA : Forall (fun tb => filled tb = true -> In (fst tb) all) L).
      { apply Forall_forall. intros tb HT HF. rewrite Forall_forall in KA. apply KA. apply in_map. now apply filter_In. }
      subst LF. clear -HC LT LA labels_ok. revert cats HC. induction L as [|[t b] L IH]; intros cats HC; [inversion HC; subst; exists []; auto|]. cbn [filter] in HC. inversion LA as [|? ? A1 A2]; subst. cbn [mapM fst snd].
      destruct (filled (t, b)) eqn:EF.
      - inversion HC as [|? ct ? cats' (C1 & C2 & C3 & C4) HC']; subst. cbn [fst snd] in *. rewrite (labels_ok t (or_introl (A1 eq_refl))). cbn [rbind]. rewrite C4. cbn [rbind]. destruct (IH (fun t' b' H => LT t' b' (or_intror H)) A2 cats' HC') as (hs & -> & E). cbn [rbind]. eexists. split; [reflexivity|]. cbn [concat flat_map]. now rewrite E, C1.
      - assert (b = []) as -> by (unfold filled in EF; cbn [snd] in EF; destruct b; [reflexivity|discriminate]). rewrite (labels_ok t (or_intror (LT t [] (or_introl eq_refl) eq_refl))). cbn [rbind category].
        destruct (IH (fun t' b' H => LT t' b' (or_intror H)) A2 cats HC) as (hs & -> & E). cbn [rbind]. eexists. split; [reflexivity|]. exact E. }
    destruct HM as (hs & -> & E). cbn [rbind]. now rewrite E.
  - etransitivity; [|exact PK]. clear -HC. induction HC as [|tb ct x y (_ & H & _) _ IH]; [reflexivity|]. cbn [map concat]. now apply Permutation_app.
  - rewrite FC. apply (in_sequence_ranks ts all); [exact order_ok|apply L1|exact KA|exact L4].
  - destruct L1 as [_ F1]. clear -HC F1. induction HC as [|tb ct x y (H0 & H1 & H2 & _) _ IH]; [constructor|]. inversion F1 as [|? ? [G1 G2] G3]; subst. constructor; [|auto]. split; [intro E; rewrite E in H1; now apply Permutation_nil in H1|]. split; [exact H2|].
    rewrite H0. apply Forall_forall. intros z HZ. rewrite Forall_forall in G2. apply G2. eapply Permutation_in; eassumption.
Qed.
End Listing.

(** Proofs about the comparison of distributions. *)
From Verif Require Import Base Pack_Model ConstPool_Model ConstPool_Spec ClassFile_Model Manifest_Model Sign_Spec Sign_Names
  Change_Model Change_Spec Change_Proofs Change_Report Classdiff_Model Classdiff_Spec Classdiff_Class Classdiff_Passes Change_Tame
  Jardiff_Model Jardiff_Spec Jardiff_Proofs Jardiff_Jar Distdiff_Model Distdiff_Spec.
From Verif Require Zip_Model Dir_Model Dir_Spec Dir_Proofs.
From Coq Require Import Permutation.
Import Zip_Model (node, Dir, File, LEFT, RIGHT, SAME, DIFF, slashes).
Import Dir_Spec (found, file_at, data_at, dclass, plain, written).

Lemma cons_inj {A} (a b : A) l r : a :: l = b :: r -> a = b /\ l = r.
Proof. intro H. injection H as -> ->. auto. Qed.

(** ** Paths *)
Lemma split_none sep x : ~ In sep x -> split_at sep x = [x].
Proof.
  induction x as [|c x IH]; intro H; [reflexivity|]. cbn [split_at]. rewrite IH by (intro; apply H; now right). destruct (Z.eqb_spec c sep) as [->|_]; [exfalso; apply H; now left|reflexivity].
Qed.
Lemma split_app sep x y : ~ In sep x -> split_at sep (x ++ sep :: y) = x :: split_at sep y.
Proof.
  induction x as [|c x IH]; intro H.
  - cbn [app split_at]. rewrite Z.eqb_refl. destruct (split_at sep y) eqn:E; [destruct y; cbn in E; [discriminate|destruct (split_at sep y); [discriminate|destruct (_ =? _); discriminate]]|reflexivity].
  - cbn [app split_at]. rewrite IH by (intro; apply H; now right). destruct (Z.eqb_spec c sep) as [->|_]; [exfalso; apply H; now left|reflexivity].
Qed.
Lemma split_slashes p : p <> [] -> Forall name_ok p -> split_at 47 (slashes p) = p.
Proof.
  induction p as [|x p IH]; [contradiction|]. intros _ H. inversion H as [|? ? (H1 & H2 & H3) H4]; subst. destruct p as [|y p].
  - apply split_none. exact H3.
  - change (slashes (x :: y :: p)) with (x ++ 47 :: slashes (y :: p)). rewrite split_app by exact H3. f_equal. apply IH; [discriminate|exact H4].
Qed.
Lemma filter_names p : Forall name_ok p -> filter (fun x => negb (seqb x []) && negb (seqb x [46])) p = p.
Proof.
  induction 1 as [|x p (H1 & H2 & H3) H IH]; [reflexivity|]. cbn [filter]. destruct (seqb_spec x []); [contradiction|]. destruct (seqb_spec x [46]); [contradiction|]. cbn [negb andb]. now rewrite IH.
Qed.
Lemma components_slashes p : p <> [] -> Forall name_ok p -> components (slashes p) = p.
Proof. intros H1 H2. unfold components. rewrite split_slashes by assumption. now apply filter_names. Qed.
Lemma components_name p : p <> [] -> Forall name_ok p -> components (name_of p) = p.
Proof.
  intros H1 H2. destruct p as [|x [|y p]]; [contradiction| |now apply components_slashes]. unfold components, name_of. cbn [app].
  inversion H2 as [|? ? (A1 & A2 & A3) _]; subst. change (46 :: 47 :: x) with ([46] ++ 47 :: x). rewrite split_app by (intros [H|[]]; discriminate). rewrite split_none by exact A3.
  cbn [filter]. change (seqb [46] []) with false. change (seqb [46] [46]) with true. cbn [negb andb]. destruct (seqb_spec x []); [contradiction|]. destruct (seqb_spec x [46]); [contradiction|]. reflexivity.
Qed.
Lemma lookup_found n p : plain n -> forall m, found n p m -> lookup n p = Some m.
Proof.
  revert n. induction p as [|k p IH]; intros n HP m H; [inversion H; subst; reflexivity|].
  inversion H as [|? ? ? x ? ? Hin Hf]; subst. inversion HP as [| |? HN HK]; subst. cbn [lookup]. rewrite (Dir_Proofs.In_kid _ _ _ HN Hin). apply IH; [|exact Hf]. rewrite Forall_forall in HK. exact (HK _ Hin).
Qed.
Lemma read_data n p d : plain n -> names_ok n -> p <> [] -> data_at n p d -> read_file n (name_of p) = Ok d.
Proof.
  intros HP HN Hp (l & m & H). unfold read_file. rewrite components_name; [|exact Hp|exact (HN _ _ H)]. now rewrite (lookup_found _ _ HP _ H).
Qed.

(** ** Kinds *)
Definition last2 (s : str) : option (Z * Z) := match rev s with a :: b :: _ => Some (a, b) | _ => None end.
Lemma last2_app p e x : last2 e = Some x -> last2 (p ++ e) = Some x.
Proof. unfold last2. rewrite rev_app_distr. destruct (rev e) as [|a [|b r]]; try discriminate. intro H. exact H. Qed.
Definition kinds := [KJar; KClass; KText; KManifest].
Lemma ends_unique n k k' : ends_in n k -> ends_in n k' -> k = k'.
Proof.
  intros (p & e & H1 & ->) (p' & e' & H2 & E).
  assert (HE : forall k e, In e (extensions k) -> exists x, last2 e = Some x /\ existsb (fun y => match last2 y with Some z => (fst z =? fst x) && (snd z =? snd x) | None => false end) (extensions k) = true).
  { clear. intros k e H. destruct k; cbn [extensions In] in H; repeat destruct H as [<-|H]; try contradiction; eexists; (split; [reflexivity|reflexivity]). }
  assert (HU : forall k k' x, k <> k' -> existsb (fun y => match last2 y with Some z => (fst z =? fst x) && (snd z =? snd x) | None => false end) (extensions k) = true ->
    existsb (fun y => match last2 y with Some z => (fst z =? fst x) && (snd z =? snd x) | None => false end) (extensions k') = true -> False).
  { clear. intros k k' x Hk A B. apply existsb_exists in A as (y & A1 & A2). apply existsb_exists in B as (z & B1 & B2). destruct (last2 y) as [u|] eqn:Eu; [|discriminate]. destruct (last2 z) as [v|] eqn:Ev; [|discriminate].
    assert (u = v) as <-.
    { apply andb_true_iff in A2 as [A2 A3]. apply andb_true_iff in B2 as [B2 B3]. apply Z.eqb_eq in A2, A3, B2, B3. destruct u, v. cbn [fst snd] in *. congruence. }
    clear A2 B2 x. destruct k, k'; try (now apply Hk); cbn [extensions In] in A1, B1; repeat destruct A1 as [<-|A1]; try contradiction; vm_compute in Eu; injection Eu as <-; repeat destruct B1 as [<-|B1]; try contradiction; vm_compute in Ev; discriminate. }
  destruct (HE k e H1) as (x & X1 & X2). destruct (HE k' e' H2) as (y & Y1 & Y2). apply (last2_app p) in X1. rewrite E in X1. rewrite (last2_app p' e' y Y1) in X1. injection X1 as ->.
  destruct k, k'; try reflexivity; exfalso; refine (HU _ _ _ _ X2 Y2); discriminate.
Qed.
Lemma fnmatches_iff n pats exts : pats = map (fun e => 42 :: e) exts -> forallb no_wild exts = true ->
  (fnmatches n pats = true <-> exists p e, In e exts /\ n = p ++ e).
Proof.
  intros -> HE. unfold fnmatches. rewrite existsb_exists. split.
  - intros (x & Hx & H). apply in_map_iff in Hx as (e & <- & He). rewrite forallb_forall in HE. apply (glob_star e) in H as (p & ->); [eauto|exact (HE e He)].
  - intros (p & e & He & ->). exists (42 :: e). split; [now apply (in_map (fun e => 42 :: e))|]. rewrite forallb_forall in HE. apply (glob_star e); [exact (HE e He)|eauto].
Qed.
Lemma is_jar_iff n : fnmatches n JAR_PATTERNS = true <-> ends_in n KJar.
Proof. apply fnmatches_iff; reflexivity. Qed.
Lemma is_class_iff n : fnmatches n [lit "*.class"] = true <-> ends_in n KClass.
Proof. apply fnmatches_iff; reflexivity. Qed.
Lemma is_text_iff n : fnmatches n TEXT_PATTERNS = true <-> ends_in n KText.
Proof. apply fnmatches_iff; reflexivity. Qed.
Lemma is_manifest_iff n : fnmatches n [lit "*/MANIFEST.MF"] = true <-> ends_in n KManifest.
Proof. apply fnmatches_iff; reflexivity. Qed.
Lemma own_iff o n : dist_own n o = true <-> fmatched o n.
Proof.
  unfold dist_own, fmatched. apply fnmatches_matched.
Qed.

(** ** Lines *)
Lemma text_lines_spec t : lines_of t (text_lines t).
Proof.
  induction t as [|c t IH]; [constructor|]. cbn [text_lines]. destruct (Z.eqb_spec c 10) as [->|Hc].
  - apply (lines_more [] t). { intros []. } exact IH.
  - inversion IH as [E1 E2|l H1 H2 E1 E2|l t' ls H1 H2 E1 E2].
    + constructor; [discriminate|]. intros [H|[]]. congruence.
    + constructor; [discriminate|]. intros [H|H]; [congruence|contradiction].
    + cbn [app]. apply (lines_more (c :: l) t' ls); [|exact H2]. intros [H|H]; [congruence|contradiction].
Qed.
Lemma lines_fun t ls : lines_of t ls -> forall ls', lines_of t ls' -> ls' = ls.
Proof.
  assert (HX : forall l t l' t', ~ In 10 l -> ~ In 10 l' -> l ++ 10 :: t = l' ++ 10 :: t' -> l = l' /\ t = t').
  { induction l as [|c l IH]; intros t0 [|c' l'] t' H H' E; cbn [app] in E.
    - apply cons_inj in E. tauto. - apply cons_inj in E as [<- _]. exfalso. apply H'. now left. - apply cons_inj in E as [-> _]. exfalso. apply H. now left.
    - apply cons_inj in E as [<- E]. destruct (IH t0 l' t') as [-> ->]; auto; intro X; [apply H|apply H']; now right. }
  assert (HI : forall l t, In 10 (l ++ 10 :: t)) by (intros; apply in_or_app; right; now left).
  assert (HN : forall l t : str, l ++ 10 :: t <> []) by (intros [|? ?] ?; discriminate).
  induction 1 as [|l H1 H2|l t ls H1 H2 IH]; intros ls' H; inversion H as [E1 E2|l' A1 A2 E1 E2|l' t' ls1 A1 A2 E1 E2].
  - reflexivity.
  - contradiction.
  - now apply HN in E1.
  - now subst.
  - reflexivity.
  - exfalso. apply H2. rewrite <- E1. apply HI.
  - exfalso. now apply (HN l t).
  - exfalso. first [apply A2; apply HI | apply A2; rewrite <- E1; apply HI].
  - apply HX in E1 as [-> ->]; auto. f_equal. now apply IH.
Qed.
Lemma space_white c : is_space c = true <-> white c.
Proof.
  unfold is_space, white. cbn [In]. rewrite !orb_true_iff, !andb_true_iff, !Z.leb_le, !Z.eqb_eq. intuition lia.
Qed.
Lemma rstrip_spec s : stripped s (rstrip s).
Proof.
  induction s as [|c s (w & E & HW & HL)]; [exists []; repeat split; auto; intros v c H; destruct v; discriminate|]. cbn [rstrip]. destruct (rstrip s) as [|x r] eqn:Er.
  - cbn [app] in E. subst w. destruct (is_space c) eqn:Ec.
    + exists (c :: s). split; [reflexivity|]. split; [constructor; [now apply space_white|exact HW]|]. intros v z H. destruct v; discriminate.
    + exists s. split; [reflexivity|]. split; [exact HW|]. intros v z H. destruct v as [|v0 v]; cbn [app] in H; apply cons_inj in H as [<- H]; [|destruct v; discriminate]. rewrite <- space_white, Ec. discriminate.
  - exists w. split; [cbn [app]; f_equal; exact E|]. split; [exact HW|]. intros v z H. destruct v as [|v0 v]; cbn [app] in H; apply cons_inj in H as [<- H]; [discriminate|]. exact (HL v z H).
Qed.
Lemma stripped_fun s u v : stripped s u -> stripped s v -> u = v.
Proof.
  intros (w & -> & HW & HL) (w' & E & HW' & HL').
  assert (HX : forall (u v w w' : str), u ++ w = v ++ w' -> (exists x, u = v ++ x /\ w' = x ++ w) \/ exists x, v = u ++ x /\ w = x ++ w').
  { clear. induction u as [|a u IH]; intros v w w' E; [right; exists v; auto|]. destruct v as [|b v]; [left; exists (a :: u); auto|]. cbn [app] in E. apply cons_inj in E as [<- E]. destruct (IH v w w' E) as [(x & -> & ->)|(x & -> & ->)]; [left|right]; exists x; auto. }
  destruct (HX u v w w' E) as [(x & -> & ->)|(x & -> & ->)].
  - destruct x as [|c x] using rev_ind; [apply app_nil_r|]. exfalso. rewrite app_assoc in HL. apply (HL (v ++ x) c eq_refl). rewrite Forall_forall in HW'. apply HW'. apply in_or_app. left. apply in_or_app. right. now left.
  - destruct x as [|c x] using rev_ind; [symmetry; apply app_nil_r|]. exfalso. rewrite app_assoc in HL'. apply (HL' (u ++ x) c eq_refl). rewrite Forall_forall in HW. apply HW. apply in_or_app. left. apply in_or_app. right. now left.
Qed.
Lemma same_stripped_iff l : forall r, same_stripped l r = true <-> forall i, rstrip (nth i l []) = rstrip (nth i r []).
Proof.
  induction l as [|a l IH]; intros [|b r]; cbn [same_stripped].
  - cbn [forallb]. split; [|reflexivity]. intros _ i. now destruct i.
  - rewrite forallb_forall. split.
    + intros H i. destruct (nth_in_or_default i (b :: r) []) as [Hi|E].
      * specialize (H _ Hi). apply seqb_eq in H. rewrite <- H. now destruct i.
      * rewrite E. now destruct i.
    + intros H x Hx. apply (In_nth _ _ []) in Hx as (i & _ & <-). rewrite <- H. apply seqb_eq. now destruct i.
  - rewrite forallb_forall. split.
    + intros H i. destruct (nth_in_or_default i (a :: l) []) as [Hi|E].
      * specialize (H _ Hi). apply seqb_eq in H. rewrite H. now destruct i.
      * rewrite E. now destruct i.
    + intros H x Hx. apply (In_nth _ _ []) in Hx as (i & _ & <-). rewrite H. apply seqb_eq. now destruct i.
  - rewrite andb_true_iff, seqb_eq, IH. split; [intros [H1 H2] [|i]; [exact H1|apply H2]|]. intro H. split; [exact (H 0%nat)|intro i; exact (H (S i))].
Qed.
Lemma trailing_iff a b : same_stripped (text_lines a) (text_lines b) = true <-> trailing_only a b.
Proof.
  rewrite same_stripped_iff. split.
  - intro H. exists (text_lines a), (text_lines b). split; [apply text_lines_spec|]. split; [apply text_lines_spec|]. intro i. exists (rstrip (nth i (text_lines a) [])). split; [apply rstrip_spec|]. rewrite H. apply rstrip_spec.
  - intros (ls & rs & H1 & H2 & H) i. apply (lines_fun _ _ (text_lines_spec a)) in H1 as ->. apply (lines_fun _ _ (text_lines_spec b)) in H2 as ->. destruct (H i) as (u & U1 & U2).
    rewrite <- (stripped_fun _ _ _ U1 (rstrip_spec _)). apply (stripped_fun _ _ _ U2 (rstrip_spec _)).
Qed.

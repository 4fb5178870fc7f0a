(** Proofs about paths: following the results of join and relpath. *)
From Verif Require Import Base Report_Model Report_Spec.
From Coq Require Import Lia.

Definition resolve (d : list str) (p : str) : list str := fold_left norm_step (split_slash p) (if is_abs p then [] else d).

Lemma split_nonempty s : split_slash s <> [].
Proof. destruct s as [|c s]; cbn [split_slash]; [discriminate|]. destruct (c =? 47); [discriminate|]. destruct (split_slash s); discriminate. Qed.
Lemma split_word w : ~ In 47 w -> split_slash w = [w].
Proof.
  induction w as [|c w IH]; cbn [split_slash]; [reflexivity|]. intro H. destruct (Z.eqb_spec c 47) as [->|]; [exfalso; apply H; now left|].
  rewrite IH; [reflexivity|]. intro; apply H; now right.
Qed.
Lemma split_app a b : split_slash (a ++ 47 :: b) = split_slash a ++ split_slash b.
Proof.
  induction a as [|c a IH]; cbn [app split_slash]; [reflexivity|]. rewrite IH. destruct (c =? 47); [reflexivity|]. pose proof (split_nonempty a). destruct (split_slash a); [contradiction|reflexivity].
Qed.
Lemma parts_iff s ps : Parts s ps <-> split_slash s = ps.
Proof.
  split.
  - induction 1 as [w H|w s ws H HP IH]; [now apply split_word|]. rewrite split_app, split_word, IH by assumption. reflexivity.
  - revert s. induction ps as [|p ps IH]; intros s H; [now apply split_nonempty in H|].
    assert (HD : (exists w r, s = w ++ 47 :: r /\ ~ In 47 w) \/ ~ In 47 s).
    { clear. induction s as [|c s IH]; [now right|]. destruct (Z.eq_dec c 47) as [->|Hc]; [left; exists [], s; now split|]. destruct IH as [(w & r & -> & Hw)|Hn].
      - left. exists (c :: w), r. split; [reflexivity|]. intros [E|E]; [now apply Hc|contradiction].
      - right. intros [E|E]; [now apply Hc|contradiction]. }
    destruct HD as [(w & r & -> & Hw)|Hn].
    + rewrite split_app, split_word in H by assumption. apply (f_equal (fun l => (hd [] l, tl l))) in H. cbn [hd tl app] in H. apply pair_equal_spec in H as [-> H].
      constructor; [assumption|]. now apply IH.
    + rewrite split_word in H by assumption. apply (f_equal (fun l => (hd [] l, tl l))) in H. cbn [hd tl] in H. apply pair_equal_spec in H as [-> <-]. now constructor.
Qed.

Lemma walk_iff d ps d' : Walk d ps d' <-> fold_left norm_step ps d = d'.
Proof.
  split.
  - induction 1 as [d|d p ps d' H HW IH|ps d' HW IH|d n ps d' HW IH|d n ps d' H1 H2 H3 HW IH]; cbn [fold_left]; [reflexivity| | | |]; unfold norm_step at 2.
    + destruct H as [-> | ->]; exact IH.
    + exact IH.
    + change (seqb (lit "..") [] || seqb (lit "..") (lit ".")) with false. change (seqb (lit "..") (lit "..")) with true. cbv iota. now rewrite removelast_last.
    + destruct (seqb_spec n []); [contradiction|]. destruct (seqb_spec n (lit ".")); [contradiction|]. destruct (seqb_spec n (lit "..")); [contradiction|]. exact IH.
  - revert d. induction ps as [|p ps IH]; intros d H; cbn [fold_left] in H; [subst; constructor|]. unfold norm_step at 2 in H.
    destruct (seqb_spec p []) as [->|N1]; [apply walk_stay; auto|]. destruct (seqb_spec p (lit ".")) as [->|N2]; [apply walk_stay; auto|]. cbn [orb] in H.
    destruct (seqb_spec p (lit "..")) as [->|N3]; [|apply walk_down; auto].
    destruct (list_eq_dec (list_eq_dec Z.eq_dec) d []) as [->|Hd]; [apply walk_root; auto|]. rewrite (app_removelast_last [] Hd). apply walk_up. auto.
Qed.
Lemma is_abs_iff p : is_abs p = true <-> exists q, p = 47 :: q.
Proof.
  unfold is_abs. destruct p as [|c p]; cbn [starts_with]; [split; [discriminate|intros [q H]; discriminate]|]. destruct (Z.eqb_spec 47 c) as [<-|H].
  - split; [eauto|reflexivity].
  - cbn [andb]. split; [discriminate|]. intros [q E]. apply (f_equal (hd 0)) in E. cbn [hd] in E. congruence.
Qed.
Lemma is_abs_not p : is_abs p = false <-> forall q, p <> 47 :: q.
Proof.
  split.
  - intros H q E. assert (HT : is_abs p = true) by (apply is_abs_iff; eauto). congruence.
  - intro H. destruct (is_abs p) eqn:E; [|reflexivity]. apply is_abs_iff in E as [q E]. now apply H in E.
Qed.
Theorem leads_iff d p d' : leads d p d' <-> resolve d p = d'.
Proof.
  unfold resolve. split.
  - intros [ps H HP HW|q ps H HP HW]; apply parts_iff in HP; apply walk_iff in HW; rewrite HP.
    + apply is_abs_not in H. now rewrite H.
    + assert (is_abs p = true) as -> by (apply is_abs_iff; eauto). exact HW.
  - intro H. destruct (is_abs p) eqn:E.
    + apply is_abs_iff in E as [q E]. apply (leads_absolute _ _ _ q (split_slash p)); [assumption|now apply parts_iff|now apply walk_iff].
    + apply (leads_relative _ _ _ (split_slash p)); [now apply is_abs_not|now apply parts_iff|now apply walk_iff].
Qed.

Lemma ends_slash_iff a : ends_with [47] a = true <-> exists b, a = b ++ [47].
Proof.
  unfold ends_with. cbn [rev app]. assert (H : forall s, starts_with [47] s = true <-> exists t, s = 47 :: t) by apply is_abs_iff. rewrite H. split.
  - intros [t E]. exists (rev t). rewrite <- (rev_involutive a), E. reflexivity.
  - intros [b ->]. rewrite rev_app_distr. cbn [rev app]. eauto.
Qed.
Lemma is_abs_app a b : a <> [] -> is_abs (a ++ b) = is_abs a.
Proof. destruct a as [|c a]; [contradiction|]. intros _. unfold is_abs. cbn [app starts_with]. destruct (47 =? c); [|reflexivity]. cbn [andb]. now destruct a, b. Qed.
Lemma resolve_join d a b : resolve d (join a b) = resolve (resolve d a) b.
Proof.
  unfold join. destruct (is_abs b) eqn:Eb; [unfold resolve; now rewrite Eb|]. destruct a as [|c a]; [reflexivity|]. set (A := c :: a) in *. assert (HA : A <> []) by discriminate.
  destruct (ends_with [47] A) eqn:E.
  - apply ends_slash_iff in E as [x E]. unfold resolve. rewrite (is_abs_app A b HA), Eb, E. rewrite <- app_assoc. cbn [app]. rewrite !split_app, !fold_left_app. cbn [split_slash fold_left]. reflexivity.
  - unfold resolve. rewrite (is_abs_app A _ HA), Eb, split_app, fold_left_app. reflexivity.
Qed.

(** Names of a directory reached from the root are plain. *)
Lemma plain_step acc p : Forall plain_name acc -> ~ In 47 p -> Forall plain_name (norm_step acc p).
Proof.
  intros H Hp. unfold norm_step. destruct (seqb_spec p []); [assumption|]. destruct (seqb_spec p (lit ".")); [assumption|]. cbn [orb]. destruct (seqb_spec p (lit "..")).
  - destruct (list_eq_dec (list_eq_dec Z.eq_dec) acc []) as [->|Hd]; [constructor|]. rewrite (app_removelast_last [] Hd) in H. now apply Forall_app in H.
  - apply Forall_app. split; [assumption|]. constructor; [now split|constructor].
Qed.
Lemma split_no_slash s : Forall (fun w => ~ In 47 w) (split_slash s).
Proof.
  induction s as [|c s IH]; cbn [split_slash]; [constructor; [intros []|constructor]|]. destruct (Z.eqb_spec c 47) as [->|Hc]; [constructor; [intros []|assumption]|].
  destruct (split_slash s) as [|w ws]; inversion IH; subst; constructor; try (intros [E|E]; [now apply Hc|]); auto; constructor.
Qed.
Lemma plain_fold ps : Forall (fun w => ~ In 47 w) ps -> forall acc, Forall plain_name acc -> Forall plain_name (fold_left norm_step ps acc).
Proof. induction 1 as [|p ps Hp H IH]; intros acc Ha; cbn [fold_left]; [assumption|]. apply IH. now apply plain_step. Qed.
Lemma plain_resolve d p : Forall plain_name d -> Forall plain_name (resolve d p).
Proof. intro H. unfold resolve. apply plain_fold; [apply split_no_slash|]. now destruct (is_abs p). Qed.

Lemma fold_plain ns : Forall plain_name ns -> forall acc, fold_left norm_step ns acc = acc ++ ns.
Proof.
  induction 1 as [|n ns (N1 & N2 & N3 & N4) H IH]; intro acc; cbn [fold_left]; [now rewrite app_nil_r|]. rewrite IH. unfold norm_step.
  destruct (seqb_spec n []); [contradiction|]. destruct (seqb_spec n (lit ".")); [contradiction|]. destruct (seqb_spec n (lit "..")); [contradiction|]. cbn [orb]. now rewrite <- app_assoc.
Qed.
Lemma removelast_firstn_S {A} n (l : list A) : (n < length l)%nat -> removelast (firstn (S n) l) = firstn n l.
Proof. intro H. now rewrite removelast_firstn. Qed.
Lemma fold_ups n : forall d : list str, (n <= length d)%nat -> fold_left norm_step (repeat (lit "..") n) d = firstn (length d - n) d.
Proof.
  induction n as [|n IH]; intros d H; cbn [repeat fold_left]; [now rewrite Nat.sub_0_r, firstn_all|].
  change (norm_step d (lit "..")) with (removelast d). rewrite IH.
  - assert (HL : length (removelast d) = (length d - 1)%nat). { destruct d as [|x d]; [reflexivity|]. rewrite (app_removelast_last x (l := x :: d)) at 2 by discriminate. rewrite app_length. cbn [length]. lia. }
    rewrite HL. assert (HF : removelast d = firstn (length d - 1) d). { destruct d as [|x d]; [reflexivity|]. rewrite <- (firstn_all (x :: d)) at 1. cbn [length]. rewrite removelast_firstn by (cbn [length]; lia). f_equal. lia. }
    rewrite HF, firstn_firstn. f_equal. lia.
  - destruct d as [|x d]; [cbn [length] in H; lia|]. assert (length (removelast (x :: d)) = length d). { pose proof (app_removelast_last x (l := x :: d) ltac:(discriminate)) as E. apply (f_equal (@length str)) in E. rewrite app_length in E. cbn [length] in E. lia. } cbn [length] in H. lia.
Qed.
Lemma common_spec a b : firstn (common a b) a = firstn (common a b) b /\ (common a b <= length a)%nat /\ (common a b <= length b)%nat.
Proof.
  revert b. induction a as [|x a IH]; intros [|y b]; cbn [common]; try (split; [reflexivity|cbn [length]; lia]). destruct (seqb_spec x y) as [->|]; [|cbn [length]; split; [reflexivity|lia]].
  destruct (IH b) as (H1 & H2 & H3). cbn [firstn length]. split; [now rewrite H1|lia].
Qed.
(** Joining names by the loop over join. *)
Lemma join_word a n : a <> [] -> ends_with [47] a = false -> n <> [] -> ~ In 47 n -> join a n = a ++ 47 :: n /\ ends_with [47] (join a n) = false /\ join a n <> [].
Proof.
  intros Ha He Hn Hs. assert (HB : is_abs n = false). { apply is_abs_not. intros q E. apply Hs. rewrite E. now left. }
  unfold join. rewrite HB. destruct a as [|c a]; [contradiction|]. rewrite He. split; [reflexivity|]. split; [|discriminate].
  destruct (ends_with [47] ((c :: a) ++ 47 :: n)) eqn:E; [|reflexivity]. exfalso. apply ends_slash_iff in E as [b E]. apply Hs.
  destruct n as [|x n] using rev_ind; [contradiction|]. change ((c :: a) ++ 47 :: n ++ [x]) with ((c :: a) ++ (47 :: n) ++ [x]) in E. rewrite app_assoc in E. apply app_inj_tail in E as [_ ->]. apply in_or_app. right. now left.
Qed.
Definition solid (n : str) : Prop := n <> [] /\ ~ In 47 n.
Lemma solid_end n : solid n -> ends_with [47] n = false.
Proof. intros [H1 H2]. destruct (ends_with [47] n) eqn:E; [|reflexivity]. apply ends_slash_iff in E as [b ->]. exfalso. apply H2. apply in_or_app. right. now left. Qed.
Lemma join_words ns : Forall solid ns -> forall a, a <> [] -> ends_with [47] a = false ->
  split_slash (fold_left join ns a) = split_slash a ++ ns /\ is_abs (fold_left join ns a) = is_abs a.
Proof.
  induction 1 as [|n ns Hn H IH]; intros a Ha He; cbn [fold_left]; [now rewrite app_nil_r|]. destruct (join_word a n Ha He (proj1 Hn) (proj2 Hn)) as (E1 & E2 & E3).
  destruct (IH (join a n) E3 E2) as [I1 I2]. rewrite I1, I2, E1, split_app, (split_word n (proj2 Hn)), <- app_assoc. split; [reflexivity|]. now apply is_abs_app.
Qed.
Lemma plain_solid n : plain_name n -> solid n.
Proof. intros (H & _ & _ & H'). now split. Qed.
Lemma dots_solid : solid (lit "..").
Proof. split; [discriminate|]. intros [H|[H|[]]]; discriminate. Qed.
Lemma skipn_Forall {A} (P : A -> Prop) n l : Forall P l -> Forall P (skipn n l).
Proof. intro H. rewrite <- (firstn_skipn n l) in H. now apply Forall_app in H. Qed.

Section Rel.
Variable cwd : str.
Definition here : list str := resolve [] cwd.
Lemma here_plain : Forall plain_name here.
Proof. apply plain_resolve. constructor. Qed.
Lemma abs_comps_eq p : abs_comps cwd p = resolve here p.
Proof.
  unfold abs_comps, here. rewrite <- resolve_join. unfold resolve. now destruct (is_abs (join cwd p)).
Qed.
Theorem relpath_leads path start rel : relpath cwd path start = Ok rel -> resolve (resolve here start) rel = resolve here path.
Proof.
  unfold relpath. destruct path as [|c path]; [discriminate|]. set (P := c :: path). rewrite !abs_comps_eq. set (s := resolve here start). set (p := resolve here P).
  assert (Hp : Forall plain_name p) by (apply plain_resolve, here_plain). destruct (common_spec s p) as (C1 & C2 & C3). set (i := common s p) in *.
  assert (HF : fold_left norm_step (repeat (lit "..") (length s - i) ++ skipn i p) s = p).
  { rewrite fold_left_app, fold_ups by lia. replace (length s - (length s - i))%nat with i by lia. rewrite C1. rewrite fold_plain by now apply skipn_Forall. apply firstn_skipn. }
  assert (HS : Forall solid (repeat (lit "..") (length s - i) ++ skipn i p)).
  { apply Forall_app. split; [|eapply Forall_impl; [|apply skipn_Forall, Hp]; intros; now apply plain_solid]. apply Forall_forall. intros x Hx. apply repeat_spec in Hx. subst x. apply dots_solid. }
  destruct (repeat (lit "..") (length s - i) ++ skipn i p) as [|x xs] eqn:E; intro H; injection H as <-.
  - cbn [fold_left] in HF. rewrite HF. reflexivity.
  - inversion HS as [|? ? Hx Hxs]; subst. destruct (join_words xs Hxs x (proj1 Hx) (solid_end x Hx)) as [J1 J2]. unfold resolve. rewrite J1, J2, (split_word x (proj2 Hx)).
    assert (is_abs x = false) as ->. { apply is_abs_not. intros q Eq. apply (proj2 Hx). rewrite Eq. now left. } exact HF.
Qed.
Lemma relpath_ok path start : path <> [] -> exists rel, relpath cwd path start = Ok rel.
Proof. intro H. unfold relpath. destruct path; [contradiction|]. destruct (repeat _ _ ++ _); eauto. Qed.
End Rel.

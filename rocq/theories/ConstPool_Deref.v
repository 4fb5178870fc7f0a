(** Proofs about dereferencing. *)
From Verif Require Import Base Pack_Model Pack_Spec ConstPool_Model ConstPool_Spec ConstPool_Proofs.
From Coq Require Import Relations Wellfounded.Transitive_Closure.

Lemma tag_dyn_true t : t = 17 \/ t = 18 -> (t =? CONST_InvokeDynamic) || (t =? CONST_Dynamic) = true.
Proof. unfold CONST_InvokeDynamic, CONST_Dynamic. lia. Qed.
Lemma tag_dyn_false t : t <> 17 -> t <> 18 -> (t =? CONST_InvokeDynamic) || (t =? CONST_Dynamic) = false.
Proof. unfold CONST_InvokeDynamic, CONST_Dynamic. lia. Qed.
Lemma tag_dyn_inv t : (t =? CONST_InvokeDynamic) || (t =? CONST_Dynamic) = true -> t = 17 \/ t = 18.
Proof. unfold CONST_InvokeDynamic, CONST_Dynamic. lia. Qed.
Lemma tag_dyn_inv_f t : (t =? CONST_InvokeDynamic) || (t =? CONST_Dynamic) = false -> t <> 17 /\ t <> 18.
Proof. unfold CONST_InvokeDynamic, CONST_Dynamic. lia. Qed.

Lemma deref_f_sound p fuel : forall i v, deref_f fuel p i = Ok v -> derefs p i v.
Proof.
  induction fuel as [|fu IH]; intros i v H; cbn [deref_f] in H; [discriminate|].
  destruct (Z.eqb_spec i 0) as [_|Hi]; [discriminate|].
  destruct (get_const p i) as [c|] eqn:Hc; cbn [rbind] in H; [|discriminate].
  destruct c; try discriminate; try (injection H as <-; now econstructor; eauto).
  - econstructor; eauto.
  - destruct ((t =? CONST_InvokeDynamic) || (t =? CONST_Dynamic)) eqn:Et.
    + destruct (deref_f fu p b) eqn:Eb; cbn [rbind] in H; [|discriminate]. injection H as <-.
      eapply d_dyn; eauto. apply tag_dyn_inv, Et.
    + destruct (deref_f fu p a) eqn:Ea; cbn [rbind] in H; [|discriminate].
      destruct (deref_f fu p b) eqn:Eb; cbn [rbind] in H; [|discriminate]. injection H as <-.
      apply tag_dyn_inv_f in Et as [? ?]. eapply d_ref2; eauto.
  - destruct (deref_f fu p i0) eqn:Ea; cbn [rbind] in H; [|discriminate]. injection H as <-.
    eapply d_handle; eauto.
Qed.

Lemma deref_f_complete p i v : derefs p i v ->
  forall fuel, deref_f fuel p i = Ok v \/ deref_f fuel p i = Err RuntimeError.
Proof.
  induction 1 as [i s Hi Hc|i z Hi Hc|i z Hi Hc|i b Hi Hc|i b Hi Hc|i t j v Hi Hc H1 IH1
    |i t a b va vb Hi Hc Ht1 Ht2 H1 IH1 H2 IH2|i t a b vb Hi Hc Ht H1 IH1|i k j v Hi Hc H1 IH1];
    intros [|fu]; try (right; reflexivity); cbn [deref_f];
    (destruct (Z.eqb_spec i 0); [contradiction|]); rewrite Hc; cbn [rbind]; auto.
  - rewrite tag_dyn_false by assumption.
    destruct (IH1 fu) as [-> | ->]; cbn [rbind]; [|auto].
    destruct (IH2 fu) as [-> | ->]; cbn [rbind]; auto.
  - rewrite tag_dyn_true by assumption.
    destruct (IH1 fu) as [-> | ->]; cbn [rbind]; auto.
  - destruct (IH1 fu) as [-> | ->]; cbn [rbind]; auto.
Qed.

(** A path in the reference graph. *)
Inductive path (p : pool) : Z -> list Z -> Prop :=
| path_end i : path p i []
| path_step i j l : refers p i j -> path p j l -> path p i (i :: l).

Lemma exhausted_path p fuel : forall i, deref_f fuel p i = Err RuntimeError ->
  exists l, length l = fuel /\ path p i l.
Proof.
  induction fuel as [|fu IH]; intros i H; cbn [deref_f] in H.
  - exists []. split; [reflexivity|constructor].
  - destruct (Z.eqb_spec i 0) as [_|Hi]; [discriminate|].
    destruct (get_const p i) as [c|e] eqn:Hc; cbn [rbind] in H.
    2:{ unfold get_const in Hc. destruct (py_index p i); [discriminate|]. congruence. }
    assert (HS : forall j, refers p i j -> deref_f fu p j = Err RuntimeError ->
                 exists l, length l = S fu /\ path p i l).
    { intros j Hr Hj. apply IH in Hj as (l & Hl & Hp). exists (i :: l). cbn [length].
      split; [congruence|]. econstructor; eauto. }
    destruct c; try discriminate.
    + apply (HS i0); [|exact H]. split; [exact Hi|]. left. eauto.
    + destruct ((t =? CONST_InvokeDynamic) || (t =? CONST_Dynamic)) eqn:Et.
      * destruct (deref_f fu p b) eqn:Eb; cbn [rbind] in H; [discriminate|]. injection H as ->.
        apply (HS b); [|exact Eb]. split; [exact Hi|]. right. left. exists t, a, b. auto.
      * apply tag_dyn_inv_f in Et as [? ?].
        destruct (deref_f fu p a) eqn:Ea; cbn [rbind] in H.
        -- destruct (deref_f fu p b) eqn:Eb; cbn [rbind] in H; [discriminate|]. injection H as ->.
           apply (HS b); [|exact Eb]. split; [exact Hi|]. right. left. exists t, a, b. auto.
        -- injection H as ->. apply (HS a); [|exact Ea].
           split; [exact Hi|]. right. left. exists t, a, b. auto.
    + destruct (deref_f fu p i0) eqn:Ea; cbn [rbind] in H; [discriminate|]. injection H as ->.
      apply (HS i0); [|exact Ea]. split; [exact Hi|]. right. right. eauto.
Qed.

(** Position of an index in the list. *)
Definition pos (p : pool) (i : Z) : nat :=
  if 0 <=? i then Z.to_nat i else Z.to_nat (i + Z.of_nat (length p)).

Lemma refers_pos p i j : refers p i j -> (pos p i < length p)%nat.
Proof.
  intros (Hi & H).
  assert (HG : exists c, get_const p i = Ok c)
    by (destruct H as [(t & E)|[(t & a & b & E & _)|(k & E)]]; eauto).
  destruct HG as (c & E). unfold get_const, py_index in E. unfold pos.
  destruct (0 <=? i).
  - destruct (nth_error p (Z.to_nat i)) eqn:En; [|discriminate]. apply nth_error_Some. congruence.
  - destruct (0 <=? i + Z.of_nat (length p)); [|discriminate].
    destruct (nth_error p _) eqn:En; [|discriminate]. apply nth_error_Some. congruence.
Qed.

Lemma refers_nonempty p i j : refers p i j -> i <> 0 /\ 0 <= i + Z.of_nat (length p) \/ 0 < i.
Proof.
  intros (Hi & H).
  assert (HG : exists c, get_const p i = Ok c)
    by (destruct H as [(t & E)|[(t & a & b & E & _)|(k & E)]]; eauto).
  destruct HG as (c & E). unfold get_const, py_index in E.
  destruct (Z.leb_spec 0 i); [right; lia|].
  destruct (Z.leb_spec 0 (i + Z.of_nat (length p))); [left; lia|discriminate].
Qed.

Lemma get_const_pos p i j k l : refers p i k -> refers p j l -> pos p i = pos p j ->
  get_const p i = get_const p j.
Proof.
  intros Hi Hj E. apply refers_nonempty in Hi. apply refers_nonempty in Hj.
  unfold pos in E. unfold get_const, py_index.
  destruct (Z.leb_spec 0 i), (Z.leb_spec 0 j);
    repeat match goal with |- context [0 <=? ?x] => destruct (Z.leb_spec 0 x); try lia end;
    rewrite E; reflexivity.
Qed.

Lemma refers_same_pos p i j k l : refers p i k -> refers p j l -> pos p i = pos p j -> refers p j k.
Proof.
  intros Hi Hj E. pose proof (get_const_pos p i j k l Hi Hj E) as EG.
  destruct Hi as (_ & Hi). destruct Hj as (Hj & _). split; [exact Hj|]. now rewrite <- EG.
Qed.

Lemma path_split p i l1 x l2 : path p i (l1 ++ x :: l2) ->
  reaches p i x /\ path p x (x :: l2).
Proof.
  revert i. induction l1 as [|y l1 IH]; intros i H.
  - cbn in H. inversion H; subst. split; [constructor|exact H].
  - cbn in H. inversion H as [|? j ? Hr Hp]; subst. apply IH in Hp as [H1 H2].
    split; [econstructor; eauto|exact H2].
Qed.

Lemma reaches_trans p i j k : reaches p i j -> reaches p j k -> reaches p i k.
Proof. induction 1; auto. intro. econstructor; eauto. Qed.

Lemma path_in_refers p i l x : path p i l -> In x l -> exists y, refers p x y.
Proof.
  induction 1 as [|i j l Hr Hp IH]; intros Hin; [contradiction|].
  destruct Hin as [<-|Hin]; eauto.
Qed.

Lemma pigeon (f : Z -> nat) (l : list Z) (n : nat) :
  (forall x, In x l -> (f x < n)%nat) -> (n < length l)%nat ->
  exists l1 x l2 y l3, l = l1 ++ x :: l2 ++ y :: l3 /\ f x = f y.
Proof.
  intros HB HL.
  assert (HN : ~ NoDup (map f l)).
  { intro HN. assert (HI : incl (map f l) (seq 0 n)).
    { intros a Ha. apply in_map_iff in Ha as (x & <- & Hx). apply in_seq. specialize (HB x Hx). lia. }
    apply NoDup_incl_length in HI; [|exact HN]. rewrite map_length, seq_length in HI. lia. }
  clear HB HL. induction l as [|x l IH]; [exfalso; apply HN; constructor|].
  destruct (in_dec Nat.eq_dec (f x) (map f l)) as [Hin|Hnin].
  - apply in_map_iff in Hin as (y & E & Hy). apply in_split in Hy as (l2 & l3 & ->).
    exists [], x, l2, y, l3. split; [reflexivity|congruence].
  - destruct IH as (l1 & a & l2 & b & l3 & -> & E).
    + intro HN'. apply HN. constructor; assumption.
    + exists (x :: l1), a, l2, b, l3. auto.
Qed.

Lemma exhausted_cycle p i : deref_f (S (length p)) p i = Err RuntimeError ->
  exists j, reaches p i j /\ on_cycle p j.
Proof.
  intro H. apply exhausted_path in H as (l & Hl & Hp).
  destruct (pigeon (pos p) l (length p)) as (l1 & x & l2 & y & l3 & -> & E).
  - intros x Hx. destruct (path_in_refers p i l x Hp Hx) as (z & Hz). eapply refers_pos, Hz.
  - lia.
  - destruct (path_split p i l1 x (l2 ++ y :: l3) Hp) as [Hix Hx].
    inversion Hx as [|? j ? Hr Hj]; subst.
    destruct (path_split p j l2 y l3 Hj) as [Hjy Hy].
    inversion Hy as [|? k ? Hr2 _]; subst.
    exists y. split.
    + eapply reaches_trans; [exact Hix|]. econstructor; eauto.
    + exists j. split; [|exact Hjy]. eapply refers_same_pos; eauto.
Qed.

(** Entries that dereference are not on a cycle. *)
Lemma derefs_acc p i v : derefs p i v -> Acc (fun j i => refers p i j) i.
Proof.
  induction 1 as [i s Hi Hc|i z Hi Hc|i z Hi Hc|i b Hi Hc|i b Hi Hc|i t j v Hi Hc H1 IH1
    |i t a b va vb Hi Hc Ht1 Ht2 H1 IH1 H2 IH2|i t a b vb Hi Hc Ht H1 IH1|i k j v Hi Hc H1 IH1];
    constructor; intros y (_ & [(t' & E)|[(t' & a' & b' & E & Hy)|(k' & E)]]);
    rewrite E in Hc; try discriminate; injection Hc as ? ?; subst; auto.
  - destruct Hy as [->|[-> _]]; assumption.
  - destruct Hy as [->|[-> [? ?]]]; [assumption|]. destruct Ht; congruence.
Qed.

Lemma reaches_acc p i j : reaches p i j ->
  Acc (fun j i => refers p i j) i -> Acc (fun j i => refers p i j) j.
Proof. induction 1; auto. intro HA. apply IHreaches. inversion HA; auto. Qed.

Lemma reaches_clos p i j k : refers p i j -> reaches p j k ->
  clos_trans Z (fun j i => refers p i j) k i.
Proof.
  intros Hr H. revert i Hr. induction H as [j|j j' k Hr' _ IH]; intros i Hr.
  - now apply t_step.
  - eapply t_trans; [apply IH, Hr'|]. now apply t_step.
Qed.

Lemma acc_irrefl {A} (R : A -> A -> Prop) x : Acc R x -> ~ R x x.
Proof. induction 1 as [x _ IH]. intro H. exact (IH x H H). Qed.

Lemma derefs_no_cycle p i v j : derefs p i v -> reaches p i j -> ~ on_cycle p j.
Proof.
  intros Hd Hr (k & H1 & H2). apply derefs_acc in Hd. eapply reaches_acc in Hd; [|exact Hr].
  apply Acc_clos_trans in Hd. eapply acc_irrefl; [exact Hd|]. eapply reaches_clos; eauto.
Qed.

Lemma deref_const_iff p i v : deref_const p i = Ok v <-> derefs p i v.
Proof.
  unfold deref_const. split; intro H.
  - eapply deref_f_sound, H.
  - destruct (deref_f_complete p i v H (S (length p))) as [E|E]; [exact E|].
    apply exhausted_cycle in E as (j & H1 & H2). exfalso. eapply derefs_no_cycle; eauto.
Qed.

Lemma deref_f_errors p fuel : forall i e, deref_f fuel p i = Err e ->
  e = IndexError \/ e = UnknownConstantPoolTag \/ e = RuntimeError.
Proof.
  induction fuel as [|fu IH]; intros i e H; cbn [deref_f] in H.
  - injection H as <-. auto.
  - destruct (i =? 0); [injection H as <-; auto|].
    destruct (get_const p i) as [c|x] eqn:Hc; cbn [rbind] in H.
    2:{ unfold get_const in Hc. destruct (py_index p i); [discriminate|]. left. congruence. }
    destruct c; try discriminate.
    + injection H as <-. auto.
    + eapply IH, H.
    + destruct ((t =? CONST_InvokeDynamic) || (t =? CONST_Dynamic)).
      * destruct (deref_f fu p b) eqn:Eb; cbn [rbind] in H; [discriminate|]. injection H as <-. eauto.
      * destruct (deref_f fu p a) eqn:Ea; cbn [rbind] in H.
        -- destruct (deref_f fu p b) eqn:Eb; cbn [rbind] in H; [discriminate|]. injection H as <-. eauto.
        -- injection H as <-. eauto.
    + destruct (deref_f fu p i0) eqn:Ea; cbn [rbind] in H; [discriminate|]. injection H as <-. eauto.
Qed.

Lemma deref_const_fails p i :
  (forall e, deref_const p i = Err e ->
     e = IndexError \/ e = UnknownConstantPoolTag \/ e = RuntimeError) /\
  (deref_const p i = Err RuntimeError -> exists j, reaches p i j /\ on_cycle p j) /\
  (forall j, reaches p i j -> on_cycle p j -> forall v, deref_const p i <> Ok v).
Proof.
  split; [|split].
  - intro e. apply deref_f_errors.
  - apply exhausted_cycle.
  - intros j Hr Hc v H. apply deref_const_iff in H. eapply derefs_no_cycle; eauto.
Qed.

(** ** Well-formed pools *)
Lemma jat_from_ge l : forall b i c, jat_from l b i = Some c -> b <= i.
Proof.
  induction l as [|c' l IH]; intros b i c H; cbn [jat_from] in H; [discriminate|].
  destruct (Z.eqb_spec i b); [lia|]. apply IH in H. unfold jwidth in H. destruct (jwide c'); lia.
Qed.
Lemma jat_pos l i c : jat l i = Some c -> 0 < i.
Proof. intro H. apply jat_from_ge in H. lia. Qed.
Lemma jat_from_in l : forall b i c, jat_from l b i = Some c -> In c l.
Proof.
  induction l as [|c' l IH]; intros b i c H; cbn [jat_from] in H; [discriminate|].
  destruct (i =? b); [injection H as ->; now left|right; eauto].
Qed.

Section wf.
  Variables (l : list jconst) (p : pool).
  Hypothesis Hshow : pool_shows l p.

  Lemma shows_at i c : jat l i = Some c -> i <> 0 /\ get_const p i = Ok (shown_const c).
  Proof.
    intro H. pose proof (jat_pos _ _ _ H). split; [lia|].
    destruct Hshow as [_ HS]. rewrite HS, H by lia. reflexivity.
  Qed.

  Lemma utf8_derefs i s : jutf8_at l i = Some s -> derefs p i (PStr s).
  Proof.
    unfold jutf8_at. destruct (jat l i) as [[]|] eqn:E; try discriminate. intro H. injection H as ->.
    apply shows_at in E as [Hi E]. now apply d_utf8.
  Qed.
  Lemma class_derefs i s : jclass_at l i = Some s -> derefs p i (PStr s).
  Proof.
    unfold jclass_at. destruct (jat l i) as [[]|] eqn:E; try discriminate. intro H.
    apply shows_at in E as [Hi E]. eapply d_ref; eauto. now apply utf8_derefs.
  Qed.
  Lemma nt_derefs i n t : jnt_at l i = Some (n, t) -> derefs p i (pstr2 n t).
  Proof.
    unfold jnt_at. destruct (jat l i) as [[]|] eqn:E; try discriminate.
    destruct (jutf8_at l a) eqn:Ea; [|discriminate]. destruct (jutf8_at l b) eqn:Eb; [|discriminate].
    intro H. injection H as -> ->. apply shows_at in E as [Hi E].
    apply utf8_derefs in Ea. apply utf8_derefs in Eb. eapply d_ref2; eauto; discriminate.
  Qed.
  Lemma member_derefs i t a b v : i <> 0 -> get_const p i = Ok (KRef2 t a b) -> t <> 17 -> t <> 18 ->
    jmember_val l a b = Some v -> derefs p i v.
  Proof.
    intros Hi Hc Ht1 Ht2. unfold jmember_val.
    destruct (jclass_at l a) eqn:Ea; [|discriminate].
    destruct (jnt_at l b) as [[n t']|] eqn:Eb; [|discriminate]. intro H. injection H as <-.
    eapply d_ref2; eauto. now apply class_derefs. now apply nt_derefs.
  Qed.

  Lemma resolve_derefs i c v : jat l i = Some c -> jresolve l c = Some v -> derefs p i v.
  Proof.
    intros H Hr. pose proof (shows_at _ _ H) as [Hi Hc].
    assert (Hone : forall t j, shown_const c = KRef t j -> option_map PStr (jutf8_at l j) = Some v ->
                   derefs p i v).
    { intros t j E Ej. destruct (jutf8_at l j) eqn:Eu; [|discriminate]. injection Ej as <-.
      eapply d_ref; [exact Hi| |apply utf8_derefs, Eu]. rewrite Hc, E. reflexivity. }
    assert (Htwo : forall t a b, shown_const c = KRef2 t a b -> t <> 17 -> t <> 18 ->
       match jutf8_at l a, jutf8_at l b with Some x, Some y => Some (pstr2 x y) | _, _ => None end = Some v ->
                   derefs p i v).
    { intros t a b E Ht1 Ht2 Ej. destruct (jutf8_at l a) eqn:Ea; [|discriminate].
      destruct (jutf8_at l b) eqn:Eb; [|discriminate]. injection Ej as <-.
      eapply d_ref2; [exact Hi| |exact Ht1|exact Ht2|apply utf8_derefs, Ea|apply utf8_derefs, Eb].
      rewrite Hc, E. reflexivity. }
    assert (Hdyn : forall t a b, shown_const c = KRef2 t a b -> t = 17 \/ t = 18 ->
       match jnt_at l b with Some (n, t) => Some (PPair (PInt a) (pstr2 n t)) | None => None end = Some v ->
                   derefs p i v).
    { intros t a b E Ht Ej. destruct (jnt_at l b) as [[n t']|] eqn:Eb; [|discriminate]. injection Ej as <-.
      eapply d_dyn; [exact Hi| |exact Ht|apply nt_derefs, Eb]. rewrite Hc, E. reflexivity. }
    destruct c; cbn [jresolve shown_const] in *;
      try (injection Hr as <-; econstructor; eassumption);
      try (eapply Hone; [reflexivity|exact Hr]);
      try (eapply Htwo; [reflexivity|discriminate|discriminate|exact Hr]);
      try (eapply Hdyn; [reflexivity|auto|exact Hr]);
      try (eapply member_derefs; [exact Hi|exact Hc|discriminate|discriminate|exact Hr]).
    destruct (jat l i0) as [c'|] eqn:E'; [|discriminate].
    assert (HM : exists t a b, shown_const c' = KRef2 t a b /\ t <> 17 /\ t <> 18 /\
                 option_map (PPair (PInt k)) (jmember_val l a b) = Some v).
    { destruct c'; try discriminate; eexists _, _, _; (split; [reflexivity|]);
        (split; [discriminate|]); (split; [discriminate|]); exact Hr. }
    destruct HM as (t & a & b & E & Ht1 & Ht2 & Hv).
    destruct (jmember_val l a b) as [w|] eqn:Ew; [|discriminate]. injection Hv as <-.
    apply shows_at in E' as [Hi0 Hc0]. rewrite E in Hc0.
    eapply d_handle; [exact Hi|exact Hc|]. eapply member_derefs; eauto.
  Qed.
End wf.

Lemma deref_wf l p i c : jpool_wf l = true -> pool_shows l p -> jat l i = Some c ->
  exists v, jresolve l c = Some v /\ deref_const p i = Ok v.
Proof.
  intros Hwf Hs Hat. unfold jpool_wf in Hwf. apply andb_prop in Hwf as [_ Hwf].
  rewrite forallb_forall in Hwf. specialize (Hwf c (jat_from_in _ _ _ _ Hat)).
  destruct (jresolve l c) as [v|] eqn:E; [|discriminate]. exists v. split; [reflexivity|].
  apply deref_const_iff. eapply resolve_derefs; eauto.
Qed.

Lemma deref_not_const l p i : pool_shows l p -> 0 <= i -> jat l i = None ->
  deref_const p i = Err IndexError \/ deref_const p i = Err UnknownConstantPoolTag.
Proof.
  intros [_ Hs] Hi HN. unfold deref_const. cbn [deref_f].
  destruct (i =? 0); [auto|]. rewrite Hs, HN by exact Hi.
  destruct (i <? 1 + jslots l); cbn [rbind]; auto.
Qed.

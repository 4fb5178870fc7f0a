(** Proofs about constants(), the names of a class, and the magic argument. *)
From Coq Require Import Sorted.
From Verif Require Import Base Pack_Model Pack_Spec ConstPool_Model ConstPool_Spec ConstPool_Proofs
  ConstPool_Deref ClassFile_Model ClassFile_Spec ClassFile_Proofs.

Lemma constants_from_facts p : forall l pre, p = pre ++ l -> pre <> [] ->
  forall r e, constants_from p l (Z.of_nat (length pre)) = (r, e) ->
  (forall i t v, In (i, t, v) r -> Z.of_nat (length pre) <= i /\
     exists c, get_const p i = Ok c /\ ctag c = Some t /\ deref_const p i = Ok v) /\
  StronglySorted (fun x y => fst (fst x) < fst (fst y)) r /\
  (e = None -> forall i c t, Z.of_nat (length pre) <= i -> get_const p i = Ok c -> ctag c = Some t ->
     exists v, deref_const p i = Ok v /\ In (i, t, v) r) /\
  (forall x, e = Some x -> exists i c t, Z.of_nat (length pre) <= i /\ get_const p i = Ok c /\ ctag c = Some t /\
     deref_const p i = Err x).
Proof.
  induction l as [|c l IH]; intros pre Hp Hne r e H.
  - cbn in H. injection H as <- <-. split; [intros ? ? ? []|]. split; [constructor|]. split; [|discriminate].
    intros _ i c t Hi HG HT. exfalso. unfold get_const, py_index in HG.
    rewrite (proj2 (Z.leb_le 0 i)) in HG by lia.
    rewrite (proj2 (nth_error_None p (Z.to_nat i))) in HG; [discriminate|].
    rewrite Hp, app_nil_r. lia.
  - assert (HC : get_const p (Z.of_nat (length pre)) = Ok c).
    { unfold get_const, py_index. rewrite (proj2 (Z.leb_le 0 _)) by lia. rewrite Nat2Z.id, Hp.
      rewrite nth_error_app2, Nat.sub_diag by lia. reflexivity. }
    assert (Hp' : p = (pre ++ [c]) ++ l) by now rewrite <- app_assoc.
    assert (Hne' : pre ++ [c] <> []) by now destruct pre.
    assert (HL : Z.of_nat (length (pre ++ [c])) = Z.of_nat (length pre) + 1) by (rewrite app_length; cbn [length]; lia).
    specialize (IH _ Hp' Hne').
    cbn [constants_from] in H.
    assert (split_i : forall i, Z.of_nat (length pre) <= i -> i = Z.of_nat (length pre) \/ Z.of_nat (length (pre ++ [c])) <= i) by lia.
    destruct (ctag c) as [t0|] eqn:HT0.
    + destruct (deref_const p (Z.of_nat (length pre))) as [v0|x0] eqn:HD.
      * destruct (constants_from p l (Z.of_nat (length pre) + 1)) as [r' e'] eqn:HR.
        injection H as <- <-. rewrite HL in IH. specialize (IH _ _ HR) as (I1 & I2 & I3 & I4).
        split; [|split; [|split]].
        -- intros i t v [E|HI].
           ++ injection E as <- <- <-. split; [lia|]. eauto.
           ++ destruct (I1 _ _ _ HI) as [Hi X]. split; [lia|exact X].
        -- constructor; [exact I2|]. apply Forall_forall. intros [[i t] v] HI. cbn. apply I1 in HI. lia.
        -- intros E i c' t Hi HG HT. destruct (split_i _ Hi) as [->|Hi'].
           ++ rewrite HC in HG. injection HG as <-. rewrite HT0 in HT. injection HT as <-.
              exists v0. split; [exact HD|now left].
           ++ rewrite HL in Hi'. destruct (I3 E _ _ _ Hi' HG HT) as (v & A & B). exists v. split; [exact A|now right].
        -- intros x E. destruct (I4 _ E) as (i & c' & t & A & B). exists i, c', t. split; [lia|exact B].
      * injection H as <- <-. split; [intros ? ? ? []|]. split; [constructor|]. split; [discriminate|].
        intros x E. injection E as <-. exists (Z.of_nat (length pre)), c, t0. repeat split; auto. lia.
    + rewrite HL in IH. specialize (IH _ _ H) as (I1 & I2 & I3 & I4). split; [|split; [|split]].
      * intros i t v HI. destruct (I1 _ _ _ HI) as [Hi X]. split; [lia|exact X].
      * exact I2.
      * intros E i c' t Hi HG HT. destruct (split_i _ Hi) as [->|Hi'].
        -- rewrite HC in HG. injection HG as <-. congruence.
        -- rewrite HL in Hi'. eapply I3; eauto.
      * intros x E. destruct (I4 _ E) as (i & c' & t & A & B). exists i, c', t. split; [lia|exact B].
Qed.

Lemma constants_any x0 (p : pool) r e : constants (x0 :: p) = (r, e) ->
  (forall i t v, In (i, t, v) r ->
     0 < i /\ (exists c, get_const (x0 :: p) i = Ok c /\ ctag c = Some t) /\ derefs (x0 :: p) i v) /\
  StronglySorted (fun x y => fst (fst x) < fst (fst y)) r /\
  (e = None -> forall i c t, 0 < i -> get_const (x0 :: p) i = Ok c -> ctag c = Some t ->
     exists v, derefs (x0 :: p) i v /\ In (i, t, v) r) /\
  (forall x, e = Some x -> exists i, 0 < i /\ deref_const (x0 :: p) i = Err x).
Proof.
  intros H. destruct (constants_from_facts (x0 :: p) p [x0] eq_refl) with (r := r) (e := e) as (A & B & C & D);
    [discriminate|exact H|]. cbn [length] in *. split; [|split; [exact B|split]].
  - intros i t v HI. apply A in HI as (Hi & c & HG & HT & HD). split; [lia|]. split; [eauto|]. now apply deref_const_iff.
  - intros E i c t Hi HG HT. destruct (C E i c t) as (v & HD & HI); auto; [lia|]. exists v. split; [now apply deref_const_iff|exact HI].
  - intros x E. destruct (D x E) as (i & c & t & Hi & _ & _ & HD). exists i. split; [lia|exact HD].
Qed.

Definition jtag (c : jconst) : Z := hd 0 (enc_const c).
Lemma ctag_shown c : ctag (shown_const c) = Some (jtag c).
Proof. destruct c; reflexivity. Qed.

Lemma constants_wf l p : jpool_wf l = true -> pool_shows l p ->
  exists r, constants p = (r, None) /\
    StronglySorted (fun x y => fst (fst x) < fst (fst y)) r /\
    forall i t v, In (i, t, v) r <-> exists c, jat l i = Some c /\ t = jtag c /\ jresolve l c = Some v.
Proof.
  intros HW HS. destruct p as [|x0 p].
  { exfalso. destruct HS as [HL _]. cbn [length] in HL. pose proof (jslots_nonneg l). lia. }
  destruct (constants (x0 :: p)) as [r e] eqn:E.
  destruct (constants_any _ _ _ _ E) as (A & B & C & D).
  pose proof (proj2 HS) as HG0.
  assert (e = None) as ->.
  { destruct e as [x|]; [|reflexivity]. exfalso.
    destruct (constants_from_facts (x0 :: p) p [x0] eq_refl) with (r := r) (e := Some x) as (_ & _ & _ & D');
      [discriminate|exact E|].
    destruct (D' x eq_refl) as (i & c & t & Hi & HG & HT & HD). cbn [length] in Hi.
    rewrite HG0 in HG by lia. destruct (jat l i) as [jc|] eqn:HA.
    - destruct (deref_wf l _ i jc HW HS HA) as (v & _ & X). congruence.
    - destruct (i <? 1 + jslots l); [|discriminate]. injection HG as <-. discriminate. }
  exists r. split; [reflexivity|]. split; [exact B|]. intros i t v. split.
  - intros HI. apply A in HI as (Hi & (c & HG & HT) & HD). rewrite HG0 in HG by lia.
    destruct (jat l i) as [jc|] eqn:HA.
    + injection HG as <-. exists jc. split; [reflexivity|]. rewrite ctag_shown in HT. injection HT as <-.
      split; [reflexivity|]. destruct (deref_wf l _ i jc HW HS HA) as (v' & HV & X).
      apply deref_const_iff in HD. congruence.
    + destruct (i <? 1 + jslots l); [|discriminate]. injection HG as <-. discriminate.
  - intros (jc & HA & -> & HV). pose proof (jat_pos _ _ _ HA) as Hi.
    destruct (C eq_refl i (shown_const jc) (jtag jc)) as (v' & HD & HI).
    + exact Hi.
    + rewrite HG0 by lia. now rewrite HA.
    + apply ctag_shown.
    + destruct (deref_wf l _ i jc HW HS HA) as (v2 & HV2 & X). apply deref_const_iff in HD. congruence.
Qed.

Lemma class_names c r : jpool_wf (jc_pool c) = true -> class_shows c r ->
  (forall n, jclass_at (jc_pool c) (jc_this c) = Some n -> get_this r = Ok (PStr n)) /\
  (jc_super c = 0 -> get_super r = Ok (PStr [])) /\
  (forall n, jclass_at (jc_pool c) (jc_super c) = Some n -> get_super r = Ok (PStr n)) /\
  (forall ns, Forall2 (fun i n => jclass_at (jc_pool c) i = Some n) (jc_interfaces c) ns ->
     get_interfaces r = Ok (map PStr ns)) /\
  (forall jm m n, In (jm, m) (combine (jc_fields c ++ jc_methods c) (c_fields r ++ c_methods r)) ->
     jutf8_at (jc_pool c) (jm_name jm) = Some n -> m_name (c_pool r) m = Ok (PStr n)) /\
  (forall jm m n, In (jm, m) (combine (jc_fields c ++ jc_methods c) (c_fields r ++ c_methods r)) ->
     jutf8_at (jc_pool c) (jm_desc jm) = Some n -> m_descriptor (c_pool r) m = Ok (PStr n)).
Proof.
  intros HW (HV & HP & HF & HT & HSu & HI & HFs & HMs & HA).
  assert (cls : forall i n, jclass_at (jc_pool c) i = Some n -> i <> 0 /\ deref_const (c_pool r) i = Ok (PStr n)).
  { intros i n H. unfold jclass_at in H. destruct (jat (jc_pool c) i) as [k|] eqn:E; [|discriminate].
    destruct k; try discriminate. pose proof (jat_pos _ _ _ E).
    destruct (deref_wf _ _ _ _ HW HP E) as (v & HR & HD). cbn [jresolve] in HR. rewrite H in HR. cbn in HR.
    injection HR as <-. split; [lia|exact HD]. }
  assert (utf : forall i n, jutf8_at (jc_pool c) i = Some n -> deref_const (c_pool r) i = Ok (PStr n)).
  { intros i n H. unfold jutf8_at in H. destruct (jat (jc_pool c) i) as [k|] eqn:E; [|discriminate].
    destruct k; try discriminate. injection H as ->.
    destruct (deref_wf _ _ _ _ HW HP E) as (v & HR & HD). cbn [jresolve] in HR. injection HR as <-. exact HD. }
  assert (mem : forall jm m, In (jm, m) (combine (jc_fields c ++ jc_methods c) (c_fields r ++ c_methods r)) ->
     m_name_ref m = jm_name jm /\ m_desc_ref m = jm_desc jm).
  { assert (H2 : Forall2 (fun jm m => m_name_ref m = jm_name jm /\ m_desc_ref m = jm_desc jm)
                  (jc_fields c ++ jc_methods c) (c_fields r ++ c_methods r)).
    { apply Forall2_app; [clear - HFs; revert HFs|clear - HMs; revert HMs]; intros X;
        (induction X as [|a b la lb X1 _ IH]; [constructor|]; apply Forall2_cons; [unfold member_shows in X1; tauto|exact IH]). }
    intros jm m. induction H2 as [|a b la lb Hab _ IH]; cbn [combine]; [intros []|].
    intros [E|E]; [injection E as <- <-; exact Hab|auto]. }
  split; [intros n H; unfold get_this; rewrite HT; now apply cls|].
  split; [intros H; unfold get_super; now rewrite HSu, H|].
  split.
  { intros n H. unfold get_super. rewrite HSu. destruct (cls _ _ H) as [H0 H1].
    rewrite (proj2 (Z.eqb_neq _ _) H0). exact H1. }
  split.
  { intros ns H. unfold get_interfaces. rewrite HI. clear HI. revert H. generalize (jc_interfaces c). intros l0 H. induction H as [|i n li ln Hi _ IH]; [reflexivity|].
    cbn [mapM map]. rewrite (proj2 (cls _ _ Hi)). cbn [rbind]. rewrite IH. reflexivity. }
  split; intros jm m n H HN; destruct (mem _ _ H) as [E1 E2].
  - unfold m_name. rewrite E1. now apply utf.
  - unfold m_descriptor. rewrite E2. now apply utf.
Qed.

Lemma magic_absent data :
  (forall g, In g [MTuple []; MBytes []; MStr []] ->
     unpack_class data g = unpack_class data MNone /\ unpack_class_stream data g = unpack_class_stream data MNone).
Proof. intros g [<-|[<-|[<-|[]]]]; split; reflexivity. Qed.

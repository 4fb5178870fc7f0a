(** Equality of annotations is symmetric and transitive, as read from any attribute. *)
From Verif Require Import Base Pack_Model ConstPool_Model ConstPool_Spec ClassFile_Model Anno_Model Anno_Spec Anno_Proofs Classdiff_Spec Classdiff_Members Classdiff_Self.
From Coq Require Import Permutation.

(** Element dicts have distinct keys. *)
Inductive keyed : aval -> Prop :=
| kd_const t i : keyed (AConst t i)
| kd_enum t n : keyed (AEnum t n)
| kd_class i : keyed (AClass i)
| kd_anno t es : ForallOrdPairs (fun a b => ~ pyeq (fst a) (fst b)) es -> Forall (fun e => keyed (snd e)) es -> keyed (AAnno t es)
| kd_arr l : Forall keyed l -> keyed (AArr l).
Definition keyed_elems (es : list (pyval * aval)) : Prop := ForallOrdPairs (fun a b => ~ pyeq (fst a) (fst b)) es /\ Forall (fun e => keyed (snd e)) es.

Lemma eset_in es k v e : In e (eset es k v) -> (exists x, In (fst e, x) es) \/ fst e = k.
Proof.
  induction es as [|[k' v'] es IH]; cbn [eset].
  - intros [<-|[]]. now right.
  - destruct (py_eq k k') eqn:E.
    + intros [<-|Hin]; [left; exists v'; now left|left; exists (snd e); right; now destruct e].
    + intros [<-|Hin]; [left; exists v'; now left|]. destruct (IH Hin) as [[x Hx]|Hx]; [left; exists x; now right|now right].
Qed.
Lemma eset_keyed es k v : keyed v -> keyed_elems es -> keyed_elems (eset es k v).
Proof.
  intros Hv [H2 H3]. split.
  - induction es as [|[k' v'] es IH]; cbn [eset]; [constructor; [constructor|constructor]|]. apply FOP_inv in H2 as [B1 B2]. inversion H3; subst.
    destruct (py_eq k k') eqn:E; constructor; auto. apply Forall_forall. intros e He Heq. cbn [fst] in Heq. destruct (eset_in es k v e He) as [[x Hx]|Hx].
    + rewrite Forall_forall in B1. exact (B1 _ Hx Heq).
    + rewrite Hx in Heq. apply pyeq_sym in Heq. unfold pyeq in Heq. congruence.
  - clear H2. induction es as [|[k' v'] es IH]; cbn [eset]; [constructor; [exact Hv|constructor]|]. inversion H3; subst. destruct (py_eq k k'); constructor; auto.
Qed.
Section Pool.
Variable p : pool.
Lemma elems_keyed q n : pall keyed q -> forall d, keyed_elems d -> pall keyed_elems (p_elems p q n d).
Proof.
  intro Hq. induction n as [|n IH]; intros d Hd; cbn [p_elems]; [now apply pall_ret|]. eapply pall_bind; [apply pall_any|]. intros r _. eapply pall_bind; [exact Hq|]. intros v Hv.
  eapply pall_bind; [apply pall_any|]. intros k _. apply IH. now apply eset_keyed.
Qed.
Lemma no_elems : keyed_elems [].
Proof. split; constructor. Qed.
Lemma aval_keyed fuel : pall keyed (p_aval fuel p).
Proof.
  induction fuel as [|fu IH]; cbn [p_aval]; [apply pall_raise|]. eapply pall_bind; [apply pall_any|]. intros t _.
  destruct (is_const_tag t); [eapply pall_bind; [apply pall_any|]; intros; apply pall_ret; constructor|].
  destruct (t =? 101); [eapply pall_bind; [apply pall_any|]; intros; apply pall_ret; constructor|].
  destruct (t =? 99); [eapply pall_bind; [apply pall_any|]; intros; apply pall_ret; constructor|].
  destruct (t =? 64). { eapply pall_bind; [apply pall_any|]. intros tc _. eapply pall_bind; [apply elems_keyed; [exact IH|apply no_elems]|]. intros d [Hd1 Hd2]. apply pall_ret. now constructor. }
  destruct (t =? 91). { eapply pall_bind; [apply pall_any|]. intros n _. eapply pall_bind; [apply pall_repeat; exact IH|]. intros l Hl. apply pall_ret. now constructor. }
  apply pall_raise.
Qed.
Lemma annotations_keyed d n l : annotations_of p d n = Ok l -> Forall (fun a => keyed (AAnno (fst a) (snd a))) l.
Proof.
  unfold annotations_of. destruct (get_attribute d n) as [b|]; [|intro H; injection H as <-; constructor]. apply parse_all. apply pall_objects. unfold p_annotation.
  eapply pall_bind; [apply pall_any|]. intros tc _. eapply pall_bind; [apply elems_keyed; [apply aval_keyed|apply no_elems]|]. intros e [He1 He2]. apply pall_ret. now constructor.
Qed.
End Pool.

(** ** Equality as a relation *)
Definition ceq (lp rp : pool) (i j : Z) : Prop := exists v w, deref_const lp i = Ok v /\ deref_const rp j = Ok w /\ pyeq v w.
Lemma const_eq_iff lp rp i j : const_eq lp rp i j = Ok true <-> ceq lp rp i j.
Proof.
  unfold const_eq, ceq. split.
  - destruct (deref_const lp i) as [v|]; cbn [rbind]; [|discriminate]. destruct (deref_const rp j) as [w|]; cbn [rbind]; [|discriminate]. intro H. exists v, w. split; [reflexivity|]. split; [reflexivity|]. unfold pyeq. now injection H.
  - intros (v & w & -> & -> & H). cbn [rbind]. now rewrite H.
Qed.
Lemma ceq_sym lp rp i j : ceq lp rp i j -> ceq rp lp j i.
Proof. intros (v & w & H1 & H2 & H3). exists w, v. split; [exact H2|]. split; [exact H1|]. now apply pyeq_sym. Qed.
Lemma ceq_trans ap bp cp i j k : ceq ap bp i j -> ceq bp cp j k -> ceq ap cp i k.
Proof. intros (v & w & H1 & H2 & H3) (w' & x & H4 & H5 & H6). rewrite H2 in H4. injection H4 as <-. exists v, x. split; [exact H1|]. split; [exact H5|]. eapply pyeq_trans; eassumption. Qed.

Inductive aeq (lp rp : pool) : aval -> aval -> Prop :=
| aeq_const t i j : ceq lp rp i j -> aeq lp rp (AConst t i) (AConst t j)
| aeq_enum a b c d : ceq lp rp a c -> ceq lp rp b d -> aeq lp rp (AEnum a b) (AEnum c d)
| aeq_class i j : ceq lp rp i j -> aeq lp rp (AClass i) (AClass j)
| aeq_anno lt rt le re re' : ceq lp rp lt rt -> Permutation re re' ->
    Forall2 (fun x y => pyeq (fst x) (fst y) /\ aeq lp rp (snd x) (snd y)) le re' -> aeq lp rp (AAnno lt le) (AAnno rt re)
| aeq_arr ll rl : Forall2 (aeq lp rp) ll rl -> aeq lp rp (AArr ll) (AArr rl).

Lemma eget_in d k w : eget d k = Some w -> exists k', In (k', w) d /\ pyeq k k'.
Proof.
  induction d as [|[k' v] d IH]; [discriminate|]. cbn [eget]. destruct (py_eq k k') eqn:E.
  - intro H. injection H as <-. exists k'. split; [now left|exact E].
  - intro H. destruct (IH H) as (k2 & H1 & H2). exists k2. split; [now right|exact H2].
Qed.
Lemma eget_of d k k' w : ForallOrdPairs (fun a b => ~ pyeq (fst a) (fst b)) d -> In (k', w) d -> pyeq k k' -> eget d k = Some w.
Proof.
  intros HD HI HK. induction d as [|[k2 v] d IH]; [destruct HI|]. apply FOP_inv in HD as [H1 H2]. cbn [eget]. destruct HI as [E|HI].
  - injection E as -> ->. now rewrite HK.
  - destruct (py_eq k k2) eqn:E; [|now apply IH]. exfalso. rewrite Forall_forall in H1. apply (H1 _ HI). cbn [fst]. eapply pyeq_trans; [apply pyeq_sym; exact E|exact HK].
Qed.
(** Each of [le] has a partner in [re]: partners are distinct, so all are taken. *)
Lemma partners {A B} (K : A -> pyval) (K' : B -> pyval) (R : A -> B -> Prop) le : forall re,
  ForallOrdPairs (fun a b => ~ pyeq (K a) (K b)) le -> length le = length re ->
  Forall (fun x => exists y, In y re /\ pyeq (K x) (K' y) /\ R x y) le ->
  exists re', Permutation re re' /\ Forall2 (fun x y => pyeq (K x) (K' y) /\ R x y) le re'.
Proof.
  induction le as [|x le IH]; intros re HD HL HF.
  - destruct re; [|discriminate]. exists []. split; constructor.
  - inversion HF as [|? ? (y & HY & E & HR) HF']; subst. apply FOP_inv in HD as [H1 H2]. apply in_split in HY as (a & b & ->).
    destruct (IH (a ++ b) H2) as (re' & HP & H2').
    + cbn [length] in HL. rewrite app_length in *. cbn [length] in HL. lia.
    + rewrite Forall_forall in HF', H1 |- *. intros z Hz. destruct (HF' z Hz) as (w & HW & E' & HR'). exists w. split; [|split; assumption]. apply in_app_or in HW. apply in_or_app. destruct HW as [|[<-|]]; [now left| |now right].
      exfalso. apply (H1 z Hz). eapply pyeq_trans; [exact E|apply pyeq_sym; exact E'].
    + exists (y :: re'). split; [|constructor; auto]. etransitivity; [apply Permutation_sym, Permutation_middle|]. now constructor.
Qed.

Lemma aval_eq_sound lp rp l : forall r, keyed l -> aval_eq lp rp l r = Ok true -> aeq lp rp l r.
Proof.
  induction l as [t i|t n|i|t es IH|vs IH] using aval_ind'; intros r HK H; destruct r as [u j|u m|j|u fs|ws]; cbn [aval_eq] in H; try discriminate.
  - destruct (Z.eqb_spec t u) as [->|]; [|discriminate]. constructor. now apply const_eq_iff.
  - destruct (const_eq lp rp t u) as [[|]|] eqn:E; cbn [rbind] in H; try discriminate. constructor; now apply const_eq_iff.
  - constructor. now apply const_eq_iff.
  - destruct (const_eq lp rp t u) as [[|]|] eqn:E; cbn [rbind negb] in H; try discriminate. apply const_eq_iff in E. destruct (same_keys es fs) eqn:EK; cbn [negb] in H; [|discriminate].
    unfold same_keys in EK. apply andb_prop in EK as [EL _]. apply Nat.eqb_eq in EL. inversion HK as [| | |? ? K1 K2|]; subst.
    destruct (partners fst fst (fun x y => aeq lp rp (snd x) (snd y)) es fs K1 EL) as (re' & HP & HF); [|now apply (aeq_anno lp rp t u es fs re')].
    clear EL HK. revert IH K2 H. clear -es. intros IH K2 H. induction es as [|[k v] es IHe]; [constructor|]. inversion IH as [|? ? I1 I2]; subst. inversion K2 as [|? ? V1 V2]; subst.
    destruct (eget fs k) as [w|] eqn:EG; [|discriminate]. destruct (aval_eq lp rp v w) as [[|]|] eqn:EV; cbn [rbind] in H; try discriminate. constructor.
    + destruct (eget_in _ _ _ EG) as (k' & G1 & G2). exists (k', w). cbn [fst snd] in *. auto.
    + exact (IHe I2 V2 H).
  - destruct (length vs =? length ws)%nat eqn:EL; cbn [negb] in H; [|discriminate]. apply Nat.eqb_eq in EL. constructor. inversion HK as [| | | |? KL]; subst. clear HK.
    revert ws EL H. induction vs as [|v vs IHv]; intros [|w ws] EL H; try discriminate; [constructor|]. inversion IH; subst. inversion KL; subst. destruct (aval_eq lp rp v w) as [[|]|] eqn:EV; cbn [rbind] in H; try discriminate.
    constructor; [auto|]. apply IHv; auto.
Qed.
Lemma aeq_complete lp rp l : forall r, keyed r -> aeq lp rp l r -> aval_eq lp rp l r = Ok true.
Proof.
  induction l as [t i|t n|i|t es IH|vs IH] using aval_ind'; intros r HK H; inversion H; subst; cbn [aval_eq].
  - rewrite Z.eqb_refl. now apply const_eq_iff.
  - rewrite (proj2 (const_eq_iff lp rp t c)) by assumption. cbn [rbind]. now apply const_eq_iff.
  - now apply const_eq_iff.
  - rewrite (proj2 (const_eq_iff lp rp t rt)) by assumption. cbn [rbind negb]. inversion HK as [| | |? ? K1 K2|]; subst.
    assert (GE : Forall (fun x => exists y, In y re /\ pyeq (fst x) (fst y) /\ aeq lp rp (snd x) (snd y)) es).
    { match goal with HP : Permutation re re', HF : Forall2 _ es re' |- _ => revert HP HF end. clear -es. intros HP HF. assert (HI : incl re' re) by (intros z Hz; exact (Permutation_in _ (Permutation_sym HP) Hz)). clear HP. induction HF as [|x y l l' [E1 E2] HF IH]; [constructor|].
      constructor; [exists y; split; [apply HI; now left|auto]|]. apply IH. intros z Hz. apply HI. now right. }
    assert (EK : same_keys es re = true).
    { unfold same_keys. apply andb_true_intro. split.
      - apply Nat.eqb_eq. match goal with HP : Permutation re re', HF : Forall2 _ es re' |- _ => apply Permutation_length in HP; apply Forall2_length in HF; congruence end.
      - apply forallb_forall. intros x Hx. rewrite Forall_forall in GE. destruct (GE x Hx) as ([k' w] & G1 & G2 & _). cbn [fst] in G2. now rewrite (eget_of re (fst x) k' w K1 G1 G2). }
    rewrite EK. cbn [negb]. clear EK H. match goal with HF : Forall2 _ es re' |- _ => clear HF end. induction es as [|[k v] es IHe]; [reflexivity|]. inversion IH as [|? ? I1 I2]; subst. inversion GE as [|? ? ([k' w] & G1 & G2 & G3) GE']; subst. cbn [fst snd] in *.
    rewrite (eget_of re k k' w K1 G1 G2). rewrite I1; [|rewrite Forall_forall in K2; exact (K2 _ G1)|exact G3]. cbn [rbind]. now apply IHe.
  - match goal with HF : Forall2 _ vs rl |- _ => rename HF into HF0 end. rewrite (proj2 (Nat.eqb_eq _ _)) by (eapply Forall2_length; exact HF0). cbn [negb]. inversion HK as [| | | |? KL]; subst. clear H HK.
    induction HF0 as [|v w vs ws HV HF0 IHv]; [reflexivity|]. inversion IH; subst. inversion KL; subst. rewrite H1 by assumption. cbn [rbind]. now apply IHv.
Qed.
Lemma aeq_sym lp rp l : forall r, aeq lp rp l r -> aeq rp lp r l.
Proof.
  induction l as [t i|t n|i|t es IH|vs IH] using aval_ind'; intros r H; inversion H; subst.
  - constructor. now apply ceq_sym.
  - constructor; now apply ceq_sym.
  - constructor. now apply ceq_sym.
  - match goal with HP : Permutation re re', HF : Forall2 _ es re' |- _ => destruct (Forall2_perm _ _ _ _ HF (Permutation_sym HP)) as (es' & P1 & F1) end.
    apply (aeq_anno rp lp rt t re es es'); [now apply ceq_sym|exact P1|]. apply (Forall2_flip_in (fun x y => pyeq (fst x) (fst y) /\ aeq lp rp (snd x) (snd y))); [|exact F1].
    assert (IH' : Forall (fun e => forall r, aeq lp rp (snd e) r -> aeq rp lp r (snd e)) es') by (rewrite Forall_forall in IH |- *; intros x Hx; apply IH; exact (Permutation_in _ (Permutation_sym P1) Hx)).
    eapply Forall_impl; [|exact IH']. intros x Hx y [E1 E2]. split; [now apply pyeq_sym|now apply Hx].
  - constructor. eapply Forall2_flip_in; [|eassumption]. exact IH.
Qed.
Lemma aeq_trans ap bp cp a : forall b c, aeq ap bp a b -> aeq bp cp b c -> aeq ap cp a c.
Proof.
  induction a as [t i|t n|i|t es IH|vs IH] using aval_ind'; intros b c H H'; inversion H; subst; inversion H'; subst.
  - constructor. eapply ceq_trans; eassumption.
  - constructor; eapply ceq_trans; eassumption.
  - constructor. eapply ceq_trans; eassumption.
  - match goal with HP : Permutation re re', HF : Forall2 _ es re', HP2 : Permutation re0 re'0, HF2 : Forall2 _ re re'0 |- _ =>
      rename HP into P1; rename HF into F1; rename HP2 into P2; rename HF2 into F2 end.
    apply (Forall2_flip_in _ (fun y x => pyeq (fst x) (fst y) /\ aeq bp cp (snd x) (snd y))) in F2; [|apply Forall_forall; auto].
    destruct (Forall2_perm _ _ _ _ F2 P1) as (cs & P3 & F3). apply (Forall2_flip_in _ (fun x y => pyeq (fst x) (fst y) /\ aeq bp cp (snd x) (snd y))) in F3; [|apply Forall_forall; auto].
    apply (aeq_anno ap cp t rt0 es re0 cs); [eapply ceq_trans; eassumption|etransitivity; eassumption|].
    eapply Forall2_trans_in; [|exact F1|exact F3]. eapply Forall_impl; [|exact IH]. intros x Hx y z [E1 E2] [E3 E4]. split; [eapply pyeq_trans; eassumption|eauto].
  - constructor. eapply Forall2_trans_in; [exact IH|eassumption|eassumption].
Qed.

(** ** Lists of annotations *)
Definition annos_rel (lp rp : pool) : list annotation -> list annotation -> Prop := Forall2 (fun a b => annotation_eq lp rp a b = Ok true).
Lemma annos_sym lp rp ls rs : Forall (fun a => keyed (AAnno (fst a) (snd a))) ls -> Forall (fun a => keyed (AAnno (fst a) (snd a))) rs -> annos_rel lp rp ls rs -> annos_rel rp lp rs ls.
Proof.
  intros KL KR HF. induction HF as [|a b ls rs H HF IH]; [constructor|]. inversion KL; subst. inversion KR; subst. constructor; [|now apply IH]. unfold annotation_eq in *. apply aeq_complete; [assumption|]. apply aeq_sym. now apply aval_eq_sound.
Qed.
Lemma annos_trans ap bp cp xs : forall ys zs, Forall (fun a => keyed (AAnno (fst a) (snd a))) xs -> Forall (fun a => keyed (AAnno (fst a) (snd a))) ys -> Forall (fun a => keyed (AAnno (fst a) (snd a))) zs ->
  annos_rel ap bp xs ys -> annos_rel bp cp ys zs -> annos_rel ap cp xs zs.
Proof.
  intros ys zs KX KY KZ HF. revert zs KZ. induction HF as [|a b xs ys H HF IH]; intros zs KZ HG; inversion HG as [|? c ? zs' H' HG']; subst; [constructor|]. inversion KX; subst. inversion KY; subst. inversion KZ; subst. constructor; [|now apply IH].
  unfold annotation_eq in *. apply aeq_complete; [assumption|]. eapply aeq_trans; apply aval_eq_sound; eassumption.
Qed.

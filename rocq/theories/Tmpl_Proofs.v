(** The method resolution order respects inheritance. *)
From Verif Require Import Base Tmpl_Model Tmpl_Spec.

(** [x] comes before [y] in [l] *)
Definition before (x y : str) (l : list str) : Prop := exists a b, l = a ++ x :: b /\ In y b.

Lemma before_cons : forall x y z l, before x y l -> before x y (z :: l).
Proof. intros x y z l (a & b & -> & H). exists (z :: a), b. auto. Qed.
Lemma before_head : forall x y l, In y l -> before x y (x :: l).
Proof. intros x y l H. exists [], l. auto. Qed.
Lemma before_inv : forall x y z l, before x y (z :: l) -> (z = x /\ In y l) \/ before x y l.
Proof.
  intros x y z l ([|w a] & b & E & H); cbn in E; injection E as -> ->; [left; auto|]. right. exists a, b. auto.
Qed.

Lemma candidate_spec : forall all seqs x, candidate seqs all = Some x -> (exists s, In (x :: s) seqs) /\ forall s, In s all -> ~ In x (tl s).
Proof.
  intros all seqs x. induction seqs as [|[|y s] r IH]; cbn [candidate]; [discriminate| |].
  - intros H. destruct (IH H) as ((s & I) & T). split; [exists s; right; exact I|exact T].
  - destruct (existsb (in_tail y) all) eqn:E.
    + intros H. destruct (IH H) as ((s' & I) & T). split; [exists s'; right; exact I|exact T].
    + intros [= ->]. split; [exists s; left; reflexivity|]. intros s' I J.
      assert (existsb (in_tail x) all = true); [|congruence]. rewrite existsb_exists. exists s'. split; [exact I|]. apply smem_In. exact J.
Qed.

Lemma drop_in : forall x y s, In y (drop_head x s) -> In y s.
Proof. intros x y [|z s]; cbn [drop_head]; [tauto|]. destruct (seqb x z); cbn; tauto. Qed.
Lemma drop_other : forall x y s, In y s -> y <> x -> In y (drop_head x s).
Proof.
  intros x y [|z s]; cbn [drop_head In]; [tauto|]. destruct (seqb_spec x z) as [->|N]; [|cbn; tauto]. intros [H|H] N; [congruence|exact H].
Qed.
Lemma drop_tail : forall x y s, In y (tl (drop_head x s)) -> In y (tl s).
Proof. intros x y [|z s]; cbn [drop_head]; [tauto|]. destruct (seqb x z); [|tauto]. destruct s; cbn; tauto. Qed.
Lemma drop_nodup : forall x s, NoDup s -> NoDup (drop_head x s).
Proof. intros x [|z s] H; cbn [drop_head]; [exact H|]. destruct (seqb x z); [inversion H; assumption|exact H]. Qed.

Lemma all_nil : forall seqs : list (list str), forallb (fun s => match s with [] => true | _ => false end) seqs = true -> forall s, In s seqs -> s = [].
Proof. intros seqs H s I. rewrite forallb_forall in H. specialize (H s I). destruct s; [reflexivity|discriminate]. Qed.

Lemma merge_spec : forall fuel seqs out, Forall (@NoDup str) seqs -> merge fuel seqs = Some out ->
  (forall x, In x out <-> exists s, In s seqs /\ In x s) /\ NoDup out /\
  (forall s x y, In s seqs -> before x y s -> before x y out).
Proof.
  intros fuel seqs out N H. assert (B : (forall x, In x out <-> exists s, In s seqs /\ In x s) /\ NoDup out /\
    (forall s x y, In s seqs -> before x y s -> before x y out)); [|exact B].
  revert seqs out N H. induction fuel as [|fuel IH]; intros seqs out N H.
  - cbn [merge] in H. destruct (forallb _ seqs) eqn:F; [|discriminate]. injection H as <-. pose proof (all_nil _ F) as A. repeat split.
    + intros [].
    + intros (s & I & J). rewrite (A s I) in J. exact J.
    + constructor.
    + intros s x y I (a & b & E & _). rewrite (A s I) in E. destruct a; discriminate.
  - cbn [merge] in H. destruct (forallb _ seqs) eqn:F.
    { injection H as <-. pose proof (all_nil _ F) as A. repeat split.
      + intros [].
      + intros (s & I & J). rewrite (A s I) in J. exact J.
      + constructor.
      + intros s x y I (a & b & E & _). rewrite (A s I) in E. destruct a; discriminate. }
    destruct (candidate seqs seqs) as [c|] eqn:C; [|discriminate].
    destruct (merge fuel (map (drop_head c) seqs)) as [r|] eqn:M; [|discriminate]. injection H as <-.
    apply candidate_spec in C as ((s0 & I0) & T).
    destruct (IH (map (drop_head c) seqs) r) as (Mem & ND & Bef); [|exact M|].
    { rewrite Forall_map. eapply Forall_impl; [|exact N]. intros s. apply drop_nodup. }
    assert (G : ~ In c r).
    { intros J. apply Mem in J as (s & I & J). apply in_map_iff in I as (s' & <- & I). pose proof (T s' I) as T'. rewrite Forall_forall in N. specialize (N s' I).
      destruct s' as [|z s']; cbn [drop_head] in J; [contradiction|]. destruct (seqb_spec c z) as [->|NE]; cbn [tl] in T'; [contradiction|]. destruct J as [J|J]; [congruence|contradiction]. }
    split; [|split].
    + intros x. split.
      * intros [<-|J]; [exists (c :: s0); split; [exact I0|left; reflexivity]|]. apply Mem in J as (s & I & J). apply in_map_iff in I as (s' & <- & I). exists s'. split; [exact I|apply (drop_in c), J].
      * intros (s & I & J). destruct (seqb_spec c x) as [->|NE]; [left; reflexivity|]. right. apply Mem. exists (drop_head c s). split; [apply in_map, I|]. apply drop_other; [exact J|congruence].
    + constructor; assumption.
    + intros s x y I B. destruct s as [|z s]; [destruct B as ([|? ?] & ? & ? & _); discriminate|].
      pose proof (in_map (drop_head c) _ _ I) as I'. cbn [drop_head] in I'. destruct (seqb_spec c z) as [->|NE].
      * destruct (before_inv _ _ _ _ B) as [(-> & J)|B'].
        -- apply before_head. apply Mem. exists s. split; [exact I'|exact J].
        -- apply before_cons, (Bef s); assumption.
      * apply before_cons, (Bef (z :: s)); assumption.
Qed.

(** ** Tables of orders *)

Lemma dget_In : forall V (d : dict V) k v, dget d k = Some v -> In (k, v) d.
Proof.
  intros V d k v. induction d as [|[k' v'] d IH]; cbn [dget]; [discriminate|]. destruct (seqb_spec k k') as [->|N].
  - intros [= ->]. left. reflexivity.
  - intros H. right. apply IH, H.
Qed.
Lemma dget_app_new : forall V (d : dict V) k v k', dget (d ++ [(k, v)]) k' = match dget d k' with Some x => Some x | None => if seqb k' k then Some v else None end.
Proof.
  intros V d k v k'. induction d as [|[a b] d IH]; cbn [app dget]; [reflexivity|]. destruct (seqb k' a); [reflexivity|exact IH].
Qed.
Lemma lookup_all_spec : forall d ks ms, lookup_all d ks = Some ms ->
  (forall m, In m ms -> exists k, In k ks /\ dget d k = Some m) /\ (forall k, In k ks -> exists m, In m ms /\ dget d k = Some m).
Proof.
  intros d ks. induction ks as [|k ks IH]; cbn [lookup_all]; intros ms H.
  - injection H as <-. split; [intros m []|intros k []].
  - destruct (dget d k) as [m|] eqn:E; [|discriminate]. destruct (lookup_all d ks) as [r|]; [|discriminate]. injection H as <-.
    destruct (IH r eq_refl) as (A & B). split.
    + intros m' [<-|I]; [exists k; split; [left; reflexivity|exact E]|]. destruct (A m' I) as (k' & I' & E'). exists k'. split; [right; exact I'|exact E'].
    + intros k' [<-|I]; [exists m; split; [left; reflexivity|exact E]|]. destruct (B k' I) as (m' & I' & E'). exists m'. split; [right; exact I'|exact E'].
Qed.

(** What is known of the table after the classes [done] *)
Record good (done : list klass) (d : dict (list str)) : Prop := {
  g_keys : forall n, dhas d n = true <-> n = lit "object" \/ In n (map kl_name done);
  g_mem : forall n m, dget d n = Some m -> forall x, In x m <-> inherits done n x;
  g_head : forall n m, dget d n = Some m -> exists r, m = n :: r;
  g_nodup : forall n m, dget d n = Some m -> NoDup m;
  g_order : forall n m, dget d n = Some m -> forall x y, In x m -> inherits done x y -> x <> y -> before x y m;
  g_closed : forall c b, In c done -> In b (kl_bases c) -> dhas d b = true
}.

Lemma inherits_trans : forall cs a b c, inherits cs a b -> inherits cs b c -> inherits cs a c.
Proof. intros cs a b c H. induction H as [|k b n I J H IH]; intros K; [exact K|]. eapply inh_base; eauto. Qed.
Lemma inherits_more : forall done c a b, inherits done a b -> inherits (done ++ [c]) a b.
Proof. intros done c a b H. induction H as [|k b n I J H IH]; [apply inh_refl|]. eapply inh_base; [apply in_or_app; left; exact I|exact J|exact IH]. Qed.

(** A class already there inherits nothing from a new one *)
Lemma inherits_old : forall done d c a b, good done d -> dhas d (kl_name c) = false ->
  inherits (done ++ [c]) a b -> dhas d a = true -> inherits done a b.
Proof.
  intros done d c a b G N H. induction H as [n|k b n I J H IH]; intros A; [apply inh_refl|].
  apply in_app_iff in I as [I|[<-|[]]]; [|congruence].
  eapply inh_base; [exact I|exact J|]. apply IH. eapply g_closed; eauto.
Qed.

Lemma inherits_has : forall done d a b, good done d -> inherits done a b -> dhas d a = true -> dhas d b = true.
Proof.
  intros done d a b G H. induction H as [n|k b n I J H IH]; intros A; [exact A|]. apply IH. eapply g_closed; eauto.
Qed.

Lemma good_step : forall done d c m, good done d -> ~ In (kl_name c) (lit "object" :: map kl_name done) ->
  mro_of d c = Some m -> good (done ++ [c]) (d ++ [(kl_name c, m)]).
Proof.
  intros done d c m G N H. unfold mro_of in H.
  destruct (lookup_all d (kl_bases c)) as [ms|] eqn:L; [|discriminate].
  destruct (merge _ (ms ++ [kl_bases c])) as [r|] eqn:M; [|discriminate]. injection H as <-.
  apply lookup_all_spec in L as (LA & LB).
  assert (NH : dhas d (kl_name c) = false).
  { destruct (dhas d (kl_name c)) eqn:E; [|reflexivity]. apply (g_keys _ _ G) in E. exfalso. apply N. cbn. destruct E as [E|E]; [left; symmetry; exact E|right; exact E]. }
  assert (HS : forall n x, dget d n = Some x -> dhas d n = true) by (intros n x E; unfold dhas; rewrite E; reflexivity).
  assert (BN : NoDup (kl_bases c)).
  { (* a base named twice is never a candidate *)
    clear - M. revert M. generalize (length (concat (ms ++ [kl_bases c]))). intros fuel.
    assert (X : forall fuel seqs out s, merge fuel seqs = Some out -> In s seqs -> NoDup s).
    { clear. induction fuel as [|fuel IH]; intros seqs out s M I; cbn [merge] in M.
      - destruct (forallb _ seqs) eqn:F; [|discriminate]. rewrite (all_nil _ F s I). constructor.
      - destruct (forallb _ seqs) eqn:F; [rewrite (all_nil _ F s I); constructor|].
        destruct (candidate seqs seqs) as [x|] eqn:C; [|discriminate]. destruct (merge fuel (map (drop_head x) seqs)) as [r|] eqn:R; [|discriminate].
        pose proof (IH _ _ (drop_head x s) R (in_map _ _ _ I)) as D. apply candidate_spec in C as (_ & T). specialize (T s I).
        destruct s as [|y s]; [constructor|]. cbn [drop_head tl] in *. destruct (seqb_spec x y) as [->|NE]; [constructor; assumption|exact D]. }
    intros M. eapply X; [exact M|]. apply in_or_app. right. left. reflexivity. }
  assert (SN : Forall (@NoDup str) (ms ++ [kl_bases c])).
  { apply Forall_app. split; [|constructor; [exact BN|constructor]]. rewrite Forall_forall. intros x I. apply LA in I as (k & _ & E). eapply g_nodup; eauto. }
  destruct (merge_spec _ _ _ SN M) as (Mem & ND & Bef). clear M.
  assert (MR : forall x, In x r <-> exists b, In b (kl_bases c) /\ inherits done b x).
  { intros x. rewrite Mem. split.
    - intros (s & I & J). apply in_app_iff in I as [I|[<-|[]]].
      + apply LA in I as (k & K & E). exists k. split; [exact K|]. apply (g_mem _ _ G k s E). exact J.
      + exists x. split; [exact J|apply inh_refl].
    - intros (b & I & J). destruct (LB b I) as (mm & I' & E). exists mm. split; [apply in_or_app; left; exact I'|]. apply (g_mem _ _ G b mm E). exact J. }
  assert (OLD : forall x, In x r -> dhas d x = true).
  { intros x J. apply MR in J as (b & I & J). destruct (LB b I) as (mm & _ & E). eapply inherits_has; eauto. }
  assert (FRESH : ~ In (kl_name c) r) by (intros J; apply OLD in J; congruence).
  assert (GET : forall n mm, dget (d ++ [(kl_name c, kl_name c :: r)]) n = Some mm -> (dget d n = Some mm) \/ (n = kl_name c /\ mm = kl_name c :: r)).
  { intros n mm E. rewrite dget_app_new in E. destruct (dget d n); [left; exact E|]. destruct (seqb_spec n (kl_name c)) as [->|]; [|discriminate]. injection E as <-. right. auto. }
  constructor.
  - intros n. unfold dhas. rewrite dget_app_new. rewrite map_app, in_app_iff. cbn [map In]. pose proof (g_keys _ _ G n) as K. unfold dhas in K. destruct (dget d n).
    + split; [intros _; apply proj1 in K; specialize (K eq_refl); tauto|reflexivity].
    + destruct (seqb_spec n (kl_name c)) as [->|NE]; [split; [intros _; right; right; left; reflexivity|reflexivity]|].
      split; [discriminate|]. intros [E|[E|[E|[]]]]; [apply K; left; exact E|apply K; right; exact E|congruence].
  - intros n mm E x. apply GET in E as [E|(-> & ->)].
    + rewrite (g_mem _ _ G n mm E x). split; [apply inherits_more|]. intros H. eapply inherits_old; eauto.
    + cbn [In]. rewrite MR. split.
      * intros [<-|(b & I & J)]; [apply inh_refl|]. eapply inh_base; [apply in_or_app; right; left; reflexivity|exact I|apply inherits_more, J].
      * intros H. remember (kl_name c) as n eqn:En. inversion H as [n'|k b n' I J K]; subst; [left; reflexivity|]. right.
        apply in_app_iff in I as [I|[<-|[]]].
        -- exfalso. assert (dhas d (kl_name k) = true) by (apply (g_keys _ _ G); right; apply in_map, I). congruence.
        -- exists b. split; [exact J|]. destruct (LB b J) as (mm & _ & E). eapply inherits_old; eauto.
  - intros n mm E. apply GET in E as [E|(-> & ->)]; [eapply g_head; eauto|eauto].
  - intros n mm E. apply GET in E as [E|(-> & ->)]; [eapply g_nodup; eauto|]. constructor; assumption.
  - intros n mm E x y I H NE. apply GET in E as [E|(-> & ->)].
    + pose proof (proj1 (g_mem _ _ G n mm E x) I) as IN. eapply (g_order _ _ G n mm E); [exact I| |exact NE].
      eapply inherits_old; eauto. eapply inherits_has; eauto.
    + destruct I as [<-|I].
      * apply before_head. apply MR. inversion H as [n'|k b n' I J K]; subst; [congruence|].
        apply in_app_iff in I as [I|[->|[]]].
        -- exfalso. assert (dhas d (kl_name k) = true) by (apply (g_keys _ _ G); right; apply in_map, I). congruence.
        -- exists b. split; [exact J|]. destruct (LB b J) as (mm & _ & E). eapply inherits_old; eauto.
      * pose proof (OLD x I) as HX. pose proof (inherits_old done d c x y G NH H HX) as HO. apply MR in I as (b & Ib & Jb). destruct (LB b Ib) as (mm & Im & E).
        apply before_cons. apply (Bef mm); [apply in_or_app; left; exact Im|]. eapply (g_order _ _ G b mm E); [apply (g_mem _ _ G b mm E), Jb|exact HO|exact NE].
  - intros k b I J. unfold dhas. rewrite dget_app_new. apply in_app_iff in I as [I|[<-|[]]].
    + pose proof (g_closed _ _ G k b I J) as K. unfold dhas in K. destruct (dget d b); [reflexivity|discriminate].
    + destruct (LB b J) as (mm & _ & E). rewrite E. reflexivity.
Qed.

Lemma good_initial : good [] initial.
Proof.
  constructor.
  - intros n. unfold dhas, initial. cbn [dget]. destruct (seqb_spec n (lit "object")) as [->|N]; cbn; intuition congruence.
  - intros n m. unfold initial. cbn [dget]. destruct (seqb_spec n (lit "object")) as [->|N]; [|discriminate]. intros [= <-] x. cbn [In]. split.
    + intros [<-|[]]. apply inh_refl.
    + intros H. inversion H as [|k b n' I]; subst; [left; reflexivity|destruct I].
  - intros n m. unfold initial. cbn [dget]. destruct (seqb_spec n (lit "object")) as [->|N]; [|discriminate]. intros [= <-]. eauto.
  - intros n m. unfold initial. cbn [dget]. destruct (seqb_spec n (lit "object")) as [->|N]; [|discriminate]. intros [= <-]. repeat constructor. intros [].
  - intros n m. unfold initial. cbn [dget]. destruct (seqb_spec n (lit "object")) as [->|N]; [|discriminate]. intros [= <-] x y I H NE. destruct I as [<-|[]].
    inversion H as [|k b n' I]; subst; [congruence|destruct I].
  - intros c b [].
Qed.

Lemma mros_good : forall cs done d d', good done d -> NoDup (lit "object" :: map kl_name (done ++ cs)) ->
  mros d cs = Some d' -> good (done ++ cs) d'.
Proof.
  induction cs as [|c cs IH]; intros done d d' G N H; cbn [mros] in H.
  - injection H as <-. rewrite app_nil_r. exact G.
  - destruct (mro_of d c) as [m|] eqn:M; [|discriminate].
    replace (done ++ c :: cs) with ((done ++ [c]) ++ cs) in * by (rewrite <- app_assoc; reflexivity).
    eapply IH; [|exact N|exact H]. apply good_step; [exact G| |exact M].
    rewrite !map_app, <- app_assoc in N. cbn [map app] in N. change (lit "object" :: map kl_name done ++ kl_name c :: map kl_name cs) with ((lit "object" :: map kl_name done) ++ kl_name c :: map kl_name cs) in N.
    intros I. apply NoDup_remove_2 in N. apply N. apply in_or_app. left. exact I.
Qed.

(** ** The map of templates *)

Lemma split_under_spec : forall s a b, split_under s = Some (a, b) -> s = a ++ 95 :: b /\ ~ In 95 a.
Proof.
  induction s as [|c s IH]; cbn [split_under]; [discriminate|]. intros a b. destruct (Z.eqb_spec c 95) as [->|N].
  - intros [= <- <-]. split; [reflexivity|intros []].
  - destruct (split_under s) as [[a' b']|]; [|discriminate]. intros [= <- <-]. destruct (IH a' b' eq_refl) as (-> & I). split; [reflexivity|]. intros [H|H]; [congruence|exact (I H)].
Qed.
Lemma split_under_app : forall a b, ~ In 95 a -> split_under (a ++ 95 :: b) = Some (a, b).
Proof.
  induction a as [|c a IH]; intros b H; cbn [app split_under]; [rewrite Z.eqb_refl; reflexivity|].
  destruct (Z.eqb_spec c 95) as [->|N]; [exfalso; apply H; left; reflexivity|]. rewrite IH; [reflexivity|]. intros I. apply H. right. exact I.
Qed.
Lemma dget_dset : forall V (d : dict V) k v k', dget (dset d k v) k' = if seqb k' k then Some v else dget d k'.
Proof.
  intros V d k v k'. induction d as [|[a b] d IH]; cbn [dset dget]; [reflexivity|].
  destruct (seqb_spec k a) as [->|N]; cbn [dget]; [destruct (seqb k' a); reflexivity|].
  rewrite IH. destruct (seqb_spec k' a) as [->|N']; [|reflexivity]. destruct (seqb_spec a k) as [->|]; [congruence|reflexivity].
Qed.
Lemma same_name : forall cs c c', NoDup (map kl_name cs) -> In c cs -> In c' cs -> kl_name c = kl_name c' -> c = c'.
Proof.
  induction cs as [|x cs IH]; intros c c' N I J E; [destruct I|]. cbn [map] in N. inversion N as [|? ? NI ND]; subst.
  destruct I as [->|I], J as [->|J]; auto.
  - exfalso. apply NI. rewrite E. apply in_map, J.
  - exfalso. apply NI. rewrite <- E. apply in_map, I.
Qed.

Lemma compose_spec : forall cs names cache tm, names_ok cs ->
  compose cs cache names = Ok tm ->
  forall e t, dget tm e = Some t <-> template_for cs names e t \/ (dget cache e = Some t /\ forall t', ~ template_for cs names e t').
Proof.
  intros cs names cache tm (N & U). assert (N' : NoDup (map kl_name cs)) by (inversion N; assumption). clear N. rewrite Forall_forall in U.
  revert cache. induction names as [|tn names IH]; intros cache H e t; cbn [compose] in H.
  - injection H as <-. split; [intros H; right; split; [exact H|]; intros t' ([] & _)|]. intros [([] & _)|(H & _)]; exact H.
  - assert (UNI : forall e t t', template_for cs (tn :: names) e t -> template_for cs (tn :: names) e t' -> t = t').
    { intros e0 t0 t1 (_ & c0 & I0 & E0 & ->) (_ & c1 & I1 & E1 & ->). assert (c0 = c1) as -> by (eapply same_name; eauto; congruence). reflexivity. }
    destruct (split_under tn) as [[pn cn]|] eqn:S.
    + destruct (find_class cs pn cn) as [c|] eqn:F; [|discriminate]. unfold find_class in F. apply find_some in F as (I & B). apply andb_prop in B as [B1 B2]. apply seqb_eq in B1, B2.
      apply split_under_spec in S as (-> & _). subst pn cn.
      assert (HERE : template_for cs ((kl_module c ++ 95 :: kl_name c) :: names) (kl_name c) (kl_module c ++ 95 :: kl_name c)) by (split; [left; reflexivity|exists c; auto]).
      rewrite (IH _ H e t). rewrite dget_dset. destruct (seqb_spec e (kl_name c)) as [->|NE].
      * split.
        -- intros [T|(E & _)]; [left; destruct T as (T & R); split; [right; exact T|exact R]|]. injection E as <-. left. exact HERE.
        -- intros [T|(_ & T)]; [|exfalso; exact (T _ HERE)]. rewrite (UNI _ _ _ T HERE).
           destruct (in_dec (list_eq_dec Z.eq_dec) (kl_module c ++ 95 :: kl_name c) names) as [J|J].
           ++ left. split; [exact J|exists c; auto].
           ++ right. split; [reflexivity|]. intros t' (J' & c' & I' & E' & ->). apply J. assert (c' = c) as -> by (eapply same_name; eauto). exact J'.
      * split.
        -- intros [T|(E & T)]; [left; destruct T as (T & R); split; [right; exact T|exact R]|]. right. split; [exact E|].
           intros t' (J & c' & I' & E' & ->). destruct J as [J|J]; [|apply (T (kl_module c' ++ 95 :: kl_name c')); split; [exact J|exists c'; auto]].
           assert (S1 := split_under_app (kl_module c') (kl_name c') (U c' I')). rewrite <- J in S1. rewrite (split_under_app _ _ (U c I)) in S1. injection S1 as _ E1. congruence.
        -- intros [T|(E & T)]; [|right; split; [exact E|]; intros t' (J & R); apply (T t'); split; [right; exact J|exact R]].
           left. destruct T as (J & c' & I' & E' & ->). destruct J as [J|J]; [|split; [exact J|exists c'; auto]]. exfalso.
           assert (S1 := split_under_app (kl_module c') (kl_name c') (U c' I')). rewrite <- J in S1. rewrite (split_under_app _ _ (U c I)) in S1. injection S1 as _ E1. congruence.
    + assert (NO : forall e t, template_for cs (tn :: names) e t <-> template_for cs names e t).
      { intros e0 t0. split; intros (J & R); (split; [|exact R]); [|right; exact J]. destruct J as [<-|J]; [|exact J]. exfalso.
        destruct R as (c & I & _ & ->). rewrite (split_under_app _ _ (U c I)) in S. discriminate. }
      rewrite (IH _ H e t). rewrite NO. split; intros [T|(E & T)]; auto; right; (split; [exact E|]); intros t' J; apply (T t'); apply NO; exact J.
Qed.

Lemma first_template_spec : forall tm m t, first_template tm m = Ok t -> exists a e b, m = a ++ e :: b /\ dget tm e = Some t /\ forall f, In f a -> dget tm f = None.
Proof.
  intros tm m t. induction m as [|x m IH]; cbn [first_template]; [discriminate|]. destruct (dget tm x) as [tx|] eqn:E.
  - intros [= <-]. exists [], x, m. split; [reflexivity|]. split; [exact E|intros f []].
  - intros H. destruct (IH H) as (a & e & b & -> & Ee & F). exists (x :: a), e, b. split; [reflexivity|]. split; [exact Ee|]. intros f [<-|I]; [exact E|exact (F f I)].
Qed.
Lemma first_template_total : forall tm m e t, In e m -> dget tm e = Some t -> exists t', first_template tm m = Ok t'.
Proof.
  intros tm m e t. induction m as [|x m IH]; intros I E; [destruct I|]. cbn [first_template]. destruct (dget tm x) as [tx|] eqn:Ex; [eauto|]. destruct I as [->|I]; [congruence|]. apply IH; assumption.
Qed.
Lemma nodup_before : forall x y a b, NoDup (a ++ y :: b) -> before x y (a ++ y :: b) -> In x a.
Proof.
  intros x y a b N (a' & b' & E & I). revert a' E. induction a as [|z a IH]; intros a' E.
  - destruct a' as [|w a']; cbn [app] in E; injection E as <- ->; inversion N as [|? ? NI _]; subst; exfalso; apply NI; [exact I|apply in_or_app; right; right; exact I].
  - destruct a' as [|w a']; cbn [app] in E; injection E as <- E; [left; reflexivity|]. right. cbn [app] in N. inversion N; subst. eapply IH; eauto.
Qed.

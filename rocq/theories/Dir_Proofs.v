(** Proofs about directory comparison. *)
From Verif Require Import Base Zip_Model Zip_Spec Zip_Proofs Zip_Tree Dir_Model Dir_Spec.
From Coq Require Import Permutation.

Lemma kid_In f kids n : kid f kids = Some n -> In (f, n) kids.
Proof. induction kids as [|[k v] ks IH]; [discriminate|]. cbn [kid]. destruct (seqb_spec f k) as [->|H]; [intros [= ->]; now left|intro E; right; auto]. Qed.
Lemma In_kid f kids n : NoDup (map fst kids) -> In (f, n) kids -> kid f kids = Some n.
Proof.
  induction kids as [|[k v] ks IH]; intros N H; [contradiction|]. cbn [map fst] in N. inversion N as [|? ? N1 N2]; subst. cbn [kid]. destruct H as [[= -> ->]|H].
  - now rewrite seqb_refl. - destruct (seqb_spec f k) as [->|_]; [|auto]. exfalso. apply N1. apply in_map_iff. exists (k, n). auto.
Qed.
Lemma kid_mem f kids : smem f (map fst kids) = match kid f kids with Some _ => true | None => false end.
Proof. unfold smem. induction kids as [|[k v] ks IH]; [reflexivity|]. cbn [map fst existsb kid]. destruct (seqb f k); [reflexivity|exact IH]. Qed.
Lemma kid_name f kids : In f (map fst kids) <-> exists n, kid f kids = Some n.
Proof. rewrite <- smem_In, kid_mem. destruct (kid f kids); split; eauto; try discriminate. intros (n & [=]). Qed.

Lemma found_cons l kids f q m : NoDup (map fst kids) -> (found (Dir l kids) (f :: q) m <-> exists n, kid f kids = Some n /\ found n q m).
Proof.
  intro N. split.
  - intro H. inversion H; subst. eexists. split; [apply In_kid; eauto|assumption].
  - intros (n & K & H). econstructor; [apply kid_In; exact K|exact H].
Qed.
Lemma file_at_cons l kids f q : NoDup (map fst kids) -> (file_at (Dir l kids) (f :: q) <-> exists n, kid f kids = Some n /\ file_at n q).
Proof.
  intro N. unfold file_at. split.
  - intros (m & H & D). apply (found_cons _ _ _ _ _ N) in H as (n & K & H). eauto.
  - intros (n & K & m & H & D). exists m. split; [|exact D]. apply (found_cons _ _ _ _ _ N). eauto.
Qed.
Lemma data_at_cons l kids f q d : NoDup (map fst kids) -> (data_at (Dir l kids) (f :: q) d <-> exists n, kid f kids = Some n /\ data_at n q d).
Proof.
  intro N. unfold data_at. split.
  - intros (lk & m & H). apply (found_cons _ _ _ _ _ N) in H as (n & K & H). eauto.
  - intros (n & K & lk & m & H). exists lk, m. apply (found_cons _ _ _ _ _ N). eauto.
Qed.
Lemma file_at_nil n : file_at n [] <-> is_dir n = false.
Proof. unfold file_at. split; [intros (m & H & D); inversion H; now subst|]. intro H. exists n. split; [constructor|exact H]. Qed.
Lemma data_file n p d : data_at n p d -> file_at n p.
Proof. intros (l & m & H). exists (File l d m). auto. Qed.
Lemma file_at_leaf n q : is_dir n = false -> file_at n q <-> q = [].
Proof.
  intro H. split; [|intros ->; now apply file_at_nil]. intros (m & F & _). inversion F; subst; [reflexivity|]. discriminate.
Qed.

Lemma dclass_cons ll lk rl rk e f q : NoDup (map fst lk) -> NoDup (map fst rk) ->
  (dclass (Dir ll lk) (Dir rl rk) e (f :: q) <->
   match kid f lk, kid f rk with
   | Some a, Some b => dclass a b e q
   | Some a, None => e = LEFT /\ file_at a q
   | None, Some b => e = RIGHT /\ file_at b q
   | None, None => False
   end).
Proof.
  intros N1 N2.
  assert (FL : file_at (Dir ll lk) (f :: q) <-> exists n, kid f lk = Some n /\ file_at n q) by now apply file_at_cons.
  assert (FR : file_at (Dir rl rk) (f :: q) <-> exists n, kid f rk = Some n /\ file_at n q) by now apply file_at_cons.
  assert (DL : forall d, data_at (Dir ll lk) (f :: q) d <-> exists n, kid f lk = Some n /\ data_at n q d) by (intro; now apply data_at_cons).
  assert (DR : forall d, data_at (Dir rl rk) (f :: q) d <-> exists n, kid f rk = Some n /\ data_at n q d) by (intro; now apply data_at_cons).
  assert (SI : forall (a : node) (P : node -> Prop), (exists n, Some a = Some n /\ P n) <-> P a) by (intros a P; split; [intros (n & [= <-] & H); exact H|eauto]).
  assert (NI : forall P : node -> Prop, (exists n, None = Some n /\ P n) <-> False) by (intros P; split; [intros (n & [=] & _)|tauto]).
  assert (DL' : forall d, data_at (Dir ll lk) (f :: q) d <-> match kid f lk with Some a => data_at a q d | None => False end).
  { intro d. rewrite DL. destruct (kid f lk); [apply SI|apply NI]. }
  assert (DR' : forall d, data_at (Dir rl rk) (f :: q) d <-> match kid f rk with Some a => data_at a q d | None => False end).
  { intro d. rewrite DR. destruct (kid f rk); [apply SI|apply NI]. }
  assert (FL' : file_at (Dir ll lk) (f :: q) <-> match kid f lk with Some a => file_at a q | None => False end).
  { rewrite FL. destruct (kid f lk); [apply SI|apply NI]. }
  assert (FR' : file_at (Dir rl rk) (f :: q) <-> match kid f rk with Some a => file_at a q | None => False end).
  { rewrite FR. destruct (kid f rk); [apply SI|apply NI]. }
  clear FL FR DL DR SI NI. destruct (kid f lk) as [a|], (kid f rk) as [b|]; destruct e; unfold dclass; rewrite ?FL', ?FR'; try tauto; try (intuition discriminate).
  all: setoid_rewrite DL'; setoid_rewrite DR'; try reflexivity.
  all: firstorder discriminate.
Qed.

(** ** One-sided entries *)
Definition wkeys (w : list (list str * list (str * node) * list (str * node))) : list (list str) :=
  concat (map (fun '(r, _, fs) => map (fun k : str * node => r ++ [fst k]) fs) w).
Definition okeys (p : list str) (n : node) : list (list str) := match n with Dir _ _ => wkeys (walk p n) | _ => [p] end.

Lemma at_found n p m : at_path n p m -> found n p m.
Proof. induction 1; econstructor; eauto. Qed.
Lemma found_at n p l kids : plain n -> found n p (Dir l kids) -> at_path n p (Dir l kids).
Proof.
  intros HP H. remember (Dir l kids) as m eqn:Em. induction H as [n|l0 ks k n p m Hk H IH]; [constructor|]. inversion HP as [| |? N PK]; subst.
  rewrite Forall_forall in PK. specialize (PK _ Hk). cbn [snd] in PK. econstructor; [exact Hk| |apply IH; auto].
  inversion PK; subst; try reflexivity; inversion H.
Qed.
Lemma found_snoc n p k m : found n (p ++ [k]) m <-> exists l kids, found n p (Dir l kids) /\ In (k, m) kids.
Proof.
  revert n. induction p as [|x p IH]; intro n; cbn [app]; split.
  - intro H. inversion H as [|l kids ? n' ? ? Hk A]; subst. inversion A; subst. exists l, kids. split; [constructor|auto].
  - intros (l & kids & H & Hk). inversion H; subst. econstructor; eauto. constructor.
  - intro H. inversion H as [|l kids ? n' ? ? Hk A]; subst. apply IH in A as (l' & ks & A & B). exists l', ks. split; [|exact B]. econstructor; eauto.
  - intros (l & kids & H & Hk). inversion H as [|l0 kids0 ? n' ? ? Hk0 A]; subst. econstructor; eauto. apply IH. eauto 6.
Qed.
Lemma plain_found n p m : plain n -> found n p m -> plain m.
Proof. intros HP H. induction H as [|l ks k n p m Hk H IH]; [exact HP|]. inversion HP as [| |? N PK]; subst. rewrite Forall_forall in PK. apply IH. exact (PK _ Hk). Qed.

Lemma wkeys_In p n x : is_dir n = true -> plain n -> (In x (wkeys (walk p n)) <-> exists q, x = p ++ q /\ file_at n q).
Proof.
  intros D HP. unfold wkeys. rewrite in_concat. split.
  - intros (ys & H1 & H2). apply in_map_iff in H1 as (t & <- & Ht). apply walk_spec in Ht as (q & l & kids & A & ->).
    apply in_map_iff in H2 as ([k m] & <- & Hk). apply filter_In in Hk as [Hk Dk]. cbn [fst snd] in *. exists (q ++ [k]). rewrite <- app_assoc. split; [reflexivity|].
    exists m. split; [|now destruct (is_dir m)]. apply found_snoc. exists l, kids. split; [now apply at_found|exact Hk].
  - intros (q & -> & m & F & Dm). destruct (@exists_last _ q) as (q' & k & ->). { intros ->. inversion F; subst. congruence. }
    apply found_snoc in F as (l & kids & F & Hk).
    exists (map (fun k : str * node => (p ++ q') ++ [fst k]) (filter (fun k => negb (is_dir (snd k))) kids)). split.
    + apply in_map_iff. exists (p ++ q', filter (fun k => is_dir (snd k)) kids, filter (fun k => negb (is_dir (snd k))) kids). split; [reflexivity|].
      apply walk_spec. exists q', l, kids. split; [apply (found_at _ _ _ _ HP F)|reflexivity].
    + apply in_map_iff. exists (k, m). cbn [fst]. rewrite app_assoc. split; [reflexivity|]. apply filter_In. cbn [snd]. now rewrite Dm.
Qed.
Lemma wkeys_app a b : wkeys (a ++ b) = wkeys a ++ wkeys b.
Proof. unfold wkeys. now rewrite map_app, concat_app. Qed.
Lemma NoDup_filter_fst (P : str * node -> bool) kids : NoDup (map fst kids) -> NoDup (map fst (filter P kids)).
Proof.
  induction kids as [|k ks IH]; intro N; [constructor|]. cbn [map filter] in *. inversion N as [|? ? N1 N2]; subst. destruct (P k); [|auto]. cbn [map]. constructor; [|auto].
  intro H. apply N1. apply in_map_iff in H as (x & <- & Hx). apply filter_In in Hx as [Hx _]. now apply in_map.
Qed.
Lemma wkeys_NoDup n : plain n -> forall p, NoDup (wkeys (walk p n)).
Proof.
  induction n as [l d m|l|l kids IH] using node_ind'; intros HP p; cbn [walk]; try constructor.
  inversion HP as [| |? N PK]; subst. change (?x :: ?y) with ([x] ++ y). rewrite wkeys_app. apply NoDup_app_intro.
  - unfold wkeys. cbn [map concat]. rewrite app_nil_r. rewrite <- (map_map fst (fun k => p ++ [k])). apply NoDup_map_inj; [intros x y _ _ E; apply app_inv_head in E; congruence|now apply NoDup_filter_fst].
  - clear HP. induction kids as [|[k n] ks IHk]; cbn [map concat]; [constructor|]. rewrite wkeys_app. cbn [map fst snd] in *.
    inversion IH as [|? ? I1 I2]; subst. inversion N as [|? ? N1 N2]; subst. inversion PK as [|? ? P1 P2]; subst. cbn [snd] in *. apply NoDup_app_intro.
    + destruct (is_link n); [constructor|auto].
    + apply IHk; assumption.
    + intros x H1 H2. assert (Q1 : exists q, x = p ++ k :: q).
      { destruct (is_link n); [contradiction|]. destruct (is_dir n) eqn:D; [|destruct n; cbn in *; try discriminate; contradiction].
        apply wkeys_In in H1 as (q & -> & _); auto. exists q. now rewrite <- app_assoc. }
      assert (Q2 : exists k' q, In k' (map fst ks) /\ x = p ++ k' :: q).
      { clear - H2 P2. unfold wkeys in H2. rewrite concat_map, map_map in H2. apply in_concat in H2 as (ys & Y1 & Y2). apply in_concat in Y1 as (zs & Z1 & Z2).
        apply in_map_iff in Z1 as ([k' n'] & <- & Hk). cbn [fst snd] in Z2. destruct (is_link n'); [contradiction|]. exists k'.
        assert (x0 : In x (wkeys (walk (p ++ [k']) n'))) by (unfold wkeys; apply in_concat; eauto).
        rewrite Forall_forall in P2. pose proof (P2 _ Hk) as P'. cbn [snd] in P'. destruct (is_dir n') eqn:D; [|destruct n'; cbn in *; try discriminate; contradiction].
        apply wkeys_In in x0 as (q & -> & _); auto. exists q. split; [apply in_map_iff; exists (k', n'); auto|now rewrite <- app_assoc]. }
      destruct Q1 as (q & ->), Q2 as (k' & q' & Hk & E). apply app_inv_head in E. injection E as <- _. contradiction.
  - intros x H1 H2. unfold wkeys in H1. cbn [map concat] in H1. rewrite app_nil_r in H1. apply in_map_iff in H1 as ([k n] & <- & Hk). apply filter_In in Hk as [Hk Dk]. cbn [fst snd] in *.
    unfold wkeys in H2. rewrite concat_map, map_map in H2. apply in_concat in H2 as (ys & Y1 & Y2). apply in_concat in Y1 as (zs & Z1 & Z2).
    apply in_map_iff in Z1 as ([k' n'] & <- & Hk'). cbn [fst snd] in Z2. destruct (is_link n'); [contradiction|].
    assert (x0 : In (p ++ [k]) (wkeys (walk (p ++ [k']) n'))) by (unfold wkeys; apply in_concat; eauto).
    rewrite Forall_forall in PK. pose proof (PK _ Hk') as P'. cbn [snd] in P'. destruct (is_dir n') eqn:D; [|destruct n'; cbn in *; try discriminate; contradiction].
    apply wkeys_In in x0 as (q & E & F); auto. rewrite <- app_assoc in E. apply app_inv_head in E. cbn [app] in E. injection E as <- <-.
    apply file_at_nil in F. congruence.
Qed.
Lemma okeys_In p n x : plain n -> (In x (okeys p n) <-> exists q, x = p ++ q /\ file_at n q).
Proof.
  intro HP. destruct n as [l d m|l kids|l]; [|now apply wkeys_In|]; cbn [okeys In]; split.
  1, 3: intros [<-|[]]; exists []; rewrite app_nil_r; split; [reflexivity|now apply file_at_nil].
  all: intros (q & -> & F); left; apply file_at_leaf in F; [subst; now rewrite app_nil_r|reflexivity].
Qed.
Lemma okeys_NoDup p n : plain n -> NoDup (okeys p n).
Proof. intro HP. destruct n; cbn [okeys]; [repeat constructor; intros []|now apply wkeys_NoDup|repeat constructor; intros []]. Qed.

Lemma slashes_snoc p f : p <> [] -> slashes (p ++ [f]) = slashes p ++ [47] ++ f.
Proof.
  induction p as [|c p IH]; intro H; [contradiction|]. destruct p as [|d p]; [reflexivity|].
  change ((c :: d :: p) ++ [f]) with (c :: d :: (p ++ [f])). rewrite !slashes_cons. change (d :: p ++ [f]) with ((d :: p) ++ [f]). rewrite IH by discriminate. now rewrite <- app_assoc.
Qed.
Lemma one_side_keys ev rel f n : ev = LEFT \/ ev = RIGHT -> one_side ev rel f n = map written (map (fun p => (ev, p)) (okeys (rel ++ [f]) n)).
Proof.
  intro He. assert (W : forall p, written (ev, p) = (ev, slashes p)) by (intro p; unfold written; destruct He as [-> | ->]; reflexivity).
  rewrite map_map. erewrite map_ext by (intro; apply W). destruct n as [l d m|l kids|l]; cbn [one_side okeys map]; try reflexivity.
  unfold wkeys. rewrite concat_map, map_map. f_equal. apply map_ext_in. intros [[r ds] fs] Hi. rewrite map_map. apply map_ext. intros [k n]. cbn [fst].
  apply walk_spec in Hi as (q & l' & ks & _ & E). assert (r <> []) by (injection E as -> _ _; destruct rel; discriminate).
  rewrite slashes_snoc by assumption. unfold under, relpath. destruct r; [contradiction|reflexivity].
Qed.
Lemma under_written rel f ev : ev = SAME \/ ev = DIFF -> written (ev, rel ++ [f]) = (ev, under rel f).
Proof.
  intro He. unfold written, under. cbn [fst snd]. destruct rel as [|c rel].
  - destruct He as [-> | ->]; reflexivity.
  - change (relpath (c :: rel)) with (slashes (c :: rel)). rewrite <- slashes_snoc by discriminate. cbn [app]. destruct He as [-> | ->]; f_equal; destruct rel; reflexivity.
Qed.

(** ** The comparison *)
Lemma assemble (rel : list str) (F : list str) (blk : str -> list (event * list str)) : NoDup F ->
  (forall f, In f F -> NoDup (map snd (blk f)) /\ Forall (fun k => exists q, snd k = rel ++ f :: q) (blk f)) ->
  NoDup (map snd (concat (map blk F))) /\
  (forall e f q, In (e, rel ++ f :: q) (concat (map blk F)) <-> In f F /\ In (e, rel ++ f :: q) (blk f)) /\
  Forall (fun k => exists f q, snd k = rel ++ f :: q) (concat (map blk F)).
Proof.
  induction F as [|g F IH]; intros N H.
  { split; [constructor|]. split; [|constructor]. intros. cbn. tauto. }
  inversion N as [|? ? N1 N2]; subst. destruct (IH N2) as (A & B & C). { intros; apply H; now right. }
  destruct (H g (or_introl eq_refl)) as [G1 G2]. cbn [map concat]. split; [|split].
  - rewrite map_app. apply NoDup_app_intro; [exact G1|exact A|]. intros x X1 X2. apply in_map_iff in X1 as ([e x'] & E1 & X1). cbn [snd] in E1. subst x'.
    rewrite Forall_forall in G2. destruct (G2 _ X1) as (q & Eq). cbn [snd] in Eq. subst x. apply in_map_iff in X2 as ([e2 x2] & E2 & X2). cbn [snd] in E2. subst x2.
    apply B in X2 as [X2 _]. contradiction.
  - intros e f q. rewrite in_app_iff, B. cbn [In]. split; [|intros [[->|X] Y]; auto]. intros [X|[X Y]]; [|auto]. rewrite Forall_forall in G2. destruct (G2 _ X) as (q' & Eq). cbn [snd] in Eq.
    apply app_inv_head in Eq. injection Eq as -> _. auto.
  - apply Forall_app. split; [|exact C]. eapply Forall_impl; [|exact G2]. intros k (q & E). cbn beta. eauto.
Qed.

Lemma comparable_dir a b : comparable a b -> is_dir a = true /\ is_dir b = true.
Proof. destruct 1; auto. Qed.

Theorem gen_spec l : plain l -> forall rel r, plain r -> comparable l r ->
  exists K, gen_from_dircmp rel l r = (map written K, None) /\ NoDup (map snd K) /\
    (forall e q, In (e, rel ++ q) K <-> dclass l r e q) /\ Forall (fun k => exists f q, snd k = rel ++ f :: q) K.
Proof.
  induction l as [? ? ?|?|ll lk IH] using node_ind'; intros PL rel r PR C; try (apply comparable_dir in C as [C _]; discriminate).
  inversion C as [? ? rl rk C1 C2]; subst. inversion PL as [| |? NL PLK]; subst. inversion PR as [| |? NR PRK]; subst.
  cbn [gen_from_dircmp].
  set (lnames := sort_names (map fst lk)). set (rnames := sort_names (map fst rk)).
  set (left_only := filter (fun f => negb (smem f (map fst rk))) lnames). set (right_only := filter (fun f => negb (smem f (map fst lk))) rnames).
  set (common := filter (fun f => smem f (map fst rk)) lnames).
  set (same := fun f => match kid f lk, kid f rk with Some (File _ d1 m1), Some (File _ d2 m2) => Some (shallow_cmp d1 m1 d2 m2) | _, _ => None end).
  set (isdirs := fun f => match kid f lk, kid f rk with Some (Dir _ _), Some (Dir _ _) => true | _, _ => false end).
  set (isdiff := fun f => match same f with Some false => true | _ => false end). set (issame := fun f => match same f with Some true => true | _ => false end).
  assert (LN : forall f, In f lnames <-> exists n, kid f lk = Some n).
  { intro f. rewrite <- kid_name. unfold lnames. split; apply Permutation_in; [symmetry|]; apply sort_perm. }
  assert (RN : forall f, In f rnames <-> exists n, kid f rk = Some n).
  { intro f. rewrite <- kid_name. unfold rnames. split; apply Permutation_in; [symmetry|]; apply sort_perm. }
  assert (NDL : NoDup lnames) by (eapply Permutation_NoDup; [apply sort_perm|exact NL]).
  assert (NDR : NoDup rnames) by (eapply Permutation_NoDup; [apply sort_perm|exact NR]).
  assert (LO : forall f, In f left_only <-> exists n, kid f lk = Some n /\ kid f rk = None).
  { intro f. unfold left_only. rewrite filter_In, LN, kid_mem. destruct (kid f rk); cbn [negb]; split; [intros [_ [=]]|intros (n' & _ & [=])|intros [(n & E) _]; eauto|intros (n & E & _); eauto]. }
  assert (RO : forall f, In f right_only <-> exists n, kid f rk = Some n /\ kid f lk = None).
  { intro f. unfold right_only. rewrite filter_In, RN, kid_mem. destruct (kid f lk); cbn [negb]; split; [intros [_ [=]]|intros (n' & _ & [=])|intros [(n & E) _]; eauto|intros (n & E & _); eauto]. }
  assert (CO : forall f, In f common <-> exists a b, kid f lk = Some a /\ kid f rk = Some b).
  { intro f. unfold common. rewrite filter_In, LN, kid_mem. destruct (kid f rk); split; [intros [(n' & E) _]; eauto|intros (a & b & E & _); eauto|intros [_ [=]]|intros (a & b & _ & [=])]. }
  assert (PK : forall f n, kid f lk = Some n -> plain n) by (intros f n E; apply kid_In in E; rewrite Forall_forall in PLK; exact (PLK _ E)).
  assert (PK' : forall f n, kid f rk = Some n -> plain n) by (intros f n E; apply kid_In in E; rewrite Forall_forall in PRK; exact (PRK _ E)).
  (* common subdirectories *)
  set (subdirs := filter isdirs common).
  assert (SD : forall f, In f subdirs <-> exists a b, kid f lk = Some a /\ kid f rk = Some b /\ is_dir a = true /\ is_dir b = true).
  { intro f. unfold subdirs, isdirs. rewrite filter_In, CO. split.
    - intros [(a & b & E1 & E2) D]. rewrite E1, E2 in *. exists a, b. destruct a; try discriminate; destruct b; try discriminate. auto.
    - intros (a & b & E1 & E2 & D1 & D2). split; [eauto|]. rewrite E1, E2. destruct a; try discriminate; destruct b; try discriminate; reflexivity. }
  assert (NS : NoDup subdirs) by (unfold subdirs, common; apply NoDup_filter, NoDup_filter, NDL).
  assert (ONE : subdirs = [] \/ exists g, subdirs = [g]).
  { destruct subdirs as [|g [|h s]]; eauto. exfalso. inversion NS as [|? ? NS1 NS2]; subst. apply NS1. left.
    destruct (proj1 (SD g) (or_introl eq_refl)) as (a & b & E1 & E2 & D1 & _). destruct (proj1 (SD h) (or_intror (or_introl eq_refl))) as (a' & b' & F1 & F2 & D1' & _).
    symmetry. eapply C2; eauto using kid_In. }
  assert (REC : forall g, In g subdirs -> exists a b K, kid g lk = Some a /\ kid g rk = Some b /\ gen_from_dircmp (rel ++ [g]) a b = (map written K, None) /\ NoDup (map snd K) /\
     (forall e q, In (e, rel ++ g :: q) K <-> dclass a b e q) /\ Forall (fun k => exists q, snd k = rel ++ g :: q) K).
  { intros g Hg. apply SD in Hg as (a & b & E1 & E2 & D1 & D2). pose proof (kid_In _ _ _ E1) as I1. pose proof (kid_In _ _ _ E2) as I2.
    destruct (C1 g a b I1 I2) as [(?&?&?&?&?&?&->&_)|CC]; [discriminate|]. rewrite Forall_forall in IH.
    destruct (IH _ I1 (PK _ _ E1) (rel ++ [g]) b (PK' _ _ E2) CC) as (K & G1 & G2 & G3 & G4). exists a, b, K. repeat (split; [assumption|]). split.
    - intros e q. rewrite <- G3, <- app_assoc. reflexivity.
    - eapply Forall_impl; [|exact G4]. intros k (f & q & E). cbn beta. rewrite E, <- app_assoc. exists (f :: q). reflexivity. }
  assert (BLK : exists sub : str -> list (event * list str), forall g, In g subdirs -> exists a b, kid g lk = Some a /\ kid g rk = Some b /\
     gen_from_dircmp (rel ++ [g]) a b = (map written (sub g), None) /\ NoDup (map snd (sub g)) /\
     (forall e q, In (e, rel ++ g :: q) (sub g) <-> dclass a b e q) /\ Forall (fun k => exists q, snd k = rel ++ g :: q) (sub g)).
  { destruct ONE as [-> | (g & Eg)]; [exists (fun _ => []); intros g []|]. rewrite Eg in *. destruct (REC g (or_introl eq_refl)) as (a & b & K & R). exists (fun _ => K). intros g' [<-|[]]. eauto. }
  destruct BLK as (sub & SUB). clear REC IH.
  set (blk := fun f => match kid f lk, kid f rk with
     | Some a, None => map (fun p => (LEFT, p)) (okeys (rel ++ [f]) a)
     | None, Some b => map (fun p => (RIGHT, p)) (okeys (rel ++ [f]) b)
     | Some _, Some _ => if isdirs f then sub f else if isdiff f then [(DIFF, rel ++ [f])] else if issame f then [(SAME, rel ++ [f])] else []
     | None, None => [] end).
  set (F := left_only ++ right_only ++ filter isdiff common ++ filter issame common ++ subdirs).
  assert (NF : NoDup F).
  { unfold F. repeat apply NoDup_app_intro; try (apply NoDup_filter; assumption); try assumption; try (unfold common; apply NoDup_filter, NoDup_filter, NDL).
    - intros f H1 H2. apply filter_In in H1 as [_ H1]. apply SD in H2 as (a & b & E1 & E2 & D1 & D2). unfold issame, same in H1. rewrite E1, E2 in H1. destruct a; discriminate.
    - intros f H1 H2. apply filter_In in H1 as [_ H1]. apply in_app_iff in H2 as [H2|H2].
      + apply filter_In in H2 as [_ H2]. unfold isdiff, issame in *. destruct (same f) as [[]|]; discriminate.
      + apply SD in H2 as (a & b & E1 & E2 & D1 & D2). unfold isdiff, same in H1. rewrite E1, E2 in H1. destruct a; discriminate.
    - intros f H1 H2. apply RO in H1 as (n & E1 & E2). assert (H : exists a, kid f lk = Some a); [|destruct H as (a & H); congruence].
      rewrite !in_app_iff in H2. destruct H2 as [H2|[H2|H2]]; [apply filter_In in H2 as [H2 _]; apply CO in H2 as (a & b & E & _); eauto..|apply SD in H2 as (a & b & E & _); eauto].
    - intros f H1 H2. apply LO in H1 as (n & E1 & E2). assert (H : exists a, kid f rk = Some a); [|destruct H as (a & H); congruence].
      rewrite !in_app_iff in H2. destruct H2 as [H2|[H2|[H2|H2]]]; [apply RO in H2 as (m & E & _); eauto|apply filter_In in H2 as [H2 _]; apply CO in H2 as (a & b & _ & E); eauto..|apply SD in H2 as (a & b & _ & E & _); eauto]. }
  assert (ISD : forall f, isdirs f = true -> In f subdirs).
  { intros f H. unfold isdirs in H. apply SD. destruct (kid f lk) as [[]|]; try discriminate. destruct (kid f rk) as [[]|]; try discriminate. eauto 8. }
  assert (OK : forall f, In f F -> NoDup (map snd (blk f)) /\ Forall (fun k => exists q, snd k = rel ++ f :: q) (blk f)).
  { intros f _. unfold blk. destruct (kid f lk) as [a|] eqn:E1, (kid f rk) as [b|] eqn:E2.
    - destruct (isdirs f) eqn:D. { apply ISD in D. destruct (SUB f D) as (? & ? & _ & _ & _ & H1 & _ & H2). auto. }
      destruct (isdiff f); [split; [repeat constructor; intros []|constructor; [exists []; reflexivity|constructor]]|].
      destruct (issame f); [split; [repeat constructor; intros []|constructor; [exists []; reflexivity|constructor]]|split; constructor].
    - split; [rewrite map_map; cbn [snd]; rewrite map_id; apply okeys_NoDup; eauto|]. apply Forall_forall. intros k Hk. apply in_map_iff in Hk as (p & <- & Hp). cbn [snd].
      apply okeys_In in Hp as (q & -> & _); eauto. exists q. now rewrite <- app_assoc.
    - split; [rewrite map_map; cbn [snd]; rewrite map_id; apply okeys_NoDup; eauto|]. apply Forall_forall. intros k Hk. apply in_map_iff in Hk as (p & <- & Hp). cbn [snd].
      apply okeys_In in Hp as (q & -> & _); eauto. exists q. now rewrite <- app_assoc.
    - split; constructor. }
  destruct (assemble rel F blk NF OK) as (A1 & A2 & A3).
  exists (concat (map blk F)). split; [|split; [exact A1|split; [|exact A3]]].
  - (* the events *)
    assert (E1 : concat (map (fun f => match kid f lk with Some n => one_side LEFT rel f n | None => [] end) left_only) = map written (concat (map blk left_only))).
    { rewrite concat_map, map_map. f_equal. apply map_ext_in. intros f Hf. apply LO in Hf as (n & E1 & E2). unfold blk. rewrite E1, E2. apply one_side_keys. now left. }
    assert (E2 : concat (map (fun f => match kid f rk with Some n => one_side RIGHT rel f n | None => [] end) right_only) = map written (concat (map blk right_only))).
    { rewrite concat_map, map_map. f_equal. apply map_ext_in. intros f Hf. apply RO in Hf as (n & E2 & E3). unfold blk. rewrite E2, E3. apply one_side_keys. now right. }
    assert (NDD : forall f, same f <> None -> isdirs f = false).
    { intros f H. unfold same, isdirs in *. destruct (kid f lk) as [[]|]; try reflexivity. congruence. }
    assert (SS : forall f a b, kid f lk = Some a -> kid f rk = Some b -> same f <> None -> blk f = if isdiff f then [(DIFF, rel ++ [f])] else [(SAME, rel ++ [f])]).
    { intros f a b H1 H2 H. unfold blk. rewrite H1, H2, (NDD f H). unfold isdiff, issame. destruct (same f) as [[]|]; congruence. }
    assert (G : forall ev P, (ev = SAME \/ ev = DIFF) -> (forall f, In f common -> P f = true -> blk f = [(ev, rel ++ [f])]) ->
       map (fun f => (ev, under rel f)) (filter P common) = map written (concat (map blk (filter P common)))).
    { intros ev P He H. assert (H' : forall f, In f (filter P common) -> blk f = [(ev, rel ++ [f])]) by (intros f Hf; apply filter_In in Hf as [H1 H2]; auto). clear H.
      induction (filter P common) as [|f fs IHf]; [reflexivity|]. cbn [map concat]. rewrite (H' f (or_introl eq_refl)). cbn [app map]. rewrite (under_written rel f ev He), <- IHf; [reflexivity|].
      intros; apply H'; now right. }
    assert (E3 : map (fun f => (DIFF, under rel f)) (filter isdiff common) = map written (concat (map blk (filter isdiff common)))).
    { apply G; [now right|]. intros f Hf Hd. apply CO in Hf as (a & b & H1 & H2). rewrite (SS f a b H1 H2), Hd; [reflexivity|]. unfold isdiff in Hd. intro H. rewrite H in Hd. discriminate. }
    assert (E4 : map (fun f => (SAME, under rel f)) (filter issame common) = map written (concat (map blk (filter issame common)))).
    { apply G; [now left|]. intros f Hf Hd. apply CO in Hf as (a & b & H1 & H2). rewrite (SS f a b H1 H2); unfold isdiff, issame in *; destruct (same f) as [[]|]; try discriminate. reflexivity. }
    assert (E5 : match subdirs with
       | _ :: _ :: _ => ([], Some TypeError)
       | _ => gens (map (fun f => match find (fun s => seqb f (fst s)) (map (fun k : str * node => (fst k, match kid (fst k) rk with Some b => gen_from_dircmp (rel ++ [fst k]) (snd k) b | None => ([], None) end)) lk)
                             with Some s => snd s | None => ([], None) end) subdirs) end = (map written (concat (map blk subdirs)), None)).
    { destruct ONE as [E|(g & E)]; rewrite E; [reflexivity|]. destruct (SUB g) as (a & b & H1 & H2 & H3 & _). { rewrite E. now left. }
      assert (B : blk g = sub g). { unfold blk. rewrite H1, H2. replace (isdirs g) with true; [reflexivity|]. symmetry. assert (In g subdirs) by (rewrite E; now left). apply filter_In in H. apply H. }
      cbn [map concat gens]. rewrite B, app_nil_r.
      assert (FF : find (fun s => seqb g (fst s)) (map (fun k : str * node => (fst k, match kid (fst k) rk with Some b => gen_from_dircmp (rel ++ [fst k]) (snd k) b | None => ([], None) end)) lk)
        = Some (g, gen_from_dircmp (rel ++ [g]) a b)).
      { clear - H1 H2. induction lk as [|[k n] ks IHk]; [discriminate|]. cbn [map find fst snd kid] in *. destruct (seqb_spec g k) as [->|Nk]; [|auto]. injection H1 as ->. now rewrite H2. }
      rewrite FF. cbn [snd]. rewrite H3. unfold gen_app. cbn [fst snd]. now rewrite app_nil_r. }
    assert (ID : forall f, match match kid f lk, kid f rk with Some a, Some b => Some (a, b) | _, _ => None end with Some (File _ d1 m1, File _ d2 m2) => Some (shallow_cmp d1 m1 d2 m2) | _ => None end = same f).
    { intro f. unfold same. destruct (kid f lk) as [[]|], (kid f rk) as [[]|]; reflexivity. }
    assert (ID2 : forall f, match match kid f lk, kid f rk with Some a, Some b => Some (a, b) | _, _ => None end with Some (Dir _ _, Dir _ _) => true | _ => false end = isdirs f).
    { intro f. unfold isdirs. destruct (kid f lk) as [[]|], (kid f rk) as [[]|]; reflexivity. }
    rewrite (filter_ext _ isdirs ID2 common). fold subdirs. rewrite E5.
    rewrite (filter_ext _ isdiff (fun f => f_equal (fun x => match x with Some false => true | _ => false end) (ID f)) common).
    rewrite (filter_ext _ issame (fun f => f_equal (fun x => match x with Some true => true | _ => false end) (ID f)) common).
    rewrite E1, E2, E3, E4. unfold gen_app. cbn [fst snd]. unfold F. rewrite !map_app, !concat_app, !map_app, <- !app_assoc. reflexivity.
  - (* the classification *)
    intros e q. destruct q as [|f q].
    { rewrite app_nil_r. split.
      - intro H. rewrite Forall_forall in A3. destruct (A3 _ H) as (f & q & E). cbn [snd] in E. rewrite <- (app_nil_r rel) in E at 1. apply app_inv_head in E. discriminate.
      - assert (NoF : forall l' ks, ~ file_at (Dir l' ks) []) by (intros l' ks H; apply file_at_nil in H; discriminate).
        intro H. exfalso. destruct e; [destruct H as [H _]|destruct H as [H _]|destruct H as (d & d' & H & _); apply data_file in H|destruct H as (d & H & _); apply data_file in H]; now apply NoF in H. }
    rewrite A2, dclass_cons by assumption. unfold blk. destruct (kid f lk) as [a|] eqn:K1, (kid f rk) as [b|] eqn:K2.
    + pose proof (kid_In _ _ _ K1) as I1. pose proof (kid_In _ _ _ K2) as I2. destruct (C1 f a b I1 I2) as [(l1 & d1 & m1 & l2 & d2 & m2 & -> & -> & HT)|CC].
      * assert (Es : same f = Some (shallow_cmp d1 m1 d2 m2)) by (unfold same; now rewrite K1, K2).
        assert (ED : isdirs f = false) by (unfold isdirs; now rewrite K1). rewrite ED.
        assert (Sc : shallow_cmp d1 m1 d2 m2 = true <-> d1 = d2).
        { unfold shallow_cmp. destruct (Nat.eqb_spec (length d1) (length d2)) as [E|E]; cbn [andb negb].
          - destruct (Z.eqb_spec m1 m2); [split; auto|apply seqb_eq]. - split; [discriminate|congruence]. }
        assert (InF : In f F).
        { unfold F. rewrite !in_app_iff. assert (Hc : In f common) by (apply CO; eauto).
          destruct (shallow_cmp d1 m1 d2 m2) eqn:E; [right; right; right; left|right; right; left]; apply filter_In; (split; [exact Hc|]); unfold issame, isdiff; now rewrite Es. }
        assert (DA : forall l0 d0 m0 q d, data_at (File l0 d0 m0) q d <-> q = [] /\ d = d0).
        { intros. unfold data_at. split; [intros (l' & m' & H); inversion H; auto|]. intros [-> ->]. exists l0, m0. constructor. }
        assert (FA : forall l0 d0 m0 q, file_at (File l0 d0 m0) q <-> q = []) by (intros; now apply file_at_leaf).
        unfold isdiff, issame. rewrite Es. destruct (shallow_cmp d1 m1 d2 m2) eqn:E.
        -- assert (d1 = d2) by now apply Sc. subst d2. cbn [In]. split.
           ++ intros [_ [[= <- Ep]|[]]]. apply app_inv_head in Ep. injection Ep as <-. unfold dclass. exists d1. rewrite !DA. auto.
           ++ intro H. split; [exact InF|]. left. destruct e; unfold dclass in H; rewrite ?FA in H.
              ** tauto. ** tauto. ** destruct H as (d & d' & H1 & H2 & H3). apply DA in H1 as [_ ->], H2 as [_ ->]. contradiction.
              ** destruct H as (d & H1 & _). apply DA in H1 as [-> _]. reflexivity.
        -- assert (Nd : d1 <> d2) by (intro H; apply Sc in H; discriminate). cbn [In]. split.
           ++ intros [_ [[= <- Ep]|[]]]. apply app_inv_head in Ep. injection Ep as <-. unfold dclass. exists d1, d2. rewrite !DA. auto.
           ++ intro H. split; [exact InF|]. left. destruct e; unfold dclass in H; rewrite ?FA in H.
              ** tauto. ** tauto. ** destruct H as (d & d' & H1 & _). apply DA in H1 as [-> _]. reflexivity.
              ** destruct H as (d & H1 & H2). apply DA in H1 as [_ ->], H2 as [_ E2]. contradiction.
      * assert (ED : isdirs f = true). { unfold isdirs. rewrite K1, K2. apply comparable_dir in CC as [D1 D2]. destruct a; try discriminate. destruct b; try discriminate. reflexivity. }
        rewrite ED. pose proof (ISD f ED) as Hs. destruct (SUB f Hs) as (a' & b' & H1 & H2 & _ & _ & H3 & _). rewrite K1 in H1. injection H1 as <-. rewrite K2 in H2. injection H2 as <-.
        rewrite H3. split; [tauto|]. intro H. split; [|exact H]. unfold F. rewrite !in_app_iff. auto 6.
    + assert (InF : In f F) by (unfold F; apply in_app_iff; left; apply LO; eauto). split.
      * intros [_ H]. apply in_map_iff in H as (p & [= <- ->] & H). split; [reflexivity|]. apply okeys_In in H as (q' & E & H); [|eauto]. rewrite <- app_assoc in E. apply app_inv_head in E. injection E as <-. exact H.
      * intros [-> H]. split; [exact InF|]. apply in_map_iff. eexists. split; [reflexivity|]. apply okeys_In; [eauto|]. exists q. now rewrite <- app_assoc.
    + assert (InF : In f F) by (unfold F; rewrite !in_app_iff; right; left; apply RO; eauto). split.
      * intros [_ H]. apply in_map_iff in H as (p & [= <- ->] & H). split; [reflexivity|]. apply okeys_In in H as (q' & E & H); [|eauto]. rewrite <- app_assoc in E. apply app_inv_head in E. injection E as <-. exact H.
      * intros [-> H]. split; [exact InF|]. apply in_map_iff. eexists. split; [reflexivity|]. apply okeys_In; [eauto|]. exists q. now rewrite <- app_assoc.
    + cbn [In]. tauto.
Qed.

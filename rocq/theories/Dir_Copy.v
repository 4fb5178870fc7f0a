(** Proofs about copydir. *)
From Verif Require Import Base Zip_Model Zip_Spec Zip_Proofs Zip_Tree Dir_Model Dir_Spec Dir_Proofs.

Lemma peq_eq p : forall q, peq p q = true <-> p = q.
Proof.
  induction p as [|x p IH]; intros [|y q]; cbn [peq]; split; try discriminate; try reflexivity.
  - intro H. apply andb_prop in H as [H1 H2]. apply seqb_eq in H1. apply IH in H2. congruence.
  - intros [= -> ->]. rewrite seqb_refl. now apply IH.
Qed.
Lemma pmem_In p l : pmem p l = true <-> In p l.
Proof. unfold pmem. rewrite existsb_exists. split; [intros (x & H & E); apply peq_eq in E; now subst|]. intro H. exists p. split; [exact H|now apply peq_eq]. Qed.
Lemma pset_new p d l : ~ In p (map fst l) -> pset p d l = l ++ [(p, d)].
Proof.
  induction l as [|[q v] l IH]; intro H; [reflexivity|]. cbn [pset map fst] in *. destruct (peq p q) eqn:E.
  - apply peq_eq in E. subst. exfalso. apply H. now left. - cbn [app]. rewrite IH; [reflexivity|]. intro K. apply H. now right.
Qed.

(** Only directories of one component (and the destination itself) are created. *)
Definition shallow_dirs (t : target) : Prop := forall p, In p (t_dirs t) -> (length p <= 1)%nat.
Lemma mkdirp_shallow d t : shallow_dirs t -> shallow_dirs (mkdirp [d] t).
Proof.
  intro H. unfold mkdirp. destruct (_ || _); [exact H|]. intros p Hp. cbn [t_dirs] in Hp. apply in_app_iff in Hp as [Hp|[<-|[]]]; [auto|cbn; lia].
Qed.
Lemma mkdirp_keeps p d t : In d (t_dirs t) -> In d (t_dirs (mkdirp p t)).
Proof. unfold mkdirp. destruct (_ || _); cbn [t_dirs]; [auto|]. intro H. apply in_or_app. now left. Qed.
Lemma mkdirp_files p t : t_files (mkdirp p t) = t_files t.
Proof. unfold mkdirp. destruct (_ || _); reflexivity. Qed.
Lemma mkdirs_facts (ds : list (str * node)) : forall t, let t' := fold_left (fun t d => mkdirp [fst d] t) ds t in
  t_files t' = t_files t /\ (forall p, In p (t_dirs t) -> In p (t_dirs t')) /\ (shallow_dirs t -> shallow_dirs t').
Proof.
  induction ds as [|d ds IH]; intro t; cbn [fold_left]; [auto|]. destruct (IH (mkdirp [fst d] t)) as (A & B & C). cbv zeta.
  split; [rewrite A; apply mkdirp_files|]. split; [intros p Hp; apply B; now apply mkdirp_keeps|]. intro H. apply C. now apply mkdirp_shallow.
Qed.
Lemma mkdirs_new ds : forall t, (forall d, In d (map fst ds) -> ~ In [d] (map fst (t_files t))) -> forall d, In d (map (@fst str node) ds) ->
  In [d] (t_dirs (fold_left (fun t d => mkdirp [fst d] t) ds t)).
Proof.
  induction ds as [|[c n] ds IH]; intros t H d Hd; [contradiction|]. cbn [fold_left map fst] in *. destruct Hd as [->|Hd].
  - apply (mkdirs_facts ds). unfold mkdirp. destruct (pmem [d] (t_dirs t)) eqn:E; cbn [orb]; [now apply pmem_In|].
    destruct (existsb (fun f => peq [d] (fst f)) (t_files t)) eqn:E2; [|cbn [t_dirs]; apply in_or_app; right; now left].
    exfalso. apply existsb_exists in E2 as (x & X1 & X2). apply peq_eq in X2. apply (H d); [now left|]. rewrite X2. now apply in_map.
  - apply IH; [|exact Hd]. intros d' Hd'. rewrite mkdirp_files. apply H. now right.
Qed.

(** Deep files cannot be copied. *)
Lemma copy1_fnf n p t t' : copy1 n p t = t' -> t' = Err FileNotFoundError \/ exists t0, t' = Ok t0 /\ t_dirs t0 = t_dirs t.
Proof. intros <-. destruct n; cbn [copy1]; auto. destruct (pmem (removelast _) _); [right; eexists; split; reflexivity|now left]. Qed.
Lemma copy_files_fnf rel fs : forall st, copy_files rel fs st = Err FileNotFoundError \/ exists st', copy_files rel fs st = Ok st' /\ t_dirs (fst st') = t_dirs (fst st).
Proof.
  induction fs as [|[f n] fs IH]; intro st; cbn [copy_files]; [right; eauto|].
  destruct (copy1_fnf n (rel ++ [f]) (fst st) _ eq_refl) as [E|(t0 & E & D)]; rewrite E; cbn [rbind]; [now left|].
  destruct (IH (t0, snd st ++ [rel ++ [f]])) as [E2|(st' & E2 & D2)]; [now left|right]. exists st'. split; [exact E2|]. rewrite D2. exact D.
Qed.
Lemma copy_deep rel fs st : (2 <= length rel)%nat -> fs <> [] -> shallow_dirs (fst st) -> copy_files rel fs st = Err FileNotFoundError.
Proof.
  intros HR HF HS. destruct fs as [|[f n] fs]; [contradiction|]. cbn [copy_files].
  assert (E : copy1 n (rel ++ [f]) (fst st) = Err FileNotFoundError); [|now rewrite E].
  assert (N1 : pmem (rel ++ [f]) (t_dirs (fst st)) = false).
  { destruct (pmem _ _) eqn:E; [|reflexivity]. apply pmem_In, HS in E. rewrite app_length in E. cbn in E. lia. }
  assert (N2 : pmem rel (t_dirs (fst st)) = false).
  { destruct (pmem rel _) eqn:E; [|reflexivity]. apply pmem_In, HS in E. lia. }
  destruct n; cbn [copy1]; try reflexivity. rewrite N1. rewrite removelast_last, N2. reflexivity.
Qed.
Lemma copy_walk_deep w : forall st, shallow_dirs (fst st) -> (exists rel ds fs, In (rel, ds, fs) w /\ (2 <= length rel)%nat /\ fs <> []) ->
  copy_walk w st = Err FileNotFoundError.
Proof.
  induction w as [|[[rel ds] fs] w IH]; intros st HS (r & d & f & Hi & HR & HF); [contradiction|]. cbn [copy_walk].
  destruct (mkdirs_facts ds (fst st)) as (A & B & C). cbv zeta in *. destruct Hi as [[= -> -> ->]|Hi].
  - rewrite copy_deep; auto.
  - destruct (copy_files_fnf rel fs (fold_left (fun t d => mkdirp [fst d] t) ds (fst st), snd st)) as [E|(st' & E & D)]; rewrite E; cbn [rbind]; [reflexivity|].
    apply IH; [|eauto 8]. unfold shallow_dirs. rewrite D. cbn [fst]. now apply C.
Qed.

(** Shallow trees are copied. *)
Definition fdata (n : node) : bytes := match n with File _ d _ => d | _ => [] end.
Definition wfiles (w : list (list str * list (str * node) * list (str * node))) : list (list str * bytes) :=
  concat (map (fun '(r, _, fs) => map (fun k : str * node => (r ++ [fst k], fdata (snd k))) fs) w).
Lemma wfiles_keys w : map fst (wfiles w) = wkeys w.
Proof. unfold wfiles, wkeys. rewrite concat_map, map_map. f_equal. apply map_ext. intros [[r ds] fs]. now rewrite map_map. Qed.

Lemma NoDup_app_remove_r {A} (l l' : list A) : NoDup (l ++ l') -> NoDup l.
Proof. induction l as [|x l IH]; intro H; [constructor|]. inversion H as [|? ? H1 H2]; subst. constructor; [|auto]. intro K. apply H1. apply in_or_app. now left. Qed.
Lemma copy_files_ok rel fs : forall t cp, In rel (t_dirs t) -> (forall f, In f (map fst fs) -> ~ In (rel ++ [f]) (t_dirs t)) ->
  NoDup (map fst (t_files t) ++ map (fun k => rel ++ [fst k]) fs) -> Forall (fun k => exists l d m, snd k = File l d m) fs ->
  copy_files rel fs (t, cp) = Ok (mkt (t_dirs t) (t_files t ++ map (fun k => (rel ++ [fst k], fdata (snd k))) fs), cp ++ map (fun k => rel ++ [fst k]) fs).
Proof.
  induction fs as [|[f n] fs IH]; intros t cp HR HD HN HF; cbn [copy_files map fst snd] in *.
  - rewrite !app_nil_r. now destruct t.
  - inversion HF as [|? ? (l & d & m & E) HF']; subst. cbn [snd] in E. subst n. cbn [copy1].
    assert (N1 : pmem (rel ++ [f]) (t_dirs t) = false).
    { destruct (pmem _ _) eqn:E; [|reflexivity]. apply pmem_In in E. exfalso. eapply HD; [now left|exact E]. }
    rewrite N1, removelast_last. replace (pmem rel (t_dirs t)) with true by (symmetry; now apply pmem_In).
    rewrite pset_new. 2:{ apply NoDup_remove_2 in HN. intro H. apply HN. apply in_or_app. now left. }
    cbn [rbind]. rewrite IH; cbn [t_dirs t_files fst snd].
    + rewrite <- !app_assoc. reflexivity.
    + exact HR.
    + intros g Hg. apply HD. now right.
    + rewrite map_app, <- app_assoc. exact HN.
    + exact HF'.
Qed.
Lemma copy_walk_ok w : forall t cp, shallow_dirs t -> Forall (fun '(rel, ds, fs) => fs = [] \/ (length rel = 1%nat /\ In rel (t_dirs t) /\ Forall (fun k : str * node => exists l d m, snd k = File l d m) fs)) w ->
  NoDup (map fst (t_files t) ++ wkeys w) ->
  exists t', copy_walk w (t, cp) = Ok (t', cp ++ wkeys w) /\ t_files t' = t_files t ++ wfiles w.
Proof.
  induction w as [|[[rel ds] fs] w IH]; intros t cp HS HW HN; cbn [copy_walk].
  - exists t. unfold wkeys, wfiles. cbn. now rewrite !app_nil_r.
  - inversion HW as [|? ? H1 H2]; subst. cbn [fst snd].
    destruct (mkdirs_facts ds t) as (A & B & C). cbv zeta in *. set (t1 := fold_left (fun t d => mkdirp [fst d] t) ds t) in *.
    assert (KE : wkeys ((rel, ds, fs) :: w) = map (fun k => rel ++ [fst k]) fs ++ wkeys w) by reflexivity.
    assert (FE : wfiles ((rel, ds, fs) :: w) = map (fun k => (rel ++ [fst k], fdata (snd k))) fs ++ wfiles w) by reflexivity.
    rewrite KE in HN. rewrite app_assoc in HN.
    assert (E : copy_files rel fs (t1, cp) = Ok (mkt (t_dirs t1) (t_files t1 ++ map (fun k => (rel ++ [fst k], fdata (snd k))) fs), cp ++ map (fun k => rel ++ [fst k]) fs)).
    { destruct H1 as [->|(L & D & F)]. { cbn. rewrite !app_nil_r. now destruct t1. }
      apply copy_files_ok; [now apply B| | |exact F].
      - intros f Hf K. apply (C HS) in K. rewrite app_length in K. cbn in K. lia.
      - rewrite A. clear - HN. apply NoDup_app_remove_r in HN. exact HN. }
    rewrite E. cbn [rbind]. rewrite A.
    destruct (IH (mkt (t_dirs t1) (t_files t ++ map (fun k => (rel ++ [fst k], fdata (snd k))) fs)) (cp ++ map (fun k => rel ++ [fst k]) fs)) as (t' & T1 & T2).
    + exact (C HS).
    + eapply Forall_impl; [|exact H2]. intros [[r d] f] [K|(K1 & K2 & K3)]; [now left|right]. split; [exact K1|]. split; [now apply B|exact K3].
    + cbn [t_files]. rewrite map_app, map_map. cbn [fst]. exact HN.
    + exists t'. rewrite KE, FE. rewrite T1, T2. cbn [t_files]. rewrite <- !app_assoc. auto.
Qed.

(** The files of a plain tree, in the order walked. *)
Lemma wfiles_In n p d : is_dir n = true -> plain n -> (forall q m, found n q m -> is_dir m = true \/ exists l d' m', m = File l d' m') ->
  (In (p, d) (wfiles (walk [] n)) <-> data_at n p d).
Proof.
  intros D HP HR. unfold wfiles. rewrite in_concat. split.
  - intros (ys & H1 & H2). apply in_map_iff in H1 as (t & <- & Ht). apply walk_spec in Ht as (q & l & kids & A & ->).
    apply in_map_iff in H2 as ([k m] & E & Hk). apply filter_In in Hk as [Hk Dk]. cbn [fst snd] in *. injection E as <- <-.
    assert (F : found n (q ++ [k]) m) by (apply found_snoc; exists l, kids; split; [now apply at_found|exact Hk]).
    destruct (HR _ _ F) as [K|(l' & d' & m' & ->)]; [rewrite K in Dk; discriminate|]. cbn [fdata app]. exists l', m'. exact F.
  - intros (l & m & F). destruct (@exists_last _ p) as (q' & k & ->). { intros ->. inversion F; subst. discriminate. }
    apply found_snoc in F as (l' & kids & F & Hk).
    exists (map (fun k : str * node => (q' ++ [fst k], fdata (snd k))) (filter (fun k => negb (is_dir (snd k))) kids)). split.
    + apply in_map_iff. exists (q', filter (fun k => is_dir (snd k)) kids, filter (fun k => negb (is_dir (snd k))) kids). split; [reflexivity|].
      apply walk_spec. exists q', l', kids. split; [apply (found_at _ _ _ _ HP F)|reflexivity].
    + apply in_map_iff. exists (k, File l d m). split; [reflexivity|]. apply filter_In. auto.
Qed.

Definition fresh : target := mkt [] [].
Theorem copydir_spec orig : is_dir orig = true -> plain orig -> (forall q m, found orig q m -> is_dir m = true \/ exists l d' m', m = File l d' m') ->
  ((forall p, file_at orig p -> (length p <= 2)%nat) ->
     exists t copied, copydir orig fresh = Ok (t, copied) /\ NoDup (map fst (t_files t)) /\ (forall p d, In (p, d) (t_files t) <-> data_at orig p d) /\ copied = map fst (t_files t)) /\
  ((exists p, file_at orig p /\ (2 < length p)%nat) -> copydir orig fresh = Err FileNotFoundError).
Proof.
  intros D HP HR. destruct orig as [| l kids|]; try discriminate.
  assert (S0 : shallow_dirs (mkdirp [] fresh)). { intros p [<-|[]]. cbn. lia. }
  split.
  - intro HL. unfold copydir. cbn [walk copy_walk fst snd].
    set (ds := filter (fun k : str * node => is_dir (snd k)) kids). set (fs := filter (fun k : str * node => negb (is_dir (snd k))) kids).
    set (rest := concat (map (fun k : str * node => if is_link (snd k) then [] else walk ([] ++ [fst k]) (snd k)) kids)).
    assert (EW : walk [] (Dir l kids) = ([], ds, fs) :: rest) by reflexivity.
    inversion HP as [| |? NK PK]; subst.
    pose proof (wkeys_NoDup _ HP []) as ND. rewrite EW in ND.
    assert (KE : wkeys (([], ds, fs) :: rest) = map (fun k => [] ++ [fst k]) fs ++ wkeys rest) by reflexivity. rewrite KE in ND.
    destruct (mkdirs_facts ds (mkdirp [] fresh)) as (A & B & C). cbv zeta in *. set (t1 := fold_left (fun t d => mkdirp [fst d] t) ds (mkdirp [] fresh)) in *.
    assert (D1 : forall p, In p (t_dirs t1) -> p = [] \/ exists d, p = [d] /\ In d (map fst ds)).
    { clear. unfold t1. assert (G : forall ds0 t, (forall p, In p (t_dirs t) -> p = [] \/ exists d, p = [d] /\ In d (map fst ds)) -> (forall x, In x ds0 -> In x ds) ->
        forall p, In p (t_dirs (fold_left (fun t d => mkdirp [fst d] t) ds0 t)) -> p = [] \/ exists d, p = [d] /\ In d (map fst ds)).
      { induction ds0 as [|d ds0 IH]; intros t Ht Hs p Hp; cbn [fold_left] in Hp; [auto|]. apply (IH (mkdirp [fst d] t)); auto; [|intros; apply Hs; now right].
        intros q Hq. unfold mkdirp in Hq. destruct (_ || _); [auto|]. cbn [t_dirs] in Hq. apply in_app_iff in Hq as [Hq|[<-|[]]]; [auto|]. right. eexists. split; [reflexivity|]. apply in_map, Hs. now left. }
      apply G; [|auto]. intros p [<-|[]]. now left. }
    assert (E : copy_files [] fs (t1, []) = Ok (mkt (t_dirs t1) (t_files t1 ++ map (fun k => ([] ++ [fst k], fdata (snd k))) fs), [] ++ map (fun k => [] ++ [fst k]) fs)).
    { apply copy_files_ok.
      - apply B. now left.
      - intros f Hf K. apply D1 in K as [K|(d & K & Hd)]; [discriminate|]. injection K as <-.
        apply in_map_iff in Hf as ([f1 n1] & <- & Hf), Hd as ([f2 n2] & E & Hd). cbn [fst] in E. subst f2. apply filter_In in Hf as [Hf F1], Hd as [Hd F2]. cbn [fst snd] in *.
        apply (In_kid _ _ _ NK) in Hf. apply (In_kid _ _ _ NK) in Hd. rewrite Hf in Hd. injection Hd as ->. rewrite F2 in F1. discriminate.
      - rewrite A. cbn [mkdirp fresh t_files t_dirs pmem existsb orb map app]. apply NoDup_app_remove_r in ND. exact ND.
      - apply Forall_forall. intros [f n] Hf. apply filter_In in Hf as [Hf F1]. cbn [snd] in *. destruct (HR [f] n) as [K|K]; [econstructor; [exact Hf|constructor]|rewrite K in F1; discriminate|exact K]. }
    change (fst (mkdirp [] fresh, @nil (list str))) with (mkdirp [] fresh). fold t1. cbn [snd]. rewrite E. cbn [rbind].
    set (t2 := mkt (t_dirs t1) (t_files t1 ++ map (fun k => ([] ++ [fst k], fdata (snd k))) fs)).
    assert (F0 : t_files t1 = []) by (rewrite A; reflexivity).
    destruct (copy_walk_ok rest t2 ([] ++ map (fun k => [] ++ [fst k]) fs)) as (t' & T1 & T2).
    + exact (C S0).
    + apply Forall_forall. intros [[r d] f] Hi. assert (Hw := Hi). unfold rest in Hw. apply in_concat in Hw as (ys & Y1 & Y2). apply in_map_iff in Y1 as ([k n] & <- & Hk). cbn [fst snd app] in Y2.
      destruct (is_link n) eqn:El; [contradiction|]. apply walk_spec in Y2 as (q & l' & ks & AP & Eq). injection Eq as -> -> ->. cbn [app].
      destruct (filter (fun k0 : str * node => negb (is_dir (snd k0))) ks) as [|[g gn] gs] eqn:Ef; [now left|right].
      assert (Hg : In (g, gn) ks /\ is_dir gn = false). { assert (H : In (g, gn) ((g, gn) :: gs)) by now left. rewrite <- Ef in H. apply filter_In in H. cbn [snd] in H. destruct (is_dir gn); [destruct H; discriminate|tauto]. }
      assert (FQ : found (Dir false kids) ((k :: q) ++ [g]) gn). { cbn [app]. econstructor; [exact Hk|]. apply found_snoc. exists l', ks. split; [now apply at_found|apply Hg]. }
      assert (L : (length ((k :: q) ++ [g]) <= 2)%nat) by (apply HL; exists gn; split; [exact FQ|apply Hg]).
      rewrite app_length in L. cbn [length] in L. assert (q = []) by (destruct q; [reflexivity|cbn in L; lia]). subst q. split; [reflexivity|]. split.
      * cbn [t2 t_dirs]. apply mkdirs_new.
        -- intros d0 _. cbn. tauto.
        -- inversion AP; subst. apply in_map_iff. exists (k, Dir l' ks). split; [reflexivity|]. apply filter_In. split; [exact Hk|reflexivity].
      * rewrite <- Ef. apply Forall_forall. intros [h hn] Hh. apply filter_In in Hh as [Hh F1]. cbn [snd] in *. inversion AP; subst.
        destruct (HR [k; h] hn) as [K|K]; [econstructor; [exact Hk|]; econstructor; [exact Hh|constructor]|rewrite K in F1; discriminate|exact K].
    + cbn [t2 t_files]. rewrite F0. cbn [app]. rewrite map_map. cbn [fst]. exact ND.
    + exists t', (([] ++ map (fun k => [] ++ [fst k]) fs) ++ wkeys rest). split; [exact T1|].
      assert (TF : t_files t' = wfiles (([], ds, fs) :: rest)). { rewrite T2. cbn [t2 t_files]. rewrite F0. reflexivity. }
      rewrite TF, wfiles_keys, KE. split; [exact ND|]. split; [|reflexivity]. intros p d. rewrite <- EW. now apply wfiles_In.
  - intros (p & (m & F & Dm) & HL). unfold copydir. apply copy_walk_deep; [exact S0|].
    destruct (@exists_last _ p) as (q & k & ->). { intros ->. cbn in HL. lia. }
    apply found_snoc in F as (l' & ks & F & Hk). eexists q, _, _. split; [apply walk_spec; exists q, l', ks; split; [apply (found_at _ _ _ _ HP F)|reflexivity]|].
    rewrite app_length in HL. cbn in HL. split; [lia|]. intro E. assert (K : In (k, m) (filter (fun k => negb (is_dir (snd k))) ks)) by (apply filter_In; cbn [snd]; now rewrite Dm).
    rewrite E in K. contradiction.
Qed.

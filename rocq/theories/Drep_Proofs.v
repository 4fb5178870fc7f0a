(** The reports that distdiff --report writes. *)
From Verif Require Import Base Pack_Model ConstPool_Model ConstPool_Spec ClassFile_Model Manifest_Model Sign_Spec
  Change_Model Change_Spec Change_Proofs Change_Report Classdiff_Model Classdiff_Spec Classdiff_Merge Classdiff_Class Classdiff_Passes Change_Tame
  Zip_Spec Zip_Proofs Jardiff_Model Jardiff_Spec Jardiff_Proofs Jardiff_Jar Jardiff_Report Report_Model Report_Spec Report_Paths Report_Proofs Report_Jar Report_Written
  Distdiff_Model Distdiff_Spec Distdiff_Proofs Distdiff_Dist Drep_Model Drep_Spec.
From Verif Require Zip_Model Dir_Model Dir_Spec Dir_Proofs Verdict_Jar.
From Coq Require Import Permutation.
Import Zip_Model (node, LEFT, RIGHT, SAME, DIFF).
Import Dir_Spec (data_at, dclass, plain, written).

Section Drep.
Variable cwd : str.
Variable forder : list format -> list format.
Variable sets_up : inst -> option exn.
Variable opens : str -> option exn.
Variable render : inst -> str -> change -> res str.
Hypothesis forder_perm : forall fs, Permutation (forder fs) fs.
Variable fmt : pyval -> str.
Variable reprs : str -> str.
Variable ffmt : pyval -> str.
Variable text : bytes -> res str.
Variable order : list str -> list str.
Variable up : Z -> str.
Variable unzip : bytes -> jar.
Hypothesis order_perm : forall s, Permutation (order s) s.
Variables l r : node.
Notation dev := (dist_event fmt reprs ffmt text order up unzip l r).
Notation isrep := (is_report fmt reprs ffmt text order up unzip l r).
Notation jar_report_run := (jar_report_run cwd forder sets_up opens render fmt reprs ffmt text order up).
Notation entry_run := (dist_entry_run cwd forder sets_up opens render fmt reprs ffmt text order up unzip l r).
Notation check_run := (report_check_run cwd forder sets_up opens render fmt reprs ffmt text order up unzip l r).
Notation report_run := (dist_report_run cwd forder sets_up opens render fmt reprs ffmt text order up unzip l r).
Notation cli_run := (distdiff_report_run cwd forder sets_up opens render fmt reprs ffmt text order up unzip l r).
Notation run := (run cwd forder sets_up opens render).

Lemma isrep_shape sh ev : isrep sh ev = true -> sh = false /\ fst ev = DIFF /\
  ((is_kind (snd ev) KJar /\ dev sh ev = dist_node (lit "DistJarChange") (lit "Distributed JAR") false false false (dist_own (snd ev)) true true (Some (dist_jar_sub fmt reprs ffmt text order up unzip l r (snd ev))) (snd ev)) \/
   (is_kind (snd ev) KClass /\ dev sh ev = dist_node (lit "DistClassChange") (lit "Distributed Java Class") false false false (dist_own (snd ev)) true true (Some (dist_class_sub fmt reprs ffmt l r (snd ev))) (snd ev))).
Proof.
  destruct ev as [e n]. unfold is_report. cbn [fst snd]. intro H. apply andb_true_iff in H as [H1 H2]. unfold dist_event, dist_removed, dist_added in *.
  destruct sh; cbn [negb andb] in *.
  { exfalso. destruct e; discriminate H1. }
  split; [reflexivity|]. destruct (fnmatches n JAR_PATTERNS) eqn:EJ.
  - destruct e; try discriminate H1; try discriminate H2. split; [reflexivity|]. left. split; [now apply is_jar_iff|reflexivity].
  - destruct (fnmatches n [lit "*.class"]) eqn:EC.
    + destruct e; try discriminate H1; try discriminate H2. split; [reflexivity|]. right. split; [now apply is_class_iff|reflexivity].
    + exfalso. destruct e; try discriminate H1; destruct (fnmatches n TEXT_PATTERNS); try discriminate H1; destruct (fnmatches n [lit "*/MANIFEST.MF"]); discriminate H1.
Qed.
Lemma isrep_yes n : is_kind n KJar \/ is_kind n KClass -> isrep false (DIFF, n) = true.
Proof.
  intros [H|H]; unfold is_report, dist_event; cbn [negb andb].
  - apply is_jar_iff in H. rewrite H. reflexivity.
  - assert (HJ : fnmatches n JAR_PATTERNS = false). { destruct (fnmatches n JAR_PATTERNS) eqn:E; [|reflexivity]. apply is_jar_iff in E. discriminate (kinds_clash _ KJar KClass E H). }
    apply is_class_iff in H. rewrite HJ, H. reflexivity.
Qed.

(** The work on one event: the outcome is that without reports. *)
Lemma check_run_result sh o rp ev e y : check_run o sh rp ev = (e, Ok y) -> report_check fmt reprs ffmt text order up unzip l r o sh ev = Ok y.
Proof.
  unfold report_check_run, report_check. destruct (seqb _ _).
  - intro H. apply ebind_ok in H as (e1 & [a b] & e2 & H1 & H & ->). apply silent_ok in H1 as [-> H1]. rewrite H1. cbn [rbind]. apply ebind_ok in H as (e3 & j & e4 & H3 & H & ->). apply silent_ok in H as [-> H].
    rewrite (proj1 (jar_result cwd forder sets_up opens render fmt reprs ffmt text order up _ _ _ _ _ _ H3)). exact H.
  - cbv zeta. intro H. apply ebind_ok in H as (e1 & c & e2 & H1 & H & ->). apply silent_ok in H1 as [-> H1]. rewrite H1. destruct c as [k chg ds cs im]. apply ebind_ok in H as (e3 & u & e4 & H3 & H & ->). now apply silent_ok in H as [-> H].
Qed.
Lemma entry_result sh o rp ev e y : entry_run o sh rp ev = (e, Ok y) ->
  (if isrep sh ev then report_task fmt reprs ffmt text order up unzip l r o sh ev else check (dev sh ev)) = Ok y.
Proof.
  unfold dist_entry_run. destruct (isrep sh ev).
  - intro H. apply ebind_ok in H as (e1 & c & e2 & H1 & H & ->). apply silent_ok in H as [-> H]. unfold report_task. rewrite (check_run_result _ _ _ _ _ _ H1). exact H.
  - intro H. now apply silent_ok in H as [_ H].
Qed.
Lemma other_quiet sh o rp ev e y : isrep sh ev = false -> entry_run o sh rp ev = (e, Ok y) -> e = [].
Proof. intros E H. unfold dist_entry_run in H. rewrite E in H. now apply silent_ok in H as [-> _]. Qed.

Section Event.
Variables (n : str) (d d' : bytes).
Hypothesis Hl : read_file l n = Ok d.
Hypothesis Hr : read_file r n = Ok d'.
Lemma jar_entry_run o rp e y : is_kind n KJar -> entry_run o false rp (DIFF, n) = (e, Ok y) ->
  exists a b j, unzip d = Ok a /\ unzip d' = Ok b /\ jar_report_run o (subreporter forder rp n (lit "JarReport")) (Ok a) (Ok b) = (e, Ok j).
Proof.
  intros HK H. unfold dist_entry_run in H. rewrite (isrep_yes n (or_introl HK)) in H. apply ebind_ok in H as (e1 & c & e2 & H & H2 & ->). apply silent_ok in H2 as [-> _]. rewrite app_nil_r.
  unfold report_check_run in H. destruct (isrep_shape false (DIFF, n) (isrep_yes n (or_introl HK))) as (_ & _ & [[_ ED]|[X _]]); [|discriminate (kinds_clash _ _ _ HK X)]. rewrite ED in H. cbn [snd] in H.
  change (seqb (k_name (k_of (dist_node (lit "DistJarChange") (lit "Distributed JAR") false false false (dist_own n) true true (Some (dist_jar_sub fmt reprs ffmt text order up unzip l r n)) n))) (lit "DistJarChange")) with true in H. cbv iota zeta in H.
  rewrite (both_eq l r n d d' Hl Hr) in H. apply ebind_ok in H as (e3 & [x z] & e4 & H1 & H & ->). apply silent_ok in H1 as [-> H1]. injection H1 as <- <-. apply ebind_ok in H as (e5 & j & e6 & H5 & H & ->). apply silent_ok in H as [-> _]. rewrite app_nil_r. cbn [app].
  pose proof (proj1 (jar_result cwd forder sets_up opens render fmt reprs ffmt text order up _ _ _ _ _ _ H5)) as HC.
  pose proof (report_agree fmt reprs ffmt text order up order_perm o (unzip d) (unzip d')) as HA. rewrite HC in HA. unfold agreeing in HA.
  destruct (check (jar_change fmt reprs ffmt text order up (unzip d) (unzip d'))) as [c1|] eqn:Ec; [|contradiction].
  assert (HX : completes (jar_change fmt reprs ffmt text order up (unzip d) (unzip d'))) by (now exists c1). apply (jar_completes_iff fmt reprs ffmt text order up order_perm o) in HX as [s Hs].
  destruct (Verdict_Jar.jardiff_opens _ _ _ _ _ _ _ _ _ _ Hs) as (a & b & Ea & Eb). exists a, b, j. rewrite Ea, Eb in H5. auto.
Qed.
Lemma class_entry_run' o rp e y : is_kind n KClass -> entry_run o false rp (DIFF, n) = (e, Ok y) ->
  exists a b cc r', unpack_class d MNone = Ok a /\ unpack_class d' MNone = Ok b /\ check (class_change fmt reprs ffmt a b) = Ok cc /\
    run (subreporter forder rp n (lit "JavaClassReport")) (named "JavaClassReport" cc) = (e, r', None).
Proof.
  intros HK H. unfold dist_entry_run in H. rewrite (isrep_yes n (or_intror HK)) in H. apply ebind_ok in H as (e1 & c & e2 & H & H2 & ->). apply silent_ok in H2 as [-> _]. rewrite app_nil_r.
  unfold report_check_run in H. destruct (isrep_shape false (DIFF, n) (isrep_yes n (or_intror HK))) as (_ & _ & [[X _]|[_ ED]]); [discriminate (kinds_clash _ _ _ HK X)|]. rewrite ED in H. cbn [snd] in H, ED.
  change (seqb (k_name (k_of (dist_node (lit "DistClassChange") (lit "Distributed Java Class") false false false (dist_own n) true true (Some (dist_class_sub fmt reprs ffmt l r n)) n))) (lit "DistJarChange")) with false in H. cbv iota zeta in H.
  apply ebind_ok in H as (e3 & c' & e4 & E1 & H & ->). apply silent_ok in E1 as [-> E1]. unfold dist_node in E1.
  assert (HX : completes (jar_node (lit "DistClassChange") (lit "Distributed Java Class") false false false (dist_own n) true true (Some (dist_class_sub fmt reprs ffmt l r n)) n)) by (exists c'; exact E1).
  apply differs_completes in HX as (cl & HS & [cc Hcc]). rewrite HS, (differs_check _ _ _ _ _ _ _ cl cc Hcc) in E1. injection E1 as <-.
  apply (class_sub_eq fmt reprs ffmt l r n d d' Hl Hr) in HS as (a & b & U1 & U2 & ->).
  apply ebind_ok in H as (e5 & us & e6 & E3 & H & ->). apply silent_ok in H as [-> _]. cbn [emap] in E3. apply ebind_ok in E3 as (e7 & u & e8 & E5 & E6 & ->). cbn [ebind silent] in E6. injection E6 as <- <-.
  apply reported_ok in E5 as [r' E5]. exists a, b, cc, r'. rewrite !app_nil_r. cbn [app]. auto.
Qed.
End Event.

(** ** What is written *)
Hypothesis Pl : plain l.
Hypothesis Pr : plain r.
Hypothesis Nl : names_ok l.
Hypothesis Nr : names_ok r.
Hypothesis HC : Dir_Spec.comparable l r.
Hypothesis Jl : readable_jars unzip l.
Hypothesis Jr : readable_jars unzip r.
Variables (o : options) (sh : bool).
Variables H D : list str.
Hypothesis LH : leads [] cwd H.
Variable rp : reporter.
Hypothesis RL : r_live rp = None.
Hypothesis LD : leads H (r_base rp) D.
Notation due := (due fmt reprs ffmt text order up unzip o sh l r D).
Notation changed_file := (changed_file sh l r).

Lemma sub_leads n e D' : leads D n D' <-> leads H (r_base (subreporter forder rp n e)) D'.
Proof.
  rewrite !leads_iff. rewrite (leads_here cwd H LH), sub_base. pose proof LD as L. apply leads_iff in L. rewrite (leads_here cwd H LH) in L. rewrite L. reflexivity.
Qed.
Lemma delta_fun a b n c c' : class_delta fmt reprs ffmt up a b n c -> class_delta fmt reprs ffmt up a b n c' -> c = c'.
Proof.
  intros (d & d' & x & y & cc & (_ & C1 & C2 & _) & U1 & U2 & K & ->) (e & e' & x' & y' & cc' & (_ & C1' & C2' & _) & U1' & U2' & K' & ->).
  rewrite (content_fun _ _ _ _ C1' C1) in U1'. rewrite (content_fun _ _ _ _ C2' C2) in U2'. rewrite U1 in U1'. injection U1' as <-. rewrite U2 in U2'. injection U2' as <-. rewrite K in K'. injection K' as <-. reflexivity.
Qed.
Definition on (p : list str) (s : subject) : Prop := s = OfFile p \/ exists n, s = OfEntry p n.
(** The reports on the file [p] are written in [e]. *)
Definition piece (p : list str) (e : list event) : Prop :=
  (forall f t c out, wrote e f t c out -> In f (r_formats rp) /\ (exists x, out = Ok x) /\ exists s D' n, on p s /\ due s D' n c /\ goes_to H D' n f t) /\
  (forall f s D' n c, In f (r_formats rp) -> on p s -> due s D' n c -> exists t x, goes_to H D' n f t /\ wrote e f t c (Ok x)) /\
  exists ss, NoDup ss /\ (forall s, In s ss <-> on p s /\ exists D' n c, due s D' n c) /\ outputs e = (length (r_formats rp) * length ss)%nat.
Lemma on_due p s D' n c : on p s -> due s D' n c -> exists k d d', changed_file k p d d' /\ (k = KJar \/ k = KClass).
Proof. intros HO HD. destruct HD as [ks _|q d d' D' a b cc X|q d d' D' a b j X|q d d' D' a b n D'' c X]; destruct HO as [HO|[m HO]]; try discriminate HO; injection HO; intros; subst; eauto 8. Qed.
Lemma no_piece p : (forall k d d', changed_file k p d d' -> k = KJar \/ k = KClass -> False) -> piece p [].
Proof.
  intro HN. assert (HX : forall s D' n c, on p s -> due s D' n c -> False). { intros s D' n c HO HD. destruct (on_due _ _ _ _ _ HO HD) as (k & d & d' & X & Y). exact (HN _ _ _ X Y). }
  split; [|split].
  - intros f t c out (i & _ & []).
  - intros f s D' n c _ HO HD. destruct (HX _ _ _ _ HO HD).
  - exists []. split; [constructor|]. split; [|now rewrite Nat.mul_0_r]. intro s. split; [intros []|]. intros (HO & D' & n & c & HD). exact (HX _ _ _ _ HO HD).
Qed.
Lemma changed_fun k k' p d d' e e' : changed_file k p d d' -> changed_file k' p e e' -> d = e /\ d' = e' /\ k = k'.
Proof.
  intros (_ & A & B & _ & K) (_ & A' & B' & _ & K'). split; [exact (data_fun _ _ _ _ Pl A A')|]. split; [exact (data_fun _ _ _ _ Pr B B')|]. exact (kinds_clash _ _ _ K K').
Qed.
Lemma class_piece p d d' e y : changed_file KClass p d d' -> entry_run o false rp (DIFF, name_of p) = (e, Ok y) -> piece p e.
Proof.
  intros HX HR. pose proof HX as (_ & A & B & DN & HK). assert (Hp : p <> []) by exact (not_root l r Pl Nl HC p d A). pose proof (read_data _ _ _ Pl Nl Hp A) as RA. pose proof (read_data _ _ _ Pr Nr Hp B) as RB.
  destruct (class_entry_run' _ _ _ RA RB _ _ _ _ HK HR) as (a & b & cc & r' & U1 & U2 & K & HRun). set (D1 := resolve D (name_of p)). assert (L1 : leads D (name_of p) D1) by now apply leads_iff.
  assert (HD : due (OfFile p) D1 (lit "JavaClassReport") (named "JavaClassReport" cc)) by (eapply due_class; eauto).
  assert (HU : forall s D' n c, on p s -> due s D' n c -> s = OfFile p /\ D' = D1 /\ n = lit "JavaClassReport" /\ c = named "JavaClassReport" cc).
  { intros s D' n c HO HD'. destruct HD' as [ks _|q f f' D' a' b' cc' X L U1' U2' K'|q f f' D' a' b' j X|q f f' D' a' b' n D'' c X]; destruct HO as [HO|[m HO]]; try discriminate HO; injection HO; intros; subst.
    - destruct (changed_fun _ _ _ _ _ _ _ HX X) as (<- & <- & _). rewrite U1 in U1'. injection U1' as <-. rewrite U2 in U2'. injection U2' as <-. rewrite K in K'. injection K' as <-. apply leads_iff in L. auto.
    - destruct (changed_fun _ _ _ _ _ _ _ HX X) as (_ & _ & E). discriminate E.
    - destruct (changed_fun _ _ _ _ _ _ _ HX X) as (_ & _ & E). discriminate E. }
  destruct (run_wrote cwd forder sets_up opens render forder_perm (subreporter forder rp (name_of p) (lit "JavaClassReport")) _ _ _ eq_refl HRun H D1 LH) as [W1 W2]; [now apply sub_leads|]. cbn [subreporter r_formats r_entry] in W1, W2. split; [|split].
  - intros f t c out HW. destruct (W1 _ _ _ _ HW) as (F1 & -> & G & X). rewrite (forder_perm _) in F1. split; [exact F1|]. split; [exact X|]. exists (OfFile p), D1, (lit "JavaClassReport"). split; [now left|]. auto.
  - intros f s D' n c Hf HO HD'. destruct (HU _ _ _ _ HO HD') as (-> & -> & -> & ->). destruct (W2 f) as (t & x & HW); [now rewrite (forder_perm _)|]. exists t, x. split; [|exact HW]. now apply (W1 _ _ _ _ HW).
  - exists [OfFile p]. split; [constructor; [intros []|constructor]|]. split.
    + intro s. split; [intros [<-|[]]; split; [now left|eauto 6]|]. intros (HO & D' & n & c & HD'). destruct (HU _ _ _ _ HO HD') as (-> & _). now left.
    + rewrite (run_outputs cwd forder sets_up opens render forder_perm (subreporter forder rp (name_of p) (lit "JavaClassReport")) _ _ _ eq_refl HRun). cbn [subreporter r_formats length]. rewrite (Permutation_length (forder_perm _)). lia.
Qed.
Lemma jar_piece p d d' e y : changed_file KJar p d d' -> entry_run o false rp (DIFF, name_of p) = (e, Ok y) -> piece p e.
Proof.
  intros HX HR. pose proof HX as (_ & A & B & DN & HK). assert (Hp : p <> []) by exact (not_root l r Pl Nl HC p d A). pose proof (read_data _ _ _ Pl Nl Hp A) as RA. pose proof (read_data _ _ _ Pr Nr Hp B) as RB.
  destruct (jar_entry_run _ _ _ RA RB _ _ _ _ HK HR) as (a & b & j & U1 & U2 & HRun). destruct (Jl p d a A HK U1) as (K1 & O1 & S1). destruct (Jr p d' b B HK U2) as (K2 & O2 & S2).
  set (D1 := resolve D (name_of p)). assert (L1 : leads D (name_of p) D1) by now apply leads_iff.
  destruct (jar_wrote cwd forder sets_up opens render forder_perm fmt reprs ffmt text order up order_perm a b K1 K2 O1 O2 S1 S2 o (subreporter forder rp (name_of p) (lit "JarReport")) e j eq_refl eq_refl HRun H D1 LH) as (J0 & J1 & J2 & es & J3 & J4 & J5); [now apply sub_leads|].
  cbn [subreporter r_formats] in J1, J2, J5.
  assert (HD : due (OfFile p) D1 (lit "JarReport") j) by (eapply due_jar; eauto).
  assert (HU : forall s D' n c, on p s -> due s D' n c -> (s = OfFile p /\ D' = D1 /\ n = lit "JarReport" /\ c = j) \/ exists m, s = OfEntry p m /\ class_delta fmt reprs ffmt up a b m c /\ leads D1 m D' /\ n = lit "JavaClassReport").
  { intros s D' n c HO HD'. destruct HD' as [ks _|q f f' D' a' b' cc' X|q f f' D' a' b' j' X L U1' U2' K'|q f f' D' a' b' n D'' c X L U1' U2' K' L']; destruct HO as [HO|[m HO]]; try discriminate HO; injection HO; intros; subst; destruct (changed_fun _ _ _ _ _ _ _ HX X) as (<- & <- & E); try discriminate E;
      rewrite U1 in U1'; injection U1' as <-; rewrite U2 in U2'; injection U2' as <-; apply leads_iff in L; fold D1 in L; subst D'.
    - rewrite J0 in K'. injection K' as <-. left. auto.
    - right. eauto. }
  assert (HE : forall m c, class_delta fmt reprs ffmt up a b m c -> due (OfEntry p m) (resolve D1 m) (lit "JavaClassReport") c).
  { intros m c X. eapply due_entry; eauto. now apply leads_iff. }
  split; [|split].
  - intros f t c out HW. destruct (J1 _ _ _ _ HW) as (F1 & X & G). rewrite (forder_perm _) in F1. split; [exact F1|]. split; [exact X|]. destruct G as [[-> G]|(m & D' & G1 & G2 & G3)].
    + exists (OfFile p), D1, (lit "JarReport"). split; [now left|]. auto.
    + exists (OfEntry p m), D', (lit "JavaClassReport"). split; [right; eauto|]. split; [|exact G3]. apply leads_iff in G2. subst D'. now apply HE.
  - intros f s D' n c Hf HO HD'. rewrite <- (forder_perm _) in Hf. destruct (J2 f Hf) as [Q1 Q2]. destruct (HU _ _ _ _ HO HD') as [(-> & -> & -> & ->)|(m & -> & X & L & ->)]; [exact Q1|].
    pose proof X as (q & q' & x1 & x2 & cc & XP & _). destruct (Q2 m q q' D' XP L) as (t & c' & x & X' & G & W). rewrite (delta_fun _ _ _ _ _ X' X) in W. eauto.
  - exists (OfFile p :: map (OfEntry p) es). split; [|split].
    + constructor; [intro HI; apply in_map_iff in HI as (m & E & _); discriminate E|]. apply FinFun.Injective_map_NoDup; [|exact J3]. intros x z E. now injection E.
    + intro s. split.
      * intros [<-|HI]; [split; [now left|eauto 6]|]. apply in_map_iff in HI as (m & <- & HI). split; [right; eauto|]. apply J4 in HI as (q & q' & XP).
        (* the comparison of this class took place *)
        destruct (report_files cwd forder sets_up opens render fmt reprs ffmt text order up order_perm a b K1 K2 O1 O2 S1 S2 o _ e j (eq_refl : r_live (subreporter forder rp (name_of p) (lit "JarReport")) = None) HRun) as (_ & es' & evs & top & _ & HI' & _ & _ & HF).
        destruct (Forall2_in_l _ _ _ HF m) as (e0 & _ & q0 & q0' & x1 & x2 & cc & r' & XP0 & V1 & V2 & KK & _); [apply HI'; eauto|]. eexists _, _, _. apply HE. exists q0, q0', x1, x2, cc. eauto.
      * intros (HO & D' & n & c & HD'). destruct (HU _ _ _ _ HO HD') as [(-> & _)|(m & -> & X & _)]; [now left|]. right. apply in_map. apply J4. destruct X as (q & q' & x1 & x2 & cc & XP & _). eauto.
    + rewrite J5, (Permutation_length (forder_perm _)). cbn [length]. now rewrite map_length.
Qed.
Lemma diff_class p d d' k : changed_file k p d d' -> dclass l r DIFF p.
Proof. intros (_ & A & B & E & _). exists d, d'. auto. Qed.
Lemma dclass_fun e e' p : dclass l r e p -> dclass l r e' p -> e = DIFF -> e' = DIFF.
Proof.
  intros X Y ->. destruct X as (d & d' & A & B & E). destruct e'; cbn [dclass] in Y; [|  |reflexivity|].
  - exfalso. apply (proj2 Y). destruct B as (x & m & B). eexists. split; [exact B|reflexivity].
  - exfalso. apply (proj2 Y). destruct A as (x & m & A). eexists. split; [exact A|reflexivity].
  - exfalso. destruct Y as (f & Y1 & Y2). apply E. rewrite (data_fun _ _ _ _ Pl A Y1). now rewrite (data_fun _ _ _ _ Pr B Y2).
Qed.
Lemma event_piece e0 p e y : dclass l r e0 p -> entry_run o sh rp (written (e0, p)) = (e, Ok y) -> piece p e.
Proof.
  intros HD HR. destruct (isrep sh (written (e0, p))) eqn:ER.
  - destruct (isrep_shape _ _ ER) as (ES & EE & X). assert (e0 = DIFF) as -> by exact EE. pose proof HD as (d & d' & A & B & E). assert (EW : written (DIFF, p) = (DIFF, name_of p)) by (unfold written; cbn [fst snd]; now destruct p as [|x [|z p]]).
    rewrite EW in *. cbn [snd] in X. rewrite ES in HR. destruct X as [[X _]|[X _]].
    + apply (jar_piece p d d' e y); [|exact HR]. rewrite ES. repeat split; auto.
    + apply (class_piece p d d' e y); [|exact HR]. rewrite ES. repeat split; auto.
  - rewrite (other_quiet _ _ _ _ _ _ ER HR). apply no_piece. intros k d d' X HK. pose proof (dclass_fun DIFF e0 p (diff_class _ _ _ _ X) HD eq_refl) as ->.
    assert (EW : written (DIFF, p) = (DIFF, name_of p)) by (unfold written; cbn [fst snd]; now destruct p as [|x [|z p]]). rewrite EW in ER. destruct X as (ES & _ & _ & _ & X). rewrite ES in ER.
    rewrite isrep_yes in ER; [discriminate ER|]. destruct HK as [-> | ->]; auto.
Qed.

(** Several files. *)
Lemma on_fun p q s : on p s -> on q s -> p = q.
Proof. intros [-> |[n ->]] [E|[m E]]; try discriminate E; now injection E. Qed.
Lemma pieces (ps : list (list str)) es : NoDup ps -> Forall2 piece ps es ->
  (forall f t c out, wrote (concat es) f t c out -> In f (r_formats rp) /\ (exists x, out = Ok x) /\ exists s D' n, due s D' n c /\ goes_to H D' n f t) /\
  (forall f p s D' n c, In f (r_formats rp) -> In p ps -> on p s -> due s D' n c -> exists t x, goes_to H D' n f t /\ wrote (concat es) f t c (Ok x)) /\
  exists ss, NoDup ss /\ (forall s, In s ss <-> exists p, In p ps /\ on p s /\ exists D' n c, due s D' n c) /\ outputs (concat es) = (length (r_formats rp) * length ss)%nat.
Proof.
  intros ND HF. split; [|split].
  - intros f t c out HW. apply wrote_concat in HW as (e & He & HW). destruct (Forall2_in_r _ _ _ HF e He) as (p & Hp & (P1 & _)). destruct (P1 _ _ _ _ HW) as (A & B & s & D' & n & _ & C). eauto 8.
  - intros f p s D' n c Hf Hp HO HD. destruct (Forall2_in_l _ _ _ HF p Hp) as (e & He & (_ & P2 & _)). destruct (P2 f s D' n c Hf HO HD) as (t & x & G & W). exists t, x. split; [exact G|]. apply wrote_concat. eauto.
  - induction HF as [|p e ps es HP HF IH].
    + exists []. split; [constructor|]. split; [|now rewrite Nat.mul_0_r]. intro s. split; [intros []|]. intros (p & [] & _).
    + inversion ND as [|? ? N1 N2]; subst. destruct (IH N2) as (ss & A1 & A2 & A3). destruct HP as (_ & _ & s1 & B1 & B2 & B3). exists (s1 ++ ss). split; [|split].
      * apply NoDup_app_make; auto. intros s X Y. apply B2 in X as [X _]. apply A2 in Y as (q & Hq & Y & _). rewrite (on_fun _ _ _ X Y) in N1. contradiction.
      * intro s. rewrite in_app_iff, B2, A2. split.
        -- intros [[X Y]|(q & Hq & X & Y)]; [exists p; split; [now left|auto]|exists q; split; [now right|auto]].
        -- intros (q & [<-|Hq] & X & Y); [left; auto|right; eauto].
      * cbn [concat]. rewrite outputs_app, A3, B3, app_length. lia.
Qed.
Hypothesis RE : r_entry rp = lit "DistReport".
Theorem dist_wrote ev c0 : report_run o sh rp = (ev, Ok c0) ->
  due Whole D (lit "DistReport") c0 /\
  (forall f t c out, wrote ev f t c out -> In f (r_formats rp) /\ (exists x, out = Ok x) /\ exists s D' n, due s D' n c /\ goes_to H D' n f t) /\
  (forall f s D' n c, In f (r_formats rp) -> due s D' n c -> exists t x, goes_to H D' n f t /\ wrote ev f t c (Ok x)) /\
  exists ss, NoDup ss /\ (forall s, In s ss <-> exists D' n c, due s D' n c) /\ outputs ev = (length (r_formats rp) * length ss)%nat.
Proof.
  intro HR. unfold dist_report_run in HR. destruct (Dir_Proofs.gen_spec l Pl [] r Pr HC) as (K & E & N & HK & _).
  assert (EV : exists evs, dist_events fmt reprs ffmt text order up unzip l r sh = Ok evs /\ Permutation evs (map written K)).
  { unfold dist_events, Dir_Model.dir_compare. rewrite E. eexists. split; [reflexivity|]. apply (proj1 (iterate_spec _ _ _)). }
  destruct EV as (evs & EV & PV). apply Permutation_map_inv in PV as (K' & -> & PK). rewrite EV in HR.
  apply ebind_ok in HR as (e1 & x & e2 & H1 & HR & ->). apply silent_ok in H1 as [-> H1]. injection H1 as <-. apply ebind_ok in HR as (e3 & ks & e4 & H3 & HR & ->). cbv zeta in HR. apply ebind_ok in HR as (e5 & u & e6 & H5 & HR & ->). apply silent_ok in HR as [-> HR]. injection HR as <-.
  destruct (emap_ok _ _ _ _ H3) as (es & -> & HF & HLen). apply reported_ok in H5 as [r' H5]. cbn [app]. rewrite app_nil_r.
  assert (SEQ : sequential_check fmt reprs ffmt text order up unzip l r o sh = Ok ks).
  { unfold sequential_check. rewrite EV. cbn [rbind]. apply mapM_of_Forall2. refine (Forall2_combine _ _ _ _ es ks HLen HF). intros v y z. cbn [fst snd]. apply entry_result. }
  assert (HW : due Whole D (lit "DistReport") (dist_report fmt reprs ffmt text order up unzip l r sh ks)) by now constructor. split; [exact HW|].
  assert (HU : forall D' n c, due Whole D' n c -> D' = D /\ n = lit "DistReport" /\ c = dist_report fmt reprs ffmt text order up unzip l r sh ks).
  { intros D' n c X. inversion X as [ks' S' | | |]; subst. rewrite SEQ in S'. injection S' as <-. auto. }
  assert (ND : NoDup (map snd K')) by (eapply Permutation_NoDup; [apply Permutation_map; exact PK|exact N]).
  assert (HP : Forall2 piece (map snd K') es).
  { assert (HI : forall e p, In (e, p) K' -> dclass l r e p) by (intros e p Hin; apply HK; cbn [app]; eapply Permutation_in; [symmetry; exact PK|exact Hin]). clear - HF HLen HI Pl Pr Nl Nr HC Jl Jr LH LD forder_perm order_perm. revert es ks HF HLen.
    induction K' as [|[e p] K' IH]; intros [|e0 es] [|k ks] HF HLen; try discriminate; cbn [map combine] in HF; inversion HF as [|? ? ? ? Hx HF']; subst; cbn [map]; constructor.
    - cbn [fst snd] in Hx |- *. apply (event_piece e p e0 k); [apply HI; now left|exact Hx].
    - apply (IH (fun e p Hin => HI e p (or_intror Hin)) es ks); [exact HF'|now injection HLen]. }
  destruct (pieces _ _ ND HP) as (A1 & A2 & ss & A3 & A4 & A5). destruct (run_wrote cwd forder sets_up opens render forder_perm rp _ _ _ RL H5 H D LH LD) as [T1 T2]. rewrite RE in T1.
  assert (HS : forall s D' n c, due s D' n c -> s = Whole \/ exists p, In p (map snd K') /\ on p s).
  { assert (HIN : forall k p d d', changed_file k p d d' -> In p (map snd K')). { intros k p d d' X. apply in_map_iff. exists (DIFF, p). split; [reflexivity|]. eapply Permutation_in; [exact PK|]. change p with ([] ++ p). apply HK. exact (diff_class _ _ _ _ X). }
    intros s D' n c X. destruct X as [ks' _|q f f' D' a' b' cc' X|q f f' D' a' b' j' X|q f f' D' a' b' n D'' c X]; [now left|right; exists q; split; [now apply HIN in X|now left]|right; exists q; split; [now apply HIN in X|now left]|right; exists q; split; [now apply HIN in X|right; eauto]]. }
  split; [|split].
  - intros f t c out W. apply wrote_app in W as [W|W]; [now apply A1 in W|]. destruct (T1 _ _ _ _ W) as (F1 & -> & G & X). eauto 8.
  - intros f s D' n c Hf X. destruct (HS _ _ _ _ X) as [-> |(p & Hp & HO)].
    + destruct (HU _ _ _ X) as (-> & -> & ->). destruct (T2 f Hf) as (t & x & W). exists t, x. split; [now apply (T1 _ _ _ _ W)|]. apply wrote_app. now right.
    + destruct (A2 f p s D' n c Hf Hp HO X) as (t & x & G & W). exists t, x. split; [exact G|]. apply wrote_app. now left.
  - exists (Whole :: ss). split; [|split].
    + constructor; [|exact A3]. intro X. apply A4 in X as (p & _ & [X|[m X]] & _); discriminate X.
    + intro s. cbn [In]. rewrite A4. split.
      * intros [<-|(p & _ & _ & X)]; [eauto|exact X].
      * intros (D' & n & c & X). destruct (HS _ _ _ _ X) as [-> |(p & Hp & HO)]; [now left|]. right. eauto 8.
    + rewrite outputs_app, A5, (run_outputs cwd forder sets_up opens render forder_perm rp _ _ _ RL H5). cbn [length]. lia.
Qed.
End Drep.

(** ** With processes *)
Section Parallel.
Variable cwd : str.
Variable forder : list format -> list format.
Variable sets_up : inst -> option exn.
Variable opens : str -> option exn.
Variable render : inst -> str -> change -> res str.
Variable fmt : pyval -> str.
Variable reprs : str -> str.
Variable ffmt : pyval -> str.
Variable text : bytes -> res str.
Variable order : list str -> list str.
Variable up : Z -> str.
Variable unzip : bytes -> jar.
Variables l r : node.
Notation report_run := (dist_report_run cwd forder sets_up opens render fmt reprs ffmt text order up unzip l r).
Notation dwork := (dist_work cwd forder sets_up opens render fmt reprs ffmt text order up unzip l r).
Notation parallel_end := (dist_parallel_end cwd forder sets_up opens render fmt reprs ffmt text order up unzip l r).

Lemma works o sh rp evs : forall e ks, emap (dist_entry_run cwd forder sets_up opens render fmt reprs ffmt text order up unzip l r o sh rp) evs = (e, Ok ks) ->
  exists done, mapM (dwork o sh rp) evs = Ok done /\ e = concat (map fst done) /\ ks = map snd done.
Proof.
  induction evs as [|ev evs IH]; intros e ks HE; cbn [emap] in HE.
  - apply silent_ok in HE as [-> HE]. injection HE as <-. exists []. auto.
  - apply ebind_ok in HE as (e1 & y & e2 & E1 & HE & ->). apply ebind_ok in HE as (e3 & ys & e4 & E3 & HE & ->). apply silent_ok in HE as [-> HE]. injection HE as <-. destruct (IH _ _ E3) as (done & D1 & -> & ->).
    exists ((e1, y) :: done). cbn [mapM]. unfold dist_work at 1. rewrite E1. cbn [rbind]. rewrite D1. cbn [rbind map concat fst snd]. rewrite app_nil_r. auto.
Qed.
Lemma writes_only f t c out (is : list inst) : (forall g : inst -> event, (forall i, g i = ESetup i) \/ (forall i, g i = EClear i) -> ~ wrote (map g is) f t c out).
Proof. intros g Hg (i & _ & X). apply in_map_iff in X as (j & X & _). destruct Hg as [Hg|Hg]; rewrite Hg in X; discriminate. Qed.
Lemma quiet_outputs (is : list inst) : outputs (map ESetup is) = O /\ outputs (map EClear is) = O.
Proof. split; induction is; auto. Qed.
Theorem parallel_same o sh rp ev c : r_live rp = None -> report_run o sh rp = (ev, Ok c) ->
  exists evs done ev', dist_events fmt reprs ffmt text order up unzip l r sh = Ok evs /\ mapM (dwork o sh rp) evs = Ok done /\
    parallel_end sh rp done = (ev', Ok c) /\ (forall f t c' out, wrote ev' f t c' out <-> wrote ev f t c' out) /\ outputs ev' = outputs ev.
Proof.
  intros RL HR. unfold dist_report_run in HR. apply ebind_ok in HR as (e1 & evs & e2 & H1 & HR & ->). apply silent_ok in H1 as [-> H1]. apply ebind_ok in HR as (e3 & ks & e4 & H3 & HR & ->). cbv zeta in HR. apply ebind_ok in HR as (e5 & u & e6 & H5 & HR & ->). apply silent_ok in HR as [-> HR]. injection HR as <-.
  destruct (works _ _ _ _ _ _ H3) as (done & HD & -> & ->). cbn [app]. rewrite app_nil_r. apply reported_ok in H5 as [r' H5].
  destruct (run_ok cwd forder sets_up opens render rp _ _ _ RL H5) as (_ & crumbs & EC & -> & _). set (cc := dist_report _ _ _ _ _ _ _ _ _ _ _) in *. set (is := insts forder rp crumbs) in *.
  assert (ES : setup cwd forder sets_up rp = (map ESetup is, mkrep (r_base rp) (r_entry rp) (r_crumbs rp) (r_formats rp) (Some is), None) /\ exists e, run_all opens render is cc (r_entry rp) = (e, None) /\ e = map (output render cc (r_entry rp)) is).
  { unfold Report_Model.run, setup in H5. rewrite RL, EC in H5. cbv zeta in H5. fold (insts forder rp crumbs) in H5. fold is in H5. unfold setup. rewrite RL, EC. cbv zeta. fold (insts forder rp crumbs). fold is.
    destruct (setup_all sets_up is) as [es [x|]] eqn:E1; [discriminate|]. cbn [r_live r_entry] in H5. destruct (run_all opens render is cc (r_entry rp)) as [er [x|]] eqn:E2; [discriminate|].
    assert (X1 : es = map ESetup is). { clear - E1. revert es E1. induction is as [|i is IH]; intros es E1; cbn [setup_all] in E1; [now injection E1|]. destruct (sets_up i); [discriminate|]. destruct (setup_all sets_up is) as [es' [x|]]; [discriminate|]. injection E1 as <-. cbn [map]. f_equal. now apply IH. }
    subst es. split; [reflexivity|]. exists er. split; [reflexivity|]. unfold clear_reporter in H5. cbn [r_live] in H5. injection H5 as X _. apply app_inv_head in X. now apply app_inv_tail in X. }
  destruct ES as (ES & er & ER & ->). exists evs, done. unfold dist_parallel_end. rewrite ES. cbn [ebind].
  assert (RR : reported cwd forder sets_up opens render (mkrep (r_base rp) (r_entry rp) (r_crumbs rp) (r_formats rp) (Some is)) cc = (map (output render cc (r_entry rp)) is ++ map EClear is, Ok tt)).
  { unfold reported, Report_Model.run. cbn [r_live r_entry]. rewrite ER. unfold clear_reporter. cbn [r_live]. reflexivity. }
  fold cc. rewrite RR. cbn [ebind silent]. eexists. split; [exact H1|]. split; [exact HD|]. split; [reflexivity|]. rewrite !app_nil_r. split.
  - intros f t c' out. rewrite !wrote_app. pose proof (writes_only f t c' out is ESetup (or_introl (fun i => eq_refl))) as X. tauto.
  - rewrite !outputs_app. destruct (quiet_outputs is) as [-> ->]. lia.
Qed.
End Parallel.

(** ** Content and status *)
Section Status.
Variable cwd : str.
Variable forder : list format -> list format.
Variable sets_up : inst -> option exn.
Variable opens : str -> option exn.
Variable render : inst -> str -> change -> res str.
Variable fmt : pyval -> str.
Variable reprs : str -> str.
Variable ffmt : pyval -> str.
Variable text : bytes -> res str.
Variable order : list str -> list str.
Variable up : Z -> str.
Variable unzip : bytes -> jar.
Variables l r : node.
Notation cli_run := (distdiff_report_run cwd forder sets_up opens render fmt reprs ffmt text order up unzip l r).

Theorem honest_distdiff o sh dir reports : honest render (fst (cli_run o sh dir reports)).
Proof.
  unfold distdiff_report_run, dist_report_run. cbv zeta. apply honest_bind; [|intro; apply honest_silent]. apply honest_bind; [apply honest_silent|]. intro evs. apply honest_bind; [|intro ks; apply honest_bind; [apply honest_reported|intro; apply honest_silent]].
  apply honest_map. intro ev. unfold dist_entry_run. destruct (is_report _ _ _ _ _ _ _ _ _ _ _); [|apply honest_silent]. apply honest_bind; [|intro; apply honest_silent]. unfold report_check_run. destruct (seqb _ _).
  - apply honest_bind; [apply honest_silent|]. intros [a b]. apply honest_bind; [apply honest_jar|]. intro j. apply honest_silent.
  - cbv zeta. apply honest_bind; [apply honest_silent|]. intros [k chg d cs im]. apply honest_bind; [|intro; apply honest_silent]. apply honest_map. intro. apply honest_reported.
Qed.
Hypothesis order_perm : forall s, Permutation (order s) s.
Hypothesis S1 : forall i, sets_up i = None.
Hypothesis S2 : forall t, opens t = None.
Section Good.
Variable rp : reporter.
Hypothesis HB : r_base rp <> [].
Hypothesis HCr : Forall (fun be => fst be <> []) (r_crumbs rp).
Lemma sub_crumbs n e : Forall (fun be => fst be <> []) (r_crumbs (subreporter forder rp n e)).
Proof. cbn [subreporter r_crumbs]. apply Forall_app. split; [exact HCr|constructor; [exact HB|constructor]]. Qed.
Lemma sub_nonempty n e : r_base (subreporter forder rp n e) <> [].
Proof.
  cbn [subreporter r_base]. unfold join, is_abs. destruct n as [|x n]; [|destruct (starts_with [47] (x :: n)); [discriminate|]]; cbn [starts_with]; destruct (r_base rp) as [|y b] eqn:EB; try contradiction; destruct (ends_with [47] (y :: b)); discriminate.
Qed.
Lemma good_class sub cs (y : res change) : r_live sub = None -> Forall (fun be => fst be <> []) (r_crumbs sub) ->
  good (ebind (emap (fun kid => reported cwd forder sets_up opens render sub (named "JavaClassReport" kid)) cs) (fun _ => silent y)) y.
Proof.
  intros HL HS. assert (EM : mapM (fun _ : change => Ok tt) cs = Ok (map (fun _ => tt) cs)) by (clear; induction cs as [|x cs IH]; [reflexivity|]; cbn [mapM rbind map]; rewrite IH; reflexivity).
  match goal with |- good ?m y => enough (HG : good m (rbind (mapM (fun _ : change => Ok tt) cs) (fun _ => y))) by (now rewrite EM in HG) end.
  apply good_bind; [|intros; apply good_silent]. apply good_map. intros x _. now apply good_reported.
Qed.
Lemma good_check o sh ev : good (report_check_run cwd forder sets_up opens render fmt reprs ffmt text order up unzip l r o sh rp ev) (report_check fmt reprs ffmt text order up unzip l r o sh ev).
Proof.
  unfold report_check_run, report_check. destruct (seqb _ _); cbv zeta.
  - apply good_bind; [apply good_silent|]. intros [a b] _. apply good_bind; [|intros j _; apply good_silent]. apply good_jar; auto; [apply sub_nonempty|apply sub_crumbs].
  - destruct (check _) as [c|e] eqn:E.
    + unfold silent at 1. cbn [ebind]. destruct c as [k chg d cs im]. intros HW. match type of HW with written_ok (fst (let '(ev', b) := ?m in _)) => pose proof (good_class (subreporter forder rp (snd ev) (lit "JavaClassReport")) cs (Ok (Node k chg d cs im)) eq_refl (sub_crumbs _ _)) as HG; destruct m as [ev' b] end. exact (HG HW).
    + intros _. reflexivity.
Qed.
Lemma good_dist_entry o sh ev : good (dist_entry_run cwd forder sets_up opens render fmt reprs ffmt text order up unzip l r o sh rp ev)
  (if is_report fmt reprs ffmt text order up unzip l r sh ev then report_task fmt reprs ffmt text order up unzip l r o sh ev else check (dist_event fmt reprs ffmt text order up unzip l r sh ev)).
Proof.
  unfold dist_entry_run. destruct (is_report _ _ _ _ _ _ _ _ _ _ _); [|apply good_silent]. unfold report_task. apply good_bind; [apply good_check|]. intros c _. apply good_silent.
Qed.
Hypothesis RL : r_live rp = None.
Lemma good_dist o sh : good (dist_report_run cwd forder sets_up opens render fmt reprs ffmt text order up unzip l r o sh rp)
  (ks <- sequential_check fmt reprs ffmt text order up unzip l r o sh ;; Ok (dist_report fmt reprs ffmt text order up unzip l r sh ks)).
Proof.
  unfold dist_report_run, sequential_check. destruct (dist_events _ _ _ _ _ _ _ _ _ _) as [evs|e]; [|intros _; reflexivity]. unfold silent at 1. cbn [ebind rbind]. cbv zeta.
  assert (HG : good (ebind (emap (dist_entry_run cwd forder sets_up opens render fmt reprs ffmt text order up unzip l r o sh rp) evs) (fun ks => ebind (reported cwd forder sets_up opens render rp (dist_report fmt reprs ffmt text order up unzip l r sh ks)) (fun _ => silent (Ok (dist_report fmt reprs ffmt text order up unzip l r sh ks)))))
    (ks <- mapM (fun ev => if is_report fmt reprs ffmt text order up unzip l r sh ev then report_task fmt reprs ffmt text order up unzip l r o sh ev else check (dist_event fmt reprs ffmt text order up unzip l r sh ev)) evs ;; Ok (dist_report fmt reprs ffmt text order up unzip l r sh ks))).
  { apply good_bind; [apply good_map; intros; apply good_dist_entry|]. intros ks _. set (c := dist_report _ _ _ _ _ _ _ _ _ _ _). change (Ok c) with (rbind (Ok tt) (fun _ => Ok c)). apply good_bind; [now apply good_reported|intros; apply good_silent]. }
  destruct (ebind _ _) as [ev y]. exact HG.
Qed.
End Good.
Theorem dist_status o sh dir reports : (forall t i c e, ~ In (EWrite t i c (Err e)) (fst (cli_run o sh dir reports))) ->
  snd (cli_run o sh dir reports) = distdiff fmt reprs ffmt text order up unzip l r o sh.
Proof.
  rewrite <- (distdiff_report_same fmt reprs ffmt text order up unzip order_perm). unfold distdiff_report_run, distdiff_report. cbv zeta. set (rp := mkrep _ _ _ _ _).
  match goal with |- (forall t i c e, ~ In _ (fst ?m)) -> snd ?m = ?v => change (good m v) end.
  replace (ks <- sequential_check fmt reprs ffmt text order up unzip l r o sh ;; exit_status o (dist_report fmt reprs ffmt text order up unzip l r sh ks))
    with (rbind (ks <- sequential_check fmt reprs ffmt text order up unzip l r o sh ;; Ok (dist_report fmt reprs ffmt text order up unzip l r sh ks)) (exit_status o)) by (now destruct (sequential_check _ _ _ _ _ _ _ _ _ _ _)).
  apply good_bind; [|intros; apply good_silent]. apply good_dist; [unfold rp; cbn [r_base]; destruct dir; discriminate|constructor|reflexivity].
Qed.
End Status.

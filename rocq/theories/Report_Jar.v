(** Proofs about the reports that jardiff --report writes. *)
From Verif Require Import Base Pack_Model ConstPool_Model ConstPool_Spec ClassFile_Model Manifest_Model Sign_Spec
  Change_Model Change_Spec Change_Proofs Change_Report Classdiff_Model Classdiff_Spec Classdiff_Class Classdiff_Passes Change_Tame
  Zip_Spec Zip_Proofs Jardiff_Model Jardiff_Spec Jardiff_Proofs Jardiff_Jar Report_Model Report_Spec Report_Paths Report_Proofs.
From Verif Require Zip_Model Sign_Model.
From Coq Require Import Permutation.

Lemma Permutation_filter {A} (f : A -> bool) l l' : Permutation l l' -> Permutation (filter f l) (filter f l').
Proof.
  induction 1 as [|x l l' H IH|x y l|l1 l2 l3 H1 IH1 H2 IH2]; cbn [filter]; [constructor|destruct (f x); [now constructor|assumption]| |now transitivity (filter f l2)].
  destruct (f x), (f y); try reflexivity. constructor.
Qed.
Lemma NoDup_map_filter {A B} (g : A -> B) (f : A -> bool) l : NoDup (map g l) -> NoDup (map g (filter f l)).
Proof.
  induction l as [|x l IH]; cbn [map filter]; intro H; [constructor|]. inversion H as [|? ? H1 H2]; subst. destruct (f x); [|auto]. cbn [map]. constructor; [|auto].
  intro Hx. apply H1. apply in_map_iff in Hx as (y & <- & Hy). apply in_map. now apply filter_In in Hy.
Qed.

Section Jars.
Variable cwd : str.
Variable forder : list format -> list format.
Variable sets_up : inst -> option exn.
Variable opens : str -> option exn.
Variable render : inst -> str -> change -> res str.
Variable fmt : pyval -> str.
Variable reprs : str -> str.
Variable ffmt : pyval -> str.
Variable text : bytes -> res str.
Variable order : list str -> list str.
Variable up : Z -> str.
Hypothesis order_perm : forall s, Permutation (order s) s.
Hypothesis forder_perm : forall fs, Permutation (forder fs) fs.
Notation run := (run cwd forder sets_up opens render).
Notation reported := (reported cwd forder sets_up opens render).
Notation report_entry_run := (report_entry_run cwd forder sets_up opens render).
Notation jar_report_run := (jar_report_run cwd forder sets_up opens render fmt reprs ffmt text order up).
Notation jar_report_check := (jar_report_check fmt reprs ffmt text order up).

Lemma ebind_ok {A B} (m : eff A) (k : A -> eff B) ev b : ebind m k = (ev, Ok b) -> exists ev1 a ev2, m = (ev1, Ok a) /\ k a = (ev2, Ok b) /\ ev = ev1 ++ ev2.
Proof. destruct m as [ev1 [a|e]]; cbn [ebind]; [|discriminate]. destruct (k a) as [ev2 x] eqn:E. intro H. injection H as <- ->. eauto 6. Qed.
Lemma silent_ok {A} (m : res A) ev a : silent m = (ev, Ok a) -> ev = [] /\ m = Ok a.
Proof. unfold silent. intro H. now injection H as <- ->. Qed.
Lemma reported_ok r c ev u : reported r c = (ev, Ok u) -> exists r', run r c = (ev, r', None).
Proof. unfold Report_Model.reported. destruct (run r c) as [[ev' r'] [e|]]; intro H; [discriminate|]. injection H as <- _. eauto. Qed.
Lemma emap_ok {A B} (f : A -> eff B) l : forall ev ys, emap f l = (ev, Ok ys) -> exists evs, ev = concat evs /\ Forall2 (fun x ey => f x = (fst ey, Ok (snd ey))) l (combine evs ys) /\ length evs = length ys.
Proof.
  induction l as [|x l IH]; intros ev ys H; cbn [emap] in H.
  - apply silent_ok in H as [-> H]. injection H as <-. exists []. split; [reflexivity|]. split; [constructor|reflexivity].
  - apply ebind_ok in H as (ev1 & y & ev2 & H1 & H & ->). apply ebind_ok in H as (ev3 & ys' & ev4 & H3 & H & ->). apply silent_ok in H as [-> H]. injection H as <-. destruct (IH _ _ H3) as (evs & -> & HF & HL).
    exists (ev1 :: evs). cbn [concat combine length]. rewrite app_nil_r. split; [reflexivity|]. split; [|now rewrite HL]. constructor; [exact H1|exact HF].
Qed.
Lemma ebind_snd {A B} (m : eff A) (k : A -> eff B) : snd (ebind m k) = rbind (snd m) (fun a => snd (k a)).
Proof. destruct m as [ev [a|e]]; cbn [ebind snd rbind]; [|reflexivity]. now destruct (k a). Qed.
Lemma emap_snd {A B} (f : A -> eff B) l : snd (emap f l) = mapM (fun x => snd (f x)) l.
Proof.
  induction l as [|x l IH]; [reflexivity|]. cbn [emap mapM]. rewrite ebind_snd. destruct (snd (f x)); cbn [rbind]; [|reflexivity]. rewrite ebind_snd, IH. reflexivity.
Qed.
Lemma mapM_ext {A B} (f g : A -> res B) l : (forall x, In x l -> f x = g x) -> mapM f l = mapM g l.
Proof. induction l as [|x l IH]; intro H; [reflexivity|]. cbn [mapM]. rewrite (H x) by now left. destruct (g x); cbn [rbind]; [|reflexivity]. rewrite IH; [reflexivity|]. intros y Hy. apply H. now right. Qed.

(** If writing succeeds, the outcome is that of the comparison. *)
Lemma entry_result o r c : (forall ev y, report_entry_run o r c = (ev, Ok y) -> report_entry o c = Ok y).
Proof.
  intros ev y H. unfold Report_Model.report_entry_run in H. unfold report_entry. destruct (is_class_report c).
  - apply ebind_ok in H as (ev1 & c' & ev2 & H1 & H & ->). apply silent_ok in H1 as [_ H1]. rewrite H1. cbn [rbind]. destruct c' as [k chg d cs im]. apply ebind_ok in H as (ev3 & u & ev4 & _ & H & _). now apply silent_ok in H as [_ H].
  - apply silent_ok in H as [_ ->]. reflexivity.
Qed.
Lemma Forall2_combine {A B C} (R : A -> B * C -> Prop) (S : A -> C -> Prop) l : (forall x y z, R x (y, z) -> S x z) -> forall bs cs, length bs = length cs -> Forall2 R l (combine bs cs) -> Forall2 S l cs.
Proof.
  intro H. induction l as [|x l IH]; intros [|b bs] [|c cs] HL HF; cbn [combine] in HF; try discriminate; inversion HF; subst; constructor; [eauto|]. apply (IH bs); [now injection HL|assumption].
Qed.
Lemma mapM_of_Forall2 {A B} (f : A -> res B) l r : Forall2 (fun x y => f x = Ok y) l r -> mapM f l = Ok r.
Proof. intro H. now apply mapM_Forall2. Qed.
Lemma jar_result o r l r' ev j : jar_report_run o r l r' = (ev, Ok j) ->
  jar_report_check o l r' = Ok j /\ exists kids ks evs top u, collect_in (jar_contents fmt reprs ffmt text order up l r') = Ok kids /\ ev = concat evs ++ top /\ length evs = length ks /\
    Forall2 (fun x ey => report_entry_run o r x = (fst ey, Ok (snd ey))) kids (combine evs ks) /\ reported r j = (top, Ok u).
Proof.
  intro H. unfold Report_Model.jar_report_run in H. apply ebind_ok in H as (ev1 & t & ev2 & H1 & H & ->). apply silent_ok in H1 as [-> H1]. apply ebind_ok in H as (ev3 & kids & ev4 & H3 & H & ->). apply silent_ok in H3 as [-> H3].
  apply ebind_ok in H as (ev5 & ks & ev6 & H5 & H & ->). apply ebind_ok in H as (ev7 & u & ev8 & H7 & H & ->). apply silent_ok in H as [-> H]. injection H as <-. destruct (emap_ok _ _ _ _ H5) as (evs & -> & HF & HL).
  split.
  - unfold Jardiff_Model.jar_report_check. rewrite H1, H3. cbn [rbind]. rewrite (mapM_of_Forall2 (report_entry o) kids ks); [reflexivity|]. refine (Forall2_combine _ _ kids _ evs ks HL HF). cbn [fst snd]. intros x y z. apply entry_result.
  - exists kids, ks, evs, ev7, u. cbn [app]. rewrite app_nil_r. auto.
Qed.

(** Which entries get a report. *)
Lemma node_report nm lb al ad re own parts chg sub e : is_class_report (jar_node nm lb al ad re own parts chg sub e) = seqb nm (lit "JarClassChange") && (al || chg).
Proof. reflexivity. Qed.
Ltac node_name := rewrite node_report; match goal with |- context [seqb ?a ?b] => let v := eval vm_compute in (seqb a b) in change (seqb a b) with v end; cbn [andb orb].
Lemma class_event l r e n : is_class_report (jar_event fmt reprs ffmt text order up l r (e, n)) = true <-> e = Zip_Model.DIFF /\ class_file n /\ ~ signature up n.
Proof.
  unfold jar_event. assert (HM : class_file n -> n <> Sign_Model.MANIFEST_NAME). { intros [p ->] E. apply (f_equal (@rev Z)) in E. rewrite rev_app_distr in E. vm_compute in E. discriminate. }
  rewrite <- (is_classfile_iff n) in HM |- *. unfold signature. rewrite <- (is_sigfile_iff up n), <- (is_sigblock_iff up n). destruct e.
  - destruct (is_sigfile up n); [|destruct (is_sigblock up n); [|destruct (is_classfile n)]]; node_name; (split; [discriminate|intros [? _]; discriminate]).
  - destruct (is_sigfile up n); [|destruct (is_sigblock up n); [|destruct (is_classfile n)]]; node_name; (split; [discriminate|intros [? _]; discriminate]).
  - destruct (seqb_spec n Sign_Model.MANIFEST_NAME) as [En|_].
    + node_name. split; [discriminate|]. intros (_ & H & _). now apply HM in H.
    + destruct (is_sigfile up n); [node_name; split; [discriminate|intros (_ & _ & H); exfalso; auto]|]. destruct (is_sigblock up n); [node_name; split; [discriminate|intros (_ & _ & H); exfalso; auto]|].
      destruct (is_classfile n); [|node_name; split; [discriminate|intros (_ & H & _); discriminate]]. node_name. split; [|reflexivity]. intros _. split; [reflexivity|]. split; [reflexivity|]. intros [H|H]; discriminate.
  - destruct (seqb n Sign_Model.MANIFEST_NAME); [|destruct (is_sigfile up n); [|destruct (is_sigblock up n); [|destruct (is_classfile n)]]]; node_name; (split; [discriminate|intros [? _]; discriminate]).
Qed.
Definition entry_of (c : change) : str := match k_entry (k_of c) with Some e => e | None => [] end.
Lemma entry_of_event l r e n : entry_of (jar_event fmt reprs ffmt text order up l r (e, n)) = n.
Proof.
  unfold jar_event. destruct e; repeat match goal with |- context [if ?b then _ else _] => destruct b end; reflexivity.
Qed.

Section Two.
Variables l r : Zip_Model.archive.
Hypothesis Kl : Zip_Model.a_kind l = Zip_Model.Zip.
Hypothesis Kr : Zip_Model.a_kind r = Zip_Model.Zip.
Hypothesis Ol : Zip_Model.a_open l = true.
Hypothesis Or : Zip_Model.a_open r = true.
Hypothesis Sl : Forall sound (Zip_Model.a_entries l).
Hypothesis Sr : Forall sound (Zip_Model.a_entries r).

Lemma class_entries kids : collect_in (jar_contents fmt reprs ffmt text order up (Ok l) (Ok r)) = Ok kids ->
  let es := map entry_of (filter is_class_report kids) in
  NoDup es /\ (forall n, In n es <-> exists d d', class_pair up l r n d d') /\
  forall c, In c kids -> is_class_report c = true -> c = jar_event fmt reprs ffmt text order up l r (Zip_Model.DIFF, entry_of c).
Proof.
  intro H. destruct (events_ok text order order_perm l r Kl Kr Ol Or Sl Sr) as (evs & E & HN & C). unfold jar_contents in H. cbn [collect_in pick contents_cls k_super negb k_incheck andb k_gate k_raises] in H. rewrite E in H. injection H as <-. unfold jar_entries. rewrite E.
  set (je := jar_event fmt reprs ffmt text order up l r). destruct (iterate_spec (fun c => k_name (k_of c)) (map je evs) jar_types) as [P _]. set (kids := iterate_by_type _ _ _) in *.
  assert (HP : Permutation (map entry_of (filter is_class_report kids)) (map snd (filter (fun x => is_class_report (je x)) evs))).
  { etransitivity; [apply Permutation_map, Permutation_filter, P|]. clear. induction evs as [|[e n] evs IH]; [constructor|]. cbn [map filter]. destruct (is_class_report (je (e, n))) eqn:E; [|exact IH]. cbn [map snd]. unfold je at 1. rewrite entry_of_event. now constructor. }
  split; [|split].
  - eapply Permutation_NoDup; [symmetry; exact HP|]. now apply NoDup_map_filter.
  - intro n. split.
    + intro Hn. eapply Permutation_in in Hn; [|exact HP]. apply in_map_iff in Hn as ([e m] & <- & Hm). cbn [snd]. apply filter_In in Hm as [Hin Hc]. unfold je in Hc. apply class_event in Hc as (-> & H1 & H2).
      apply C in Hin as (H0 & d & d' & A & B & D). exists d, d'. now repeat split.
    + intros (d & d' & H0 & A & B & D & H1 & H2). eapply Permutation_in; [symmetry; exact HP|]. apply in_map_iff. exists (Zip_Model.DIFF, n). split; [reflexivity|]. apply filter_In. split; [apply C; eauto 6|]. unfold je. apply class_event. auto.
  - intros c Hc Hr. eapply Permutation_in in Hc; [|exact P]. apply in_map_iff in Hc as ([e n] & <- & _). unfold je in *. rewrite entry_of_event. apply class_event in Hr as (-> & _). reflexivity.
Qed.

(** The outcome for such an entry. *)
Lemma class_entry_run o rpt n ev y : report_entry_run o rpt (jar_event fmt reprs ffmt text order up l r (Zip_Model.DIFF, n)) = (ev, Ok y) -> forall d d', class_pair up l r n d d' ->
  exists a b cc r', unpack_class d MNone = Ok a /\ unpack_class d' MNone = Ok b /\ check (class_change fmt reprs ffmt a b) = Ok cc /\
    run (subreporter forder rpt n (lit "JavaClassReport")) (named "JavaClassReport" cc) = (ev, r', None).
Proof.
  intros H d d' (H0 & A & B & D & H1 & H2). set (c := jar_event fmt reprs ffmt text order up l r (Zip_Model.DIFF, n)) in *. assert (HC : is_class_report c = true) by (apply class_event; auto).
  unfold Report_Model.report_entry_run in H. rewrite HC in H. cbv zeta in H. fold (entry_of c) in H. assert (HE : entry_of c = n) by apply entry_of_event. rewrite HE in H.
  apply ebind_ok in H as (ev1 & c' & ev2 & E1 & H & ->). apply silent_ok in E1 as [-> E1].
  assert (EC : c = jar_node (lit "JarClassChange") (lit "Java Class") false false false (entry_own n) true true (Some (class_sub fmt reprs ffmt text l r n)) n).
  { unfold c, jar_event. unfold signature in H2. rewrite <- is_sigfile_iff, <- is_sigblock_iff in H2. apply is_classfile_iff in H1. assert (HM : n <> Sign_Model.MANIFEST_NAME). { intros E. rewrite E in H1. vm_compute in H1. discriminate. }
    destruct (seqb_spec n Sign_Model.MANIFEST_NAME); [contradiction|]. destruct (is_sigfile up n); [exfalso; auto|]. destruct (is_sigblock up n); [exfalso; auto|]. now rewrite H1. }
  assert (HK : completes c) by (exists c'; exact E1). rewrite EC in HK. apply differs_completes in HK as (cl & HS & [cc Hcc]). rewrite EC, HS, (differs_check _ _ _ _ _ _ _ cl cc Hcc) in E1. injection E1 as <-.
  apply (class_sub_iff fmt reprs ffmt text l r n d d' (read_content text l n d Kl Ol A) (read_content text r n d' Kr Or B)) in HS as (a & b & U1 & U2 & ->).
  apply ebind_ok in H as (ev3 & us & ev4 & E3 & H & ->). apply silent_ok in H as [-> _]. cbn [emap] in E3. apply ebind_ok in E3 as (ev5 & u & ev6 & E5 & E6 & ->). cbn [ebind silent] in E6. injection E6 as <- <-.
  apply reported_ok in E5 as [r' E5]. exists a, b, cc, r'. rewrite !app_nil_r. cbn [app]. auto.
Qed.
Lemma other_entry_run o rpt c ev y : is_class_report c = false -> report_entry_run o rpt c = (ev, Ok y) -> ev = [].
Proof. intros HC H. unfold Report_Model.report_entry_run in H. rewrite HC in H. now apply silent_ok in H as [-> _]. Qed.

Theorem report_files o rpt ev j : r_live rpt = None -> jar_report_run o rpt (Ok l) (Ok r) = (ev, Ok j) ->
  jar_report_check o (Ok l) (Ok r) = Ok j /\
  exists es evs top, NoDup es /\ (forall n, In n es <-> exists d d', class_pair up l r n d d') /\ ev = concat evs ++ top /\ run rpt j = (top, rpt, None) /\
  Forall2 (fun n e => exists d d' a b cc r', class_pair up l r n d d' /\ unpack_class d MNone = Ok a /\ unpack_class d' MNone = Ok b /\ check (class_change fmt reprs ffmt a b) = Ok cc /\
     run (subreporter forder rpt n (lit "JavaClassReport")) (named "JavaClassReport" cc) = (e, r', None)) es evs.
Proof.
  intros HL H. destruct (jar_result o rpt _ _ _ _ H) as (HC & kids & ks & evs & top & u & HK & -> & HLen & HF & HR). split; [exact HC|]. destruct (class_entries kids HK) as (N & I & E). apply reported_ok in HR as [r' HR]. pose proof (proj1 (run_ok cwd forder sets_up opens render _ _ _ _ HL HR)) as ->.
  set (es := map entry_of (filter is_class_report kids)) in *.
  cut (exists evs', concat evs = concat evs' /\ Forall2 (fun n e => exists d d' a b cc r', class_pair up l r n d d' /\ unpack_class d MNone = Ok a /\ unpack_class d' MNone = Ok b /\ check (class_change fmt reprs ffmt a b) = Ok cc /\
     run (subreporter forder rpt n (lit "JavaClassReport")) (named "JavaClassReport" cc) = (e, r', None)) es evs').
  { intros (evs' & E1 & E2). exists es, evs', top. rewrite E1. auto. }
  assert (HIn : forall c, In c kids -> is_class_report c = true -> exists d d', class_pair up l r (entry_of c) d d'). { intros c Hc Hr. apply I. unfold es. apply in_map. now apply filter_In. }
  unfold es. clear HK N I es HC HR H. revert evs ks HLen HF. induction kids as [|c kids IH]; intros [|e evs] [|k ks] HLen HF; try discriminate; cbn [combine] in HF; inversion HF as [|? ? ? ? Hx HF']; subst.
  - exists []. split; constructor.
  - destruct (IH (fun c Hc => E c (or_intror Hc)) (fun c Hc => HIn c (or_intror Hc)) evs ks) as (evs' & E1 & E2); [now injection HLen|assumption|]. cbn [fst snd] in Hx. cbn [filter]. destruct (is_class_report c) eqn:Hc.
    + exists (e :: evs'). cbn [concat map]. rewrite E1. split; [reflexivity|]. constructor; [|exact E2]. destruct (HIn c (or_introl eq_refl) Hc) as (d & d' & HP). rewrite (E c (or_introl eq_refl) Hc) in Hx.
      destruct (class_entry_run _ _ _ _ _ Hx d d' HP) as (a & b & cc & r' & A1 & A2 & A3 & A4). exists d, d', a, b, cc, r'. auto.
    + exists evs'. cbn [concat]. rewrite (other_entry_run _ _ _ _ _ Hc Hx). auto.
Qed.
End Two.

(** When no write fails, the exit status and the exceptions are those without reports. *)
Section Status.
Hypothesis S1 : forall i, sets_up i = None.
Hypothesis S2 : forall t, opens t = None.
Definition written_ok (ev : list event) : Prop := forall t i c e, ~ In (EWrite t i c (Err e)) ev.
Definition good {A} (m : eff A) (v : res A) : Prop := written_ok (fst m) -> snd m = v.
Lemma good_silent {A} (v : res A) : good (silent v) v.
Proof. intros _. reflexivity. Qed.
Lemma good_bind {A B} (m : eff A) (k : A -> eff B) v w : good m v -> (forall a, v = Ok a -> good (k a) (w a)) -> good (ebind m k) (rbind v w).
Proof.
  intros H1 H2 HW. destruct m as [ev [a|e]]; cbn [ebind fst snd] in *.
  - destruct (k a) as [ev' x] eqn:E. cbn [fst snd] in *. assert (HV : Ok a = v). { apply H1. intros t i c e Hin. apply (HW t i c e). apply in_or_app. now left. }
    subst v. cbn [rbind]. specialize (H2 a eq_refl). unfold good in H2. rewrite E in H2. cbn [fst snd] in H2. apply H2. intros t i c e Hin. apply (HW t i c e). apply in_or_app. now right.
  - rewrite <- (H1 HW). reflexivity.
Qed.
Lemma good_map {A B} (f : A -> eff B) (g : A -> res B) l : (forall x, In x l -> good (f x) (g x)) -> good (emap f l) (mapM g l).
Proof.
  induction l as [|x l IH]; intro H; [apply good_silent|]. cbn [emap mapM]. apply good_bind; [apply H; now left|]. intros a _. apply good_bind; [apply IH; intros y Hy; apply H; now right|]. intros ys _. apply good_silent.
Qed.
Lemma run_all_good is c entry : written_ok (fst (run_all opens render is c entry)) -> snd (run_all opens render is c entry) = None.
Proof.
  induction is as [|i is IH]; [reflexivity|]. cbn [run_all]. unfold run_format. cbv zeta. intro HW. destruct entry as [|x entry].
  - destruct (render i [] c) as [s|e]; [|exfalso; apply (HW None i c e); now left]. destruct (run_all opens render is c []) as [ev x]. cbn [fst snd] in *. apply IH. intros t j c' e Hin. apply (HW t j c' e). apply in_or_app. now right.
  - rewrite S2 in HW |- *. destruct (render i (x :: entry) c) as [s|e]; [|exfalso; eapply HW; left; reflexivity]. destruct (run_all opens render is c (x :: entry)) as [ev y]. cbn [fst snd] in *. apply IH. intros t j c' e Hin. apply (HW t j c' e). apply in_or_app. now right.
Qed.
Lemma good_reported rp c : r_live rp = None -> Forall (fun be => fst be <> []) (r_crumbs rp) -> good (reported rp c) (Ok tt).
Proof.
  intros HL HC HW. unfold Report_Model.reported, Report_Model.run, Report_Model.setup in *. rewrite HL in *. destruct (crumbs_ok cwd rp HC) as [crumbs EC]. rewrite EC in *. fold (insts forder rp crumbs) in *.
  rewrite setup_all_total in * by (apply Forall_forall; auto). cbn [r_live r_entry] in *. pose proof (run_all_good (insts forder rp crumbs) c (r_entry rp)) as HG.
  destruct (run_all opens render (insts forder rp crumbs) c (r_entry rp)) as [ev [e|]]; [|reflexivity]. cbn [fst snd] in *. exfalso. enough (Some e = None) by discriminate. apply HG. intros t i c' e' Hin. apply (HW t i c' e'). apply in_or_app. now right.
Qed.
Lemma good_entry o rp c : r_base rp <> [] -> Forall (fun be => fst be <> []) (r_crumbs rp) -> good (report_entry_run o rp c) (report_entry o c).
Proof.
  intros HB HC. unfold Report_Model.report_entry_run, report_entry. destruct (is_class_report c).
  - cbv zeta. apply good_bind; [apply good_silent|]. intros c' _. destruct c' as [k chg d cs im]. set (sub := subreporter _ _ _ _). set (y := squash _ _ _).
    assert (EM : mapM (fun _ : change => Ok tt) cs = Ok (map (fun _ => tt) cs)) by (clear; induction cs as [|x cs IH]; [reflexivity|]; cbn [mapM rbind map]; rewrite IH; reflexivity).
    match goal with |- good ?m y => enough (HG : good m (rbind (mapM (fun _ : change => Ok tt) cs) (fun _ => y))) by (now rewrite EM in HG) end.
    apply good_bind; [|intros; apply good_silent]. apply good_map. intros x _. apply good_reported; [reflexivity|]. unfold sub, subreporter. cbn [r_crumbs]. apply Forall_app. split; [exact HC|]. constructor; [exact HB|constructor].
  - replace (rbind (check c) (fun c' => Ok c')) with (check c) by (now destruct (check c)). apply good_silent.
Qed.
Theorem good_jar o rp l r : r_live rp = None -> r_base rp <> [] -> Forall (fun be => fst be <> []) (r_crumbs rp) -> good (jar_report_run o rp l r) (jar_report_check o l r).
Proof.
  intros HL HB HC. unfold Report_Model.jar_report_run, Jardiff_Model.jar_report_check. apply good_bind; [apply good_silent|]. intros t _. apply good_bind; [apply good_silent|]. intros kids _.
  apply good_bind; [apply good_map; intros; now apply good_entry|]. intros ks _. cbv zeta. set (j := jar_report_node _ _ _ _ _ _ _ _ _ _).
  change (Ok j) with (rbind (Ok tt) (fun _ => Ok j)). apply good_bind; [|intros; apply good_silent]. apply good_reported; assumption.
Qed.
End Status.
End Jars.

(** Proofs: the files written by a reporter and by jardiff --report, told by the
    specification's notions of files and of output. *)
From Verif Require Import Base Pack_Model ConstPool_Model ConstPool_Spec ClassFile_Model Manifest_Model Sign_Spec
  Change_Model Change_Spec Change_Proofs Change_Report Classdiff_Model Classdiff_Spec
  Zip_Spec Zip_Proofs Jardiff_Model Jardiff_Spec Jardiff_Proofs Jardiff_Jar Jardiff_Report Report_Model Report_Spec Report_Paths Report_Proofs Report_Jar.
From Verif Require Zip_Model Sign_Model.
From Coq Require Import Permutation.

Lemma leads_here cwd H : leads [] cwd H -> H = here cwd.
Proof. intro L. apply leads_iff in L. now symmetry. Qed.
Lemma suffix_iff f x : suffix f x <-> x = extension f.
Proof. split; [now intros []|intros ->; destruct f; constructor]. Qed.

Section Reporters.
Variable cwd : str.
Variable forder : list format -> list format.
Variable sets_up : inst -> option exn.
Variable opens : str -> option exn.
Variable render : inst -> str -> change -> res str.
Hypothesis forder_perm : forall fs, Permutation (forder fs) fs.
Notation run := (run cwd forder sets_up opens render).

(** [t] is where the report called [entry] of the directory [D] goes in the
    format [f]: standard output if it has no name. *)
Definition goes_to (H D : list str) (entry : str) (f : format) (t : option str) : Prop :=
  (t = None <-> entry = []) /\ forall fn x F, t = Some fn -> suffix f x -> (leads H fn F <-> leads D (entry ++ x) F).

Lemma target_goes H D i entry : leads [] cwd H -> leads H (i_base i) D -> goes_to H D entry (i_fmt i) (target i entry).
Proof.
  intros LH LD. apply leads_here in LH as ->. apply leads_iff in LD as <-. split.
  - unfold target. destruct entry; [now split|]. split; discriminate.
  - intros fn x F E Hx. apply suffix_iff in Hx as ->. rewrite !leads_iff. now apply target_leads.
Qed.
Theorem run_wrote r c ev r' : r_live r = None -> run r c = (ev, r', None) -> forall H D, leads [] cwd H -> leads H (r_base r) D ->
  (forall f t c' out, wrote ev f t c' out -> In f (r_formats r) /\ c' = c /\ goes_to H D (r_entry r) f t /\ exists s, out = Ok s) /\
  (forall f, In f (r_formats r) -> exists t s, wrote ev f t c (Ok s)).
Proof.
  intros HL HR H D LH LD. destruct (run_ok cwd forder sets_up opens render r c ev r' HL HR) as (_ & crumbs & EC & EV & HF). destruct (run_writes cwd forder sets_up opens render forder_perm r c ev r' HL HR) as (crumbs' & EC' & HW). rewrite EC in EC'. injection EC' as <-. split.
  - intros f t c' out (i & <- & Hi). pose proof Hi as Hi'. apply HW in Hi as (H1 & H2 & -> & -> & ->). split; [exact H1|]. split; [reflexivity|]. split.
    + apply target_goes; [exact LH|]. rewrite H2. exact LD.
    + rewrite Forall_forall in HF. apply (HF i). unfold insts. rewrite H2. apply in_map_iff. exists (i_fmt i). split; [reflexivity|]. now rewrite (forder_perm _).
  - intros f Hf. set (i := mkinst f (r_base r) crumbs). rewrite Forall_forall in HF. destruct (HF i) as [s Hs]. { apply in_map_iff. exists f. split; [reflexivity|]. now rewrite (forder_perm _). }
    exists (target i (r_entry r)), s, i. split; [reflexivity|]. apply HW. cbn [i_fmt i]. auto.
Qed.
Lemma outputs_app a b : outputs (a ++ b) = (outputs a + outputs b)%nat.
Proof. induction a as [|[] a IH]; cbn [app outputs]; auto. rewrite IH. reflexivity. Qed.
Lemma run_outputs r c ev r' : r_live r = None -> run r c = (ev, r', None) -> outputs ev = length (r_formats r).
Proof.
  intros HL HR. destruct (run_ok cwd forder sets_up opens render r c ev r' HL HR) as (_ & crumbs & _ & -> & _). rewrite !outputs_app.
  assert (E1 : forall is, outputs (map ESetup is) = O) by (induction is; auto). assert (E2 : forall is, outputs (map EClear is) = O) by (induction is; auto).
  assert (E3 : forall is, outputs (map (output render c (r_entry r)) is) = length is) by (induction is as [|i is IH]; cbn [map outputs length]; [reflexivity|now rewrite <- IH]).
  rewrite E1, E2, E3. unfold insts. rewrite map_length, (Permutation_length (forder_perm _)). lia.
Qed.
Lemma wrote_app a b f t c out : wrote (a ++ b) f t c out <-> wrote a f t c out \/ wrote b f t c out.
Proof.
  unfold wrote. setoid_rewrite in_app_iff. split; [intros (i & E & [X|X]); eauto|intros [(i & E & X)|(i & E & X)]; eauto].
Qed.
Lemma wrote_concat es f t c out : wrote (concat es) f t c out <-> exists e, In e es /\ wrote e f t c out.
Proof.
  unfold wrote. split.
  - intros (i & E & Hi). apply in_concat in Hi as (e & He & Hi). eauto.
  - intros (e & He & i & E & Hi). exists i. split; [exact E|]. apply in_concat. eauto.
Qed.

Section Jars.
Variable fmt : pyval -> str.
Variable reprs : str -> str.
Variable ffmt : pyval -> str.
Variable text : bytes -> res str.
Variable order : list str -> list str.
Variable up : Z -> str.
Hypothesis order_perm : forall s, Permutation (order s) s.
Notation jardiff_report_run := (jardiff_report_run cwd forder sets_up opens render fmt reprs ffmt text order up).
Notation jar_report_run := (jar_report_run cwd forder sets_up opens render fmt reprs ffmt text order up).

(** The comparison of the class [n] of two jars. *)
Definition class_delta (l r : Zip_Model.archive) (n : str) (c : change) : Prop :=
  exists d d' a b cc, class_pair up l r n d d' /\ unpack_class d MNone = Ok a /\ unpack_class d' MNone = Ok b /\
    check (class_change fmt reprs ffmt a b) = Ok cc /\ c = named "JavaClassReport" cc.

Lemma Forall2_in_l {A B} (R : A -> B -> Prop) l m : Forall2 R l m -> forall x, In x l -> exists y, In y m /\ R x y.
Proof. induction 1; intros z []; [subst; eexists; split; [now left|eassumption]|]. destruct (IHForall2 z H1) as (w & ? & ?). exists w; split; [now right|assumption]. Qed.
Lemma Forall2_in_r {A B} (R : A -> B -> Prop) l m : Forall2 R l m -> forall y, In y m -> exists x, In x l /\ R x y.
Proof. induction 1; intros z []; [subst; eexists; split; [now left|eassumption]|]. destruct (IHForall2 z H1) as (w & ? & ?). exists w; split; [now right|assumption]. Qed.

Section Two.
Variables l r : Zip_Model.archive.
Hypothesis Kl : Zip_Model.a_kind l = Zip_Model.Zip.
Hypothesis Kr : Zip_Model.a_kind r = Zip_Model.Zip.
Hypothesis Ol : Zip_Model.a_open l = true.
Hypothesis Or : Zip_Model.a_open r = true.
Hypothesis Sl : Forall sound (Zip_Model.a_entries l).
Hypothesis Sr : Forall sound (Zip_Model.a_entries r).

Theorem jar_wrote o rpt ev j : r_live rpt = None -> r_entry rpt = lit "JarReport" -> jar_report_run o rpt (Ok l) (Ok r) = (ev, Ok j) ->
  forall H D, leads [] cwd H -> leads H (r_base rpt) D ->
  jar_report_check fmt reprs ffmt text order up o (Ok l) (Ok r) = Ok j /\
  (forall f t c out, wrote ev f t c out -> In f (r_formats rpt) /\ (exists s, out = Ok s) /\
     ((c = j /\ goes_to H D (lit "JarReport") f t) \/
      exists n D', class_delta l r n c /\ leads D n D' /\ goes_to H D' (lit "JavaClassReport") f t)) /\
  (forall f, In f (r_formats rpt) -> (exists t s, goes_to H D (lit "JarReport") f t /\ wrote ev f t j (Ok s)) /\
     forall n d d' D', class_pair up l r n d d' -> leads D n D' ->
       exists t c s, class_delta l r n c /\ goes_to H D' (lit "JavaClassReport") f t /\ wrote ev f t c (Ok s)) /\
  exists es, NoDup es /\ (forall n, In n es <-> exists d d', class_pair up l r n d d') /\ outputs ev = (length (r_formats rpt) * S (length es))%nat.
Proof.
  intros HL HE HR H D LH LD. destruct (report_files cwd forder sets_up opens render fmt reprs ffmt text order up order_perm l r Kl Kr Ol Or Sl Sr o rpt ev j HL HR) as (HC & es & evs & top & HN & HI & -> & HT & HF).
  split; [exact HC|]. destruct (run_wrote rpt j top rpt HL HT H D LH LD) as [T1 T2]. rewrite HE in *.
  assert (SB : forall n D', leads D n D' <-> leads H (r_base (subreporter forder rpt n (lit "JavaClassReport"))) D').
  { intros n D'. rewrite !leads_iff. rewrite (leads_here cwd H LH), sub_base. apply leads_iff in LD. rewrite (leads_here cwd H LH) in LD. rewrite LD. reflexivity. }
  split; [|split].
  - intros f t c out HW. apply wrote_app in HW as [HW|HW].
    + apply wrote_concat in HW as (e & He & HW). destruct (Forall2_in_r _ _ _ HF e He) as (n & Hn & d & d' & a & b & cc & r' & HP & U1 & U2 & HCC & HRun).
      destruct (run_wrote (subreporter forder rpt n (lit "JavaClassReport")) _ _ _ eq_refl HRun H (resolve D n) LH) as [W1 _]; [apply SB; now apply leads_iff|]. destruct (W1 _ _ _ _ HW) as (F1 & -> & F2 & F3). cbn [subreporter r_formats r_entry] in F1, F2.
      split; [now rewrite (forder_perm _) in F1|]. split; [exact F3|]. right. exists n, (resolve D n). split; [exists d, d', a, b, cc; auto|]. split; [now apply leads_iff|exact F2].
    + destruct (T1 _ _ _ _ HW) as (F1 & -> & F2 & F3). auto.
  - intros f Hf. split.
    + destruct (T2 f Hf) as (t & s & HW). exists t, s. destruct (T1 _ _ _ _ HW) as (_ & _ & G & _). split; [exact G|]. apply wrote_app. now right.
    + intros n d d' D' HP HD. destruct (Forall2_in_l _ _ _ HF n) as (e & He & d0 & d0' & a & b & cc & r' & HP0 & U1 & U2 & HCC & HRun); [apply HI; eauto|].
      apply SB in HD. destruct (run_wrote (subreporter forder rpt n (lit "JavaClassReport")) _ _ _ eq_refl HRun H D' LH HD) as [W1 W2]. destruct (W2 f) as (t & s & HW); [cbn [subreporter r_formats]; now rewrite (forder_perm _)|].
      exists t, (named "JavaClassReport" cc), s. split; [exists d0, d0', a, b, cc; auto|]. destruct (W1 _ _ _ _ HW) as (_ & _ & G & _). split; [exact G|]. apply wrote_app. left. apply wrote_concat. eauto.
  - exists es. split; [exact HN|]. split; [exact HI|]. rewrite outputs_app, (run_outputs _ _ _ _ HL HT). clear HN HI T1 T2 HT HC HR.
    enough (E : outputs (concat evs) = (length (r_formats rpt) * length es)%nat) by (rewrite E; lia).
    induction HF as [|n e es evs (d & d' & a & b & cc & r' & _ & _ & _ & _ & HRun) HF IH]; [now rewrite Nat.mul_0_r|]. cbn [concat length]. rewrite outputs_app, IH, (run_outputs (subreporter forder rpt n (lit "JavaClassReport")) _ _ _ eq_refl HRun). cbn [subreporter r_formats]. rewrite (Permutation_length (forder_perm _)). lia.
Qed.
End Two.

(** What is written is what the format makes of the change. *)
Definition honest (ev : list event) : Prop := forall t i c out, In (EWrite t i c out) ev -> exists entry, out = render i entry c.
Lemma honest_app a b : honest a -> honest b -> honest (a ++ b).
Proof. intros H1 H2 t i c out H. apply in_app_iff in H as [H|H]; eauto. Qed.
Lemma honest_no ev : (forall t i c out, ~ In (EWrite t i c out) ev) -> honest ev.
Proof. intros H t i c out Hin. now apply H in Hin. Qed.
Lemma honest_format i c entry : honest (fst (run_format opens render i c entry)).
Proof.
  unfold run_format. cbv zeta. destruct entry as [|x entry]; [|destruct (opens _)]; cbn [fst]; intros t j c' out H; try contradiction; destruct H as [H|[]]; injection H as <- <- <- <-; eauto.
Qed.
Lemma honest_all is c entry : honest (fst (run_all opens render is c entry)).
Proof.
  induction is as [|i is IH]; [intros ? ? ? ? []|]. cbn [run_all]. pose proof (honest_format i c entry) as H. destruct (run_format opens render i c entry) as [ev [e|]]; [exact H|]. destruct (run_all opens render is c entry) as [ev' e']. cbn [fst] in *. now apply honest_app.
Qed.
Lemma setup_all_quiet is : forall t i c out, ~ In (EWrite t i c out) (fst (setup_all sets_up is)).
Proof.
  induction is as [|i is IH]; intros t j c out; [intros []|]. cbn [setup_all]. destruct (sets_up i); [intros [H|[]]; discriminate|]. destruct (setup_all sets_up is) as [ev e]. cbn [fst] in *. intros [H|H]; [discriminate|]. now apply IH in H.
Qed.
Lemma honest_setup rp : honest (fst (fst (setup cwd forder sets_up rp))).
Proof.
  apply honest_no. intros t i c out H. unfold setup in H. assert (G : forall (x : list event * reporter * option exn), (x = match get_relative_breadcrumbs cwd rp with Err e => ([], rp, Some e) | Ok crumbs => let is := map (fun f => mkinst f (r_base rp) crumbs) (forder (r_formats rp)) in
     match setup_all sets_up is with (ev, Some e) => (ev, rp, Some e) | (ev, None) => (ev, mkrep (r_base rp) (r_entry rp) (r_crumbs rp) (r_formats rp) (Some is), None) end end) -> In (EWrite t i c out) (fst (fst x)) -> False).
  { intros x -> Hx. destruct (get_relative_breadcrumbs cwd rp) as [crumbs|]; [|destruct Hx]. cbv zeta in Hx. set (is := map _ _) in *. pose proof (setup_all_quiet is t i c out) as Q. destruct (setup_all sets_up is) as [ev [e|]]; now apply Q in Hx. }
  destruct (r_live rp) as [[|y is]|]; [exact (G _ eq_refl H)|destruct H|exact (G _ eq_refl H)].
Qed.
Lemma honest_run rp c : honest (fst (fst (run rp c))).
Proof.
  unfold Report_Model.run. pose proof (honest_setup rp) as HS. assert (HX : honest (fst (fst (match r_live rp with None => setup cwd forder sets_up rp | Some _ => ([], rp, None) end)))) by (destruct (r_live rp); [intros ? ? ? ? []|exact HS]).
  destruct (match r_live rp with None => _ | Some _ => _ end) as [[ev r1] [e|]]; [exact HX|]. set (is := match r_live r1 with Some is => is | None => [] end). pose proof (honest_all is c (r_entry r1)) as HA. cbn [fst] in HX.
  destruct (run_all opens render is c (r_entry r1)) as [ev' [e'|]]; cbn [fst] in *; [now apply honest_app|]. unfold clear_reporter. cbn [fst]. apply honest_app; [exact HX|]. apply honest_app; [exact HA|].
  apply honest_no. intros t i c' out H. apply in_map_iff in H as (x & H & _). discriminate.
Qed.
Lemma honest_bind {A B} (m : eff A) (k : A -> eff B) : honest (fst m) -> (forall a, honest (fst (k a))) -> honest (fst (ebind m k)).
Proof. intros H1 H2. destruct m as [ev [a|e]]; cbn [ebind]; [|exact H1]. specialize (H2 a). destruct (k a). cbn [fst] in *. now apply honest_app. Qed.
Lemma honest_silent {A} (m : res A) : honest (fst (silent m)).
Proof. intros ? ? ? ? []. Qed.
Lemma honest_map {A B} (f : A -> eff B) l : (forall x, honest (fst (f x))) -> honest (fst (emap f l)).
Proof. intro H. induction l as [|x l IH]; [apply honest_silent|]. cbn [emap]. apply honest_bind; [apply H|]. intro. apply honest_bind; [apply IH|]. intro. apply honest_silent. Qed.
Lemma honest_reported rp c : honest (fst (reported cwd forder sets_up opens render rp c)).
Proof. unfold reported. pose proof (honest_run rp c) as H. destruct (run rp c) as [[ev r'] e]. exact H. Qed.
Lemma honest_jar o rp l r : honest (fst (jar_report_run o rp l r)).
Proof.
  unfold Report_Model.jar_report_run. apply honest_bind; [apply honest_silent|]. intro t. apply honest_bind; [apply honest_silent|]. intro kids.
  apply honest_bind; [|intro ks; apply honest_bind; [apply honest_reported|intro; apply honest_silent]]. apply honest_map. intro c. unfold report_entry_run. destruct (is_class_report c); [|apply honest_silent]. cbv zeta.
  apply honest_bind; [apply honest_silent|]. intros [k chg d cs im]. apply honest_bind; [|intro; apply honest_silent]. apply honest_map. intro. apply honest_reported.
Qed.
Theorem honest_jardiff o dir reports l r : honest (fst (jardiff_report_run o dir reports l r)).
Proof. unfold Report_Model.jardiff_report_run. cbv zeta. apply honest_bind; [apply honest_jar|intro; apply honest_silent]. Qed.

Theorem report_status o dir reports l r : (forall i, sets_up i = None) -> (forall t, opens t = None) ->
  (forall t i c e, ~ In (EWrite t i c (Err e)) (fst (jardiff_report_run o dir reports l r))) ->
  snd (jardiff_report_run o dir reports l r) = jardiff fmt reprs ffmt text order up o l r.
Proof.
  intros S1 S2 HW. rewrite <- (report_same fmt reprs ffmt text order up order_perm). unfold Report_Model.jardiff_report_run, jardiff_report in *. cbv zeta in *.
  set (rp := mkrep _ _ _ _ _) in *. revert HW. apply (good_bind (jar_report_run o rp l r) (fun c => silent (exit_status o c)) _ (exit_status o)); [|intros; apply good_silent].
  apply good_jar; auto; unfold rp; cbn [r_base r_crumbs]; [destruct dir; discriminate|constructor].
Qed.
End Jars.
End Reporters.

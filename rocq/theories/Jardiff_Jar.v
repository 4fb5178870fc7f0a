From Verif Require Import Base Pack_Model ConstPool_Model ConstPool_Spec ClassFile_Model Manifest_Model Sign_Spec
  Change_Model Change_Spec Change_Proofs Change_Report Classdiff_Model Classdiff_Spec Classdiff_Class Classdiff_Passes Change_Tame
  Zip_Spec Zip_Proofs Jardiff_Model Jardiff_Spec Jardiff_Proofs.
From Verif Require Zip_Model Sign_Model.
From Coq Require Import Permutation.

Lemma quiet_iterate ch f lt : Forall quiet (iterate_by_type f ch lt) <-> Forall quiet ch.
Proof. destruct (iterate_spec f ch lt) as [P _]. split; apply Permutation_Forall; [exact P|now apply Permutation_sym]. Qed.

Section Jars.
Variable fmt : pyval -> str.
Variable reprs : str -> str.
Variable ffmt : pyval -> str.
Variable text : bytes -> res str.
Variable order : list str -> list str.
Variable up : Z -> str.
Hypothesis order_perm : forall s, Permutation (order s) s.

Lemma read_content a n d : Zip_Model.a_kind a = Zip_Model.Zip -> Zip_Model.a_open a = true -> content a n d -> read_entry text a n = Ok (Zip_Model.PBytes d).
Proof. intros K O H. apply find_entry_content in H as (e & H & <-). unfold read_entry, Zip_Model.getinfo. now rewrite K, O, H. Qed.

Section Two.
Variables l r : Zip_Model.archive.
Hypothesis Kl : Zip_Model.a_kind l = Zip_Model.Zip.
Hypothesis Kr : Zip_Model.a_kind r = Zip_Model.Zip.
Hypothesis Ol : Zip_Model.a_open l = true.
Hypothesis Or : Zip_Model.a_open r = true.
Hypothesis Sl : Forall sound (Zip_Model.a_entries l).
Hypothesis Sr : Forall sound (Zip_Model.a_entries r).

Lemma events_ok : exists evs, jar_events text order (Ok l) (Ok r) = Ok (l, r, evs) /\ classified evs l r.
Proof.
  destruct (compare_zips_spec text order order_perm Zip_Model.CHUNKSIZE l r) as (evs & E & C); auto; [discriminate|]. exists evs. split; [|exact C]. unfold jar_events. cbn [rbind]. now rewrite E.
Qed.
(** A property of the changes for all entries. *)
Lemma entries_Forall (P : change -> Prop) :
  (forall ch f lt, Forall P (iterate_by_type f ch lt) <-> Forall P ch) ->
  let ev := jar_event fmt reprs ffmt text order up l r in
  (Forall P (jar_entries fmt reprs ffmt text order up (Ok l) (Ok r)) <->
   (forall n, In n (names l) -> ~ In n (names r) -> P (ev (Zip_Model.LEFT, n))) /\
   (forall n, In n (names r) -> ~ In n (names l) -> P (ev (Zip_Model.RIGHT, n))) /\
   (forall n d, ~ directory n -> content l n d -> content r n d -> P (ev (Zip_Model.SAME, n))) /\
   (forall n d d', ~ directory n -> content l n d -> content r n d' -> d <> d' -> P (ev (Zip_Model.DIFF, n)))).
Proof.
  intros HP ev. destruct events_ok as (evs & E & _ & C). unfold jar_entries. rewrite E, HP, Forall_map, Forall_forall. split.
  - intro H. repeat split.
    + intros n H1 H2. apply H. apply C. auto.
    + intros n H1 H2. apply H. apply C. auto.
    + intros n d H0 H1 H2. apply H. apply C. eauto.
    + intros n d d' H0 H1 H2 H3. apply H. apply C. eauto 6.
  - intros (H1 & H2 & H3 & H4) [e n] Hin. destruct (C n) as (C1 & C2 & C3 & C4). destruct e.
    + apply C1 in Hin as [A B]. now apply H1.
    + apply C2 in Hin as [A B]. now apply H2.
    + apply C4 in Hin as (A & d & d' & B1 & B2 & B3). now apply (H4 n d d').
    + apply C3 in Hin as (A & d & B1 & B2). now apply (H3 n d).
Qed.
Lemma events_raises : match jar_events text order (Ok l) (Ok r) with Err e => Some e | Ok _ => None end = None.
Proof. destruct events_ok as (evs & -> & _). reflexivity. Qed.

Lemma type_same : is_exploded (Ok l) = is_exploded (Ok r).
Proof. unfold is_exploded. now rewrite Kl, Kr. Qed.

Lemma jar_completes o : completes (jar_change fmt reprs ffmt text order up (Ok l) (Ok r)) <-> on_differing (comparable fmt reprs ffmt up o) l r.
Proof.
  unfold jar_change. rewrite completes_super, !Forall_cons_eq, Forall_nil_eq. unfold jar_contents. rewrite completes_kids by auto. unfold contents_cls. cbn [k_raises]. rewrite events_raises, (entries_Forall _ completes_iterate). unfold on_differing. split.
  - intros (_ & _ & (_ & _ & _ & _ & H) & _) n d d' H0 H1 H2 H3. specialize (H n d d' H0 H1 H2 H3). eapply event_diff_completes in H; eauto using read_content.
  - intro H. split; [reflexivity|]. split; [unfold jar_type, leaf_text, leaf; eapply completes_own; [reflexivity|]; unfold generic_check, pure2; cbn [rbind]; destruct (Bool.eqb _ _); eexists; reflexivity|]. split; [|exact I]. split; [reflexivity|].
    split; [intros n _ _; apply event_one_sided_completes|]. split; [intros n _ _; apply event_one_sided_completes|]. split; [intros n d _ _ _; apply quiet_completes, event_same|].
    intros n d d' H0 H1 H2 H3. eapply event_diff_completes; eauto using read_content.
Qed.
Lemma jar_passes o : passes o (jar_change fmt reprs ffmt text order up (Ok l) (Ok r)) <-> jars_ok fmt reprs ffmt up o l r.
Proof.
  unfold jar_change. rewrite passes_super, !Forall_cons_eq, Forall_nil_eq. unfold jar_contents. rewrite passes_parts by auto. unfold contents_cls. cbn [k_raises k_own]. rewrite events_raises, (entries_Forall _ (fun ch f lt => passes_iterate o ch f lt)).
  unfold jars_ok, never. assert (HT : passes o (jar_type (Ok l) (Ok r))).
  { unfold jar_type. rewrite (passes_never _ _ _ _ _ _ _ _ _ _ _ (pure2_iff _ _ eqb_iff')). apply agree_ok. exact type_same. }
  assert (HD : forall n d d', ~ directory n -> content l n d -> content r n d' -> d <> d' -> passes o (jar_event fmt reprs ffmt text order up l r (Zip_Model.DIFF, n)) <-> acceptable fmt reprs ffmt up o n d d').
  { intros n d d' H0 H1 H2 H3. apply event_diff_passes; auto using read_content. }
  split.
  - intros (_ & _ & (_ & _ & [H|(H1 & H2 & _ & H4)]) & _); [discriminate|]. split; [intros n A B; apply (proj1 (event_one_sided fmt reprs ffmt text order up l r o n)); now apply H1|].
    split; [intros n A B; apply (proj2 (event_one_sided fmt reprs ffmt text order up l r o n)); now apply H2|]. intros n d d' A0 A1 A2 A3. apply HD; auto. now apply (H4 n d d').
  - intros (H1 & H2 & H3). split; [reflexivity|]. split; [exact HT|]. split; [|exact I]. split; [reflexivity|].
    assert (HX : (forall n, In n (names l) -> ~ In n (names r) -> passes o (jar_event fmt reprs ffmt text order up l r (Zip_Model.LEFT, n))) /\
       (forall n, In n (names r) -> ~ In n (names l) -> passes o (jar_event fmt reprs ffmt text order up l r (Zip_Model.RIGHT, n))) /\
       (forall n d, ~ directory n -> content l n d -> content r n d -> passes o (jar_event fmt reprs ffmt text order up l r (Zip_Model.SAME, n))) /\
       (forall n d d', ~ directory n -> content l n d -> content r n d' -> d <> d' -> passes o (jar_event fmt reprs ffmt text order up l r (Zip_Model.DIFF, n)))).
    { split; [intros n A B; apply event_one_sided; now apply H1|]. split; [intros n A B; apply event_one_sided; now apply H2|]. split; [intros n d _ _ _; apply quiet_passes, event_same|]. intros n d d' A0 A1 A2 A3. apply (HD n d d'); auto. }
    split; [|right; exact HX]. apply (entries_Forall _ completes_iterate). destruct HX as (X1 & X2 & X3 & X4).
    split; [intros; eapply passes_completes; eauto|]. split; [intros; eapply passes_completes; eauto|]. split; intros; eapply passes_completes; eauto.
Qed.
Lemma jar_quiet : quiet (jar_change fmt reprs ffmt text order up (Ok l) (Ok r)) ->
  (forall n, In n (names l) <-> In n (names r)) /\
  forall n d d', ~ directory n -> content l n d -> content r n d' ->
    d = d' \/
    (exists a b, (the_manifest n \/ sig_file up n) /\ parses d a /\ parses d' b /\ manifest_same a b) \/
    (exists a b, ~ the_manifest n /\ ~ signature up n /\ class_file n /\ unpack_class d MNone = Ok a /\ unpack_class d' MNone = Ok b /\ quiet (class_change fmt reprs ffmt a b)).
Proof.
  unfold jar_change. rewrite quiet_super, !Forall_cons_eq, Forall_nil_eq. intros (_ & _ & H & _).
  assert (HQ : Forall quiet (jar_entries fmt reprs ffmt text order up (Ok l) (Ok r))).
  { destruct H as (c' & H & Hc). unfold jar_contents, contents_cls in H. apply check_parts in H as (ks & ks' & H1 & H2 & ->); [|reflexivity]. cbn [collect_in pick k_super k_incheck k_gate k_raises negb andb] in H1. rewrite events_raises in H1. injection H1 as <-.
    cbn [is_change k_always orb] in Hc. apply none_changed in Hc. clear -H2 Hc. induction H2 as [|a b x y Hab H2 IH]; constructor; inversion Hc; subst; [exists b; auto|auto]. }
  apply (entries_Forall _ quiet_iterate) in HQ as (H1 & H2 & _ & H4). split.
  - intro n. split; intro Hn.
    + destruct (in_dec (list_eq_dec Z.eq_dec) n (names r)) as [|Hx]; [assumption|]. apply (event_one_sided_not_quiet fmt reprs ffmt text order up l r n) in H1; [contradiction|assumption|assumption].
    + destruct (in_dec (list_eq_dec Z.eq_dec) n (names l)) as [|Hx]; [assumption|]. apply (event_one_sided_not_quiet fmt reprs ffmt text order up l r n) in H2; [contradiction|assumption|assumption].
  - intros n d d' H0 Cl Cr. destruct (list_eq_dec Z.eq_dec d d') as [|Hd]; [now left|]. right. eapply (event_diff_quiet fmt reprs ffmt text order up order_perm l r); eauto using read_content.
Qed.
Lemma jar_tame : tame (jar_change fmt reprs ffmt text order up (Ok l) (Ok r)).
Proof.
  unfold jar_change. apply tame_super. apply Forall_cons; [apply tame_leaf|]. apply Forall_cons; [|constructor]. unfold jar_contents. constructor; [intros _; left; split; [reflexivity|discriminate]|constructor|].
  unfold jar_entries. destruct (jar_events _ _ _) as [[[a b] evs]|]; [|constructor]. apply tame_iterate. rewrite Forall_map. apply Forall_forall. intros ev _. now apply event_tame.
Qed.
Theorem jardiff_status o s : jardiff fmt reprs ffmt text order up o (Ok l) (Ok r) = Ok s -> s = 0 \/ s = 1.
Proof.
  unfold jardiff. destruct (check _) as [c|] eqn:E; cbn [rbind]; [|discriminate]. intro H. destruct (exit_total o _ _ jar_tame E) as (s' & Hs & Hd). rewrite Hs in H. injection H as <-. exact Hd.
Qed.
Theorem jardiff_ends o : (exists s, jardiff fmt reprs ffmt text order up o (Ok l) (Ok r) = Ok s) <-> on_differing (comparable fmt reprs ffmt up o) l r.
Proof.
  rewrite <- jar_completes. unfold jardiff, completes. split.
  - intros [s H]. destruct (check _) as [c|]; [eauto|discriminate].
  - intros [c H]. rewrite H. cbn [rbind]. destruct (exit_total o _ _ jar_tame H) as (s & Hs & _). eauto.
Qed.
Theorem jardiff_zero o : jardiff fmt reprs ffmt text order up o (Ok l) (Ok r) = Ok 0 <-> jars_ok fmt reprs ffmt up o l r.
Proof.
  rewrite <- jar_passes. unfold jardiff, passes. destruct (check _) as [c|]; cbn [rbind].
  - rewrite exit_iff. split; [intro H; exists c; now split|]. intros (c' & E & H). injection E as <-. exact H.
  - split; [discriminate|]. intros (c' & E & _). discriminate.
Qed.
End Two.

(** ** The report variant *)
Lemma checked_entry_total o l r a b ev c' : jar_events text order l r = Ok (a, b, ev) ->
  forall e, In e ev -> check (jar_event fmt reprs ffmt text order up a b e) = Ok c' -> exists x, is_ignored o c' = Ok x.
Proof. intros _ e _. apply tame_checked. now apply event_tame. Qed.

Lemma mapM_Forall2 {A B} (f : A -> res B) l r : mapM f l = Ok r <-> Forall2 (fun x y => f x = Ok y) l r.
Proof. rewrite <- sequence_map. apply sequence_Forall2. Qed.
Lemma mapM_err {A B C} (f : A -> res B) (g : A -> res C) l : (forall x, In x l -> match f x, g x with Ok _, Ok _ => True | Err e, Err e' => e = e' | _, _ => False end) ->
  match mapM f l, mapM g l with Ok _, Ok _ => True | Err e, Err e' => e = e' | _, _ => False end.
Proof.
  induction l as [|x l IH]; cbn [mapM]; [auto|]. intro H. pose proof (H x (or_introl eq_refl)) as Hx. destruct (f x), (g x); cbn [rbind]; try contradiction; [|exact Hx].
  specialize (IH (fun y Hy => H y (or_intror Hy))). destruct (mapM f l), (mapM g l); cbn [rbind]; try contradiction; auto.
Qed.

Lemma named_change n c : is_change (named n c) = is_change c.
Proof. now destruct c. Qed.
Lemma named_ignored n o c : is_ignored o (named n c) = is_ignored o c.
Proof. now destruct c. Qed.
Lemma node_vocal nm lb al ad re own pt ch sub n : vocal (k_of (jar_node nm lb al ad re own pt ch sub n)).
Proof. eexists. split; [reflexivity|]. intro b. eexists. reflexivity. Qed.
Lemma event_vocal a b ev : vocal (k_of (jar_event fmt reprs ffmt text order up a b ev)).
Proof. destruct ev as [[] n]; cbn [jar_event]; repeat match goal with |- context [if ?x then _ else _] => destruct x end; apply node_vocal. Qed.
Lemma named_vocal n c : vocal (k_of c) -> vocal (k_of (named n c)).
Proof. destruct c as [k ch d cs im]. intros (f & H & HF). exists f. split; [exact H|exact HF]. Qed.
(** The outcome is the same with and without reports. *)
Definition agree (o : options) (c c' : change) : Prop := is_change c' = is_change c /\ (is_change c = true -> is_ignored o c' = is_ignored o c).
Definition agreeing (o : options) (x y : res change) : Prop :=
  match x, y with Ok c, Ok c' => agree o c c' | Err e, Err e' => e = e' | _, _ => False end.
Lemma agree_exit o c c' : agree o c c' -> exit_status o c' = exit_status o c.
Proof. unfold exit_status. intros [-> H]. destruct (is_change c); cbn [negb]; [now rewrite H|reflexivity]. Qed.
Theorem report_agree o l r : agreeing o (check (jar_change fmt reprs ffmt text order up l r)) (jar_report_check fmt reprs ffmt text order up o l r).
Proof.
  unfold jar_report_check, jar_change, super, jar_report_node.
  cbn [check k_check map pick k_super negb k_incheck andb k_gate k_always orb k_raises rbind sequence].
  destruct (jar_type l r) as [tk tch td tcs tim] eqn:Et. set (T := Node tk tch td tcs tim) in *.
  assert (HT : exists t, check T = Ok t /\ exists x, is_ignored o t = Ok x).
  { rewrite <- Et. unfold jar_type, leaf_text, leaf, generic_check, pure2. cbn [check k_check rbind]. destruct (Bool.eqb _ _); (eexists; split; [reflexivity|eexists; reflexivity]). }
  destruct HT as (t & -> & tx & Htx). cbn [rbind].
  unfold jar_contents. cbn [collect_in pick contents_cls k_super negb k_incheck andb k_gate k_raises check k_check].
  unfold jar_entries. destruct (jar_events text order l r) as [[[a b] ev]|e] eqn:Ev; cbn [rbind]; [|reflexivity].
  set (kids := iterate_by_type _ _ _).
  assert (HK : Forall tame kids).
  { apply tame_iterate. rewrite Forall_map. apply Forall_forall. intros x _. now apply event_tame. }
  assert (EP : pick true (contents_cls "JarContentsChange" None) false (map check []) (map check kids) = Ok (map check kids)) by reflexivity. rewrite EP. clear EP. cbn [rbind]. rewrite sequence_map.
  assert (HM : match mapM check kids, mapM (report_entry o) kids with Ok _, Ok _ => True | Err e, Err e' => e = e' | _, _ => False end).
  { apply mapM_err. intros x Hx. unfold report_entry. destruct (check x) as [c'|] eqn:Ec; cbn [rbind]; [|reflexivity]. destruct (is_class_report x); [|exact I].
    rewrite Forall_forall in HK. pose proof (tame_checked o x (HK x Hx) c' Ec) as Hy. rewrite <- (named_ignored "JarClassReport" o c') in Hy.
    destruct (squash_total o _ Hy) as [s ->]; [|exact I]. apply named_vocal. rewrite (check_cls _ _ Ec). unfold kids in Hx. destruct (iterate_spec (fun c => k_name (k_of c)) (map (jar_event fmt reprs ffmt text order up a b) ev) jar_types) as [HP _].
    apply (Permutation_in _ HP) in Hx. apply in_map_iff in Hx as (e & <- & _). apply event_vocal. }
  destruct (mapM check kids) as [ks|] eqn:E1; destruct (mapM (report_entry o) kids) as [ks'|] eqn:E2; cbn [rbind]; try contradiction; [|now subst].
  assert (HE : map (fun k => (is_change k, is_ignored o k)) ks' = map (fun k => (is_change k, is_ignored o k)) ks).
  { apply mapM_Forall2 in E1. apply mapM_Forall2 in E2. clear HM. revert ks' E2. induction E1 as [|x y xs ys Hxy E1 IH]; intros ks' E2; inversion E2 as [|? z ? zs Hz E2']; subst; [reflexivity|].
    inversion HK as [|? ? Hx HK']; subst. cbn [map]. rewrite (IH HK' _ E2'). f_equal. unfold report_entry in Hz. rewrite Hxy in Hz. cbn [rbind] in Hz. destruct (is_class_report x); [|now injection Hz as <-].
    destruct (tame_checked o x Hx y Hxy) as [w Hw]. rewrite <- (named_ignored "JarClassReport" o y) in Hw. destruct (squash_facts _ _ _ _ Hw Hz) as (S1 & S2 & _). now rewrite S1, S2, named_change, <- (named_ignored "JarClassReport" o y), Hw. }
  assert (HX : existsb is_change ks' = existsb is_change ks).
  { clear -HE. revert ks HE. induction ks' as [|x ks' IH]; intros [|y ks] HE; try discriminate; [reflexivity|]. cbn [map] in HE. apply (f_equal (fun l => match l with p :: q => (p, q) | [] => ((true, Ok true), []) end)) in HE. injection HE as H1 H2 H3. cbn [existsb]. rewrite H1. f_equal. now apply IH. }
  cbn [agreeing]. unfold agree. cbn [is_change k_always orb existsb].
  assert (KA : forall n, k_always (contents_cls n None) = false) by reflexivity. rewrite !KA. cbn [orb]. rewrite HX. split; [reflexivity|]. intro EX.
  rewrite !is_ignored_eq. cbn [k_own never k_parts negb is_change k_always orb existsb]. rewrite ?KA. cbn [orb]. rewrite ?HX, EX. cbn [negb collect pick rbind map all_ignored is_change k_always orb]. rewrite !KA. cbn [orb].
  assert (HI : forall n im im2, is_ignored o (Node (contents_cls n None) (existsb is_change ks) None ks' im) = is_ignored o (Node (contents_cls "JarContentsChange" None) (existsb is_change ks) None ks im2) \/ existsb is_change ks = false).
  { intros n im im2. destruct (existsb is_change ks) eqn:EX2; [left|now right]. rewrite !is_ignored_eq. cbn [contents_cls k_own never k_parts negb is_change k_always orb].
    destruct ks as [|k0 ks]; [discriminate|]. destruct ks' as [|k1 ks']; [discriminate|]. cbn [collect pick rbind]. rewrite HE. cbn [map]. reflexivity. }
  destruct (HI "JarContentsReport"%string kids kids) as [H|H]; [rewrite H; reflexivity|rewrite H; cbn [orb]; reflexivity].
Qed.
Theorem report_same o l r : jardiff_report fmt reprs ffmt text order up o l r = jardiff fmt reprs ffmt text order up o l r.
Proof.
  unfold jardiff_report, jardiff. pose proof (report_agree o l r) as H. unfold agreeing in H. destruct (check _) as [c|], (jar_report_check _ _ _ _ _ _ _ _ _) as [c'|]; cbn [rbind]; try contradiction; [now apply agree_exit|now subst].
Qed.
End Jars.

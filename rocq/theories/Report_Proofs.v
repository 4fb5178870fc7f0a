(** Proofs about formats, reporters, their files and breadcrumbs. *)
From Verif Require Import Base Change_Model Report_Model Report_Spec Report_Paths.
From Coq Require Import Lia Permutation.

(** ** Formats by name *)
Lemma format_eqb_iff f g : format_eqb f g = true <-> f = g.
Proof. destruct f, g; cbn; split; congruence. Qed.
Lemma format_eqb_refl f : format_eqb f f = true.
Proof. now apply format_eqb_iff. Qed.
Lemma add_format_in fs f g : In g (add_format fs f) <-> In g fs \/ g = f.
Proof.
  unfold add_format. destruct (existsb (format_eqb f) fs) eqn:E.
  - split; [now left|]. intros [H| ->]; [assumption|]. apply existsb_exists in E as (x & Hx & E). apply format_eqb_iff in E. now subst.
  - rewrite in_app_iff. cbn. intuition.
Qed.
Lemma add_format_nodup fs f : NoDup fs -> NoDup (add_format fs f).
Proof.
  intro H. unfold add_format. destruct (existsb (format_eqb f) fs) eqn:E; [assumption|]. apply NoDup_rev in H. rewrite <- (rev_involutive (fs ++ [f])), rev_app_distr. apply NoDup_rev. cbn [rev app]. constructor; [|assumption].
  rewrite <- in_rev. intro Hf. assert (existsb (format_eqb f) fs = true); [|congruence]. apply existsb_exists. exists f. split; [assumption|apply format_eqb_refl].
Qed.
Lemma names_iff n f : names_format n f <->
  (n = lit "json" /\ f = FJson) \/ ((n = lit "txt" \/ n = lit "text") /\ f = FText) \/ ((n = lit "htm" \/ n = lit "html") /\ f = FHtml).
Proof.
  split; [intros []; intuition|]. intros [[-> ->]|[[[-> | ->] ->]|[[-> | ->] ->]]]; constructor.
Qed.
Lemma add_by_name_spec fs n : (forall g, In g (add_by_name fs n) <-> In g fs \/ names_format n g) /\ (NoDup fs -> NoDup (add_by_name fs n)).
Proof.
  unfold add_by_name. destruct (seqb_spec n (lit "json")) as [->|N1].
  { split; [|apply add_format_nodup]. intro g. cbn [orb]. rewrite add_format_in, names_iff. intuition; try discriminate. }
  destruct (seqb_spec n (lit "txt")) as [->|N2].
  { split; [|apply add_format_nodup]. intro g. cbn [orb]. rewrite add_format_in, names_iff. intuition; try discriminate. }
  destruct (seqb_spec n (lit "text")) as [->|N3].
  { split; [|apply add_format_nodup]. intro g. cbn [orb]. rewrite add_format_in, names_iff. intuition; try discriminate. }
  cbn [orb]. destruct (seqb_spec n (lit "htm")) as [->|N4].
  { split; [|apply add_format_nodup]. intro g. cbn [orb]. rewrite add_format_in, names_iff. intuition; try discriminate. }
  destruct (seqb_spec n (lit "html")) as [->|N5].
  { split; [|apply add_format_nodup]. intro g. cbn [orb]. rewrite add_format_in, names_iff. intuition; try discriminate. }
  cbn [orb]. split; [|auto]. intro g. rewrite names_iff. intuition.
Qed.
Theorem formats_by_name names : forall fs,
  (forall f, In f (add_formats_by_name fs names) <-> In f fs \/ exists n, In n names /\ names_format n f) /\ (NoDup fs -> NoDup (add_formats_by_name fs names)).
Proof.
  unfold add_formats_by_name. induction names as [|n names IH]; intro fs; cbn [fold_left].
  - split; [|auto]. intro f. split; [now left|]. intros [H|(n & [] & _)]. exact H.
  - destruct (IH (add_by_name fs n)) as [I1 I2]. destruct (add_by_name_spec fs n) as [S1 S2]. split; [|auto]. intro f. rewrite I1, S1. split.
    + intros [[H|H]|(m & Hm & H)]; [now left|right; exists n; split; [now left|assumption]|right; exists m; split; [now right|assumption]].
    + intros [H|(m & [->|Hm] & H)]; [auto|auto|right; eauto].
Qed.

(** ** The option *)
Lemma comma_word w : ~ In 44 w -> split_comma w = [w].
Proof.
  induction w as [|c w IH]; cbn [split_comma]; [reflexivity|]. intro H. destruct (Z.eqb_spec c 44) as [->|]; [exfalso; apply H; now left|].
  rewrite IH; [reflexivity|]. intro; apply H; now right.
Qed.
Lemma comma_nonempty s : split_comma s <> [].
Proof. destruct s as [|c s]; cbn [split_comma]; [discriminate|]. destruct (c =? 44); [discriminate|]. destruct (split_comma s); discriminate. Qed.
Lemma comma_app a b : split_comma (a ++ 44 :: b) = split_comma a ++ split_comma b.
Proof.
  induction a as [|c a IH]; cbn [app split_comma]; [reflexivity|]. rewrite IH. destruct (c =? 44); [reflexivity|]. pose proof (comma_nonempty a). destruct (split_comma a); [contradiction|reflexivity].
Qed.
Lemma first_comma a t x r : ~ In 44 x -> a ++ 44 :: t = x ++ 44 :: r -> (a = x /\ t = r) \/ exists a', a = x ++ 44 :: a' /\ r = a' ++ 44 :: t.
Proof.
  revert x. induction a as [|c a IH]; intros [|d x] Hx E; cbn [app] in E.
  - injection E as ->. now left.
  - exfalso. apply Hx. left. now injection E as -> _.
  - injection E as -> <-. right. exists a. now split.
  - injection E as -> E. destruct (IH x) as [[-> ->]|(a' & -> & ->)]; [intro H; apply Hx; now right|assumption|now left|]. right. exists a'. now split.
Qed.
Lemma comma_cases s : ~ In 44 s \/ exists w r, s = w ++ 44 :: r /\ ~ In 44 w.
Proof.
  induction s as [|c s IH]; [now left|]. destruct (Z.eq_dec c 44) as [->|Hc]; [right; exists [], s; now split|]. destruct IH as [Hn|(w & r & -> & Hw)].
  - left. intros [E|E]; [now apply Hc|contradiction].
  - right. exists (c :: w), r. split; [reflexivity|]. intros [E|E]; [now apply Hc|contradiction].
Qed.
Lemma field_word v w : ~ In 44 v -> (field v w <-> w = v).
Proof.
  intro H. split.
  - intros (_ & a & b & -> & Ha & Hb). destruct Ha as [->|[a' ->]]; [|exfalso; apply H; rewrite <- app_assoc; apply in_or_app; right; now left].
    destruct Hb as [->|[b' ->]]; [now rewrite app_nil_r|]. exfalso. apply H. cbn [app]. apply in_or_app. right. now left.
  - intros ->. split; [assumption|]. exists [], []. rewrite app_nil_r. auto.
Qed.
Lemma field_more x r w : ~ In 44 x -> (field (x ++ 44 :: r) w <-> w = x \/ field r w).
Proof.
  intro Hx. split.
  - intros (Hw & a & b & E & Ha & Hb). destruct Ha as [->|[a' ->]].
    + left. cbn [app] in E. destruct Hb as [->|[b' ->]].
      * exfalso. rewrite app_nil_r in E. apply Hw. rewrite <- E. apply in_or_app. right. now left.
      * symmetry in E. destruct (first_comma _ _ _ _ Hx E) as [[-> _]|(a' & -> & _)]; [reflexivity|]. exfalso. apply Hw. apply in_or_app. right. now left.
    + right. rewrite <- app_assoc in E. cbn [app] in E. symmetry in E. destruct (first_comma _ _ _ _ Hx E) as [[-> <-]|(a'' & -> & ->)].
      * split; [assumption|]. exists [], b. auto.
      * split; [assumption|]. exists (a'' ++ [44]), b. rewrite <- app_assoc. cbn [app]. split; [reflexivity|]. split; [right; eauto|assumption].
  - intros [->|(Hw & a & b & -> & Ha & Hb)].
    + split; [assumption|]. exists [], (44 :: r). split; [reflexivity|]. split; [now left|right; eauto].
    + split; [assumption|]. exists (x ++ 44 :: a), b. rewrite <- app_assoc. cbn [app]. split; [reflexivity|]. split; [|assumption]. right. destruct Ha as [->|[a' ->]]; [now exists x|]. exists (x ++ 44 :: a'). now rewrite <- app_assoc.
Qed.
Lemma split_comma_field v : forall w, In w (split_comma v) <-> field v w.
Proof.
  remember (length v) as n eqn:En. revert v En. induction (lt_wf n) as [n _ IH]. intros v -> w. destruct (comma_cases v) as [H|(x & r & -> & Hx)].
  - rewrite (comma_word v H), field_word by assumption. cbn. intuition.
  - rewrite comma_app, (comma_word x Hx), field_more by assumption. cbn [app In]. rewrite (IH (length r)); [|rewrite app_length; cbn [length]; lia|reflexivity]. intuition.
Qed.
Lemma reports_in occ : forall acc w, w <> [] -> (In w (fold_left add_report_option occ acc) <-> In w acc \/ exists v, In v occ /\ field v w).
Proof.
  induction occ as [|v occ IH]; intros acc w Hw; cbn [fold_left].
  - split; [now left|]. intros [H|(v & [] & _)]. exact H.
  - rewrite IH by assumption. assert (HV : In w (add_report_option acc v) <-> In w acc \/ field v w).
    { unfold add_report_option. destruct (existsb (Z.eqb 44) v) eqn:E; rewrite in_app_iff.
      - rewrite filter_In, split_comma_field. destruct (seqb_spec w []); [contradiction|]. cbn [negb]. intuition.
      - assert (HN : ~ In 44 v). { intro Hv. assert (existsb (Z.eqb 44) v = true); [|congruence]. apply existsb_exists. exists 44. now split. }
        rewrite field_word by assumption. cbn. intuition. }
    rewrite HV. split.
    + intros [[H|H]|(u & Hu & H)]; [now left|right; exists v; split; [now left|assumption]|right; exists u; split; [now right|assumption]].
    + intros [H|(u & [->|Hu] & H)]; [auto|auto|right; eauto].
Qed.
Lemma names_nonempty n f : names_format n f -> n <> [].
Proof. intros []; discriminate. Qed.
Theorem requested occ f : In f (add_formats_by_name [] (reports_of occ)) <-> exists v n, In v occ /\ field v n /\ names_format n f.
Proof.
  rewrite (proj1 (formats_by_name (reports_of occ) [])). split.
  - intros [[]|(n & Hn & HF)]. unfold reports_of in Hn. apply reports_in in Hn; [|now apply names_nonempty in HF]. destruct Hn as [[]|(v & Hv & Hf)]. eauto.
  - intros (v & n & Hv & Hf & HF). right. exists n. split; [|assumption]. apply reports_in; [now apply names_nonempty in HF|]. right. eauto.
Qed.

(** ** Reporters *)
Section Reporters.
Variable cwd : str.
Variable forder : list format -> list format.
Variable sets_up : inst -> option exn.
Variable opens : str -> option exn.
Variable render : inst -> str -> change -> res str.
Hypothesis forder_perm : forall fs, Permutation (forder fs) fs.
Notation setup := (setup cwd forder sets_up).
Notation run := (run cwd forder sets_up opens render).

(** The file name, and the output of an instance. *)
Definition target (i : inst) (entry : str) : option str :=
  match entry with [] => None | _ => Some (join (match i_base i with [] => lit "./" | b => b end) (entry ++ extension (i_fmt i))) end.
Definition output (c : change) (entry : str) (i : inst) : event := EWrite (target i entry) i c (render i entry c).
Definition insts (r : reporter) (crumbs : list (str * str)) : list inst := map (fun f => mkinst f (r_base r) crumbs) (forder (r_formats r)).

Lemma setup_all_ok is ev : setup_all sets_up is = (ev, None) -> ev = map ESetup is /\ Forall (fun i => sets_up i = None) is.
Proof.
  revert ev. induction is as [|i is IH]; intros ev H; cbn [setup_all] in H; [injection H as <-; split; [reflexivity|constructor]|]. destruct (sets_up i) eqn:E; [discriminate|]. destruct (setup_all sets_up is) as [ev' e].
  injection H as <- ->. destruct (IH _ eq_refl) as [-> H2]. split; [reflexivity|now constructor].
Qed.
Lemma run_all_ok is c entry ev : run_all opens render is c entry = (ev, None) -> ev = map (output c entry) is /\ Forall (fun i => exists s, render i entry c = Ok s) is.
Proof.
  revert ev. induction is as [|i is IH]; intros ev H; cbn [run_all] in H; [injection H as <-; split; [reflexivity|constructor]|].
  destruct (run_format opens render i c entry) as [ev1 [e|]] eqn:E; [discriminate|]. destruct (run_all opens render is c entry) as [ev2 e]. injection H as <- ->. destruct (IH _ eq_refl) as [-> H2].
  assert (HR : ev1 = [output c entry i] /\ exists s, render i entry c = Ok s).
  { unfold run_format in E. destruct entry as [|x entry].
    - destruct (render i [] c) eqn:Er; [|discriminate]. injection E as <-. unfold output. rewrite Er. split; [reflexivity|eauto].
    - destruct (opens _); [discriminate|]. destruct (render i (x :: entry) c) eqn:Er; [|discriminate]. injection E as <-. unfold output. rewrite Er. split; [reflexivity|eauto]. }
  destruct HR as [-> HR]. split; [reflexivity|now constructor].
Qed.
Theorem run_ok r c ev r' : r_live r = None -> run r c = (ev, r', None) ->
  r' = r /\ exists crumbs, get_relative_breadcrumbs cwd r = Ok crumbs /\
    ev = map ESetup (insts r crumbs) ++ map (output c (r_entry r)) (insts r crumbs) ++ map EClear (insts r crumbs) /\
    Forall (fun i => exists s, render i (r_entry r) c = Ok s) (insts r crumbs).
Proof.
  intros HL H. unfold Report_Model.run in H. rewrite HL in H. unfold Report_Model.setup in H. rewrite HL in H. destruct (get_relative_breadcrumbs cwd r) as [crumbs|e] eqn:EC; [|discriminate].
  fold (insts r crumbs) in H. destruct (setup_all sets_up (insts r crumbs)) as [ev1 [e|]] eqn:E1; [discriminate|]. cbn [r_live r_entry] in H.
  destruct (run_all opens render (insts r crumbs) c (r_entry r)) as [ev2 [e|]] eqn:E2; [discriminate|]. unfold clear_reporter in H. cbn [r_live r_base r_entry r_crumbs r_formats] in H. injection H as <- <-.
  apply setup_all_ok in E1 as [-> _]. apply run_all_ok in E2 as [-> H2]. split; [destruct r; cbn in *; now subst|]. exists crumbs. auto.
Qed.
Lemma setup_all_total is : Forall (fun i => sets_up i = None) is -> setup_all sets_up is = (map ESetup is, None).
Proof. induction 1 as [|i is H HF IH]; cbn [setup_all map]; [reflexivity|]. now rewrite H, IH. Qed.
Lemma run_all_total is c entry : Forall (fun i => (exists s, render i entry c = Ok s) /\ forall t, target i entry = Some t -> opens t = None) is ->
  run_all opens render is c entry = (map (output c entry) is, None).
Proof.
  induction 1 as [|i is [[s Hs] H] HF IH]; cbn [run_all map]; [reflexivity|]. unfold run_format, output at 1. cbv zeta. destruct entry as [|x entry].
  - rewrite Hs, IH. cbn [target]. rewrite ?Hs. reflexivity.
  - match goal with |- context [opens ?t] => assert (E : opens t = None) by exact (H _ eq_refl) end. rewrite E, Hs, IH. reflexivity.
Qed.
Lemma crumbs_ok r : Forall (fun be => fst be <> []) (r_crumbs r) -> exists crumbs, get_relative_breadcrumbs cwd r = Ok crumbs.
Proof.
  unfold get_relative_breadcrumbs. induction 1 as [|[b e] l H HF [cs IH]]; cbn [mapM]; [eauto|]. cbn [fst snd] in *. destruct (relpath_ok cwd b (r_base r) H) as [x ->]. cbn [rbind]. rewrite IH. cbn [rbind]. eauto.
Qed.
Theorem run_total r c : r_live r = None -> Forall (fun be => fst be <> []) (r_crumbs r) -> (forall i, sets_up i = None) -> (forall t, opens t = None) ->
  (forall i, exists s, render i (r_entry r) c = Ok s) -> exists ev, run r c = (ev, r, None).
Proof.
  intros HL HC H1 H2 H3. unfold Report_Model.run, Report_Model.setup. rewrite HL. destruct (crumbs_ok r HC) as [crumbs ->]. fold (insts r crumbs). rewrite setup_all_total by (apply Forall_forall; auto). cbn [r_live r_entry].
  rewrite run_all_total by (apply Forall_forall; auto). unfold clear_reporter. cbn [r_live r_base r_entry r_crumbs r_formats]. eexists. f_equal. f_equal. destruct r; cbn in *; now subst.
Qed.
Theorem setup_once r c ev1 r1 : r_live r = None -> setup r = (ev1, r1, None) ->
  setup r1 = ([], r1, None) /\ let '(ev2, r2, e) := run r1 c in run r c = (ev1 ++ ev2, r2, e).
Proof.
  intros HL H. assert (HR : run r c = let '(ev2, r2, e) := run r1 c in (ev1 ++ ev2, r2, e)).
  { unfold Report_Model.run at 1. rewrite HL, H. unfold Report_Model.setup in H. rewrite HL in H. destruct (get_relative_breadcrumbs cwd r) as [crumbs|e]; [|discriminate]. fold (insts r crumbs) in H.
    destruct (setup_all sets_up (insts r crumbs)) as [ev [e|]]; [discriminate|]. injection H as <- <-. unfold Report_Model.run. cbn [r_live r_entry r_base r_crumbs r_formats].
    destruct (run_all opens render (insts r crumbs) c (r_entry r)) as [ev' [e|]]; [reflexivity|]. cbn [app]. destruct (clear_reporter _). reflexivity. }
  split.
  - unfold Report_Model.setup in *. rewrite HL in H. destruct (get_relative_breadcrumbs cwd r) as [crumbs|e] eqn:EC; [|discriminate]. fold (insts r crumbs) in H. destruct (setup_all sets_up (insts r crumbs)) as [ev [e|]] eqn:ES; [discriminate|]. injection H as <- <-.
    cbn [r_live r_base r_formats]. unfold get_relative_breadcrumbs in *. cbn [r_crumbs r_base]. rewrite EC. fold (insts r crumbs). destruct (insts r crumbs) as [|i is] eqn:EI; [|reflexivity].
    assert (E0 : map (fun f => mkinst f (r_base r) crumbs) (forder (r_formats r)) = []) by exact EI. rewrite ?E0. reflexivity.
  - destruct (run r1 c) as [[ev2 r2] e]. exact HR.
Qed.

(** Events by format *)
Lemma history_app f a b : history f (a ++ b) = history f a ++ history f b.
Proof. induction a as [|e a IH]; cbn [app history]; [reflexivity|]. rewrite IH. now destruct (about f e). Qed.
Lemma history_map f (g : inst -> event) s is : (forall i, about f (g i) = if format_eqb f (i_fmt i) then Some s else None) -> NoDup (map i_fmt is) ->
  history f (map g is) = if existsb (format_eqb f) (map i_fmt is) then [s] else [].
Proof.
  intros HG. induction is as [|i is IH]; intro HN; cbn [map history existsb]; [reflexivity|]. cbn [map] in HN. inversion HN as [|? ? H1 H2]; subst. rewrite HG, (IH H2). destruct (format_eqb f (i_fmt i)) eqn:E; [|reflexivity].
  apply format_eqb_iff in E. subst f. cbn [orb]. destruct (existsb (format_eqb (i_fmt i)) (map i_fmt is)) eqn:E; [|reflexivity]. exfalso. apply H1. apply existsb_exists in E as (x & Hx & E). apply format_eqb_iff in E. now subst.
Qed.
Lemma insts_fmt r crumbs : map i_fmt (insts r crumbs) = forder (r_formats r).
Proof. unfold insts. rewrite map_map. cbn [i_fmt]. apply map_id. Qed.
Theorem run_history r c ev r' : r_live r = None -> NoDup (r_formats r) -> run r c = (ev, r', None) ->
  forall f, (In f (r_formats r) -> history f ev = [DidSetup; DidRun; DidClear]) /\ (~ In f (r_formats r) -> history f ev = []).
Proof.
  intros HL HN H f. destruct (run_ok r c ev r' HL H) as (_ & crumbs & _ & -> & _).
  assert (HN' : NoDup (map i_fmt (insts r crumbs))). { rewrite insts_fmt. eapply Permutation_NoDup; [symmetry; apply forder_perm|assumption]. }
  rewrite !history_app. rewrite (history_map f ESetup DidSetup _ (fun i => eq_refl) HN'), (history_map f (output c (r_entry r)) DidRun _ (fun i => eq_refl) HN'), (history_map f EClear DidClear _ (fun i => eq_refl) HN'). rewrite insts_fmt.
  assert (HE : existsb (format_eqb f) (forder (r_formats r)) = true <-> In f (r_formats r)).
  { rewrite existsb_exists. split.
    - intros (x & Hx & E). apply format_eqb_iff in E. subst. eapply Permutation_in; [apply forder_perm|assumption].
    - intro Hf. exists f. split; [eapply Permutation_in; [symmetry; apply forder_perm|assumption]|apply format_eqb_refl]. }
  split; intro Hf.
  - apply HE in Hf. now rewrite Hf.
  - destruct (existsb (format_eqb f) (forder (r_formats r))); [exfalso; now apply Hf, HE|reflexivity].
Qed.
Theorem run_writes r c ev r' : r_live r = None -> run r c = (ev, r', None) ->
  exists crumbs, get_relative_breadcrumbs cwd r = Ok crumbs /\ forall t i c' out,
  In (EWrite t i c' out) ev <-> In (i_fmt i) (r_formats r) /\ i = mkinst (i_fmt i) (r_base r) crumbs /\ c' = c /\ t = target i (r_entry r) /\ out = render i (r_entry r) c.
Proof.
  intros HL H. destruct (run_ok r c ev r' HL H) as (_ & crumbs & HC & -> & _). exists crumbs. split; [exact HC|]. intros t i c' out. rewrite !in_app_iff, !in_map_iff.
  assert (HI : forall i, In i (insts r crumbs) <-> In (i_fmt i) (r_formats r) /\ i = mkinst (i_fmt i) (r_base r) crumbs).
  { intro j. unfold insts. rewrite in_map_iff. split.
    - intros (f & <- & Hf). cbn [i_fmt]. split; [|reflexivity]. eapply Permutation_in; [apply forder_perm|assumption].
    - intros [Hf ->]. cbn [i_fmt]. exists (i_fmt j). split; [reflexivity|]. eapply Permutation_in; [symmetry; apply forder_perm|assumption]. }
  split.
  - intros [(j & E & _)|[(j & E & Hj)|(j & E & _)]]; try discriminate. unfold output in E. injection E as <- <- <- <-. apply HI in Hj as [H1 H2]. auto.
  - intros (H1 & H2 & -> & -> & ->). right. left. exists i. split; [reflexivity|]. now apply HI.
Qed.

(** ** Files *)
Notation here := (here cwd).
Lemma target_leads i entry t F : target i entry = Some t -> (resolve here t = F <-> resolve (resolve here (i_base i)) (entry ++ extension (i_fmt i)) = F).
Proof. unfold target. destruct entry as [|x entry]; [discriminate|]. intro H. injection H as <-. rewrite resolve_join. now destruct (i_base i). Qed.
Lemma sub_base r sub entry : resolve here (r_base (subreporter forder r sub entry)) = resolve (resolve here (r_base r)) sub.
Proof. unfold subreporter. cbn [r_base]. apply resolve_join. Qed.

Lemma resolve_ordinary d p ns : ordinary p ns -> resolve d p = d ++ ns.
Proof.
  intros [HP HF]. apply parts_iff in HP. unfold resolve. rewrite HP, fold_plain by assumption. destruct (is_abs p) eqn:E; [|reflexivity]. exfalso.
  apply is_abs_iff in E as [q ->]. cbn [split_slash] in HP. change (47 =? 47) with true in HP. cbv iota in HP. subst ns. inversion HF as [|? ? (H & _)]; subst. now apply H.
Qed.
Lemma ordinary_fun p q ns : ordinary p ns -> ordinary q ns -> p = q.
Proof.
  intros [H1 _] [H2 _]. revert q H2. induction H1 as [w Hw|w s ws Hw HP IH]; intros q HQ; inversion HQ; subst; try reflexivity; try (match goal with H : Parts _ [] |- _ => inversion H end).
  f_equal. f_equal. now apply IH.
Qed.

(** ** Breadcrumbs *)
Definition nested (r : reporter) (steps : list (str * str)) : reporter := fold_left (fun r s => subreporter forder r (fst s) (snd s)) steps r.
Lemma nested_crumbs steps : forall r, r_crumbs (nested r steps) = r_crumbs r ++ map (fun k => (r_base (nested r (firstn k steps)), r_entry (nested r (firstn k steps)))) (seq 0 (length steps)).
Proof.
  induction steps as [|s steps IH]; intro r; [unfold nested; cbn; now rewrite app_nil_r|]. unfold nested. cbn [fold_left]. fold (nested (subreporter forder r (fst s) (snd s)) steps). rewrite IH. unfold subreporter at 1. cbn [r_crumbs].
  rewrite <- app_assoc. cbn [length seq map firstn app]. f_equal. f_equal. rewrite <- seq_shift, map_map. apply map_ext. intro k. reflexivity.
Qed.
Lemma join_nonempty a b : a <> [] -> join a b <> [].
Proof. intro H. unfold join. destruct (is_abs b) eqn:E; [apply is_abs_iff in E as [q ->]; discriminate|]. destruct a; [contradiction|]. destruct (ends_with _ _); discriminate. Qed.
Lemma nested_base steps : forall r, r_base r <> [] -> r_base (nested r steps) <> [].
Proof. induction steps as [|s steps IH]; intros r H; [exact H|]. apply IH. unfold subreporter. cbn [r_base]. now apply join_nonempty. Qed.
Lemma mapM_nth {A B} (f : A -> res B) l r k x : mapM f l = Ok r -> nth_error l k = Some x -> exists y, nth_error r k = Some y /\ f x = Ok y.
Proof.
  revert r k. induction l as [|a l IH]; intros r k H HK; [now destruct k|]. cbn [mapM] in H. destruct (f a) as [b|] eqn:E; [|discriminate]. cbn [rbind] in H. destruct (mapM f l) as [bs|] eqn:E2; [|discriminate]. cbn [rbind] in H. injection H as <-.
  destruct k as [|k]; cbn [nth_error] in *; [injection HK as ->; eauto|]. now apply (IH bs).
Qed.
Lemma mapM_length {A B} (f : A -> res B) l r : mapM f l = Ok r -> length r = length l.
Proof.
  revert r. induction l as [|a l IH]; intros r H; cbn [mapM] in H; [injection H as <-; reflexivity|]. destruct (f a); [|discriminate]. cbn [rbind] in H. destruct (mapM f l); [|discriminate]. cbn [rbind] in H. injection H as <-. cbn [length]. f_equal. now apply IH.
Qed.
Theorem crumbs_lead base entry fs steps : base <> [] -> let top := mkrep base entry [] fs None in let r := nested top steps in
  exists crumbs, get_relative_breadcrumbs cwd r = Ok crumbs /\ length crumbs = length steps /\
  forall k, (k < length steps)%nat -> exists rel, nth_error crumbs k = Some (rel, r_entry (nested top (firstn k steps))) /\
    forall p, resolve (resolve here (r_base r)) (join rel p) = resolve (resolve here (r_base (nested top (firstn k steps)))) p.
Proof using cwd forder.
  clear forder_perm render opens sets_up.
  intros HB top r. assert (HC : exists crumbs, get_relative_breadcrumbs cwd r = Ok crumbs).
  { apply crumbs_ok. unfold r. rewrite nested_crumbs. cbn [top r_crumbs app]. apply Forall_forall. intros be H. apply in_map_iff in H as (k & <- & _). cbn [fst]. now apply nested_base. }
  destruct HC as [crumbs HC]. exists crumbs. split; [exact HC|]. pose proof (mapM_length _ _ _ HC) as HLen. unfold r in HLen. rewrite nested_crumbs in HLen. cbn [top r_crumbs app] in HLen. rewrite map_length, seq_length in HLen. split; [exact HLen|].
  intros k Hk. assert (HN : nth_error (r_crumbs r) k = Some (r_base (nested top (firstn k steps)), r_entry (nested top (firstn k steps)))).
  { unfold r. rewrite nested_crumbs. cbn [top r_crumbs app]. fold top. erewrite map_nth_error; [reflexivity|]. rewrite (nth_error_nth' _ O) by (rewrite seq_length; lia). now rewrite seq_nth by lia. }
  destruct (mapM_nth _ _ _ _ _ HC HN) as (y & Hy & E). cbn [fst snd] in E. destruct (relpath cwd (r_base (nested top (firstn k steps))) (r_base r)) as [rel|] eqn:ER; [|discriminate]. cbn [rbind] in E. injection E as <-.
  exists rel. split; [exact Hy|]. intro p. rewrite resolve_join, (relpath_leads cwd _ _ _ ER). reflexivity.
Qed.
End Reporters.

(** Proofs about the style sheets and scripts of reports. *)
From Verif Require Import Base Pack_Model ConstPool_Model ClassFile_Model Manifest_Model Change_Model Classdiff_Model Jardiff_Model Distdiff_Model Drep_Model Html_Model Html_Wf
  Report_Model Report_Spec Report_Paths Report_Proofs Report_Written Resource_Model Resource_Spec.
From Verif Require Zip_Model.
From Coq Require Import Permutation.

(** ** Every HTML page is preceded by a setup *)
Section Staged.
Variable cwd : str.
Variable forder : list format -> list format.
Variable sets_up : inst -> option exn.
Variable opens : str -> option exn.
Variable render : inst -> str -> change -> res str.
Definition staged (es : list event) : Prop := forall pre t i c out post, es = pre ++ EWrite t i c out :: post ->
  (exists j, In (ESetup j) pre /\ i_fmt j = i_fmt i) /\ exists entry, plain_name entry /\ t = target i entry.
Definition no_write (es : list event) : Prop := forall t i c out, ~ In (EWrite t i c out) es.
Lemma split_app_at {A} (a b : list A) pre x post : a ++ b = pre ++ x :: post ->
  (exists post', a = pre ++ x :: post') \/ (exists pre', pre = a ++ pre' /\ b = pre' ++ x :: post).
Proof.
  revert pre. induction a as [|y a IH]; intros pre H; [right; now exists pre|]. destruct pre as [|z pre].
  - cbn in H. injection H as -> H. left. now exists a.
  - cbn in H. injection H as -> H. destruct (IH _ H) as [(p & ->)|(p & -> & ->)]; [left; now exists p|right; now exists p].
Qed.
Lemma staged_app a b : staged a -> staged b -> staged (a ++ b).
Proof.
  intros HA HB pre t i c out post E. destruct (split_app_at _ _ _ _ _ E) as [(p & E')|(p & E1 & E2)]; [exact (HA _ _ _ _ _ _ E')|].
  destruct (HB _ _ _ _ _ _ E2) as ((j & J1 & J2) & N). split; [|exact N]. exists j. split; [|exact J2]. rewrite E1. apply in_or_app. now right.
Qed.
Lemma staged_no es : no_write es -> staged es.
Proof. intros H pre t i c out post ->. exfalso. apply (H t i c out). apply in_or_app. right. now left. Qed.
Lemma format_target i c entry t j c' out : In (EWrite t j c' out) (fst (run_format opens render i c entry)) -> j = i /\ t = target i entry.
Proof.
  unfold run_format. cbv zeta. destruct entry as [|x entry]; [|destruct (opens _)]; cbn [fst]; intro H; try contradiction; destruct H as [H|[]]; injection H as <- <- <- <-; split; reflexivity.
Qed.
Lemma all_target is c entry t j c' out : In (EWrite t j c' out) (fst (run_all opens render is c entry)) -> In j is /\ t = target j entry.
Proof.
  induction is as [|i is IH]; [intros []|]. cbn [run_all]. pose proof (format_target i c entry t j c' out) as F. destruct (run_format opens render i c entry) as [ev [e|]]; cbn [fst] in F.
  - intro H. apply F in H as [-> ->]. split; [now left|reflexivity].
  - destruct (run_all opens render is c entry) as [ev' e']. cbn [fst] in *. intro H. apply in_app_iff in H as [H|H]; [apply F in H as [-> ->]; split; [now left|reflexivity]|]. apply IH in H as [H ->]. split; [now right|reflexivity].
Qed.
Lemma setup_no_write rp : no_write (fst (fst (setup cwd forder sets_up rp))).
Proof.
  intros t i c out H. unfold setup in H. assert (G : forall (x : list event * reporter * option exn), (x = match get_relative_breadcrumbs cwd rp with Err e => ([], rp, Some e) | Ok crumbs => let is := map (fun f => mkinst f (r_base rp) crumbs) (forder (r_formats rp)) in
     match setup_all sets_up is with (ev, Some e) => (ev, rp, Some e) | (ev, None) => (ev, mkrep (r_base rp) (r_entry rp) (r_crumbs rp) (r_formats rp) (Some is), None) end end) -> In (EWrite t i c out) (fst (fst x)) -> False).
  { intros x -> Hx. destruct (get_relative_breadcrumbs cwd rp) as [crumbs|]; [|destruct Hx]. cbv zeta in Hx. set (is := map _ _) in *. pose proof (setup_all_quiet sets_up is t i c out) as Q. destruct (setup_all sets_up is) as [ev [e|]]; now apply Q in Hx. }
  destruct (r_live rp) as [[|y is]|]; [exact (G _ eq_refl H)|destruct H|exact (G _ eq_refl H)].
Qed.
Lemma setup_sets rp ev r1 : r_live rp = None -> setup cwd forder sets_up rp = (ev, r1, None) -> r_entry r1 = r_entry rp /\ exists is, r_live r1 = Some is /\ ev = map ESetup is.
Proof.
  intros HL. unfold setup. rewrite HL. destruct (get_relative_breadcrumbs cwd rp) as [crumbs|]; [|discriminate]. cbv zeta. set (is := map _ _). destruct (setup_all sets_up is) as [ev' [e|]] eqn:E; [discriminate|]. intro H. injection H as <- <-.
  split; [reflexivity|]. exists is. split; [reflexivity|]. now apply setup_all_ok in E as [-> _].
Qed.
Lemma staged_run rp c : r_live rp = None -> plain_name (r_entry rp) -> staged (fst (fst (run cwd forder sets_up opens render rp c))).
Proof.
  intros HL HP. unfold Report_Model.run. rewrite HL. pose proof (setup_no_write rp) as Q. destruct (setup cwd forder sets_up rp) as [[ev r1] [e|]] eqn:ES; [now apply staged_no|]. cbn [fst] in Q.
  destruct (setup_sets _ _ _ HL ES) as (EN & is & EL & EV). rewrite EL, EN.
  assert (S : forall ev' : list event, (forall t j c' out, In (EWrite t j c' out) ev' -> In j is /\ t = target j (r_entry rp)) -> staged (ev ++ ev')).
  { intros ev' W pre t i c' out post E. destruct (split_app_at _ _ _ _ _ E) as [(p & E')|(p & E1 & E2)].
    - exfalso. apply (Q t i c' out). rewrite E'. apply in_or_app. right. now left.
    - destruct (W t i c' out) as [I T]; [rewrite E2; apply in_or_app; right; now left|]. split; [|now exists (r_entry rp)]. exists i. split; [|reflexivity]. rewrite E1, EV. apply in_or_app. left. now apply in_map. }
  pose proof (fun t j c' out => all_target is c (r_entry rp) t j c' out) as W. destruct (run_all opens render is c (r_entry rp)) as [ev' [e'|]]; cbn [fst] in *; [now apply S|].
  unfold clear_reporter. cbn [fst]. apply S. intros t j c' out H. apply in_app_iff in H as [H|H]; [now apply (W t j c' out)|]. apply in_map_iff in H as (x & H & _). discriminate.
Qed.
Lemma staged_bind {A B} (m : eff A) (k : A -> eff B) : staged (fst m) -> (forall a, staged (fst (k a))) -> staged (fst (ebind m k)).
Proof. intros H1 H2. destruct m as [ev [a|e]]; cbn [ebind]; [|exact H1]. specialize (H2 a). destruct (k a). cbn [fst] in *. now apply staged_app. Qed.
Lemma staged_silent {A} (m : res A) : staged (fst (silent m)).
Proof. apply staged_no. intros ? ? ? ? []. Qed.
Lemma staged_map {A B} (f : A -> eff B) l : (forall x, staged (fst (f x))) -> staged (fst (emap f l)).
Proof. intro H. induction l as [|x l IH]; [apply staged_silent|]. cbn [emap]. apply staged_bind; [apply H|]. intro. apply staged_bind; [apply IH|]. intro. apply staged_silent. Qed.
Lemma staged_reported rp c : r_live rp = None -> plain_name (r_entry rp) -> staged (fst (reported cwd forder sets_up opens render rp c)).
Proof. intros L P. unfold reported. pose proof (staged_run rp c L P) as H. destruct (run cwd forder sets_up opens render rp c) as [[ev r'] e]. exact H. Qed.
Lemma plain_lit s : negb (seqb (lit s) []) && negb (seqb (lit s) (lit ".")) && negb (seqb (lit s) (lit "..")) && negb (existsb (Z.eqb 47) (lit s)) = true -> plain_name (lit s).
Proof.
  intro H. apply andb_prop in H as [H H4]. apply andb_prop in H as [H H3]. apply andb_prop in H as [H1 H2]. repeat split.
  - intro E. rewrite E in H1. discriminate.
  - intro E. rewrite E in H2. now rewrite seqb_refl in H2.
  - intro E. rewrite E in H3. now rewrite seqb_refl in H3.
  - intro E. assert (X : existsb (Z.eqb 47) (lit s) = true) by (apply existsb_exists; exists 47; split; [exact E|reflexivity]). now rewrite X in H4.
Qed.
Variable fmt : pyval -> str.
Variable reprs : str -> str.
Variable ffmt : pyval -> str.
Variable text : bytes -> res str.
Variable order : list str -> list str.
Variable up : Z -> str.
Lemma staged_jar o rp l r : r_live rp = None -> r_entry rp = lit "JarReport" -> staged (fst (jar_report_run cwd forder sets_up opens render fmt reprs ffmt text order up o rp l r)).
Proof.
  intros HL HE. unfold Report_Model.jar_report_run. apply staged_bind; [apply staged_silent|]. intro t. apply staged_bind; [apply staged_silent|]. intro kids.
  apply staged_bind; [|intro ks; apply staged_bind; [apply staged_reported; [exact HL|rewrite HE; now apply plain_lit]|intro; apply staged_silent]].
  apply staged_map. intro c. unfold report_entry_run. destruct (is_class_report c); [|apply staged_silent]. cbv zeta.
  apply staged_bind; [apply staged_silent|]. intros [k chg d cs im]. apply staged_bind; [|intro; apply staged_silent]. apply staged_map. intro. apply staged_reported; [reflexivity|now apply plain_lit].
Qed.
Theorem staged_jardiff o dir reports l r : staged (fst (jardiff_report_run cwd forder sets_up opens render fmt reprs ffmt text order up o dir reports l r)).
Proof. unfold Report_Model.jardiff_report_run. cbv zeta. apply staged_bind; [now apply staged_jar|intro; apply staged_silent]. Qed.
Variable unzip : bytes -> jar.
Variables l r : Zip_Model.node.
Lemma staged_entry o sh rp ev : staged (fst (dist_entry_run cwd forder sets_up opens render fmt reprs ffmt text order up unzip l r o sh rp ev)).
Proof.
  unfold dist_entry_run. destruct (is_report _ _ _ _ _ _ _ _ _ _ _); [|apply staged_silent]. apply staged_bind; [|intro; apply staged_silent]. unfold report_check_run. destruct (seqb _ _).
  - apply staged_bind; [apply staged_silent|]. intros [a b]. apply staged_bind; [now apply staged_jar|]. intro j. apply staged_silent.
  - cbv zeta. apply staged_bind; [apply staged_silent|]. intros [k chg d cs im]. apply staged_bind; [|intro; apply staged_silent]. apply staged_map. intro. apply staged_reported; [reflexivity|now apply plain_lit].
Qed.
Theorem staged_distdiff o sh dir reports : staged (fst (distdiff_report_run cwd forder sets_up opens render fmt reprs ffmt text order up unzip l r o sh dir reports)).
Proof.
  unfold distdiff_report_run, dist_report_run. cbv zeta. apply staged_bind; [|intro; apply staged_silent]. apply staged_bind; [apply staged_silent|]. intro evs.
  apply staged_bind; [|intro ks; apply staged_bind; [apply staged_reported; [reflexivity|now apply plain_lit]|intro; apply staged_silent]].
  apply staged_map. intro ev. apply staged_entry.
Qed.
Lemma interleaved_at {A} (ls : list (list A)) es : interleaved ls es -> forall pre x post, es = pre ++ x :: post -> exists k pre' post', In k ls /\ k = pre' ++ x :: post' /\ incl pre' pre.
Proof.
  induction 1 as [ls F|a y k b es I IH]; intros pre x post E; [destruct pre; discriminate E|]. destruct pre as [|z pre]; cbn [app] in E; injection E as -> E.
  - exists (x :: k), [], k. split; [apply in_or_app; right; now left|]. split; [reflexivity|]. intros u [].
  - destruct (IH _ _ _ E) as (k' & pre' & post' & K & K2 & K3). apply in_app_iff in K. cbn [In] in K. destruct K as [K|[K|K]].
    + exists k', pre', post'. split; [apply in_or_app; now left|]. split; [exact K2|]. intros u U. right. now apply K3.
    + subst k'. exists (z :: k), (z :: pre'), post'. split; [apply in_or_app; right; now left|]. split; [now rewrite K2|]. intros u [->|U]; [now left|right; now apply K3].
    + exists k', pre', post'. split; [apply in_or_app; right; now right|]. split; [exact K2|]. intros u U. right. now apply K3.
Qed.
Lemma staged_interleaved ls es : Forall staged ls -> interleaved ls es -> staged es.
Proof.
  intros F I pre t i c out post E. destruct (interleaved_at _ _ I _ _ _ E) as (k & pre' & post' & K1 & K2 & K3). rewrite Forall_forall in F. destruct (F k K1 _ _ _ _ _ _ K2) as ((j & J1 & J2) & N). split; [|exact N]. exists j. split; [now apply K3|exact J2].
Qed.
Theorem staged_parallel o sh rp ev r1 done mid c : r_live rp = None -> plain_name (r_entry rp) -> setup cwd forder sets_up rp = (ev, r1, None) ->
  Forall (fun d => exists e, dist_work cwd forder sets_up opens render fmt reprs ffmt text order up unzip l r o sh rp e = Ok d) done -> interleaved (map fst done) mid ->
  staged (ev ++ mid ++ fst (reported cwd forder sets_up opens render r1 c)).
Proof.
  intros HL HP ES FD IM. destruct (setup_sets _ _ _ HL ES) as (EN & is & EL & EV). pose proof (setup_no_write rp) as Q. rewrite ES in Q. cbn [fst] in Q.
  assert (SM : staged mid).
  { apply (staged_interleaved (map fst done)); [|exact IM]. apply Forall_map. eapply Forall_impl; [|exact FD]. intros [es c'] [e E]. unfold dist_work in E. pose proof (staged_entry o sh rp e) as SE. destruct (dist_entry_run _ _ _ _ _ _ _ _ _ _ _ _ _ _ _ _ _ _) as [es' [c''|]]; [|discriminate E]. injection E as <- <-. exact SE. }
  assert (W : forall t j c' out, In (EWrite t j c' out) (fst (reported cwd forder sets_up opens render r1 c)) -> In j is /\ t = target j (r_entry rp)).
  { intros t j c' out. unfold reported, Report_Model.run. rewrite EL. cbv zeta. rewrite EL, EN. pose proof (fun t j c' out => all_target is c (r_entry rp) t j c' out) as W. destruct (run_all opens render is c (r_entry rp)) as [ev' [e'|]]; cbn [fst] in *; [apply W|].
    unfold clear_reporter. cbn [fst app]. intro H. apply in_app_iff in H as [H|H]; [now apply (W t j c' out)|]. apply in_map_iff in H as (x & H & _). discriminate. }
  intros pre t i c' out post E. destruct (split_app_at _ _ _ _ _ E) as [(p & E')|(p & E1 & E2)]; [exfalso; apply (Q t i c' out); rewrite E'; apply in_or_app; right; now left|].
  destruct (split_app_at _ _ _ _ _ E2) as [(p' & E')|(p' & E3 & E4)].
  - destruct (SM _ _ _ _ _ _ E') as ((j & J1 & J2) & N). split; [|exact N]. exists j. split; [|exact J2]. rewrite E1. apply in_or_app. now right.
  - destruct (W t i c' out) as [I T]; [rewrite E4; apply in_or_app; right; now left|]. split; [|now exists (r_entry rp)]. exists i. split; [|reflexivity]. rewrite E1, EV. apply in_or_app. left. now apply in_map.
Qed.
End Staged.

Lemma Forall2_impl' {A B} (P Q : A -> B -> Prop) l m : (forall a b, P a b -> Q a b) -> Forall2 P l m -> Forall2 Q l m.
Proof. intros H. induction 1; constructor; auto. Qed.
(** ** Options and files along the events *)
Lemma leading_iff a b : leading a b = true <-> upto a b.
Proof.
  revert b. induction a as [|x a IH]; intro b; cbn [leading].
  - split; [intros _; now exists b|reflexivity].
  - destruct b as [|y b]; [split; [discriminate|intros [r E]; discriminate]|]. rewrite andb_true_iff, IH. split.
    + intros [E [r ->]]. apply seqb_eq in E as ->. now exists r.
    + intros [r E]. injection E as -> ->. split; [apply seqb_refl|now exists r].
Qed.
Lemma starts_iff p s : starts_with p s = true <-> exists r, s = p ++ r.
Proof.
  revert s. induction p as [|x p IH]; intro s; cbn [starts_with].
  - split; [intros _; now exists s|reflexivity].
  - destruct s as [|y s]; [split; [discriminate|intros [r E]; discriminate]|]. rewrite andb_true_iff, IH, Z.eqb_eq. split.
    + intros [-> [r ->]]. now exists r.
    + intros [r E]. injection E as -> ->. split; [reflexivity|now exists r].
Qed.
Lemma ends_iff x n : ends_with x n = true <-> has_suffix x n.
Proof.
  unfold ends_with. rewrite starts_iff. split; intros [r E].
  - exists (rev r). rewrite <- (rev_involutive n), E, rev_app_distr, rev_involutive. reflexivity.
  - exists (rev r). now rewrite E, rev_app_distr.
Qed.

Section World.
Variable cwd : str.
Variable data : list str.
Variable H : list str.
Hypothesis LH : leads [] cwd H.
Hypothesis DP : Forall plain_name data.
Notation step := (step cwd data).
Notation replay := (replay cwd data).
Lemma comps p F : leads H p F <-> abs_comps cwd p = F.
Proof. rewrite leads_iff, (leads_here cwd H LH), abs_comps_eq. reflexivity. Qed.

Definition active (o : hopts) : option str := match h_copy o with Some (c :: d) => Some (c :: d) | _ => None end.
Definition with_copies (o : hopts) : hopts :=
  match active o with
  | None => o
  | Some dir => mkhopts (filter (ends_with (lit ".js")) (copies data dir) ++ h_scripts o)
                  (filter (fun c => negb (ends_with (lit ".js") c) && ends_with (lit ".css") c) (copies data dir) ++ h_styles o) (h_copy o) true
  end.
Definition stage (o : hopts) (done : bool) : hopts := if done then with_copies o else o.
Definition html_setup_in (es : list event) : bool := existsb (fun e => match e with ESetup i => format_eqb (i_fmt i) FHtml | _ => false end) es.
Lemma setup_opts o (d : bool) there : h_copied o = false -> w_opts (html_setup cwd data (mkworld (stage o d) there)) = with_copies o.
Proof.
  intro HC. unfold html_setup, stage, with_copies, active. cbn [w_opts]. destruct d; cbn [h_copy h_copied].
  - destruct (h_copy o) as [[|x dir]|] eqn:E; rewrite ?E; reflexivity.
  - destruct (h_copy o) as [[|x dir]|] eqn:E; try reflexivity. rewrite HC. reflexivity.
Qed.
Lemma replay_opts o es : h_copied o = false -> forall there d, w_opts (replay (mkworld (stage o d) there) es) = stage o (d || html_setup_in es).
Proof.
  intro HC. induction es as [|e es IH]; intros there d; [cbn; now rewrite orb_false_r|]. unfold Resource_Model.replay. cbn [fold_left]. fold (replay (step (mkworld (stage o d) there) e) es).
  assert (K : forall w d', w_opts w = stage o d' -> w_opts (replay w es) = stage o (d' || html_setup_in es)) by (intros [wo wt] d' E; cbn [w_opts] in E; subst; apply IH).
  unfold html_setup_in. cbn [existsb]. fold (html_setup_in es). destruct e as [i|[fn|] i c out|i]; cbn [step]; try (apply IH).
  destruct (i_fmt i); cbn [format_eqb orb]; try apply IH. rewrite (K _ true); [now rewrite orb_true_r|]. now apply setup_opts.
Qed.

(** The files there are *)
Lemma created there ps : forall q, fold_left (create cwd) ps there q = true <-> there q = true \/ exists p, In p ps /\ upto q (abs_comps cwd p).
Proof.
  revert there. induction ps as [|p ps IH]; intros there q; cbn [fold_left]; [split; [now left|intros [E|(x & [] & _)]; exact E]|]. rewrite IH. unfold create at 1. rewrite orb_true_iff, leading_iff. split.
  - intros [[E|E]|(x & I & E)]; [now left|right; exists p; split; [now left|exact E]|right; exists x; split; [now right|exact E]].
  - intros [E|(x & [<-|I] & E)]; [left; now left|left; now right|right; now exists x].
Qed.
Definition written (es : list event) (fn : str) : Prop := exists i c out, In (EWrite (Some fn) i c out) es.
Definition copied (o : hopts) (c : str) : Prop := exists dir, active o = Some dir /\ In c (copies data dir).
Lemma setup_there w q : w_there w q = true -> w_there (html_setup cwd data w) q = true.
Proof. intro E. unfold html_setup. destruct (h_copy (w_opts w)) as [[|x dir]|]; try exact E. destruct (h_copied (w_opts w)); [exact E|]. cbn [w_there]. apply created. now left. Qed.
Lemma step_there w e q : w_there w q = true -> w_there (step w e) q = true.
Proof. intro E. destruct e as [i|[fn|] i c out|i]; cbn [Resource_Model.step]; try exact E; [destruct (i_fmt i); try exact E; now apply setup_there|]. cbn [w_there]. unfold create. now rewrite E. Qed.
Lemma replay_there es : forall w q, w_there w q = true -> w_there (replay w es) q = true.
Proof. induction es as [|e es IH]; intros w q E; [exact E|]. apply (IH (step w e)). now apply step_there. Qed.
Lemma replay_grown o es : h_copied o = false -> forall there d q, w_there (replay (mkworld (stage o d) there) es) q = true ->
  there q = true \/ (exists c, copied o c /\ upto q (abs_comps cwd c)) \/ (exists fn, written es fn /\ upto q (abs_comps cwd fn)).
Proof.
  intro HC. induction es as [|e es IH]; intros there d q E; [now left|]. unfold Resource_Model.replay in E. cbn [fold_left] in E. fold (replay (step (mkworld (stage o d) there) e) es) in E.
  assert (S : exists d' there', step (mkworld (stage o d) there) e = mkworld (stage o d') there' /\ (there' q = true -> there q = true \/ (exists c, copied o c /\ upto q (abs_comps cwd c)) \/ (exists fn, written (e :: es) fn /\ upto q (abs_comps cwd fn)))).
  { destruct e as [i|[fn|] i c out|i]; cbn [Resource_Model.step]; try (exists d, there; split; [reflexivity|now left]).
    - destruct (i_fmt i); try (exists d, there; split; [reflexivity|now left]). pose proof (setup_opts o d there HC) as SO.
      destruct (html_setup cwd data (mkworld (stage o d) there)) as [wo wt] eqn:ES. cbn [w_opts] in SO. subst wo. exists true, wt. split; [reflexivity|]. intro Hq.
      unfold html_setup in ES. cbn [w_opts] in ES.
      assert (CP : h_copy (stage o d) = h_copy o) by (unfold stage, with_copies; destruct d, (active o); reflexivity). rewrite CP in ES.
      destruct (h_copy o) as [[|x dir]|] eqn:EC; try (injection ES as _ <-; now left). destruct (h_copied (stage o d)); [injection ES as _ <-; now left|]. injection ES as _ <-. apply created in Hq as [Hq|(c & I & U)]; [now left|].
      right. left. exists c. split; [exists (x :: dir); unfold active; rewrite EC; now split|exact U].
    - exists d, (create cwd there fn). split; [reflexivity|]. unfold create. rewrite orb_true_iff, leading_iff. intros [Hq|U]; [now left|]. right. right. exists fn. split; [exists i, c, out; now left|exact U]. }
  destruct S as (d' & there' & ES & S). rewrite ES in E. destruct (IH _ _ _ E) as [Q|[Q|(fn & (i & c & out & W) & U)]]; [now apply S|now right; left|]. right. right. exists fn. split; [exists i, c, out; now right|exact U].
Qed.
Lemma replay_app w a b : replay w (a ++ b) = replay (replay w a) b.
Proof. apply fold_left_app. Qed.
Lemma setup_split es : html_setup_in es = true -> exists a i b, es = a ++ ESetup i :: b /\ i_fmt i = FHtml /\ html_setup_in a = false.
Proof.
  induction es as [|e es IH]; [discriminate|]. unfold html_setup_in. cbn [existsb]. fold (html_setup_in es). destruct (match e with ESetup i => format_eqb (i_fmt i) FHtml | _ => false end) eqn:E.
  - intros _. destruct e as [i| |]; try discriminate. exists [], i, es. apply format_eqb_iff in E. now repeat split.
  - cbn [orb]. intro X. destruct (IH X) as (a & i & b & -> & F & N). exists (e :: a), i, b. split; [reflexivity|]. split; [exact F|]. unfold html_setup_in. cbn [existsb]. now rewrite E.
Qed.
Lemma copies_there o there es c : h_copied o = false -> html_setup_in es = true -> copied o c -> w_there (replay (mkworld o there) es) (abs_comps cwd c) = true.
Proof.
  intros HC HS (dir & A & I). destruct (setup_split es HS) as (a & i & b & -> & F & N). rewrite replay_app. unfold Resource_Model.replay at 1. cbn [fold_left]. apply replay_there. cbn [Resource_Model.step]. rewrite F.
  pose proof (replay_opts o a HC there false) as R. rewrite N in R. cbn [orb stage] in R. set (w := replay _ a) in *. change (stage o false) with o in *. unfold html_setup. fold w in R. rewrite R.
  unfold active in A. destruct (h_copy o) as [[|x d]|]; try discriminate. injection A as <-. rewrite HC. cbn [w_there]. apply created. right. exists c. split; [exact I|]. exists []. now rewrite app_nil_r.
Qed.

(** Links *)
Lemma external_iff u : starts_with (lit "http:") u || starts_with (lit "https:") u || starts_with (lit "file:") u || starts_with (lit "/") u = true <-> external u.
Proof.
  rewrite !orb_true_iff, !starts_iff. unfold external. split.
  - intros [[[[s E]|[s E]]|[s E]]|[s E]]; eexists _, s; (split; [|exact E]); repeat first [left; reflexivity|right].
  - intros (p & s & I & E). cbn [In] in I. destruct I as [<-|[<-|[<-|[<-|[]]]]]; [left; left; left|left; left; right|left; right|right]; now exists s.
Qed.
Lemma leads_total d p : exists F, leads d p F.
Proof. exists (resolve d p). now apply leads_iff. Qed.
Lemma relpath_nonempty u base v : relpath cwd u base = Ok v -> v <> [].
Proof.
  unfold relpath. destruct u as [|x u]; [discriminate|]. set (P := x :: u). rewrite !abs_comps_eq. set (s := resolve (here cwd) base). set (p := resolve (here cwd) P).
  assert (Hp : Forall plain_name p) by (apply plain_resolve, here_plain). set (k := common s p).
  destruct (repeat (lit "..") (length s - k) ++ skipn k p) as [|c cs] eqn:E; intro Q; injection Q as <-; [discriminate|].
  assert (C : c <> []).
  { assert (I : In c (repeat (lit "..") (length s - k) ++ skipn k p)) by (rewrite E; now left). apply in_app_iff in I as [I|I]; [apply repeat_spec in I; subst; discriminate|].
    rewrite Forall_forall in Hp. assert (I' : In c p) by (rewrite <- (firstn_skipn k p); apply in_or_app; now right). exact (proj1 (Hp c I')). }
  clear E. revert c C. induction cs as [|z cs IH]; intros c C; [exact C|]. cbn [fold_left]. apply IH. now apply join_nonempty.
Qed.
Lemma relative_ok there base D u : leads H base D -> exists v, relative cwd there base u = Ok v /\ (v = [] <-> u = []) /\
  (external u -> v = u) /\ (~ external u -> u <> [] -> forall F, leads H u F -> (there F = true -> leads D v F) /\ (there F = false -> v = u)).
Proof.
  intro LB. unfold relative. destruct (_ || _ || _ || _) eqn:E.
  - apply external_iff in E. exists u. split; [reflexivity|]. split; [reflexivity|]. split; [reflexivity|]. intro N. contradiction.
  - assert (N : ~ external u) by (intro X; apply external_iff in X; rewrite X in E; discriminate). unfold exists_. destruct u as [|x u].
    + exists []. split; [reflexivity|]. split; [reflexivity|]. split; [reflexivity|]. intros _ X. now destruct X.
    + destruct (there (abs_comps cwd (x :: u))) eqn:T.
      * destruct (relpath_ok cwd (x :: u) base) as [v R]; [discriminate|]. exists v. rewrite R. split; [reflexivity|].
        pose proof (relpath_nonempty _ _ _ R) as V.
        split; [split; intro; [contradiction|discriminate]|]. split; [intro; contradiction|]. intros _ _ F LF. apply comps in LF. subst F. split; [|congruence]. intros _.
        apply leads_iff. apply leads_iff in LB. rewrite (leads_here cwd H LH) in LB. rewrite <- LB, (relpath_leads cwd _ _ _ R). symmetry. apply abs_comps_eq.
      * exists (x :: u). split; [reflexivity|]. split; [reflexivity|]. split; [reflexivity|]. intros _ _ F LF. apply comps in LF. subst F. split; [congruence|reflexivity].
Qed.
Lemma uris_ok there base D us : leads H base D -> exists vs, relative_uris cwd there base us = Ok vs /\
  Forall2 (fun u v => (external u -> v = u) /\ (~ external u -> forall F, leads H u F -> (there F = true -> leads D v F) /\ (there F = false -> v = u)))
    (filter (fun u => match u with [] => false | _ => true end) us) vs.
Proof.
  intro LB. unfold relative_uris. induction us as [|u us IH]; [exists []; split; [reflexivity|constructor]|]. cbn [mapM]. destruct (relative_ok there base D u LB) as (v & -> & E & X & N). cbn [rbind].
  destruct IH as (vs & IH & F). destruct (mapM (relative cwd there base) us) as [ws|]; [|discriminate]. cbn [rbind] in *. injection IH as IH. destruct u as [|x u].
  - assert (v = []) as -> by now apply E. exists vs. split; [cbn [filter]; now rewrite IH|exact F].
  - destruct v as [|y v]; [discriminate (proj1 E eq_refl)|]. exists ((y :: v) :: vs). split; [cbn [filter]; now rewrite IH|]. cbn [filter]. constructor; [|exact F]. split; [exact X|]. intros Q. apply N; [exact Q|discriminate].
Qed.

(** The resources wanted *)
Lemma suffix_join x dir n : ~ In 47 x -> x <> [] -> plain_name n -> (has_suffix x (join dir n) <-> has_suffix x n).
Proof.
  intros NX XE (N1 & _ & _ & N4). split.
  - intros [b E]. unfold join in E. assert (AB : is_abs n = false) by (destruct n as [|c n]; [reflexivity|]; unfold is_abs; cbn [starts_with]; destruct (Z.eqb_spec 47 c) as [<-|]; [exfalso; apply N4; now left|reflexivity]). rewrite AB in E.
    assert (G : forall a, a ++ 47 :: n = b ++ x -> has_suffix x n).
    { intros a Q. revert a Q. clear - NX N4. induction b as [|y b IH]; intros a Q.
      - cbn [app] in Q. exfalso. apply NX. assert (I : In 47 (a ++ 47 :: n)) by (apply in_or_app; right; now left). now rewrite Q in I.
      - destruct a as [|z a]; cbn [app] in Q; injection Q as _ Q; [now exists b|]. exact (IH a Q). }
    destruct dir as [|c dir]; [now exists b|]. destruct (ends_with [47] (c :: dir)) eqn:ED.
    + apply ends_iff in ED as [d ED]. rewrite ED, <- app_assoc in E. exact (G d E).
    + exact (G (c :: dir) E).
  - intros [b ->]. unfold join. destruct (is_abs (b ++ x)); [now exists b|]. destruct dir as [|c dir]; [now exists b|]. destruct (ends_with [47] (c :: dir)).
    + exists ((c :: dir) ++ b). now rewrite app_assoc.
    + exists ((c :: dir) ++ 47 :: b). now rewrite <- app_assoc.
Qed.
Lemma plain_ordinary n : plain_name n -> ordinary n [n].
Proof. intros P. split; [constructor; apply P|]. constructor; [exact P|constructor]. Qed.
Lemma chosen (P : str -> bool) x dir : (forall n, plain_name n -> (P (join dir n) = true <-> has_suffix x n)) ->
  exists names, selects (has_suffix x) data names /\ copied_to H dir names (filter P (copies data dir)).
Proof.
  intro HP. revert DP. clear -LH HP. induction data as [|n ns IH]; intro D; [exists []; split; [constructor|intros C _; constructor]|]. inversion D as [|? ? D1 D2]; subst. destruct (IH D2) as (names & S & C).
  unfold copies. cbn [map filter]. fold (copies ns dir). destruct (P (join dir n)) eqn:E.
  - exists (n :: names). split; [constructor; [now apply HP|exact S]|]. intros Cd LC. constructor; [|now apply C]. apply leads_iff. apply leads_iff in LC. rewrite resolve_join, LC. now apply resolve_ordinary, plain_ordinary.
  - exists names. split; [|exact C]. apply sel_no; [|exact S]. intro X. apply HP in X; [congruence|exact D1].
Qed.
Lemma js_not_css n : has_suffix (lit ".js") n -> has_suffix (lit ".css") n -> False.
Proof.
  intros [a ->] [b E]. apply (f_equal (@rev Z)) in E. rewrite !rev_app_distr in E. assert (Q : firstn 3 (rev (lit ".js") ++ rev a) = firstn 3 (rev (lit ".css") ++ rev b)) by now rewrite E. vm_compute in Q. discriminate.
Qed.
Lemma with_copies_wanted o : wanted H data (h_copy o) (lit ".css") (h_styles o) (h_styles (with_copies o)) /\ wanted H data (h_copy o) (lit ".js") (h_scripts o) (h_scripts (with_copies o)).
Proof.
  unfold with_copies, active, wanted. destruct (h_copy o) as [[|x dir]|] eqn:EC; [split; exists [], []; now split| |split; exists [], []; now split]. cbn [h_styles h_scripts]. set (d := x :: dir). split.
  - destruct (chosen (fun c => negb (ends_with (lit ".js") c) && ends_with (lit ".css") c) (lit ".css") d) as (names & S & C); [|exists names; eexists; split; [reflexivity|now split]].
    intros n P. assert (J : has_suffix (lit ".js") (join d n) <-> has_suffix (lit ".js") n) by (apply suffix_join; [vm_compute; intuition discriminate|discriminate|exact P]).
    assert (K : has_suffix (lit ".css") (join d n) <-> has_suffix (lit ".css") n) by (apply suffix_join; [vm_compute; intuition discriminate|discriminate|exact P]).
    rewrite andb_true_iff, negb_true_iff, ends_iff, K. split; [now intros [_ Q]|]. intro Q. split; [|exact Q]. destruct (ends_with (lit ".js") (join d n)) eqn:E; [|reflexivity]. exfalso. apply ends_iff, J in E. now apply (js_not_css n).
  - destruct (chosen (ends_with (lit ".js")) (lit ".js") d) as (names & S & C); [|exists names; eexists; split; [reflexivity|now split]].
    intros n P. rewrite ends_iff. apply suffix_join; [vm_compute; intuition discriminate|discriminate|exact P].
Qed.
Lemma copied_selected o c : copied o c -> forall dir C, active o = Some dir -> leads H dir C -> exists n, In n data /\ leads H c (C ++ [n]).
Proof.
  intros (dir' & A & I) dir C A' LC. rewrite A in A'. injection A' as ->. unfold copies in I. apply in_map_iff in I as (n & <- & I). exists n. split; [exact I|]. apply leads_iff. apply leads_iff in LC. rewrite resolve_join, LC.
  rewrite Forall_forall in DP. now apply resolve_ordinary, plain_ordinary, DP.
Qed.

(** ** The links of a page *)
Definition filled (u : str) : bool := match u with [] => false | _ => true end.
Lemma nonempty_filter us : nonempty us (filter filled us).
Proof. induction us as [|u us IH]; [constructor|]. destruct u as [|x u]; cbn [filter filled]; [apply sel_no; [now intro X; apply X|exact IH]|apply sel_yes; [discriminate|exact IH]]. Qed.
Lemma copied_a o c F : copied o c -> leads H c F -> a_copy H data (h_copy o) F.
Proof.
  intros (dir & A & I) LF. destruct (leads_total H dir) as [C LC]. unfold active in A. destruct (h_copy o) as [[|x d]|]; try discriminate. injection A as <-. unfold copies in I. apply in_map_iff in I as (n & <- & I). exists (x :: d), C, n.
  split; [reflexivity|]. split; [discriminate|]. split; [exact LC|]. split; [exact I|]. apply leads_iff in LF, LC. rewrite resolve_join, LC in LF. rewrite <- LF. rewrite Forall_forall in DP. now apply resolve_ordinary, plain_ordinary, DP.
Qed.
Lemma a_copied o F : a_copy H data (h_copy o) F -> exists c, copied o c /\ leads H c F.
Proof.
  intros (dir & C & n & E & N & LC & I & ->). exists (join dir n). split.
  - exists dir. unfold active. rewrite E. destruct dir as [|x d]; [now destruct N|]. split; [reflexivity|]. unfold copies. now apply in_map.
  - apply leads_iff. apply leads_iff in LC. rewrite resolve_join, LC. rewrite Forall_forall in DP. now apply resolve_ordinary, plain_ordinary, DP.
Qed.
Lemma page_name entry : plain_name entry -> plain_name (entry ++ lit ".html").
Proof.
  intros (P1 & P2 & P3 & P4). assert (length (lit ".html") = 5%nat) as L5 by reflexivity. assert (length (lit "..") = 2%nat) as L2 by reflexivity. assert (length (lit ".") = 1%nat) as L1 by reflexivity. repeat split.
  - intro Q. apply app_eq_nil in Q as [_ Q]. discriminate.
  - intro Q. apply (f_equal (@length Z)) in Q. rewrite app_length, L5, L1 in Q. lia.
  - intro Q. apply (f_equal (@length Z)) in Q. rewrite app_length, L5, L2 in Q. lia.
  - intro Q. apply in_app_iff in Q as [Q|Q]; [now apply P4|]. vm_compute in Q. intuition discriminate.
Qed.
Lemma page_linked o there nj es pre fn i c out post : h_copied o = false -> staged es -> es = pre ++ EWrite (Some fn) i c out :: post -> i_fmt i = FHtml ->
  exists e D name, page_env_of cwd (replay (mkworld o there) pre) nj i = Ok e /\ leads H fn (D ++ [name]) /\
    let there' F := there F = true \/ a_copy H data (h_copy o) F in
    let may F := exists G, upto F G /\ (there F = true \/ a_copy H data (h_copy o) G \/ a_report H pre G) in
    Forall2 (linked H D there' may) (filter filled (h_styles (with_copies o))) (e_styles e) /\ Forall2 (linked H D there' may) (filter filled (h_scripts (with_copies o))) (e_scripts e).
Proof.
  intros HC ST E FI. destruct (leads_total H (i_base i)) as [D LD]. destruct (ST _ _ _ _ _ _ E) as ((j & J1 & J2) & entry & PE & T). rewrite FI in J2.
  assert (HS : html_setup_in pre = true) by (apply existsb_exists; exists (ESetup j); split; [exact J1|]; rewrite J2; reflexivity).
  set (w := replay (mkworld o there) pre). assert (WO : w_opts w = with_copies o) by (pose proof (replay_opts o pre HC there false) as RO; rewrite HS in RO; exact RO).
  destruct (uris_ok (w_there w) (i_base i) D (h_scripts (with_copies o)) LD) as (js & EJ & FJ). destruct (uris_ok (w_there w) (i_base i) D (h_styles (with_copies o)) LD) as (cs & ECs & FC).
  exists (mkenv (i_crumbs i) cs js nj), D, (entry ++ lit ".html"). split; [unfold page_env_of; rewrite WO, EJ; cbn [rbind]; rewrite ECs; reflexivity|].
  split.
  { assert (T' : target i entry = Some fn) by congruence. apply leads_iff. rewrite (leads_here cwd H LH). apply (target_leads cwd i entry fn _ T'). rewrite FI. apply leads_iff in LD. rewrite (leads_here cwd H LH) in LD. rewrite LD. now apply resolve_ordinary, plain_ordinary, page_name. }
  cbv zeta. cbn [e_styles e_scripts].
  assert (G : forall u v, (external u -> v = u) /\ (~ external u -> forall F, leads H u F -> (w_there w F = true -> leads D v F) /\ (w_there w F = false -> v = u)) ->
    linked H D (fun F => there F = true \/ a_copy H data (h_copy o) F)
      (fun F => exists G, upto F G /\ (there F = true \/ a_copy H data (h_copy o) G \/ a_report H pre G)) u v).
  { intros u v [X N]. split; [exact X|]. intros Q F LF. destruct (N Q F LF) as [N1 N2]. split.
    - intros [T0|CC]; apply N1; [now apply replay_there|]. apply a_copied in CC as (c' & CC & LC). apply comps in LC. subst F. now apply copies_there.
    - intro M. apply N2. destruct (w_there w F) eqn:TT; [|reflexivity]. exfalso. apply M. destruct (replay_grown o pre HC there false F TT) as [Q1|[(c' & CC & U)|(fn' & (i' & c'' & out' & WW) & U)]].
      + exists F. split; [exists []; now rewrite app_nil_r|now left].
      + exists (abs_comps cwd c'). split; [exact U|]. right. left. apply (copied_a o c'); [exact CC|now apply comps].
      + exists (abs_comps cwd fn'). split; [exact U|]. right. right. exists fn', i', c'', out'. split; [exact WW|now apply comps]. }
  split; (eapply Forall2_impl'; [exact G|]); [exact FC|exact FJ].
Qed.
Theorem page_links o there nj es pre fn i c out post : h_copied o = false -> staged es -> es = pre ++ EWrite (Some fn) i c out :: post -> i_fmt i = FHtml ->
  exists e D name, page_env_of cwd (replay (mkworld o there) pre) nj i = Ok e /\ leads H fn (D ++ [name]) /\
    furnished H D data (h_copy o) (h_styles o) (h_scripts o) (fun F => there F = true) pre e.
Proof.
  intros HC ST E FI. destruct (page_linked o there nj es pre fn i c out post HC ST E FI) as (e & D & name & PE & L & F1 & F2). exists e, D, name. split; [exact PE|]. split; [exact L|]. destruct (with_copies_wanted o) as [W1 W2]. split.
  - exists (h_styles (with_copies o)), (filter filled (h_styles (with_copies o))). split; [exact W1|]. split; [apply nonempty_filter|exact F1].
  - exists (h_scripts (with_copies o)), (filter filled (h_scripts (with_copies o))). split; [exact W2|]. split; [apply nonempty_filter|exact F2].
Qed.

(** ** The copies are found *)
Lemma Forall2_pick {A B} (R : A -> B -> Prop) l m x : Forall2 R l m -> In x l -> exists y, In y m /\ R x y.
Proof. induction 1 as [|a b l m HR F IH]; intro I; [destruct I|]. destruct I as [->|I]; [exists b; split; [now left|exact HR]|]. destruct (IH I) as (y & Y1 & Y2). exists y. split; [now right|exact Y2]. Qed.
Lemma absolute_same d d' q F : leads d (47 :: q) F -> leads d' (47 :: q) F.
Proof. intro L. apply leads_iff in L. apply leads_iff. exact L. Qed.
Lemma join_shape dir n : dir <> [] -> plain_name n -> exists q, join dir n = dir ++ q /\ (q = n /\ (exists d, dir = d ++ [47]) \/ exists q', q = 47 :: q').
Proof.
  intros ND (N1 & _ & _ & N4). unfold join. assert (AB : is_abs n = false) by (destruct n as [|c n]; [reflexivity|]; unfold is_abs; cbn [starts_with]; destruct (Z.eqb_spec 47 c) as [<-|]; [exfalso; apply N4; now left|reflexivity]). rewrite AB.
  destruct dir as [|x d]; [now destruct ND|]. set (dd := x :: d) in *. destruct (ends_with [47] dd) eqn:E.
  - apply ends_iff in E. exists n. split; [reflexivity|]. left. split; [reflexivity|]. destruct E as [b E]. now exists b.
  - exists (47 :: n). split; [reflexivity|]. right. now exists n.
Qed.
Lemma prefix_join p dir n : ~ In 47 p -> dir <> [] -> plain_name n -> (exists s, join dir n = p ++ s) -> exists s, dir = p ++ s.
Proof.
  intros NP ND PN [s E]. destruct (join_shape dir n ND PN) as (q & J & K). rewrite J in E. clear J.
  assert (G : forall a b (x y : str), a ++ b = x ++ y -> (exists s, a = x ++ s) \/ exists c t, x = a ++ c :: t /\ b = (c :: t) ++ y).
  { clear. induction a as [|u a IH]; intros b x y E.
    - destruct x as [|c t]; [left; now exists []|right]. exists c, t. now split.
    - destruct x as [|c t]; [left; now eexists|]. cbn [app] in E. injection E as <- E. destruct (IH _ _ _ E) as [[s ->]|(c & t' & -> & ->)]; [left; now exists s|right; now exists c, t']. }
  destruct (G _ _ _ _ E) as [R|(c & t & -> & Q)]; [exact R|]. exfalso. apply NP. destruct K as [[-> [d ->]]|[q' ->]].
  - apply in_or_app. left. apply in_or_app. right. now left.
  - cbn [app] in Q. injection Q as <- _. apply in_or_app. right. now left.
Qed.
Theorem page_copies o there nj es pre fn i c out post dir C : h_copied o = false -> staged es -> es = pre ++ EWrite (Some fn) i c out :: post -> i_fmt i = FHtml ->
  h_copy o = Some dir -> dir <> [] -> (forall p s, In p [lit "http:"; lit "https:"; lit "file:"] -> dir <> p ++ s) -> leads H dir C ->
  exists e D name, page_env_of cwd (replay (mkworld o there) pre) nj i = Ok e /\ leads H fn (D ++ [name]) /\
    forall n, In n data -> (has_suffix (lit ".css") n -> exists v, In v (e_styles e) /\ leads D v (C ++ [n])) /\ (has_suffix (lit ".js") n -> exists v, In v (e_scripts e) /\ leads D v (C ++ [n])).
Proof.
  intros HC ST E FI HD ND NU LC. destruct (page_linked o there nj es pre fn i c out post HC ST E FI) as (e & D & name & PE & L & F1 & F2). exists e, D, name. split; [exact PE|]. split; [exact L|].
  assert (K : forall n ks vs, In n data -> In (join dir n) ks -> Forall2 (linked H D (fun F => there F = true \/ a_copy H data (h_copy o) F) (fun F => exists G, upto F G /\ (there F = true \/ a_copy H data (h_copy o) G \/ a_report H pre G))) (filter filled ks) vs -> exists v, In v vs /\ leads D v (C ++ [n])).
  { intros n ks vs I IK FF. assert (PN : plain_name n) by (rewrite Forall_forall in DP; now apply DP).
    assert (LN : leads H (join dir n) (C ++ [n])) by (apply leads_iff; pose proof LC as LC'; apply leads_iff in LC'; rewrite resolve_join, LC'; now apply resolve_ordinary, plain_ordinary).
    assert (NE : filled (join dir n) = true) by (destruct (join_shape dir n ND PN) as (q & -> & _); destruct dir; [now destruct ND|reflexivity]).
    assert (IF : In (join dir n) (filter filled ks)) by (apply filter_In; now split). destruct (Forall2_pick _ _ _ _ FF IF) as (v & IV & [V1 V2]). exists v. split; [exact IV|].
    destruct (starts_with (lit "http:") (join dir n) || starts_with (lit "https:") (join dir n) || starts_with (lit "file:") (join dir n) || starts_with (lit "/") (join dir n)) eqn:EX.
    - apply external_iff in EX. rewrite (V1 EX). destruct EX as (p & s & IP & EP). cbn [In] in IP.
      assert (Q : forall p', In p' [lit "http:"; lit "https:"; lit "file:"] -> ~ In 47 p' -> p' = p -> False).
      { intros p' I1 I2 ->. destruct (prefix_join p dir n I2 ND PN (ex_intro _ s EP)) as [s' E']. exact (NU p s' I1 E'). }
      destruct IP as [P|[P|[P|[P|[]]]]].
      + exfalso. apply (Q _ (or_introl eq_refl)); [vm_compute; intuition discriminate|exact P].
      + exfalso. apply (Q _ (or_intror (or_introl eq_refl))); [vm_compute; intuition discriminate|exact P].
      + exfalso. apply (Q _ (or_intror (or_intror (or_introl eq_refl)))); [vm_compute; intuition discriminate|exact P].
      + subst p. rewrite EP in LN |- *. exact (absolute_same _ _ _ _ LN).
    - assert (NX : ~ external (join dir n)) by (intro X; apply external_iff in X; rewrite X in EX; discriminate EX). apply (V2 NX _ LN). right. exists dir, C, n. now repeat split. }
  assert (AC : active o = Some dir) by (unfold active; rewrite HD; destruct dir; [now destruct ND|reflexivity]).
  intros n I. assert (PN : plain_name n) by (rewrite Forall_forall in DP; now apply DP).
  assert (J : has_suffix (lit ".js") (join dir n) <-> has_suffix (lit ".js") n) by (apply suffix_join; [vm_compute; intuition discriminate|discriminate|exact PN]).
  assert (S : has_suffix (lit ".css") (join dir n) <-> has_suffix (lit ".css") n) by (apply suffix_join; [vm_compute; intuition discriminate|discriminate|exact PN]).
  assert (IC : In (join dir n) (copies data dir)) by (unfold copies; now apply in_map).
  split; intro X.
  - apply (K n _ _ I) with (2 := F1). unfold with_copies. rewrite AC. cbn [h_styles]. apply in_or_app. left. apply filter_In. split; [exact IC|]. apply andb_true_iff. split; [|apply ends_iff; now apply S].
    apply negb_true_iff. destruct (ends_with (lit ".js") (join dir n)) eqn:EJ; [|reflexivity]. exfalso. apply ends_iff, J in EJ. now apply (js_not_css n).
  - apply (K n _ _ I) with (2 := F2). unfold with_copies. rewrite AC. cbn [h_scripts]. apply in_or_app. left. apply filter_In. split; [exact IC|]. apply ends_iff. now apply J.
Qed.
End World.

(** ** The head of a page *)
Lemma head_of_app a r : (forall t, In t a -> t <> Close (lit "head")) -> head_of (a ++ Close (lit "head") :: r) = a.
Proof.
  induction a as [|t a IH]; intro N; [reflexivity|]. cbn [app head_of]. assert (NT := N t (or_introl eq_refl)). rewrite IH by (intros; apply N; now right). destruct t; try reflexivity.
  destruct (seqb tag (lit "head")) eqn:E; [|reflexivity]. apply seqb_eq in E. subst tag. now destruct NT.
Qed.
Definition refs (t : html) : list str := match t with Single n a => if seqb n (lit "link") then match attribute a (lit "href") with Some v => [v] | None => [] end else [] | _ => [] end.
Definition srcs (t : html) : list str := match t with Open n a => if seqb n (lit "script") then match attribute a (lit "src") with Some v => [v] | None => [] end else [] | _ => [] end.
Lemma head_refs e title at_ rest : let page := Prolog :: Open (lit "html") at_ :: head_html e title ++ rest in
  sheets page = e_styles e /\ scripts page = (if e_nojquery e then [] else [jquery]) ++ e_scripts e.
Proof.
  intro page. set (body := el "title" [] (txt title) ++
    map (fun ss => Single (lit "link") [(lit "rel", lit "stylesheet"); (lit "type", lit "text/css"); (lit "href", ss)]) (e_styles e) ++
    (if e_nojquery e then [] else el "script" [(lit "type", lit "text/javascript"); (lit "src", jquery); (lit "type", lit "text/javascript")] []) ++
    flat_map (fun js => el "script" [(lit "type", lit "text/javascript"); (lit "src", js)] []) (e_scripts e)).
  assert (HP : head_of page = [Prolog; Open (lit "html") at_; Open (lit "head") []] ++ body).
  { assert (EP : page = ([Prolog; Open (lit "html") at_; Open (lit "head") []] ++ body) ++ Close (lit "head") :: rest) by (unfold page; assert (HH : head_html e title = Open (lit "head") [] :: body ++ [Close (lit "head")]) by reflexivity; rewrite HH; clear; clearbody body; cbn [app]; rewrite <- !app_assoc; reflexivity).
    rewrite EP. apply head_of_app. intros t I. apply in_app_iff in I as [I|I]; [cbn [In] in I; destruct I as [<-|[<-|[<-|[]]]]; discriminate|]. unfold body in I. rewrite !in_app_iff in I. destruct I as [I|[I|[I|I]]].
    - unfold el, txt in I. cbn [app In] in I. destruct I as [<-|[<-|[<-|[]]]]; discriminate.
    - apply in_map_iff in I as (x & <- & _). discriminate.
    - destruct (e_nojquery e); [destruct I|]. unfold el in I. cbn [app In] in I. destruct I as [<-|[<-|[]]]; discriminate.
    - apply in_flat_map in I as (x & _ & I). unfold el in I. cbn [app In] in I. destruct I as [<-|[<-|[]]]; discriminate. }
  unfold sheets, scripts. fold refs srcs. rewrite HP. rewrite !flat_map_app. unfold body. rewrite !flat_map_app.
  assert (A1 : flat_map refs [Prolog; Open (lit "html") at_; Open (lit "head") []] = []) by reflexivity. assert (A2 : flat_map srcs [Prolog; Open (lit "html") at_; Open (lit "head") []] = []) by reflexivity.
  assert (B1 : flat_map refs (el "title" [] (txt title)) = []) by reflexivity. assert (B2 : flat_map srcs (el "title" [] (txt title)) = []) by reflexivity. rewrite A1, A2, B1, B2. cbn [app]. split.
  - assert (C : flat_map refs (map (fun ss => Single (lit "link") [(lit "rel", lit "stylesheet"); (lit "type", lit "text/css"); (lit "href", ss)]) (e_styles e)) = e_styles e) by (clear; induction (e_styles e) as [|x l IH]; [reflexivity|]; cbn [map flat_map]; rewrite IH; reflexivity).
    rewrite C. assert (E1 : flat_map refs (if e_nojquery e then [] else el "script" [(lit "type", lit "text/javascript"); (lit "src", jquery); (lit "type", lit "text/javascript")] []) = []) by (destruct (e_nojquery e); reflexivity). rewrite E1.
    assert (E2 : flat_map refs (flat_map (fun js => el "script" [(lit "type", lit "text/javascript"); (lit "src", js)] []) (e_scripts e)) = []) by (clear; induction (e_scripts e) as [|x l IH]; [reflexivity|]; cbn [flat_map]; rewrite flat_map_app, IH; reflexivity).
    rewrite E2. now rewrite app_nil_r.
  - assert (C : flat_map srcs (map (fun ss => Single (lit "link") [(lit "rel", lit "stylesheet"); (lit "type", lit "text/css"); (lit "href", ss)]) (e_styles e)) = []) by (clear; induction (e_styles e) as [|x l IH]; [reflexivity|]; cbn [map flat_map]; rewrite IH; reflexivity).
    rewrite C. assert (E1 : flat_map srcs (if e_nojquery e then [] else el "script" [(lit "type", lit "text/javascript"); (lit "src", jquery); (lit "type", lit "text/javascript")] []) = if e_nojquery e then [] else [jquery]) by (destruct (e_nojquery e); reflexivity). rewrite E1.
    assert (E2 : flat_map srcs (flat_map (fun js => el "script" [(lit "type", lit "text/javascript"); (lit "src", js)] []) (e_scripts e)) = e_scripts e) by (clear; induction (e_scripts e) as [|x l IH]; [reflexivity|]; cbn [flat_map]; rewrite flat_map_app, IH; reflexivity).
    now rewrite E2.
Qed.

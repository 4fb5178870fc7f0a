(** Proofs about the options. *)
From Verif Require Import Base Change_Model Distdiff_Model Opts_Model Opts_Spec.
From Verif Require Distdiff_Spec Distdiff_Proofs Report_Model Report_Spec Report_Proofs Change_Report.

(** ** Words of --ignore *)
Lemma split_comma_at s : split_at 44 s = Report_Model.split_comma s.
Proof.
  induction s as [|c s IH]; [reflexivity|]. cbn [split_at Report_Model.split_comma]. rewrite <- IH.
  assert (HN : split_at 44 s <> []). { rewrite IH. apply Report_Proofs.comma_nonempty. }
  destruct (split_at 44 s); [contradiction|]. now destruct (c =? 44).
Qed.
Lemma lstrip_spec s : exists pre, s = pre ++ lstrip s /\ spaces pre /\ forall c u, lstrip s = c :: u -> ~ Distdiff_Spec.white c.
Proof.
  induction s as [|c s (pre & E & Hp & Hn)]; cbn [lstrip]; [exists []; repeat split; [constructor|discriminate]|].
  destruct (is_space c) eqn:Ec.
  - exists (c :: pre). split; [cbn [app]; now f_equal|]. split; [constructor; [now apply Distdiff_Proofs.space_white|assumption]|assumption].
  - exists []. split; [reflexivity|]. split; [constructor|]. intros c' u H. injection H as <- <-. rewrite <- Distdiff_Proofs.space_white, Ec. discriminate.
Qed.
Lemma lstrip_pre pre u : spaces pre -> (forall c v, u = c :: v -> ~ Distdiff_Spec.white c) -> lstrip (pre ++ u) = u.
Proof.
  intros Hp Hu. induction Hp as [|c pre Hc Hp IH]; cbn [app lstrip].
  - destruct u as [|c u]; [reflexivity|]. cbn [lstrip]. destruct (is_space c) eqn:E; [|reflexivity]. apply Distdiff_Proofs.space_white in E. exfalso; exact (Hu c u eq_refl E).
  - apply Distdiff_Proofs.space_white in Hc. now rewrite Hc.
Qed.
Lemma strip_iff s w : w <> [] ->
  (strip s = w <-> exists pre post, s = pre ++ w ++ post /\ spaces pre /\ spaces post /\
     (forall c w', w = c :: w' -> ~ Distdiff_Spec.white c) /\ (forall c w', w = w' ++ [c] -> ~ Distdiff_Spec.white c)).
Proof.
  intro Hw. unfold strip. split.
  - intros <-. destruct (lstrip_spec s) as (pre & E & Hp & Hn). destruct (Distdiff_Proofs.rstrip_spec (lstrip s)) as (post & E2 & Hq & Hl).
    exists pre, post. rewrite <- E2. repeat split; try assumption.
    + intros c w' H. rewrite H in E2. apply (Hn c (w' ++ post)). exact E2.
    + intros c w' H. exact (Hl w' c H).
  - intros (pre & post & -> & Hp & Hq & Hf & Hl). rewrite lstrip_pre; [|assumption|].
    + apply (Distdiff_Proofs.stripped_fun (w ++ post)); [apply Distdiff_Proofs.rstrip_spec|]. exists post. repeat split; [assumption|]. intros v c H. exact (Hl c v H).
    + intros c v H. destruct w as [|c0 w]; [contradiction|]. injection H as -> _. now apply (Hf c w).
Qed.
Lemma ignore_words_iff v w : In w (ignore_words v) <-> word_of v w.
Proof.
  unfold ignore_words, word_of. rewrite filter_In, in_map_iff, split_comma_at. split.
  - intros [(x & Hx & HI) HN]. destruct (seqb_spec w []) as [->|Hw]; [discriminate|]. apply Report_Proofs.split_comma_field in HI.
    apply (strip_iff x w Hw) in Hx as (pre & post & -> & H1 & H2 & H3 & H4). exists pre, post. auto 7.
  - intros (pre & post & HF & H1 & H2 & Hw & H3 & H4). split; [|destruct (seqb_spec w []); [contradiction|reflexivity]].
    exists (pre ++ w ++ post). split; [|now apply Report_Proofs.split_comma_field]. apply (strip_iff _ w Hw). exists pre, post. auto.
Qed.
Lemma attribute_iff s f : attribute_of s f <-> f = underscores s.
Proof.
  unfold attribute_of, underscores. split.
  - induction 1 as [|c d s f H _ IH]; [reflexivity|]. cbn [map]. rewrite <- IH. f_equal. destruct (Z.eqb_spec c 45); lia.
  - intros ->. induction s as [|c s IH]; cbn [map]; constructor; [destruct (Z.eqb_spec c 45); lia|assumption].
Qed.

(** ** What the actions set *)
Lemma truth_set n k f : truth (set_true n k) f = seqb f k || truth n f.
Proof.
  unfold truth, set_true. destruct (seqb_spec f k) as [->|H]; [now rewrite Change_Report.dget_dset_same|]. now rewrite Change_Report.dget_dset_other.
Qed.
Lemma truth_fold l : forall n f, truth (fold_left set_true l n) f = smem f l || truth n f.
Proof.
  induction l as [|k l IH]; intros n f; [reflexivity|]. cbn [fold_left]. rewrite IH, truth_set. cbn [smem existsb]. fold (smem f l). destruct (seqb f k), (smem f l); reflexivity.
Qed.
Lemma dget_fold_other l : forall n f, smem f l = false -> dget (fold_left set_true l n) f = dget n f.
Proof.
  induction l as [|k l IH]; intros n f H; [reflexivity|]. cbn [fold_left]. cbn [smem existsb] in H. apply orb_false_iff in H as [H1 H2]. rewrite IH by exact H2.
  unfold set_true. apply Change_Report.dget_dset_other. now apply seqb_neq.
Qed.
(** the attributes set to True by an occurrence *)
Definition sets (sp : optspec) (v : str) : list str :=
  match o_action sp with
  | StoreTrue => [o_dest sp]
  | CbIgnore => map (fun i => lit "ignore_" ++ underscores i) (ignore_words v)
  | CbLines => [lit "ignore_lines"; lit "ignore_absolute_lines"; lit "ignore_relative_lines"]
  | CbVersion => [lit "ignore_version"; lit "ignore_version_up"; lit "ignore_version_down"]
  | CbPlatform => [lit "ignore_platform"; lit "ignore_platform_up"; lit "ignore_platform_down"]
  | CbVerbose => [lit "verbose"; lit "show_unchanged"; lit "show_ignored"]
  | _ => []
  end.
(** the attributes given another value *)
Definition stores (sp : optspec) : list str :=
  match o_action sp with Store | Append => [o_dest sp] | CbIgnore => [lit "ignore"] | CbReport => [lit "reports"] | _ => [] end.
Lemma Ok_eq {A} (a b : A) : Ok a = Ok b -> a = b.
Proof. now injection 1. Qed.
Lemma fold_map {A} (g : A -> str) l n : fold_left (fun m i => set_true m (g i)) l n = fold_left set_true (map g l) n.
Proof. revert n. induction l as [|x l IH]; intro n; [reflexivity|]. cbn [fold_left map]. apply IH. Qed.
Lemma words_nil : ignore_words [] = [].
Proof. reflexivity. Qed.
Lemma truth_store n k v f : f <> k -> truth (dset n k v) f = truth n f.
Proof. intro H. unfold truth. now rewrite Change_Report.dget_dset_other. Qed.
Lemma act_truth sp v n n' f : act sp v n = Ok n' -> smem f (stores sp) = false -> truth n' f = smem f (sets sp v) || truth n f.
Proof.
  unfold act, sets, stores. destruct (o_action sp); intros H HS; cbn [smem existsb] in HS; rewrite ?orb_false_r, ?seqb_neq in HS.
  - injection H as <-. rewrite truth_set. cbn [smem existsb]. now rewrite orb_false_r.
  - injection H as <-. rewrite truth_store by assumption. reflexivity.
  - destruct (dget n (o_dest sp)) as [[| | | |]|]; try discriminate; injection H as <-; now rewrite truth_store.
  - destruct (seqb_spec v []) as [->|Hv]; [injection H as <-; reflexivity|].
    destruct (dget n (lit "ignore")) as [[| | | |]|]; try discriminate; cbn [rbind] in H; injection H as <-; rewrite fold_map, truth_fold, truth_store by assumption; reflexivity.
  - apply Ok_eq in H as <-. apply truth_fold.
  - apply Ok_eq in H as <-. apply truth_fold.
  - apply Ok_eq in H as <-. apply truth_fold.
  - apply Ok_eq in H as <-. apply truth_fold.
  - destruct (dget n (lit "reports")) as [[| | | |]|]; try discriminate; injection H as <-; now rewrite truth_store.
Qed.
Definition arg_of (o : occurrence) : str := match snd o with Some v => v | None => [] end.
Definition hits (p : list optspec) (f : str) (o : occurrence) : bool :=
  match find_opt p (fst o) with Some sp => smem f (sets sp (arg_of o)) | None => false end.
Lemma find_opt_In p s sp : find_opt p s = Some sp -> In sp p /\ In s (o_strings sp).
Proof. intro H. apply find_some in H as [H1 H2]. split; [assumption|]. now apply smem_In. Qed.
Lemma steps_truth p f : (forall sp, In sp p -> smem f (stores sp) = false) ->
  forall os n n', steps p os n = Ok n' -> truth n' f = existsb (hits p f) os || truth n f.
Proof.
  intro HC. induction os as [|o os IH]; intros n n' H; cbn [steps] in H; [injection H as <-; reflexivity|].
  destruct (step p o n) as [n1|] eqn:E; [|discriminate]. cbn [rbind] in H. rewrite (IH n1 n' H). cbn [existsb]. unfold step in E. unfold hits at 2.
  destruct (find_opt p (fst o)) as [sp|] eqn:EF; [|injection E as <-; reflexivity].
  rewrite (act_truth _ _ _ _ _ E); [|apply HC; now apply find_opt_In in EF as [? _]]. fold (arg_of o). destruct (smem f (sets sp (arg_of o))), (existsb (hits p f) os); reflexivity.
Qed.

(** ** The tables agree with the specification *)
(** the decidable form of [asks] for options without argument *)
Definition asks_b (s f : str) : bool :=
  (starts_with (lit "--") s && seqb f (underscores (skipn 2 s))) ||
  (seqb s (lit "--ignore-lines") && smem f [lit "ignore_absolute_lines"; lit "ignore_relative_lines"]) ||
  (seqb s (lit "--ignore-version") && smem f [lit "ignore_version_up"; lit "ignore_version_down"]) ||
  (seqb s (lit "--ignore-platform") && smem f [lit "ignore_platform_up"; lit "ignore_platform_down"]) ||
  (smem s [lit "-v"; lit "--verbose"] && smem f [lit "show_unchanged"; lit "show_ignored"]).
Lemma dashes s : starts_with (lit "--") s = true -> s = lit "--" ++ skipn 2 s.
Proof.
  cbn [lit starts_with]. destruct s as [|a [|b s]]; cbn [starts_with]; rewrite ?andb_false_r; try discriminate.
  intro H. apply andb_true_iff in H as [H1 H2]. apply andb_true_iff in H2 as [H2 _]. apply Z.eqb_eq in H1, H2. now rewrite <- H1, <- H2.
Qed.
Lemma asks_b_iff s f : asks_b s f = true <-> asks (s, None) f.
Proof.
  unfold asks_b. rewrite !orb_true_iff, !andb_true_iff, !smem_In, !seqb_eq. split.
  - intros [[[[[H1 H2]|[-> H]]|[-> H]]|[-> H]]|[H1 H2]].
    + rewrite (dashes s H1). apply asks_itself. now apply attribute_iff.
    + now apply asks_lines. + now apply asks_version. + now apply asks_platform. + now apply asks_verbose.
  - intro H. inversion H; subst; auto 10.
    left; left; left; left. split; [reflexivity|]. cbn [lit app skipn]. now apply attribute_iff.
Qed.
Definition flag_names (pr : program) : list str := lit "shallow" :: map fst (flags_of Distdiff).
(** one table entry: every option string is found, and sets the flags that it asks for *)
Definition entry_ok (p : list optspec) (fs : list str) (sp : optspec) : bool :=
  forallb (fun f => negb (smem f (stores sp))) fs &&
  match o_action sp with
  | CbIgnore => match o_strings sp with [s] => seqb s (lit "--ignore") | _ => false end
  | Store | Append | CbReport => true
  | _ => forallb (fun s => forallb (fun f => Bool.eqb (asks_b s f) (smem f (sets sp []))) fs) (o_strings sp)
  end.
Lemma tables_ok pr : forallb (entry_ok (parser_of pr) (flag_names pr)) (parser_of pr) = true.
Proof. destruct pr; vm_compute; reflexivity. Qed.
Lemma hits_asks pr o f : usable (parser_of pr) o = true -> In f (flag_names pr) -> (hits (parser_of pr) f o = true <-> asks o f).
Proof.
  intros HU HF. unfold usable in HU. unfold hits. destruct o as [s a]. cbn [fst snd] in *. destruct (find_opt (parser_of pr) s) as [sp|] eqn:E; [|discriminate].
  apply find_opt_In in E as [HI HS]. pose proof (tables_ok pr) as HT. rewrite forallb_forall in HT. specialize (HT sp HI). unfold entry_ok in HT. apply andb_true_iff in HT as [_ HT].
  apply eqb_prop in HU. unfold sets in *. unfold arg_of. cbn [snd]. destruct (o_action sp) eqn:EA; cbn [takes_arg] in HU; destruct a as [v|]; try discriminate HU;
    try (rewrite forallb_forall in HT; specialize (HT s HS); rewrite forallb_forall in HT; specialize (HT f HF); apply eqb_prop in HT; rewrite <- HT; apply asks_b_iff).
  - split; [discriminate|]. intro H. inversion H; subst. exfalso.
    revert HI HS EA. clear. destruct pr; cbn; intuition (subst; cbn in *; intuition discriminate).
  - split; [discriminate|]. intro H. inversion H; subst. exfalso.
    revert HI HS EA. clear. destruct pr; cbn; intuition (subst; cbn in *; intuition discriminate).
  - destruct (o_strings sp) as [|s' [|]] eqn:ES; try discriminate. destruct HS as [<-|[]]. apply seqb_eq in HT as ->. rewrite smem_In, in_map_iff. split.
    + intros (w & <- & Hw). apply ignore_words_iff in Hw. apply (asks_ignore v w); [assumption|now apply attribute_iff].
    + intro H. inversion H as [| | | | |v' w g Hw Hg]; subst. exists w. apply attribute_iff in Hg as ->. split; [reflexivity|now apply ignore_words_iff].
  - split; [discriminate|]. intro H. inversion H; subst. exfalso.
    revert HI HS EA. clear. destruct pr; cbn; intuition (subst; cbn in *; intuition discriminate).
Qed.
Lemma clean pr f sp : In f (flag_names pr) -> In sp (parser_of pr) -> smem f (stores sp) = false.
Proof.
  intros HF HI. pose proof (tables_ok pr) as HT. rewrite forallb_forall in HT. specialize (HT sp HI). unfold entry_ok in HT. apply andb_true_iff in HT as [HT _].
  rewrite forallb_forall in HT. specialize (HT f HF). now destruct (smem f (stores sp)).
Qed.
Lemma defaults_off pr f : In f (flag_names pr) -> truth (defaults (parser_of pr)) f = false.
Proof.
  intro H. assert (HA : forallb (fun g => negb (truth (defaults (parser_of pr)) g)) (flag_names pr) = true) by (destruct pr; vm_compute; reflexivity).
  rewrite forallb_forall in HA. specialize (HA f H). now destruct (truth _ f).
Qed.
Lemma parsed_steps p k os n : parse_args p k os = Parsed n -> Forall (fun o => usable p o = true) os /\ steps p os (defaults p) = Ok n.
Proof.
  unfold parse_args. destruct (forallb (usable p) os) eqn:E; [|discriminate]. destruct (k =? 2)%nat; [|discriminate]. cbn [andb negb]. intro H. split; [now apply Forall_forall, forallb_forall|].
  destruct (steps p os (defaults p)); [now injection H as ->|discriminate].
Qed.
Lemma parsed_flags pr k os n f : parse_args (parser_of pr) k os = Parsed n -> In f (flag_names pr) ->
  (truth n f = true <-> exists o, In o os /\ asks o f).
Proof.
  intros H HF. apply parsed_steps in H as [HU H]. rewrite (steps_truth (parser_of pr) f (fun sp => clean pr f sp HF) os _ _ H), (defaults_off pr f HF), orb_false_r, existsb_exists.
  rewrite Forall_forall in HU. split; intros (o & Ho & HH); exists o; (split; [assumption|]); apply (hits_asks pr o f (HU o Ho) HF); assumption.
Qed.

(** ** Collecting options *)
Lemma act_other sp v n n' f : act sp v n = Ok n' -> smem f (stores sp) = false -> smem f (sets sp v) = false -> dget n' f = dget n f.
Proof.
  unfold act, sets, stores. destruct (o_action sp); intros H HS HT; cbn [smem existsb] in HS; rewrite ?orb_false_r, ?seqb_neq in HS.
  - apply Ok_eq in H as <-. cbn [smem existsb] in HT. rewrite orb_false_r, seqb_neq in HT. now apply Change_Report.dget_dset_other.
  - apply Ok_eq in H as <-. now apply Change_Report.dget_dset_other.
  - destruct (dget n (o_dest sp)) as [[| | | |]|]; try discriminate; apply Ok_eq in H as <-; now apply Change_Report.dget_dset_other.
  - destruct (seqb_spec v []) as [->|Hv]; [apply Ok_eq in H as <-; reflexivity|].
    destruct (dget n (lit "ignore")) as [[| | | |]|]; try discriminate; cbn [rbind] in H; apply Ok_eq in H as <-; rewrite fold_map, dget_fold_other by assumption; now apply Change_Report.dget_dset_other.
  - apply Ok_eq in H as <-. now apply dget_fold_other.
  - apply Ok_eq in H as <-. now apply dget_fold_other.
  - apply Ok_eq in H as <-. now apply dget_fold_other.
  - apply Ok_eq in H as <-. now apply dget_fold_other.
  - destruct (dget n (lit "reports")) as [[| | | |]|]; try discriminate; apply Ok_eq in H as <-; now apply Change_Report.dget_dset_other.
Qed.
Definition dashed (f : str) : str := lit "--" ++ map (fun c => if c =? 95 then 45 else c) f.
Definition is_append (a : action) : bool := match a with Append => true | _ => false end.
Definition is_ignore (a : action) : bool := match a with CbIgnore => true | _ => false end.
(** one table entry and a collecting attribute *)
Definition list_entry_ok (f : str) (sp : optspec) : bool :=
  if is_append (o_action sp) && seqb (o_dest sp) f then forallb (fun s => seqb s (dashed f)) (o_strings sp)
  else negb (smem f (stores sp)) && (is_ignore (o_action sp) || negb (smem f (sets sp []))) &&
       forallb (fun s => negb (seqb s (dashed f))) (o_strings sp).
Definition list_names := [lit "ignore_jar_entry"; lit "ignore_manifest_key"; lit "ignore_filenames"].
Lemma list_tables_ok pr f : In f list_names -> forallb (list_entry_ok f) (parser_of pr) = true.
Proof. intros [<-|[<-|[<-|[]]]]; destruct pr; vm_compute; reflexivity. Qed.
Lemma sets_arg sp v : is_ignore (o_action sp) = false -> sets sp v = sets sp [].
Proof. unfold sets. now destruct (o_action sp). Qed.
Lemma ignored_free v f : In f list_names -> (forall w, word_of v w -> attribute_of (lit "ignore-" ++ w) f -> False) ->
  smem f (map (fun i => lit "ignore_" ++ underscores i) (ignore_words v)) = false.
Proof.
  intros HF H. destruct (smem f _) eqn:E; [|reflexivity]. exfalso. apply smem_In, in_map_iff in E as (w & <- & Hw). apply ignore_words_iff in Hw. apply (H w Hw). apply attribute_iff. reflexivity.
Qed.
Lemma steps_list pr f : In f list_names -> forall os n n', Forall (fun o => usable (parser_of pr) o = true) os ->
  (forall v w, In (lit "--ignore", Some v) os -> word_of v w -> attribute_of (lit "ignore-" ++ w) f -> False) ->
  steps (parser_of pr) os n = Ok n' ->
  (forall l, dget n f = Some (VList l) -> dget n' f = Some (VList (l ++ given f os))) /\
  (existsb (fun sp => is_append (o_action sp) && seqb (o_dest sp) f) (parser_of pr) = false -> dget n f = None -> dget n' f = None).
Proof.
  intro HF. induction os as [|o os IH]; intros n n' HU HS H; cbn [steps] in H.
  { apply Ok_eq in H as <-. split; [|auto]. intros l E. cbn [given]. now rewrite app_nil_r. }
  destruct (step (parser_of pr) o n) as [n1|] eqn:E; [|discriminate]. cbn [rbind] in H. inversion HU as [|x y HU1 HU2]; subst x y.
  destruct (IH n1 n' HU2 (fun v w HI => HS v w (or_intror HI)) H) as [IH1 IH2]. clear IH.
  unfold step in E. unfold usable in HU1. destruct o as [s a]. cbn [fst snd] in *. destruct (find_opt (parser_of pr) s) as [sp|] eqn:EF; [|discriminate].
  apply find_opt_In in EF as [HI HIs]. pose proof (list_tables_ok pr f HF) as HT. rewrite forallb_forall in HT. specialize (HT sp HI). unfold list_entry_ok in HT. apply eqb_prop in HU1.
  destruct (is_append (o_action sp) && seqb (o_dest sp) f) eqn:EA.
  - rewrite forallb_forall in HT. specialize (HT s HIs). apply seqb_eq in HT. apply andb_true_iff in EA as [EA ED]. apply seqb_eq in ED. destruct (o_action sp) eqn:EC; try discriminate.
    destruct a as [v|]; [|discriminate]. split.
    + intros l HG. cbn [given]. rewrite HT. unfold dashed at 1. rewrite seqb_refl. unfold act in E. rewrite EC, ED, HG in E. apply Ok_eq in E as <-.
      rewrite (IH1 (l ++ [v])) by apply Change_Report.dget_dset_same. now rewrite <- app_assoc.
    + intros HX. exfalso. assert (HY : existsb (fun sp0 => is_append (o_action sp0) && seqb (o_dest sp0) f) (parser_of pr) = true); [|congruence]. apply existsb_exists. exists sp. split; [assumption|]. now rewrite EC, ED, seqb_refl.
  - apply andb_true_iff in HT as [HT HT3]. apply andb_true_iff in HT as [HT1 HT2]. rewrite forallb_forall in HT3. specialize (HT3 s HIs).
    assert (HD : dget n1 f = dget n f).
    { apply (act_other sp _ _ _ _ E); [now destruct (smem f (stores sp))|]. destruct (is_ignore (o_action sp)) eqn:EI.
      - destruct (o_action sp) eqn:EC; try discriminate. destruct a as [v|]; [|discriminate]. unfold sets. rewrite EC. apply ignored_free; [assumption|]. intros w Hw HA. apply (HS v w); [|assumption..].
        left. f_equal. pose proof (tables_ok pr) as HK. rewrite forallb_forall in HK. specialize (HK sp HI). unfold entry_ok in HK. rewrite EC in HK. apply andb_true_iff in HK as [_ HK].
        destruct (o_strings sp) as [|s' [|]]; try discriminate. destruct HIs as [<-|[]]. now apply seqb_eq in HK.
      - rewrite sets_arg by assumption. cbn [orb] in HT2. now destruct (smem f (sets sp [])). }
    assert (HG : given f ((s, a) :: os) = given f os).
    { cbn [given]. destruct a as [v|]; [|reflexivity]. fold (dashed f). now destruct (seqb s (dashed f)). }
    split; [intros l Hl; rewrite (IH1 l) by (now rewrite HD); do 3 f_equal; symmetry; exact HG|intros HX HN; apply IH2; [assumption|now rewrite HD]].
Qed.
Lemma parsed_list pr k os n f : parse_args (parser_of pr) k os = Parsed n -> sensible os -> In f list_names ->
  dget n f = if smem f (map fst (lists_of pr)) then Some (VList (given f os)) else None.
Proof.
  intros H HS HF. apply parsed_steps in H as [HU H].
  destruct (steps_list pr f HF os _ _ HU (fun v w HI HW HA => HS v w f HI HW HF HA) H) as [H1 H2].
  destruct HF as [<-|[<-|[<-|[]]]]; destruct pr; first [rewrite (H1 [] eq_refl); reflexivity|now rewrite (H2 eq_refl eq_refl)].
Qed.
Lemma given_absent pr os f : Forall (fun o => usable (parser_of pr) o = true) os -> In f list_names -> smem f (map fst (lists_of pr)) = false -> given f os = [].
Proof.
  intros HU HF HN. induction HU as [|[s a] os HU _ IH]; [reflexivity|]. cbn [given]. destruct a as [v|]; [|exact IH]. destruct (seqb s _) eqn:E; [|exact IH]. exfalso. apply seqb_eq in E. subst s.
  unfold usable in HU. cbn [fst snd] in HU. revert HU HN. clear -HF. destruct HF as [<-|[<-|[<-|[]]]]; destruct pr; vm_compute; discriminate.
Qed.
(** All flags and lists, whatever the program; what it does not offer is off. *)
Lemma options_spec pr k os n : parse_args (parser_of pr) k os = Parsed n -> sensible os -> exists o, options_of n = Ok o /\
  Forall (fun kf : str * (options -> bool) => snd kf o = true <-> exists oc, In oc os /\ asks oc (fst kf)) (flags_of Distdiff) /\
  Forall (fun kf : str * (options -> list str) => snd kf o = given (fst kf) os) (lists_of Distdiff).
Proof.
  intros H HS. pose proof (fun f => parsed_flags pr k os n f H) as HF. pose proof (fun f => parsed_list pr k os n f H HS) as HL.
  apply parsed_steps in H as [HU _].
  unfold options_of, as_list. rewrite !HL by (cbn [In list_names]; tauto).
  assert (HA : forall (f : str), In f list_names -> match (if smem f (map fst (lists_of pr)) then Some (VList (given f os)) else None) with None => Ok [] | Some (VList l) => Ok l | Some (VStr s) => Ok (map (fun c => [c]) s) | Some _ => Err TypeError end =
    Ok (given f os)). { intros f Hf. destruct (smem f _) eqn:E; [reflexivity|]. now rewrite (given_absent pr os f HU Hf E). }
  rewrite !HA by (cbn [In list_names]; tauto). cbn [rbind]. eexists. split; [reflexivity|]. split.
  - assert (HG : forall kf : str * (options -> bool), In kf (flags_of Distdiff) -> In (fst kf) (flag_names pr)) by (intros kf Hk; unfold flag_names; right; now apply in_map).
    apply Forall_forall. intros kf Hk. rewrite <- (HF (fst kf) (HG kf Hk)). clear -Hk. revert kf Hk. apply Forall_forall.
    cbn [flags_of class_flags jar_flags dist_flags app]; repeat (constructor; [reflexivity|]); constructor.
  - clear. cbn [lists_of jar_lists dist_lists app]; repeat (constructor; [reflexivity|]); constructor.
Qed.

(** ** Acceptance *)
Definition usable_b (p : list optspec) (so : str * bool) : bool := usable p (fst so, if snd so then Some [] else None).
Lemma usable_arg p s a : usable p (s, a) = usable_b p (s, match a with Some _ => true | None => false end).
Proof. unfold usable_b, usable. cbn [fst snd]. now destruct a. Qed.
Definition all_strings (p : list optspec) : list (str * bool) := concat (map (fun sp => map (fun s => (s, takes_arg (o_action sp))) (o_strings sp)) p).
Lemma offered_usable pr oc : offered pr oc <-> usable (parser_of pr) oc = true.
Proof.
  destruct oc as [s a]. unfold offered. rewrite usable_arg. cbn [fst snd]. generalize (match a with Some _ => true | None => false end). clear a. intro b. split.
  - intro H. assert (HA : forallb (usable_b (parser_of pr)) (offers pr) = true) by (destruct pr; vm_compute; reflexivity). rewrite forallb_forall in HA. now apply HA.
  - unfold usable_b, usable. cbn [fst snd]. destruct (find_opt (parser_of pr) s) as [sp|] eqn:E; [|discriminate]. intro H. apply eqb_prop in H. apply find_opt_In in E as [HI HS].
    assert (HB : takes_arg (o_action sp) = b) by (destruct b; congruence). clear H.
    assert (HA : forallb (fun so => existsb (fun so' => seqb (fst so) (fst so') && Bool.eqb (snd so) (snd so')) (offers pr)) (all_strings (parser_of pr)) = true) by (destruct pr; vm_compute; reflexivity).
    rewrite forallb_forall in HA. specialize (HA (s, b)). assert (HX : In (s, b) (all_strings (parser_of pr))).
    { unfold all_strings. apply in_concat. exists (map (fun s => (s, takes_arg (o_action sp))) (o_strings sp)). split; [now apply (in_map (fun sp => map (fun s => (s, takes_arg (o_action sp))) (o_strings sp)))|]. apply in_map_iff. exists s. now rewrite HB. }
    apply HA in HX. apply existsb_exists in HX as ([s' b'] & HX & HE). cbn [fst snd] in HE. apply andb_true_iff in HE as [H1 H2]. apply seqb_eq in H1 as ->. apply eqb_prop in H2 as ->. exact HX.
Qed.

(** Attributes that an action appends to *)
Definition listish (n : namespace) (f : str) : Prop := match dget n f with None | Some VNone | Some (VList _) => True | _ => False end.
Definition strictly (n : namespace) (f : str) : Prop := match dget n f with None | Some (VList _) => True | _ => False end.
Definition grows : list str := [lit "ignore"; lit "html_stylesheets"; lit "html_javascripts"] ++ list_names.
Definition inv (n : namespace) : Prop := Forall (listish n) grows /\ strictly n (lit "reports").
Definition grow_ok (sp : optspec) : bool :=
  match o_action sp with
  | Append => smem (o_dest sp) grows
  | Store => negb (smem (o_dest sp) (lit "reports" :: grows))
  | CbIgnore => true
  | CbReport => true
  | _ => forallb (fun f => negb (smem f (sets sp []))) (lit "reports" :: grows)
  end.
Lemma grow_tables pr : forallb grow_ok (parser_of pr) = true.
Proof. destruct pr; vm_compute; reflexivity. Qed.
Lemma inv_set n k v : inv n -> (match v with VList _ => True | _ => ~ In k (lit "reports" :: grows) end) -> inv (dset n k v).
Proof.
  intros [H1 H2] HV. assert (HC : forall f, In f (lit "reports" :: grows) -> (f = k /\ exists l, v = VList l) \/ f <> k).
  { intros f Hf. destruct (seqb_spec f k) as [->|HN]; [left|now right]. split; [reflexivity|]. destruct v; try contradiction. now exists l. }
  split.
  - rewrite Forall_forall in *. intros f Hf. unfold listish. destruct (HC f (or_intror Hf)) as [[-> [l ->]]|HN]; [now rewrite Change_Report.dget_dset_same|]. rewrite Change_Report.dget_dset_other by assumption. now apply H1.
  - unfold strictly. destruct (HC _ (or_introl eq_refl)) as [[<- [l ->]]|HN]; [now rewrite Change_Report.dget_dset_same|]. now rewrite Change_Report.dget_dset_other.
Qed.
Lemma inv_fold l : forall n, inv n -> (forall f, In f l -> ~ In f (lit "reports" :: grows)) -> inv (fold_left set_true l n).
Proof. induction l as [|k l IH]; intros n HN HF; [exact HN|]. cbn [fold_left]. apply IH; [|intros f Hf; apply HF; now right]. apply inv_set; [exact HN|]. apply HF. now left. Qed.
Lemma inv_act pr sp v n : In sp (parser_of pr) -> inv n -> (o_action sp = CbIgnore -> forall f, In f (map (fun i => lit "ignore_" ++ underscores i) (ignore_words v)) -> ~ In f list_names) ->
  exists n', act sp v n = Ok n' /\ inv n'.
Proof.
  intros HI HN HV. pose proof (grow_tables pr) as HT. rewrite forallb_forall in HT. specialize (HT sp HI). unfold grow_ok in HT. unfold act.
  assert (HS : forall l, forallb (fun f => negb (smem f l)) (lit "reports" :: grows) = true -> exists n', Ok (fold_left set_true l n) = Ok n' /\ inv n').
  { intros l Hl. eexists. split; [reflexivity|]. apply inv_fold; [exact HN|]. intros f Hf Hg. rewrite forallb_forall in Hl. specialize (Hl f Hg). apply negb_true_iff in Hl. apply smem_In in Hf. congruence. }
  unfold sets in HT. destruct (o_action sp) eqn:EA.
  - exact (HS [o_dest sp] HT).
  - eexists. split; [reflexivity|]. apply inv_set; [exact HN|]. apply negb_true_iff in HT. intro Hf. apply smem_In in Hf. congruence.
  - apply smem_In in HT. destruct HN as [H1 H2]. pose proof H1 as H3. rewrite Forall_forall in H3. specialize (H3 _ HT). unfold listish in H3.
    destruct (dget n (o_dest sp)) as [[| | | |l]|]; try contradiction; (eexists; split; [reflexivity|apply inv_set; [split; assumption|exact I]]).
  - destruct (seqb v []); [now exists n|]. pose proof HN as [H1 H2]. rewrite Forall_forall in H1. pose proof (H1 (lit "ignore") (or_introl eq_refl)) as H3. unfold listish in H3.
    assert (HF : forall l, exists n', Ok (fold_left (fun m i => set_true m (lit "ignore_" ++ underscores i)) (ignore_words v) (dset n (lit "ignore") (VList (l ++ ignore_words v)))) = Ok n' /\ inv n').
    { intro l. eexists. split; [reflexivity|]. rewrite fold_map. apply inv_fold; [apply inv_set; [exact HN|exact I]|]. intros f Hf Hg. apply (HV eq_refl f Hf). apply in_map_iff in Hf as (w & <- & _).
      cbn [grows app list_names In] in Hg. destruct Hg as [E|[E|[E|[E|Hg]]]]; [discriminate E..|exact Hg]. }
    destruct (dget n (lit "ignore")) as [[| | | |l]|]; try contradiction; cbn [rbind]; apply HF.
  - apply (HS [lit "ignore_lines"; lit "ignore_absolute_lines"; lit "ignore_relative_lines"]). reflexivity.
  - apply (HS [lit "ignore_version"; lit "ignore_version_up"; lit "ignore_version_down"]). reflexivity.
  - apply (HS [lit "ignore_platform"; lit "ignore_platform_up"; lit "ignore_platform_down"]). reflexivity.
  - apply (HS [lit "verbose"; lit "show_unchanged"; lit "show_ignored"]). reflexivity.
  - pose proof HN as [H1 H2]. unfold strictly in H2. destruct (dget n (lit "reports")) as [[| | | |l]|]; try contradiction; (eexists; split; [reflexivity|apply inv_set; [exact HN|exact I]]).
Qed.
Lemma inv_defaults pr : inv (defaults (parser_of pr)).
Proof. destruct pr; (split; [repeat (constructor; [vm_compute; exact I|]); constructor|vm_compute; exact I]). Qed.
Lemma steps_ok pr os : Forall (fun o => usable (parser_of pr) o = true) os -> sensible os -> forall n, inv n -> exists n', steps (parser_of pr) os n = Ok n'.
Proof.
  intro HU. induction HU as [|[s a] os HU HF IH]; intros HS n HN; [now exists n|]. cbn [steps]. unfold step. unfold usable in HU. cbn [fst snd] in *. destruct (find_opt (parser_of pr) s) as [sp|] eqn:E; [|discriminate].
  apply find_opt_In in E as [HI HIs]. destruct (inv_act pr sp (match a with Some v => v | None => [] end) n HI HN) as (n1 & -> & HN1).
  - intros EA f Hf Hl. apply eqb_prop in HU. rewrite EA in HU. cbn [takes_arg] in HU. destruct a as [v|]; [|discriminate]. apply in_map_iff in Hf as (w & <- & Hw). apply ignore_words_iff in Hw.
    apply (HS v w (lit "ignore_" ++ underscores w)); [left|assumption|exact Hl|now apply attribute_iff].
    f_equal. pose proof (tables_ok pr) as HK. rewrite forallb_forall in HK. specialize (HK sp HI). unfold entry_ok in HK. rewrite EA in HK. apply andb_true_iff in HK as [_ HK].
    destruct (o_strings sp) as [|s' [|]]; try discriminate. destruct HIs as [<-|[]]. now apply seqb_eq in HK.
  - cbn [rbind]. apply IH; [|exact HN1]. intros v w f Hi. apply HS. now right.
Qed.
Lemma accepts pr os : Forall (offered pr) os -> sensible os -> exists n, parse_args (parser_of pr) 2 os = Parsed n.
Proof.
  intros HF HS. assert (HU : Forall (fun o => usable (parser_of pr) o = true) os) by (eapply Forall_impl; [|exact HF]; intros oc Ho; now apply offered_usable).
  destruct (steps_ok pr os HU HS _ (inv_defaults pr)) as [n Hn]. exists n. unfold parse_args. rewrite (proj2 (forallb_forall _ _) (proj1 (Forall_forall _ _) HU)). cbn [andb negb Nat.eqb]. now rewrite Hn.
Qed.
Lemma rejects pr k os : parse_args (parser_of pr) k os = Exits 2 <-> k <> 2%nat \/ exists oc, In oc os /\ ~ offered pr oc.
Proof.
  unfold parse_args. destruct (forallb (usable (parser_of pr)) os) eqn:E; cbn [andb].
  - destruct (Nat.eqb_spec k 2) as [->|HN]; cbn [negb].
    + split; [destruct (steps _ _ _); discriminate|]. intros [H|(oc & Ho & HN)]; [now destruct H|]. exfalso. apply HN, offered_usable. rewrite forallb_forall in E. now apply E.
    + split; auto.
  - split; [|reflexivity]. intros _. right. assert (HX : existsb (fun o => negb (usable (parser_of pr) o)) os = true).
    { clear -E. induction os as [|o os IH]; [discriminate|]. cbn [forallb existsb] in *. destruct (usable _ o); cbn [andb negb orb] in *; auto. }
    apply existsb_exists in HX as (oc & Ho & HN). exists oc. split; [exact Ho|]. rewrite offered_usable. now destruct (usable _ oc).
Qed.

(** ** The same and more options *)
Lemma options_ext o o' : Forall (fun kf : str * (options -> bool) => snd kf o = snd kf o') (flags_of Distdiff) -> Forall (fun kf : str * (options -> list str) => snd kf o = snd kf o') (lists_of Distdiff) -> o = o'.
Proof.
  intros H1 H2. destruct o, o'. unfold flags_of, class_flags, jar_flags, dist_flags, lists_of, jar_lists, dist_lists in *. cbn [app] in *.
  repeat match goal with H : Forall _ (_ :: _) |- _ => inversion H; subst; clear H end. cbn in *. subst. reflexivity.
Qed.
Lemma runs_spec pr os o : Forall (offered pr) os -> sensible os -> runs pr os o ->
  Forall (fun kf : str * (options -> bool) => snd kf o = true <-> asked os (fst kf)) (flags_of Distdiff) /\
  Forall (fun kf : str * (options -> list str) => snd kf o = given (fst kf) os) (lists_of Distdiff).
Proof. intros _ HS (n & Hn & Ho). destruct (options_spec pr _ _ _ Hn HS) as (o' & H1 & H2). rewrite Ho in H1. apply Ok_eq in H1 as ->. exact H2. Qed.
Lemma runs_exists pr os : Forall (offered pr) os -> sensible os -> exists o, runs pr os o.
Proof. intros HF HS. destruct (accepts pr os HF HS) as [n Hn]. destruct (options_spec pr _ _ _ Hn HS) as (o & Ho & _). exists o. now exists n. Qed.
Lemma runs_det pr os o o' : runs pr os o -> runs pr os o' -> o = o'.
Proof. intros (n & H1 & H2) (n' & H3 & H4). rewrite H1 in H3. injection H3 as <-. rewrite H2 in H4. now apply Ok_eq. Qed.
Lemma runs_same pr os os' o o' : Forall (offered pr) os -> sensible os -> Forall (offered pr) os' -> sensible os' ->
  (forall f, asked os f <-> asked os' f) -> (forall f, In f list_names -> given f os = given f os') -> runs pr os o -> runs pr os' o' -> o = o'.
Proof.
  intros HF HS HF' HS' HA HG HR HR'. destruct (runs_spec _ _ _ HF HS HR) as [H1 H2]. destruct (runs_spec _ _ _ HF' HS' HR') as [H3 H4].
  apply options_ext; rewrite Forall_forall in *; intros kf Hk.
  - specialize (H1 kf Hk). specialize (H3 kf Hk). specialize (HA (fst kf)). destruct (snd kf o), (snd kf o'); try reflexivity; intuition discriminate.
  - rewrite (H2 kf Hk), (H4 kf Hk). apply HG. revert Hk. unfold lists_of, jar_lists, dist_lists. cbn [app In]. unfold list_names. intros [E|[E|[E|[]]]]; apply (f_equal fst) in E; cbn [fst] in E; rewrite <- E; cbn [In]; auto.
Qed.
Lemma given_In f v os : In v (given f os) <-> In (lit "--" ++ map (fun c => if c =? 95 then 45 else c) f, Some v) os.
Proof.
  induction os as [|[s [a|]] os IH]; cbn [given In]; [reflexivity| |].
  - destruct (seqb_spec s (lit "--" ++ map (fun c => if c =? 95 then 45 else c) f)) as [E|E].
    + cbn [In]. rewrite IH. subst s. split; (intros [H|H]; [left|now right]); [now rewrite H|now injection H].
    + rewrite IH. split; [now right|]. intros [H|H]; [exfalso; apply E; now injection H|exact H].
  - rewrite IH. split; [now right|]. intros [H|H]; [discriminate|exact H].
Qed.
Lemma runs_more pr os os' o o' : Forall (offered pr) os -> sensible os -> Forall (offered pr) os' -> sensible os' ->
  (forall oc, In oc os -> In oc os') -> runs pr os o -> runs pr os' o' -> more o o'.
Proof.
  intros HF HS HF' HS' HI HR HR'. destruct (runs_spec _ _ _ HF HS HR) as [H1 H2]. destruct (runs_spec _ _ _ HF' HS' HR') as [H3 H4].
  assert (HA : forall kf, In kf (flags_of Distdiff) -> snd kf o = true -> snd kf o' = true).
  { intros kf Hk. rewrite Forall_forall in *. rewrite (H1 kf Hk), (H3 kf Hk). intros (oc & Ho & Ha). exists oc. auto. }
  assert (HG : forall kf, In kf (lists_of Distdiff) -> incl (snd kf o) (snd kf o')).
  { intros kf Hk. rewrite Forall_forall in *. rewrite (H2 kf Hk), (H4 kf Hk). intros v Hv. apply given_In in Hv. apply given_In. auto. }
  split.
  - assert (HB : Forall (fun kf : str * (options -> bool) => weaker (snd kf o) (snd kf o')) (flags_of Distdiff)) by (apply Forall_forall; exact HA).
    clear -HB. unfold flags_of, class_flags, jar_flags, dist_flags in HB. cbn [app] in HB. repeat match goal with H : Forall _ (_ :: _) |- _ => inversion H; subst; clear H end. cbn [snd] in *. repeat (constructor; [assumption|]). constructor.
  - assert (HB : Forall (fun kf : str * (options -> list str) => incl (snd kf o) (snd kf o')) (lists_of Distdiff)) by (apply Forall_forall; exact HG).
    clear -HB. unfold lists_of, jar_lists, dist_lists in HB. cbn [app] in HB. repeat match goal with H : Forall _ (_ :: _) |- _ => inversion H; subst; clear H end. cbn [snd] in *. repeat (constructor; [assumption|]). constructor.
Qed.

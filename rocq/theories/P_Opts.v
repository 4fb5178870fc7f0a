(** Properties C81-C83: the options of classdiff, jardiff and distdiff. *)
From Verif Require Import Base Pack_Model ConstPool_Model ClassFile_Model Change_Model Classdiff_Model Jardiff_Model Distdiff_Model Opts_Model Opts_Spec Opts_Proofs Opts_Mono
  P_Classdiff P_Jardiff P_Distdiff.
From Verif Require Zip_Model.
From Coq Require Import Permutation.

(** ** Example data *)
Definition sensible_b (os : list occurrence) : bool :=
  forallb (fun oc => match oc with (_, Some v) => forallb (fun w => negb (smem (lit "ignore_" ++ underscores w) list_names)) (ignore_words v) | _ => true end) os.
Lemma sensible_by os : sensible_b os = true -> sensible os.
Proof.
  intros H v w f HI HW HF HA. unfold sensible_b in H. rewrite forallb_forall in H. specialize (H _ HI). cbv iota in H. rewrite forallb_forall in H. apply ignore_words_iff in HW. specialize (H w HW).
  apply attribute_iff in HA. subst f. apply negb_true_iff in H. assert (HX : In (lit "ignore_" ++ underscores w) list_names) by exact HF. apply smem_In in HX. congruence.
Qed.
Definition offered_by pr os : forallb (usable (parser_of pr)) os = true -> Forall (offered pr) os.
Proof. intro H. apply Forall_forall. intros oc Ho. apply offered_usable. rewrite forallb_forall in H. now apply H. Qed.
Definition sw (s : String.string) : occurrence := (lit s, None).
Definition arg (s v : String.string) : occurrence := (lit s, Some (lit v)).
(** --ignore=v *)
Definition ign (v : str) : occurrence := (lit "--ignore", Some v).
Definition run_class := classdiff_main no_fmt no_repr no_fmt 2.
Definition run_jar os l r := jardiff_main no_fmt (fun s => s) no_fmt P_Zip.no_text (fun s => s) ascii_up 2 os (Ok l) (Ok r).
Definition run_dist := distdiff_main no_fmt (fun s => s) no_fmt ascii_text (fun s => s) ascii_up some_jars 2.

(** ** C81 *)
(** Every command line made of the options offered (and not naming a collecting
    option in --ignore) is accepted; an attribute is on exactly if an option asks
    for it, and the collecting options collect their arguments in order. *)
Theorem C81_options_partial : forall pr os, Forall (offered pr) os -> sensible os -> exists o, runs pr os o /\
  Forall (fun kf : str * (options -> bool) => snd kf o = true <-> asked os (fst kf)) (flags_of Distdiff) /\
  Forall (fun kf : str * (options -> list str) => snd kf o = given (fst kf) os) (lists_of Distdiff).
Proof. intros pr os HF HS. destruct (runs_exists pr os HF HS) as [o HR]. exists o. split; [exact HR|]. now apply (runs_spec pr). Qed.
Print Assumptions C81_options_partial.
Definition line1 : list occurrence := [arg "--ignore" " deprecated , pool"; sw "--ignore-version"; arg "--ignore-jar-entry" "*.txt"; arg "--ignore-jar-entry" "*.png"].
Definition options_on (p : list optspec) (os : list occurrence) : option options :=
  match parse_args p 2 os with Parsed n => match options_of n with Ok o => Some o | Err _ => None end | _ => None end.
Example C81_options_ex : Forall (offered Jardiff) line1 /\ sensible line1 /\
  option_map (fun o => ([ignore_deprecated o; ignore_pool o; ignore_version_up o; ignore_version_down o; ignore_manifest o], ignore_jar_entry o)) (options_on jardiff_parser line1) =
  Some ([true; true; true; true; false], [lit "*.txt"; lit "*.png"]).
Proof. split; [apply offered_by; vm_compute; reflexivity|]. split; [apply sensible_by; vm_compute; reflexivity|]. vm_compute. reflexivity. Qed.

(** Anything else than options offered and two files ends with status 2, before
    any comparison. *)
Theorem C81_usage : forall pr k os cmp, k <> 2%nat \/ (exists oc, In oc os /\ ~ offered pr oc) -> main (parser_of pr) k os cmp = SystemExit 2.
Proof. intros pr k os cmp H. unfold main. apply rejects in H. now rewrite H. Qed.
Print Assumptions C81_usage.
Theorem C81_usage_only : forall pr k os cmp z, main (parser_of pr) k os cmp = SystemExit z -> z = 2 /\ (k <> 2%nat \/ exists oc, In oc os /\ ~ offered pr oc).
Proof.
  intros pr k os cmp z H. unfold main in H. destruct (parse_args (parser_of pr) k os) as [n|w|e] eqn:E; [destruct (rbind _ _); discriminate| |discriminate].
  injection H as <-. assert (w = 2) as ->; [|split; [reflexivity|now apply rejects]]. unfold parse_args in E. destruct (negb _); [congruence|]. destruct (steps _ _ _); discriminate.
Qed.
Print Assumptions C81_usage_only.
Example C81_usage_ex : run_class [sw "--ignore-manifest"] c_left c_left = SystemExit 2 /\ run_class [sw "--ignore"] c_left c_left = SystemExit 2 /\
  run_jar [sw "--ignore-manifest"] j_one j_one = Returns 0 /\ ~ offered Classdiff (sw "--ignore-manifest").
Proof. split; [vm_compute; reflexivity|]. split; [vm_compute; reflexivity|]. split; [vm_compute; reflexivity|]. rewrite offered_usable. vm_compute. discriminate. Qed.

(** A comma separated value is as good as several options. *)
Lemma split_app v w : split_at 44 (v ++ 44 :: w) = split_at 44 v ++ split_at 44 w.
Proof.
  assert (HN : forall s, split_at 44 s <> []). { intros [|c s]; [discriminate|]. cbn [split_at]. destruct (split_at 44 s); [discriminate|]. destruct (c =? 44); discriminate. }
  induction v as [|c v IH].
  - cbn [app split_at]. destruct (split_at 44 w) eqn:E; [now destruct (HN w)|reflexivity].
  - cbn [app split_at]. rewrite IH. destruct (split_at 44 v) as [|x xs] eqn:E; [now destruct (HN v)|]. cbn [app]. destruct (c =? 44); reflexivity.
Qed.
Lemma words_app v w : ignore_words (v ++ 44 :: w) = ignore_words v ++ ignore_words w.
Proof. unfold ignore_words. now rewrite split_app, map_app, filter_app. Qed.
Lemma word_app v w u : word_of (v ++ 44 :: w) u <-> word_of v u \/ word_of w u.
Proof. rewrite <- !ignore_words_iff, words_app, in_app_iff. reflexivity. Qed.
Lemma asks_app v w f : asks (lit "--ignore", Some (v ++ 44 :: w)) f <-> asks (lit "--ignore", Some v) f \/ asks (lit "--ignore", Some w) f.
Proof.
  split.
  - intro H. inversion H as [| | | | |v' u g Hw Hg]; subst. apply word_app in Hw as [Hw|Hw]; [left|right]; econstructor; eassumption.
  - intros [H|H]; inversion H as [| | | | |v' u g Hw Hg]; subst; apply (asks_ignore _ u); try assumption; apply word_app; auto.
Qed.
Theorem C81_split : forall pr os1 v w os2, Forall (offered pr) (os1 ++ os2) -> sensible (os1 ++ ign v :: ign w :: os2) ->
  exists o, runs pr (os1 ++ ign v :: ign w :: os2) o /\ runs pr (os1 ++ ign (v ++ lit "," ++ w) :: os2) o.
Proof.
  intros pr os1 v w os2 HF HS. apply Forall_app in HF as [HF1 HF2].
  assert (HO : forall v, offered pr (ign v)) by (intro; apply offered_usable; destruct pr; reflexivity).
  set (a := os1 ++ ign v :: ign w :: os2) in *. set (b := os1 ++ ign (v ++ lit "," ++ w) :: os2).
  assert (HFa : Forall (offered pr) a) by (apply Forall_app; split; [exact HF1|]; constructor; [apply HO|constructor; [apply HO|exact HF2]]).
  assert (HFb : Forall (offered pr) b) by (apply Forall_app; split; [exact HF1|]; constructor; [apply HO|exact HF2]).
  assert (HSb : sensible b).
  { intros x u f Hi Hu Hf Ha. unfold b in Hi. apply in_app_iff in Hi as [Hi|[Hi|Hi]].
    - apply (HS x u f); auto. apply in_app_iff. now left.
    - injection Hi as <-. apply word_app in Hu as [Hu|Hu]; [apply (HS v u f)|apply (HS w u f)]; auto; apply in_app_iff; right; cbn [In]; auto.
    - apply (HS x u f); auto. apply in_app_iff. right. cbn [In]. auto. }
  destruct (runs_exists pr a HFa HS) as [o Ho]. destruct (runs_exists pr b HFb HSb) as [o' Ho']. exists o. split; [exact Ho|].
  replace o with o'; [exact Ho'|]. symmetry. apply (runs_same pr a b o o' HFa HS HFb HSb); [| |exact Ho|exact Ho'].
  - intro f. unfold asked, a, b. split; intros (oc & Hi & Ha); apply in_app_iff in Hi as [Hi|Hi].
    + exists oc. split; [apply in_app_iff; now left|exact Ha].
    + destruct Hi as [<-|[<-|Hi]]; [| |exists oc; split; [apply in_app_iff; right; now right|exact Ha]]; (eexists; split; [apply in_app_iff; right; left; reflexivity|]); apply asks_app; auto.
    + exists oc. split; [apply in_app_iff; now left|exact Ha].
    + destruct Hi as [<-|Hi]; [|exists oc; split; [apply in_app_iff; right; right; now right|exact Ha]]. apply asks_app in Ha as [Ha|Ha]; eexists; (split; [|exact Ha]); apply in_app_iff; right; cbn [In]; auto.
  - intros f Hf. unfold a, b. assert (HG : forall f l l', given f (l ++ l') = given f l ++ given f l').
    { clear. intros f l l'. induction l as [|[s [x|]] l IH]; cbn [app given]; [reflexivity| |exact IH]. destruct (seqb s _); cbn [app]; now rewrite IH. }
    rewrite !HG. f_equal. unfold ign. cbn [given]. fold (dashed f). replace (seqb (lit "--ignore") (dashed f)) with false; [reflexivity|].
    clear -Hf. destruct Hf as [<-|[<-|[<-|[]]]]; reflexivity.
Qed.
Print Assumptions C81_split.
Example C81_split_ex : Forall (offered Classdiff) [sw "-q"; sw "--ignore-lines"] /\ sensible [sw "-q"; arg "--ignore" "pool"; arg "--ignore" " deprecated"; sw "--ignore-lines"] /\
  run_class [sw "-q"; arg "--ignore" "pool, deprecated"; sw "--ignore-lines"] c_left (c_right_at 20) = Returns 0 /\ run_class [sw "-q"] c_left (c_right_at 20) = Returns 1.
Proof. split; [apply offered_by; vm_compute; reflexivity|]. split; [apply sensible_by; vm_compute; reflexivity|]. split; vm_compute; reflexivity. Qed.

(** The order of the options does not matter, but for the order of what is collected. *)
Theorem C81_order : forall pr os os', Permutation os os' -> Forall (offered pr) os -> sensible os -> exists o o', runs pr os o /\ runs pr os' o' /\
  Forall (fun kf : str * (options -> bool) => snd kf o = snd kf o') (flags_of Distdiff) /\
  Forall (fun kf : str * (options -> list str) => Permutation (snd kf o) (snd kf o')) (lists_of Distdiff).
Proof.
  intros pr os os' HP HF HS. assert (HF' : Forall (offered pr) os') by (now apply (Permutation_Forall HP)).
  assert (HS' : sensible os') by (intros v w f Hi; apply HS; now apply (Permutation_in _ (Permutation_sym HP))).
  destruct (runs_exists pr os HF HS) as [o HR]. destruct (runs_exists pr os' HF' HS') as [o' HR']. exists o, o'. split; [exact HR|]. split; [exact HR'|].
  destruct (runs_spec _ _ _ HF HS HR) as [H1 H2]. destruct (runs_spec _ _ _ HF' HS' HR') as [H3 H4]. rewrite Forall_forall in H1, H2, H3, H4. split; apply Forall_forall; intros kf Hk.
  - specialize (H1 kf Hk). specialize (H3 kf Hk). assert (HA : asked os (fst kf) <-> asked os' (fst kf)).
    { split; intros (oc & Ho & Ha); exists oc; (split; [|exact Ha]); [now apply (Permutation_in _ HP)|now apply (Permutation_in _ (Permutation_sym HP))]. }
    destruct (snd kf o), (snd kf o'); try reflexivity; intuition discriminate.
  - rewrite (H2 kf Hk), (H4 kf Hk). clear -HP. generalize (fst kf). intro f. induction HP as [|[s a] l l' HP IH|[s a] [t b] l|l l' l'' HP1 IH1 HP2 IH2].
    + constructor.
    + cbn [given]. destruct a; [|exact IH]. destruct (seqb s _); [now constructor|exact IH].
    + cbn [given]. destruct a, b; try reflexivity. destruct (seqb s _), (seqb t _); try reflexivity. apply perm_swap.
    + now transitivity (given f l').
Qed.
Print Assumptions C81_order.
Example C81_order_ex : Permutation [sw "--ignore-pool"; arg "--ignore" "absolute-lines"] [arg "--ignore" "absolute-lines"; sw "--ignore-pool"] /\
  run_class [sw "--ignore-pool"; arg "--ignore" "absolute-lines"] c_left (c_right_at 20) = Returns 0 /\ run_class [arg "--ignore" "absolute-lines"; sw "--ignore-pool"] c_left (c_right_at 20) = Returns 0.
Proof. split; [apply perm_swap|]. split; vm_compute; reflexivity. Qed.

(** A word of --ignore stands for the switch of that name. *)
Definition switch_words : list str := [lit "version-up"; lit "version-down"; lit "platform-up"; lit "platform-down"; lit "absolute-lines"; lit "relative-lines"; lit "deprecated"; lit "added"; lit "pool"].
(** --ignore-w *)
Definition dashw (w : str) : occurrence := (lit "--ignore-" ++ w, None).
Theorem C81_dash_partial : forall pr os1 w os2, In w switch_words -> Forall (offered pr) (os1 ++ os2) -> sensible (os1 ++ os2) ->
  exists o, runs pr (os1 ++ ign w :: os2) o /\ runs pr (os1 ++ dashw w :: os2) o.
Proof.
  intros pr os1 w os2 HW HF HS. apply Forall_app in HF as [HF1 HF2].
  assert (HO : offered pr (ign w) /\ offered pr (dashw w)) by (split; apply offered_usable; destruct pr; [reflexivity..|idtac|idtac|idtac]; cbn [switch_words In] in HW; repeat (destruct HW as [<-|HW]; [vm_compute; reflexivity|]); contradiction).
  assert (HWW : ignore_words w = [w]) by (cbn [switch_words In] in HW; repeat (destruct HW as [<-|HW]; [vm_compute; reflexivity|]); contradiction).
  assert (HU : forall u, word_of w u <-> u = w) by (intro u; rewrite <- ignore_words_iff, HWW; cbn [In]; intuition).
  destruct HO as [HO1 HO2]. set (a := os1 ++ ign w :: os2). set (b := os1 ++ dashw w :: os2).
  assert (HFa : Forall (offered pr) a) by (apply Forall_app; auto). assert (HFb : Forall (offered pr) b) by (apply Forall_app; auto).
  assert (HSa : sensible a).
  { intros v u f Hi Hu Hf Ha. apply in_app_iff in Hi as [Hi|[Hi|Hi]]; [apply (HS v u f); auto; apply in_app_iff; auto| |apply (HS v u f); auto; apply in_app_iff; auto].
    injection Hi as <-. apply HU in Hu as ->. apply attribute_iff in Ha. subst f. clear -HW Hf. cbn [switch_words In] in HW. repeat (destruct HW as [<-|HW]; [vm_compute in Hf; intuition discriminate|]). contradiction. }
  assert (HSb : sensible b).
  { intros v u f Hi. apply in_app_iff in Hi as [Hi|[Hi|Hi]]; [|discriminate|]; apply HS; apply in_app_iff; auto. }
  destruct (runs_exists pr a HFa HSa) as [o Ho]. destruct (runs_exists pr b HFb HSb) as [o' Ho']. exists o. split; [exact Ho|]. replace o with o'; [exact Ho'|]. symmetry.
  apply (runs_same pr a b o o' HFa HSa HFb HSb); [| |exact Ho|exact Ho'].
  - intro f. assert (HA : asks (lit "--ignore", Some w) f <-> asks (lit "--ignore-" ++ w, None) f).
    { rewrite <- asks_b_iff. assert (HB : asks (lit "--ignore", Some w) f <-> f = lit "ignore_" ++ underscores w).
      { split; [intro H; inversion H as [| | | | |v' u g Hw Hg]; subst; apply HU in Hw as ->; now apply attribute_iff in Hg as ->|]. intros ->. apply (asks_ignore w w); [now apply HU|now apply attribute_iff]. }
      rewrite HB. assert (HC : asks_b (lit "--ignore-" ++ w) f = seqb f (lit "ignore_" ++ underscores w)).
      { clear -HW. unfold asks_b. cbn [switch_words In] in HW. repeat (destruct HW as [<-|HW]; [cbn; rewrite ?orb_false_r; reflexivity|]). contradiction. }
      rewrite HC. symmetry. destruct (seqb_spec f (lit "ignore_" ++ underscores w)); split; congruence. }
    unfold asked, a, b. split; (intros (oc & Hi & Hk); apply in_app_iff in Hi as [Hi|[Hi|Hi]]); [exists oc; split; [apply in_app_iff; now left|exact Hk]| |exists oc; split; [apply in_app_iff; right; now right|exact Hk]|exists oc; split; [apply in_app_iff; now left|exact Hk]| |exists oc; split; [apply in_app_iff; right; now right|exact Hk]].
    + subst oc. exists (dashw w). split; [apply in_app_iff; right; now left|now apply HA].
    + subst oc. exists (ign w). split; [apply in_app_iff; right; now left|now apply HA].
  - intros f Hf. unfold a, b. assert (HG : forall f l l', given f (l ++ l') = given f l ++ given f l').
    { clear. intros f l l'. induction l as [|[s [x|]] l IH]; cbn [app given]; [reflexivity| |exact IH]. destruct (seqb s _); cbn [app]; now rewrite IH. }
    rewrite !HG. f_equal. unfold ign, dashw. cbn [given]. fold (dashed f). replace (seqb (lit "--ignore") (dashed f)) with false; [reflexivity|].
    clear -Hf. destruct Hf as [<-|[<-|[<-|[]]]]; reflexivity.
Qed.
Print Assumptions C81_dash_partial.
Example C81_dash_ex : In (lit "absolute-lines") switch_words /\ run_class [arg "--ignore" "absolute-lines"; sw "--ignore-pool"] c_left (c_right_at 20) = Returns 0 /\
  run_class [sw "--ignore-absolute-lines"; sw "--ignore-pool"] c_left (c_right_at 20) = Returns 0 /\ run_class [sw "--ignore-pool"] c_left (c_right_at 20) = Returns 1.
Proof. split; [unfold switch_words; cbn [In]; tauto|]. repeat split; vm_compute; reflexivity. Qed.

(** Finding: the words lines, version and platform do nothing, although
    --ignore-lines, --ignore-version and --ignore-platform exist. *)
Theorem C81_lines_refuted : exists l r, run_class [sw "--ignore-lines"; sw "--ignore-pool"] l r = Returns 0 /\ run_class [arg "--ignore" "lines"; sw "--ignore-pool"] l r = Returns 1.
Proof. exists c_left, (c_right_at 20). split; vm_compute; reflexivity. Qed.
Print Assumptions C81_lines_refuted.
Definition c_newer : classinfo := mkclass (53, 0) (c_pool c_left) (c_flags c_left) (c_this_ref c_left) (c_super_ref c_left) (c_interfaces c_left) (c_fields c_left) (c_methods c_left) (c_attrs c_left).
Theorem C81_version_refuted : exists l r, run_class [sw "--ignore-version"] l r = Returns 0 /\ run_class [arg "--ignore" "version"] l r = Returns 1.
Proof. exists c_left, c_newer. split; vm_compute; reflexivity. Qed.
Print Assumptions C81_version_refuted.

(** Finding: naming a collecting option in --ignore makes the comparison of any
    two jars with an entry fail, and a later use of the option itself. *)
Theorem C81_list_refuted : exists l, run_jar [] l l = Returns 0 /\ run_jar [arg "--ignore" "jar-entry"] l l = Fails TypeError /\
  run_jar [arg "--ignore" "jar-entry"; arg "--ignore-jar-entry" "x"] l l = Fails AttributeError.
Proof. exists j_one. repeat split; vm_compute; reflexivity. Qed.
Print Assumptions C81_list_refuted.

(** ** C82 *)
(** Adding options never turns "no difference" into a difference (for distdiff,
    other options than --shallow). *)
Theorem C82_class : forall fmt reprs ffmt os os' l r, Forall (offered Classdiff) os' -> sensible os' -> (forall oc, In oc os -> In oc os') ->
  classdiff_main fmt reprs ffmt 2 os l r = Returns 0 -> classdiff_main fmt reprs ffmt 2 os' l r = Returns 0.
Proof.
  intros fmt reprs ffmt os os' l r HF HS HI. assert (HF0 : Forall (offered Classdiff) os) by (rewrite Forall_forall in *; auto). assert (HS0 : sensible os) by (intros v w f Hi; apply HS; auto).
  apply (main_more Classdiff); auto.
  - intros (oc & Ho & Ha). exfalso. rewrite Forall_forall in HF. specialize (HF oc Ho). apply offered_usable in HF. assert (HX : hits classdiff_parser (lit "shallow") oc = true) by (apply (hits_asks Classdiff); [exact HF|now left|exact Ha]).
    unfold hits in HX. destruct (find_opt classdiff_parser (fst oc)) as [sp|] eqn:E; [|discriminate]. apply find_opt_In in E as [HI2 _]. revert HX. clear -HI2.
    assert (HB : forallb (fun sp => negb (smem (lit "shallow") (sets sp [])) ) classdiff_parser = true) by (vm_compute; reflexivity). rewrite forallb_forall in HB. specialize (HB sp HI2).
    unfold sets in *. destruct (o_action sp); intro HX; try (rewrite HX in HB; discriminate). apply smem_In, in_map_iff in HX as (x & HX & _). discriminate HX.
  - intros n n' o o' HM _. now apply class_more.
Qed.
Print Assumptions C82_class.
Theorem C82_jar : forall fmt reprs ffmt text order up os os' l r, Forall (offered Jardiff) os' -> sensible os' -> (forall oc, In oc os -> In oc os') ->
  jardiff_main fmt reprs ffmt text order up 2 os l r = Returns 0 -> jardiff_main fmt reprs ffmt text order up 2 os' l r = Returns 0.
Proof.
  intros fmt reprs ffmt text order up os os' l r HF HS HI. assert (HF0 : Forall (offered Jardiff) os) by (rewrite Forall_forall in *; auto). assert (HS0 : sensible os) by (intros v w f Hi; apply HS; auto).
  apply (main_more Jardiff); auto.
  - intros (oc & Ho & Ha). exfalso. rewrite Forall_forall in HF. specialize (HF oc Ho). apply offered_usable in HF. assert (HX : hits jardiff_parser (lit "shallow") oc = true) by (apply (hits_asks Jardiff); [exact HF|now left|exact Ha]).
    unfold hits in HX. destruct (find_opt jardiff_parser (fst oc)) as [sp|] eqn:E; [|discriminate]. apply find_opt_In in E as [HI2 _]. revert HX. clear -HI2.
    assert (HB : forallb (fun sp => negb (smem (lit "shallow") (sets sp [])) ) jardiff_parser = true) by (vm_compute; reflexivity). rewrite forallb_forall in HB. specialize (HB sp HI2).
    unfold sets in *. destruct (o_action sp); intro HX; try (rewrite HX in HB; discriminate). apply smem_In, in_map_iff in HX as (x & HX & _). discriminate HX.
  - intros n n' o o' HM _. now apply jar_more.
Qed.
Print Assumptions C82_jar.
Theorem C82_dist : forall fmt reprs ffmt text order up unzip os os' l r, Forall (offered Distdiff) os' -> sensible os' -> (forall oc, In oc os -> In oc os') ->
  (In (lit "--shallow", None) os' -> In (lit "--shallow", None) os) ->
  distdiff_main fmt reprs ffmt text order up unzip 2 os l r = Returns 0 -> distdiff_main fmt reprs ffmt text order up unzip 2 os' l r = Returns 0.
Proof.
  intros fmt reprs ffmt text order up unzip os os' l r HF HS HI HSh. assert (HF0 : Forall (offered Distdiff) os) by (rewrite Forall_forall in *; auto). assert (HS0 : sensible os) by (intros v w f Hi; apply HS; auto).
  apply (main_more Distdiff); auto.
  - intros (oc & Ho & Ha). exists (lit "--shallow", None). split; [|apply (asks_itself (lit "shallow")); apply attribute_iff; reflexivity]. apply HSh. replace (lit "--shallow", None) with oc; [exact Ho|].
    inversion Ha as [s f HA|f HA|f HA|f HA|s f _ HA|v w g _ HA]; subst.
    + apply attribute_iff in HA. assert (HX : s = lit "shallow"); [|now subst s]. clear -HA. symmetry in HA. unfold underscores in HA.
      assert (HM : forall s t, map (fun c : Z => if c =? 45 then 95 else c) s = t -> ~ In 95 t -> s = t).
      { clear. intro s. induction s as [|c s IH]; intros t <- HN; [reflexivity|]. cbn [map In] in *. destruct (Z.eqb_spec c 45); [exfalso; apply HN; now left|]. f_equal. apply IH; [reflexivity|]. intro HX. apply HN. now right. }
      apply HM in HA; [exact HA|]. cbn. intuition discriminate.
    + cbn in HA. intuition discriminate.
    + cbn in HA. intuition discriminate.
    + cbn in HA. intuition discriminate.
    + cbn in HA. intuition discriminate.
  - intros n n' o o' HM ->. now apply dist_more.
Qed.
Print Assumptions C82_dist.
Example C82_ex : run_class [sw "--ignore-lines"; sw "--ignore-pool"] c_left (c_right_at 20) = Returns 0 /\ run_class [sw "--ignore-lines"; sw "-v"; sw "--ignore-pool"; sw "--ignore-deprecated"] c_left (c_right_at 20) = Returns 0 /\
  run_jar [arg "--ignore-manifest-key" "Built-By"] j_one j_by = Returns 0 /\ run_jar [arg "--ignore-jar-entry" "x"; arg "--ignore-manifest-key" "Other"; arg "--ignore-manifest-key" "Built-By"] j_one j_by = Returns 0 /\
  run_jar [] j_one j_by = Returns 1 /\ run_dist [sw "--ignore-trailing-whitespace"] d_one d_ws = Returns 0 /\ run_dist [arg "--ignore-filenames" "y"; sw "--ignore-trailing-whitespace"] d_one d_ws = Returns 0 /\ run_dist [] d_one d_ws = Returns 1.
Proof. repeat split; vm_compute; reflexivity. Qed.

(** What is shown, and how, has no influence on the status. *)
Definition showing : list str := [lit "-q"; lit "--quiet"; lit "-v"; lit "--verbose"; lit "-o"; lit "--output"; lit "-j"; lit "--json"; lit "--json-indent"; lit "--show-ignored"; lit "--show-unchanged"].
Definition without (ss : list str) (os : list occurrence) : list occurrence := filter (fun oc => if in_dec (list_eq_dec Z.eq_dec) (fst oc) ss then false else true) os.
Lemma without_drop ss os : without ss os = drop ss os.
Proof. unfold without, drop. apply filter_ext. intro oc. destruct (in_dec _ _ _) as [H|H].
  - assert (HB : smem (fst oc) ss = true) by (now apply smem_In). now rewrite HB.
  - destruct (smem (fst oc) ss) eqn:E; [|reflexivity]. exfalso. apply H. now apply smem_In.
 Qed.
Theorem C82_show : forall fmt reprs ffmt text order up unzip,
  (forall os l r, Forall (offered Classdiff) os -> sensible os -> classdiff_main fmt reprs ffmt 2 (without showing os) l r = classdiff_main fmt reprs ffmt 2 os l r) /\
  (forall os l r, Forall (offered Jardiff) os -> sensible os -> jardiff_main fmt reprs ffmt text order up 2 (without showing os) l r = jardiff_main fmt reprs ffmt text order up 2 os l r) /\
  (forall os l r, Forall (offered Distdiff) os -> sensible os -> distdiff_main fmt reprs ffmt text order up unzip 2 (without showing os) l r = distdiff_main fmt reprs ffmt text order up unzip 2 os l r).
Proof.
  intros. assert (HI : idle_b showing = true) by (vm_compute; reflexivity). repeat split; intros os l r HF HS; rewrite without_drop; [exact (class_drop _ _ _ showing os l r HI (conj HF HS))|exact (jar_drop _ _ _ _ _ _ unzip showing os l r HI (conj HF HS))|exact (dist_drop _ _ _ _ _ _ _ showing os l r HI (conj HF HS))].
Qed.
Print Assumptions C82_show.
Example C82_show_ex : without showing [sw "-v"; sw "--ignore-pool"; arg "-o" "x"] = [sw "--ignore-pool"] /\ run_class [sw "-v"; sw "--ignore-pool"; arg "-o" "x"] c_left c_right = Returns 0 /\
  run_class [sw "-v"; arg "-o" "x"] c_left c_right = Returns 1.
Proof. repeat split; vm_compute; reflexivity. Qed.

(** ** C83 *)
(** Finding: --ignore-platform, --ignore-platform-up, --ignore-platform-down and
    --ignore-added never have any effect. *)
Definition effectless : list str := [lit "--ignore-platform"; lit "--ignore-platform-up"; lit "--ignore-platform-down"; lit "--ignore-added"].
Theorem C83_effectless : forall fmt reprs ffmt text order up unzip,
  (forall os l r, Forall (offered Classdiff) os -> sensible os -> classdiff_main fmt reprs ffmt 2 (without effectless os) l r = classdiff_main fmt reprs ffmt 2 os l r) /\
  (forall os l r, Forall (offered Jardiff) os -> sensible os -> jardiff_main fmt reprs ffmt text order up 2 (without effectless os) l r = jardiff_main fmt reprs ffmt text order up 2 os l r) /\
  (forall os l r, Forall (offered Distdiff) os -> sensible os -> distdiff_main fmt reprs ffmt text order up unzip 2 (without effectless os) l r = distdiff_main fmt reprs ffmt text order up unzip 2 os l r).
Proof.
  intros. assert (HI : idle_b effectless = true) by (vm_compute; reflexivity). repeat split; intros os l r HF HS; rewrite without_drop; [exact (class_drop _ _ _ effectless os l r HI (conj HF HS))|exact (jar_drop _ _ _ _ _ _ unzip effectless os l r HI (conj HF HS))|exact (dist_drop _ _ _ _ _ _ _ effectless os l r HI (conj HF HS))].
Qed.
Print Assumptions C83_effectless.
Example C83_effectless_ex : Forall (offered Classdiff) [sw "--ignore-platform"; sw "--ignore-version"] /\ sensible [sw "--ignore-platform"; sw "--ignore-version"] /\
  without effectless [sw "--ignore-platform"; sw "--ignore-version"] = [sw "--ignore-version"] /\ run_class [sw "--ignore-platform"; sw "--ignore-version"] c_left c_newer = Returns 0.
Proof. split; [apply offered_by; vm_compute; reflexivity|]. split; [apply sensible_by; vm_compute; reflexivity|]. split; vm_compute; reflexivity. Qed.
(** Two classes that differ in nothing but the version, and so the platform: the
    platform option leaves the platform change as it is. *)
Theorem C83_platform_refuted : exists l r, fst (c_version l) < fst (c_version r) /\
  (forall c, check (class_change no_fmt no_repr no_fmt l r) = Ok c -> forall n o, parse_args classdiff_parser 2 [sw "--ignore-platform"] = Parsed n -> options_of n = Ok o ->
     exists p, In p (match c with Node _ _ _ (i :: _) _ => match i with Node _ _ _ parts _ => parts end | _ => [] end) /\
       k_name (k_of p) = lit "ClassPlatformChange" /\ is_change p = true /\ is_ignored o p = Ok false) /\
  run_class [sw "--ignore-platform"] l r = Returns 1 /\ run_class [sw "--ignore-version"] l r = Returns 0.
Proof.
  exists c_left, c_newer. split; [reflexivity|]. split; [|split; vm_compute; reflexivity].
  intros c Hc n o Hn Ho.
  assert (HP : match check (class_change no_fmt no_repr no_fmt c_left c_newer) with
    | Ok (Node _ _ _ (Node _ _ _ (_ :: _ :: p :: _) _ :: _) _) => (k_name (k_of p), is_change p, option_map (fun o => match is_ignored o p with Ok b => b | Err _ => true end) (options_on classdiff_parser [sw "--ignore-platform"])) | _ => ([], false, None) end
    = (lit "ClassPlatformChange", true, Some false)) by (vm_compute; reflexivity).
  unfold options_on in HP. rewrite Hn, Ho in HP. rewrite Hc in HP. destruct c as [k ch d [|[k1 ch1 d1 [|p1 [|p2 [|p3 ps]]] im1] cs] im]; try discriminate HP.
  exists p3. split; [cbn [In]; auto|]. injection HP as H1 H2 H3. split; [exact H1|]. split; [exact H2|]. destruct (is_ignored o p3) as [[|]|]; [discriminate|reflexivity|discriminate].
Qed.
Print Assumptions C83_platform_refuted.
(** An added member stays a difference under --ignore-added. *)
Definition c_added : classinfo := mkclass (c_version c_left) (c_pool c_left) (c_flags c_left) (c_this_ref c_left) (c_super_ref c_left) (c_interfaces c_left)
  (c_fields c_left ++ [mkmember 1 7 4 [] false]) (c_methods c_left) (c_attrs c_left).
Theorem C83_added_refuted : exists l r m, c_fields r = c_fields l ++ [m] /\ c_methods r = c_methods l /\ c_pool r = c_pool l /\ run_class [sw "--ignore-added"] l r = Returns 1.
Proof. exists c_left, c_added, (mkmember 1 7 4 [] false). repeat split; vm_compute; reflexivity. Qed.
Print Assumptions C83_added_refuted.
(** Finding: the functions giving default options end the program: the parsers ask
    for two files, and none are given. *)
Theorem C83_defaults_refuted : forall updates,
  default_options classdiff_parser updates = Exits 2 /\ default_options jardiff_parser updates = Exits 2 /\ default_distdiff_options updates = Exits 2.
Proof. intros [|]; repeat split; reflexivity. Qed.
Print Assumptions C83_defaults_refuted.

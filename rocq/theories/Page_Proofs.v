(** The HTML page of a jar comparison: proofs. *)
From Verif Require Import Base Pack_Model ConstPool_Model ClassFile_Model Manifest_Model Change_Model Change_Spec Change_Proofs Classdiff_Model Classdiff_Class Classdiff_Passes Change_Tame Change_Report Zip_Model Zip_Spec
  Jardiff_Model Jardiff_Spec Jardiff_Proofs Jardiff_Jar Kinds_Spec P_Kinds Tmpl_Model Report_Model Html_Model Html_Spec Html_Members Jinfo_Spec Page_Model Page_Spec Page_Listing.
From Coq Require Import Permutation Sorting.Sorted.

(** ** Any change *)
Definition state_of (c : change) (ig : bool) : state := if is_change c then if ig then Ignored else Changed else Unchanged.
Lemma state_words_is o c ig : is_ignored o c = Ok ig -> state_words o c = Ok (lit "Change " ++ k_name (k_of c) ++ words (state_of c ig)).
Proof. intro H. unfold state_words, state_of. rewrite H. destruct (is_change c); [|reflexivity]. cbn [rbind]. destruct ig; reflexivity. Qed.
Definition collect_html (hs : list (list html)) : list html := match hs with [] => [] | _ => el "div" (class_is "collect") (concat hs) end.
Lemma pick_ok {A B} (f : A -> B) inside k ch cs im l : pick inside k ch cs im = Ok l -> pick inside k ch (map f cs) (map f im) = Ok (map f l).
Proof.
  unfold pick. destruct cs as [|x cs]; cbn [map]; [|intro H; injection H as <-; reflexivity].
  destruct (negb (k_super k)); [intro H; injection H as <-; reflexivity|]. destruct (k_incheck k && negb inside); [discriminate|]. destruct (k_gate k && _); [intro H; injection H as <-; reflexivity|]. destruct (k_raises k); [discriminate|]. intro H. injection H as <-. reflexivity.
Qed.
Lemma mapM_snd o l : mapM snd (map (fun x : change => (x, render o x)) l) = mapM (render o) l.
Proof. induction l as [|x l IH]; [reflexivity|]. cbn [map mapM snd]. now rewrite IH. Qed.
Lemma render_plain o c t de kids hs ig : template (k_name (k_of c)) = Ok t -> seqb t (lit "change_SquashedChange") = false -> seqb t (lit "jardiff_JarContentsReport") = false ->
  is_ignored o c = Ok ig -> description_html t c = Ok de -> collect c = Ok kids -> mapM (render o) kids = Ok hs ->
  render o c = Ok (el "div" [(lit "class", lit "Change " ++ k_name (k_of c) ++ words (state_of c ig))] (de ++ collect_html hs)).
Proof.
  destruct c as [k ch d cs im]. intros HT N1 N2 HI HD HC HM. cbn [k_of collect] in *. cbn [render]. rewrite HT. cbn [rbind]. rewrite N1, N2. rewrite (state_words_is _ _ _ HI). cbn [rbind k_of]. rewrite HD. cbn [rbind].
  rewrite (pick_ok _ _ _ _ _ _ _ HC). cbn [rbind]. destruct kids as [|x kids].
  - injection HM as <-. cbn [map rbind collect_html]. reflexivity.
  - rewrite mapM_snd. cbn [map]. rewrite HM. cbn [rbind]. apply mapM_Forall2 in HM. destruct hs; [inversion HM|]. reflexivity.
Qed.
Definition renders (o : options) (c : change) : Prop := exists h, render o c = Ok h.
Lemma renders_all o l : Forall (renders o) l -> exists hs, mapM (render o) l = Ok hs.
Proof. induction 1 as [|x l [h H] _ [hs IH]]; [exists []; reflexivity|]. exists (h :: hs). cbn [mapM]. now rewrite H, IH. Qed.
(** a leaf after check *)
Lemma renders_leaf o c c' : tame c -> check c = Ok c' -> (let 'Node k _ _ cs _ := c' in cs = [] /\ k_super k = false) ->
  template (k_name (k_of c)) = Ok (lit "change_Change") \/ template (k_name (k_of c)) = Ok (lit "change_Addition") \/ template (k_name (k_of c)) = Ok (lit "change_Removal") ->
  exists ig, is_ignored o c' = Ok ig /\ render o c' = Ok (el "div" [(lit "class", lit "Change " ++ k_name (k_of c) ++ words (state_of c' ig))] (label_div c)).
Proof.
  intros HT HC HL HM. pose proof (check_k _ _ HC) as HK. destruct (tame_checked o c HT c' HC) as [ig HI]. exists ig. split; [exact HI|]. rewrite <- HK in HM.
  assert (LD : label_div c' = label_div c) by (unfold label_div; now rewrite HK). rewrite <- LD, <- HK. rewrite <- (app_nil_r (label_div c')). change (@nil html) with (collect_html []).
  destruct c' as [k ch d cs im]. destruct HL as [-> HS]. assert (CO : collect (Node k ch d [] im) = Ok []) by (cbn [collect pick]; now rewrite HS). cbn [k_of] in *.
  destruct HM as [HM|[HM|HM]]; eapply render_plain; try eassumption; reflexivity.
Qed.

(** ** Entries of jars *)
Section Jars.
Variable fmt : pyval -> str.
Variable reprs : str -> str.
Variable ffmt : pyval -> str.
Variable text : bytes -> res str.
Variable order : list str -> list str.
Variable up : Z -> str.
Hypothesis order_perm : forall s, Permutation (order s) s.
Variable o : options.
Lemma section_renders n lb al ad re t own same old new c' : check (section_node n lb al ad re t own same old new) = Ok c' ->
  template n = Ok (lit "change_Change") \/ template n = Ok (lit "change_Addition") \/ template n = Ok (lit "change_Removal") -> renders o c'.
Proof.
  intros HC HT. assert (HTm : tame (section_node n lb al ad re t own same old new)) by (constructor; [cbn [k_parts]; discriminate|constructor..]).
  assert (E : let 'Node k _ _ cs _ := c' in cs = [] /\ k_super k = false) by (unfold section_node in HC; cbn [check k_check rbind] in HC; destruct same; injection HC as <-; auto).
  destruct (renders_leaf o _ _ HTm HC E HT) as (ig & _ & E1). eexists. exact E1.
Qed.
Lemma parts_render l r : Forall (fun c => forall c', check c = Ok c' -> renders o c') (manifest_parts order l r).
Proof.
  unfold manifest_parts. constructor; [intros c' H; unfold manifest_main, section_change, section_removed, section_added in H; eapply section_renders; [exact H|left; vm_compute; reflexivity]|]. rewrite !Forall_app, !Forall_map. repeat split; apply Forall_forall; intros s _ c' H.
  - unfold section_change, section_removed, section_added in H. eapply section_renders; [exact H|]. left. vm_compute. reflexivity.
  - unfold section_change, section_removed, section_added in H. eapply section_renders; [exact H|]. right. right. vm_compute. reflexivity.
  - unfold section_change, section_removed, section_added in H. eapply section_renders; [exact H|]. right. left. vm_compute. reflexivity.
Qed.
Lemma manifest_renders sig l r c' : check (if sig : bool then signature_change order l r else manifest_change order l r) = Ok c' -> renders o c'.
Proof.
  set (c := if sig then signature_change order l r else manifest_change order l r). intro HC. assert (HT : tame c).
  { subst c. pose proof (parts_tame order order_perm l r) as P. destruct sig; (constructor; [|constructor|exact P]); intros _; left; (split; [reflexivity|discriminate]). }
  destruct (tame_checked o c HT c' HC) as [ig HI]. pose proof (check_k _ _ HC) as HK.
  assert (CK : exists ks, collect c' = Ok ks /\ Forall2 (fun a b => check a = Ok b) (manifest_parts order l r) ks).
  { assert (HF : Forall2 (fun a b => check a = Ok b) (manifest_parts order l r) (parts_of c')) by (subst c; destruct sig; (apply check_kids in HC; [exact HC|reflexivity..])). exists (parts_of c'). split; [|exact HF].
    destruct c' as [k ch d cs im]. cbn [parts_of] in HF. destruct cs; [inversion HF|]. reflexivity. }
  destruct CK as (ks & CK & F2). assert (FR : Forall (renders o) ks).
  { pose proof (parts_render l r) as FP. clear -F2 FP. induction F2 as [|a b x y H _ IH]; [constructor|]. inversion FP; subst. constructor; auto. }
  destruct (renders_all o ks FR) as [hs HM]. destruct sig; subst c; eexists; (eapply (render_plain o c' (lit "manifest_ManifestChange")); [rewrite HK; vm_compute; reflexivity|reflexivity|reflexivity|exact HI|reflexivity|exact CK|exact HM]).
Qed.
Lemma data_renders nm lb t sh a b c' : check (data_node nm lb t sh a b) = Ok c' -> template nm = Ok (lit "change_Change") -> renders o c'.
Proof.
  intros HC HT. assert (HTm : tame (data_node nm lb t sh a b)) by (constructor; [cbn [k_parts]; discriminate|constructor..]).
  assert (E : let 'Node k _ _ cs _ := c' in cs = [] /\ k_super k = false) by (unfold data_node in HC; cbn [check k_check rbind] in HC; destruct (peqb a b); injection HC as <-; auto).
  destruct (renders_leaf o _ _ HTm HC E (or_introl HT)) as (ig & _ & E1). eexists. exact E1.
Qed.
(** The templates that show the name of the entry *)
Definition entry_templates : list str := map lit ["jardiff_JarContentChange"; "jardiff_JarClassChange"; "distdiff_DistContentChange"; "distdiff_DistClassChange"]%string.
Definition shows_entry (nm : str) : bool := existsb (fun t => match template nm with Ok t' => seqb t' t | Err _ => false end) entry_templates.
Lemma shows_entry_template nm c n : shows_entry nm = true -> entry_of c = Ok n -> exists t, template nm = Ok t /\ seqb t (lit "change_SquashedChange") = false /\ seqb t (lit "jardiff_JarContentsReport") = false /\ description_html t c = Ok (txt (esc n)).
Proof.
  intros H HE. unfold shows_entry in H. destruct (template nm) as [t|]; [|discriminate]. exists t. split; [reflexivity|]. apply existsb_exists in H as (x & HX & E). apply seqb_eq in E. subst x. unfold entry_templates in HX. cbn [map] in HX.
  destruct HX as [<-|[<-|[<-|[<-|[]]]]]; (split; [reflexivity|]); (split; [reflexivity|]); unfold description_html; (match goal with |- (if ?b then _ else _) = _ => let v := eval vm_compute in b in change b with v end); cbv iota; (match goal with |- (if ?b then _ else _) = _ => let v := eval vm_compute in b in change b with v end); cbv iota; rewrite HE; cbn [rbind]; now rewrite escape_is.
Qed.
(** an entry, not squashed *)
Lemma jar_node_renders nm lb al ad re own parts ch sub n c' :
  let c := jar_node nm lb al ad re own parts ch sub n in
  tame c -> check c = Ok c' -> shows_entry nm = true ->
  (al = true -> sub = None) -> (ch = true -> al = false -> forall s s', sub = Some (Ok s) -> check s = Ok s' -> renders o s') ->
  exists ig more, is_ignored o c' = Ok ig /\ render o c' = Ok (item_html (nm ++ words (state_of c' ig)) n more) /\ (al = true \/ ch = false -> more = []).
Proof.
  intros c HT HC TM HA HS. destruct (tame_checked o c HT c' HC) as [ig HI]. pose proof (check_k _ _ HC) as HK. exists ig.
  assert (CK : exists ks, collect c' = Ok ks /\ Forall (renders o) ks /\ (al = true \/ ch = false -> ks = [])).
  { subst c. unfold jar_node in HC. cbn [check k_check map pick k_super negb k_incheck andb k_gate k_always k_raises] in HC. destruct (al || ch) eqn:EA.
    - cbn [negb] in HC. destruct sub as [[s|e]|]; cbn [map rbind sequence] in HC; [|discriminate HC|].
      + destruct al; [specialize (HA eq_refl); discriminate HA|]. cbn [orb] in EA. subst ch. destruct (check s) as [s'|] eqn:Es; cbn [rbind] in HC; [|discriminate HC]. injection HC as <-. exists [s']. split; [reflexivity|]. split; [|intros [X|X]; discriminate X]. repeat constructor. eapply HS; eauto.
      + injection HC as <-. exists []. cbn [collect pick k_super negb k_incheck andb k_gate k_always k_raises existsb]. split; [destruct al; reflexivity|]. split; [constructor|auto].
    - apply orb_false_elim in EA as [-> ->]. cbn [negb rbind sequence] in HC. injection HC as <-. exists []. split; [reflexivity|]. split; [constructor|auto]. }
  destruct CK as (ks & CK & FR & EM). destruct (renders_all o ks FR) as [hs HM]. exists (collect_html hs). split; [exact HI|]. split.
  - assert (HN : k_name (k_of c') = nm) by now rewrite HK. rewrite <- HN in TM |- *. assert (HE : entry_of c' = Ok n) by (unfold entry_of; now rewrite HK).
    destruct (shows_entry_template _ c' n TM HE) as (t & T1 & T2 & T3 & T4). rewrite (render_plain o c' t (txt (esc n)) ks hs ig T1 T2 T3 HI T4 CK HM). reflexivity.
  - intro H. rewrite (EM H) in HM. injection HM as <-. reflexivity.
Qed.
Variables l r : archive.
Notation jev := (jar_event fmt reprs ffmt text order up l r).
Lemma jname_class e n k : jar_kind up e n k -> jname e k = jar_class e k /\ class_label (jname e k) = Ok (jar_heading e k).
Proof. intro H. destruct k; [destruct H as [_ [-> | ->]]; split; vm_compute; reflexivity|destruct e; split; vm_compute; reflexivity..]. Qed.
Lemma jar_entry_renders e n k c' : jar_kind up e n k -> check (jev (e, n)) = Ok c' -> ~ (e = DIFF /\ k = JClass) ->
  exists ig more, is_ignored o c' = Ok ig /\ render o c' = Ok (item_html (jname e k ++ words (state_of c' ig)) n more) /\ (e <> DIFF -> more = []).
Proof.
  intros HK HC NC. assert (HT := jar_kind_tests up e n k HK). pose proof (event_tame fmt reprs ffmt text order up order_perm l r (e, n)) as TM.
  unfold jar_event in HC, TM.
  destruct k; [destruct HT as [T1 [-> | ->]]; rewrite T1 in HC, TM|destruct HT as [T1 T2]..];
    [| |destruct e; try (rewrite (T1 (or_introl eq_refl)) in HC, TM); try (rewrite (T1 (or_intror eq_refl)) in HC, TM)..];
    repeat match goal with H : _ /\ _ |- _ => destruct H end;
    repeat match goal with H : is_sigfile _ _ = _ |- _ => rewrite H in HC, TM; clear H | H : is_sigblock _ _ = _ |- _ => rewrite H in HC, TM; clear H | H : is_classfile _ = _ |- _ => rewrite H in HC, TM; clear H end;
    try (exfalso; apply NC; split; reflexivity);
    (edestruct jar_node_renders as (ig & more & R1 & R2 & R3); [exact TM|exact HC|vm_compute; reflexivity|intro; reflexivity || discriminate| |exists ig, more; split; [exact R1|split; [exact R2|intros; try contradiction; apply R3; (now left) || (now right)]]]);
    try discriminate; intros _ _ s s' Hs Hs'; try discriminate; injection Hs as Hs.
  - unfold manifest_sub in Hs. repeat match type of Hs with rbind ?m _ = _ => destruct m; cbn [rbind] in Hs; [|discriminate] end. injection Hs as <-. exact (manifest_renders false _ _ _ Hs').
  - unfold manifest_sub in Hs. repeat match type of Hs with rbind ?m _ = _ => destruct m; cbn [rbind] in Hs; [|discriminate] end. injection Hs as <-. exact (manifest_renders true _ _ _ Hs').
  - unfold data_sub in Hs. repeat match type of Hs with rbind ?m _ = _ => destruct m; cbn [rbind] in Hs; [|discriminate] end. injection Hs as <-. eapply data_renders; [exact Hs'|]. vm_compute. reflexivity.
  - unfold data_sub in Hs. repeat match type of Hs with rbind ?m _ = _ => destruct m; cbn [rbind] in Hs; [|discriminate] end. injection Hs as <-. eapply data_renders; [exact Hs'|]. vm_compute. reflexivity.
Qed.
Lemma class_report_iff e n k : jar_kind up e n k -> is_class_report (jev (e, n)) = true <-> e = DIFF /\ k = JClass.
Proof.
  intro HK. unfold is_class_report. rewrite (jev_name _ _ _ _ _ _ _ _ _ _ _ HK). pose proof (jar_kind_tests up e n k HK) as HT.
  destruct k, e; try (match goal with |- context [seqb ?x ?y] => let v := eval vm_compute in (seqb x y) in change (seqb x y) with v end; cbn [andb]; split; [discriminate|intros [? ?]; discriminate]).
  - destruct HT as [T1 (T2 & T3 & T4)]. unfold jar_event. rewrite (T1 (or_intror eq_refl)), T2, T3, T4. split; [auto|reflexivity].
  - destruct HT as [T1 (T2 & T3 & T4)]. unfold jar_event. rewrite (T1 (or_introl eq_refl)), T2, T3, T4. split; [discriminate|intros [? ?]; discriminate].
Qed.
Lemma jev_flags e n k : jar_kind up e n k -> k_entry (k_of (jev (e, n))) = Some n /\ (k_removal (k_of (jev (e, n))) = true <-> e = LEFT) /\ (k_addition (k_of (jev (e, n))) = true <-> e = RIGHT).
Proof.
  intro HK. assert (HT := jar_kind_tests up e n k HK). unfold jar_event.
  destruct k; [destruct HT as [T1 [-> | ->]]; rewrite T1|destruct HT as [T1 T2]..];
    [| |destruct e; try (rewrite (T1 (or_introl eq_refl))); try (rewrite (T1 (or_intror eq_refl)))..];
    repeat match goal with H : _ /\ _ |- _ => destruct H end;
    repeat match goal with H : is_sigfile _ _ = _ |- _ => rewrite H | H : is_sigblock _ _ = _ |- _ => rewrite H | H : is_classfile _ = _ |- _ => rewrite H end;
    unfold jar_node; cbn [k_of k_entry k_removal k_addition]; (split; [reflexivity|]); split; intuition discriminate.
Qed.
Lemma jname_not_squashed e k : seqb (jname e k) (lit "SquashedChange") = false.
Proof. destruct k, e; vm_compute; reflexivity. Qed.
(** ** Squashed changes *)
Lemma squashed_renders c n nm orig rn ig y0 : squash (named orig c) false (Some o) = Ok y0 -> k_name (k_of c) = nm -> k_entry (k_of c) = Some n -> k_removal (k_of c) = false -> k_addition (k_of c) = false ->
  is_ignored o c = Ok ig -> report_name (lit orig) = Some rn ->
  exists y, squash (named orig c) false (Some o) = Ok y /\ k_entry (k_of y) = Some n /\ k_name (k_of y) = lit "SquashedChange" /\ k_orig (k_of y) = Some (lit orig) /\
    render o y = Ok (item_html (lit "SquashedChange " ++ lit orig ++ words (state_of c ig)) n (link_html (n ++ 47 :: rn ++ lit ".html"))).
Proof.
  unfold squash. intros HY HN HE HR HA HI RN. rewrite named_ignored, HI in *. cbn [rbind] in *. destruct (get_description (named orig c)) as [ds|]; cbn [rbind] in *; [|discriminate HY]. clear HY y0.
  assert (Q : k_removal (k_of (named orig c)) = false /\ k_addition (k_of (named orig c)) = false /\ k_entry (k_of (named orig c)) = Some n /\ k_name (k_of (named orig c)) = lit orig) by (destruct c; cbn [named k_of k_removal k_addition k_entry k_name] in *; auto).
  destruct Q as (Q1 & Q2 & Q3 & Q4). rewrite Q1, Q2. eexists. split; [reflexivity|]. unfold squashed. cbn [k_of k_entry k_name k_orig]. rewrite Q3, Q4. split; [reflexivity|]. split; [reflexivity|]. split; [reflexivity|].
  cbn [render k_name]. assert (TS : template N_Squashed = Ok (lit "change_SquashedChange")) by (vm_compute; reflexivity). rewrite TS. cbn [rbind]. rewrite seqb_refl. unfold squashed_html, details_href, entry_of. cbn [k_of k_orig k_entry is_change k_always orb]. rewrite RN, named_change. cbn [rbind].
  unfold state_of. destruct (is_change c).
  - rewrite is_ignored_eq. cbn [k_own]. destruct ig; cbn [rbind k_parts negb]; rewrite escape_is; reflexivity.
  - cbn [rbind]. rewrite escape_is. reflexivity.
Qed.
Lemma jar_class_split e n k : jar_kind up e n k -> e = DIFF /\ k = JClass \/ ~ (e = DIFF /\ k = JClass).
Proof. intros _. destruct e, k; try (right; intros [? ?]; discriminate). now left. Qed.
Definition seen (y : change) : kid := (y, render o y).
Lemma jar_report_entry e n k y : jar_kind up e n k -> report_entry o (jev (e, n)) = Ok y ->
  exists c' ig, check (jev (e, n)) = Ok c' /\ is_ignored o c' = Ok ig /\ good_kid (seen y) /\ name_of_kid (seen y) = n /\ key jar_aliases (seen y) = jname e k /\
    (is_squashed (seen y) = true -> k_orig (k_of y) <> None) /\ jar_item e k n (state_of c' ig) (html_of (seen y)).
Proof.
  intros HK HR. unfold report_entry in HR. destruct (check (jev (e, n))) as [c'|] eqn:HC; cbn [rbind] in HR; [|discriminate]. exists c'. pose proof (check_k _ _ HC) as EK.
  destruct (jev_flags e n k HK) as (F1 & F2 & F3). pose proof (jev_name fmt reprs ffmt text order up l r e n k HK) as EN. rewrite <- EK in F1, F2, F3, EN.
  destruct (jar_class_split e n k HK) as [D|D].
  - rewrite (proj2 (class_report_iff e n k HK) D) in HR. destruct D as [-> ->]. pose proof (event_tame fmt reprs ffmt text order up order_perm l r (DIFF, n)) as TM. destruct (tame_checked o _ TM c' HC) as [ig HI]. exists ig. split; [reflexivity|]. split; [exact HI|].
    assert (R0 : k_removal (k_of c') = false) by (destruct (k_removal (k_of c')); [discriminate (proj1 F2 eq_refl)|reflexivity]). assert (A0 : k_addition (k_of c') = false) by (destruct (k_addition (k_of c')); [discriminate (proj1 F3 eq_refl)|reflexivity]).
    destruct (squashed_renders c' n _ "JarClassReport" (lit "JavaClassReport") ig y HR eq_refl F1 R0 A0 HI eq_refl) as (y' & S1 & S2 & S3 & S4 & S5). rewrite S1 in HR. injection HR as ->.
    assert (NK : name_of_kid (seen y) = n) by (unfold name_of_kid, seen; cbn [fst]; now rewrite S2). split; [|split; [exact NK|split; [|split]]].
    + split; [rewrite NK; exact S2|]. unfold html_of, seen. cbn [snd]. rewrite S5. reflexivity.
    + unfold key, is_squashed, kid_type, seen. cbn [fst]. rewrite S3, seqb_refl, S4. reflexivity.
    + intros _. rewrite S4. discriminate.
    + unfold html_of, seen. cbn [snd]. rewrite S5. cbn [jar_item]. reflexivity.
  - destruct (is_class_report (jev (e, n))) eqn:CR; [exfalso; apply D; now apply (class_report_iff e n k HK)|]. injection HR as <-. destruct (jar_entry_renders e n k c' HK HC D) as (ig & more & R1 & R2 & R3). exists ig. split; [reflexivity|]. split; [exact R1|].
    assert (NS : is_squashed (seen c') = false) by (unfold is_squashed, kid_type, seen; cbn [fst]; rewrite EN; apply jname_not_squashed).
    assert (NK : name_of_kid (seen c') = n) by (unfold name_of_kid, seen; cbn [fst]; now rewrite F1). split; [|split; [exact NK|split; [|split]]].
    + split; [rewrite NK; exact F1|]. unfold html_of, seen. cbn [snd]. now rewrite R2.
    + unfold key. rewrite NS. unfold kid_type, seen. cbn [fst]. exact EN.
    + rewrite NS. discriminate.
    + unfold html_of, seen. cbn [snd]. rewrite R2. destruct (jname_class e n k HK) as [-> _]. unfold jar_item. destruct e; try (rewrite (R3 ltac:(discriminate)); destruct k; reflexivity). destruct k; try (exists more; reflexivity). exfalso. apply D. auto.
Qed.

(** ** The page of two jars *)
Lemma fits_passes e n c' ig ok : check (jev (e, n)) = Ok c' -> is_ignored o c' = Ok ig -> (passes o (jev (e, n)) <-> ok) -> (e = LEFT \/ e = RIGHT -> is_change c' = true) -> (e = SAME -> is_change c' = false) ->
  state_fits e ok (state_of c' ig).
Proof.
  intros HC HI HP H1 H2. assert (PI : passes o (jev (e, n)) <-> is_change c' = false \/ ig = true).
  { unfold passes. split; [intros (c2 & HC2 & H)|intro H; exists c'; split; [exact HC|]]. - rewrite HC in HC2. injection HC2 as <-. rewrite HI in H. destruct H as [H|H]; [now left|right; now injection H]. - rewrite HI. destruct H as [H|H]; [now left|right; now rewrite H]. }
  unfold state_fits, state_of. split; [|split].
  - rewrite <- HP, PI. destruct (is_change c'), ig; split; try discriminate; try reflexivity; try (intros _ [H|H]; discriminate); intro H; exfalso; apply H; auto.
  - intro H. rewrite (H1 H). destruct ig; discriminate.
  - intro H. rewrite (H2 H). reflexivity.
Qed.
Hypothesis Kl : a_kind l = Zip.
Hypothesis Kr : a_kind r = Zip.
Hypothesis Ol : a_open l = true.
Hypothesis Or : a_open r = true.
Hypothesis Sl : Forall sound (a_entries l).
Hypothesis Sr : Forall sound (a_entries r).
Lemma jar_state rows e n k c' ig : classified rows l r -> In (e, n) rows -> jar_kind up e n k -> check (jev (e, n)) = Ok c' -> is_ignored o c' = Ok ig ->
  state_fits e (entry_ok fmt reprs ffmt up o l r e n) (state_of c' ig).
Proof.
  intros [_ C] HI HK HC HG. pose proof (jar_shaped fmt reprs ffmt text order up l r e n k c' HK HC) as [_ (_ & _ & _ & L4 & _)]. destruct (C n) as (C1 & C2 & C3 & C4).
  apply (fits_passes e n); [exact HC|exact HG| |exact L4|].
  - destruct (event_one_sided fmt reprs ffmt text order up l r o n) as [P1 P2]. destruct e; unfold entry_ok.
    + exact P1.
    + exact P2.
    + apply C4 in HI as (_ & d & d' & D1 & D2 & ND). pose proof (read_content text l n d Kl Ol D1) as R1. pose proof (read_content text r n d' Kr Or D2) as R2.
      rewrite (event_diff_passes fmt reprs ffmt text order up order_perm l r n d d' R1 R2 o ND). split; [|auto]. intros A x x' X X'. pose proof (read_content text l n x Kl Ol X) as R3. pose proof (read_content text r n x' Kr Or X') as R4. rewrite R1 in R3. rewrite R2 in R4. injection R3 as <-. injection R4 as <-. exact A.
    + split; [auto|intros _]. apply quiet_passes. apply event_same.
  - intros ->. destruct (event_same fmt reprs ffmt text order up l r n) as (c2 & E2 & H2). rewrite HC in E2. injection E2 as <-. exact H2.
Qed.
End Jars.

(** No category outside the listing *)
Definition no_group (h : list html) : Prop := Forall (fun t => opens_group t = false) h.
Lemma no_group_existsb h : no_group h -> existsb opens_group h = false.
Proof. induction 1 as [|x h H _ IH]; [reflexivity|]. cbn [existsb]. now rewrite H, IH. Qed.
Lemma no_group_app a b : no_group a -> no_group b -> no_group (a ++ b).
Proof. intros. now apply Forall_app. Qed.
Lemma no_group_el t a b : opens_group (Open (lit t) a) = false -> no_group b -> no_group (el t a b).
Proof. intros H1 H2. unfold el. constructor; [exact H1|]. apply no_group_app; [exact H2|]. repeat constructor. Qed.
Lemma no_group_flat {A} (f : A -> list html) l : (forall x, no_group (f x)) -> no_group (flat_map f l).
Proof. intro H. induction l as [|x l IH]; [constructor|]. cbn [flat_map]. now apply no_group_app. Qed.
Lemma no_group_head e t : no_group (head_html e t).
Proof.
  unfold head_html. apply no_group_el; [reflexivity|]. repeat apply no_group_app.
  - apply no_group_el; [reflexivity|]. repeat constructor.
  - unfold no_group. rewrite Forall_map. apply Forall_forall. reflexivity.
  - destruct (e_nojquery e); [constructor|]. apply no_group_el; [reflexivity|constructor].
  - apply no_group_flat. intro x. apply no_group_el; [|constructor]. reflexivity.
Qed.
Lemma no_group_heading e t : no_group (heading_html e t).
Proof.
  unfold heading_html. apply no_group_el; [reflexivity|]. apply no_group_app; [|apply no_group_el; [reflexivity|repeat constructor]]. apply no_group_el; [reflexivity|]. apply no_group_app; [|apply no_group_el; [reflexivity|repeat constructor]].
  apply no_group_flat. intro x. apply no_group_el; [reflexivity|]. apply no_group_el; [|repeat constructor]. reflexivity.
Qed.
(** The page around its details *)
Lemma page_lists e t a gs b : no_group a -> no_group b -> lists_groups (page_with e t (a ++ flat_map group_html gs ++ b)) gs.
Proof.
  intros HA HB. unfold page_with, el. exists (Prolog :: Open (lit "html") [(lit "xmlns", lit "http://www.w3.org/1999/xhtml"); (lit "xml:lang", lit "en"); (lit "lang", lit "en")] :: head_html e t ++ Open (lit "body") [] :: heading_html e t ++ el "div" (attrs_of [("id", "report-intro")]%string) [] ++ a).
  exists (b ++ el "div" (attrs_of [("id", "report-outro")]%string) [] ++ [Close (lit "body"); Close (lit "html")]). split.
  - unfold el. cbn [app]. do 2 f_equal. rewrite <- !app_assoc. cbn [app]. f_equal. f_equal. rewrite <- !app_assoc. cbn [app]. do 3 f_equal. rewrite <- !app_assoc. reflexivity.
  - apply no_group_existsb. cbn [app]. constructor; [reflexivity|]. constructor; [reflexivity|]. rewrite <- !app_assoc. apply no_group_app; [apply no_group_head|]. cbn [app]. constructor; [reflexivity|]. rewrite <- !app_assoc. apply no_group_app; [apply no_group_heading|].
    apply no_group_app; [repeat constructor|]. rewrite <- ?app_assoc. apply no_group_app; [exact HA|]. apply no_group_app; [exact HB|]. repeat constructor.
Qed.

(** ** From the listing to groups *)
Definition label_of (t : str) : str := match class_label t with Ok s => s | Err _ => [] end.
Definition group_of (tb : str * list kid) : group := mkgroup (label_of (fst tb)) (map (fun x => (name_of_kid x, html_of x)) (snd tb)).
Lemma groups_flat cats : flat_map (fun tb : str * list kid => group_html (mkgroup (label_of (fst tb)) (map (fun x => (name_of_kid x, html_of x)) (snd tb)))) cats = flat_map group_html (map group_of cats).
Proof. induction cats as [|x l IH]; [reflexivity|]. cbn [flat_map map]. now rewrite IH. Qed.
Lemma listing_groups ts aliases all kids : forallb (fun t => match class_label t with Ok _ => true | Err _ => false end) (all ++ ts) = true -> same_order ts all = true ->
  Forall good_kid kids -> NoDup (map name_of_kid kids) -> Forall (fun x => is_squashed x = true -> k_orig (k_of (fst x)) <> None) kids -> Forall (fun x => In (key aliases x) all) kids ->
  exists gs, listing ts aliases kids = Ok (flat_map group_html gs) /\ in_sequence (map label_of all) (map g_heading gs) /\ Forall tidy gs /\ Permutation (listed_names gs) (map name_of_kid kids) /\
    Forall (fun g => Forall (fun it => exists x, In x kids /\ it = (name_of_kid x, html_of x) /\ g_heading g = label_of (key aliases x)) (g_items g)) gs.
Proof.
  intros HL HO H1 H2 H3 H4. destruct (listing_ok ts aliases label_of all) with (kids := kids) as (cats & L1 & L2 & L3 & L4); try assumption.
  { intros t Ht. rewrite forallb_forall in HL. specialize (HL t ltac:(apply in_or_app; exact Ht)). unfold label_of. destruct (class_label t); [reflexivity|discriminate]. }
  exists (map group_of cats). rewrite L1, groups_flat. split; [reflexivity|]. split; [|split; [|split]].
  - apply (in_sequence_map label_of) in L3. rewrite map_map in L3 |- *. exact L3.
  - rewrite Forall_map. revert L4. apply Forall_impl. intros [t b] (N & S & _). unfold tidy. cbn [g_items group_of snd] in *. split; [destruct b; [contradiction|discriminate]|]. rewrite map_map. exact S.
  - transitivity (map name_of_kid (concat (map snd cats))); [|now apply Permutation_map]. unfold listed_names. clear. induction cats as [|x l IH]; [reflexivity|]. cbn [map flat_map concat]. unfold group_of at 1. cbn [g_items]. rewrite map_app, map_map. cbn [fst]. now apply Permutation_app_head.
  - rewrite Forall_map. apply Forall_forall. intros [t b] HT. rewrite Forall_forall in L4. destruct (L4 _ HT) as (_ & _ & FK). cbn [fst snd group_of g_items g_heading] in *. rewrite Forall_map. rewrite Forall_forall in FK |- *. intros x HX. exists x. split; [|split; [reflexivity|now rewrite (FK x HX)]].
    eapply Permutation_in; [exact L2|]. apply in_concat. exists b. split; [|exact HX]. exact (in_map snd _ _ HT).
Qed.

Definition jar_all : list str := map lit [
  "JarManifestChange"; "JarSignatureFileAdded"; "JarSignatureFileRemoved"; "JarSignatureFileChange";
  "JarSignatureBlockFileAdded"; "JarSignatureBlockFileRemoved"; "JarSignatureBlockFileChange";
  "JarContentAdded"; "JarContentRemoved"; "JarContentChange"; "JarClassAdded"; "JarClassRemoved"; "JarClassChange"; "JarGenericFileChange"]%string.
Lemma jname_all e n up k : jar_kind up e n k -> In (jname e k) jar_all.
Proof. intro H. assert (existsb (seqb (jname e k)) jar_all = true). { destruct k, e; vm_compute; reflexivity. } apply existsb_exists in H0 as (x & HX & E). now apply seqb_eq in E as ->. Qed.
Lemma jar_all_labels : map label_of jar_all = jar_headings.
Proof. vm_compute. reflexivity. Qed.

Theorem jar_page_groups fmt reprs ffmt text order up env o l r c : (forall s, Permutation (order s) s) ->
  a_kind l = Zip -> a_kind r = Zip -> a_open l = true -> a_open r = true -> Forall sound (a_entries l) -> Forall sound (a_entries r) ->
  jar_report_check fmt reprs ffmt text order up o (Ok l) (Ok r) = Ok c ->
  exists rows, classified rows l r /\
    (rows = [] -> page env o c = Err AssertionError) /\
    (rows <> [] -> exists h gs, page env o c = Ok h /\ lists_groups h gs /\ in_sequence jar_headings (map g_heading gs) /\ Forall tidy gs /\
       Permutation (listed_names gs) (map snd rows) /\
       Forall (fun g => Forall (jar_item_fits fmt reprs ffmt up o l r rows (g_heading g)) (g_items g)) gs).
Proof.
  intros OP Kl Kr Ol Or Sl Sr H. unfold jar_report_check in H. destruct (check (jar_type (Ok l) (Ok r))) as [t|] eqn:HT; cbn [rbind] in H; [|discriminate].
  destruct (events_ok text order OP l r Kl Kr Ol Or Sl Sr) as (evs & E & C). unfold jar_contents in H. cbn [collect_in pick contents_cls k_super negb k_incheck andb k_gate k_raises] in H. rewrite E in H. unfold jar_entries in H. rewrite E in H. cbn [rbind] in H.
  destruct (iterate_spec (fun c => k_name (k_of c)) (map (jar_event fmt reprs ffmt text order up l r) evs) jar_types) as (P & _). destruct (Permutation_map_inv _ _ P) as (rows & ER & PR). rewrite ER in H. clear ER P.
  destruct (mapM _ (map _ rows)) as [ks|] eqn:EM; cbn [rbind] in H; [|discriminate]. injection H as <-. apply mapM_Forall2 in EM. apply Forall2_map_l in EM.
  assert (CR : classified rows l r).
  { destruct C as [C1 C2]. split; [apply (Permutation_NoDup (Permutation_map snd PR)), C1|]. intro f. destruct (C2 f) as (X1 & X2 & X3 & X4).
    assert (HI : forall x, In x rows <-> In x evs) by (intro x; split; apply Permutation_in; [now apply Permutation_sym|exact PR]). now rewrite !HI. }
  exists rows. split; [exact CR|]. clear E C PR evs.
  (* the type of the jars *)
  assert (TT : tame (jar_type (Ok l) (Ok r))) by apply tame_leaf.
  destruct (renders_leaf o _ t TT HT) as (ig & _ & RT).
  { unfold jar_type, leaf_text, leaf, generic_check, pure2 in HT. cbn [check k_check rbind] in HT. destruct (Bool.eqb (is_exploded (Ok l)) (is_exploded (Ok r))); cbn [rbind] in HT; injection HT as <-; auto. }
  { left. vm_compute. reflexivity. }
  set (ty := el "div" _ _) in RT. assert (NT : no_group ty). { subst ty. apply no_group_el; [|repeat constructor]. unfold opens_group. cbn [existsb fst snd]. rewrite seqb_refl. cbn [andb orb]. unfold jar_type, leaf. cbn [k_of k_name]. destruct (state_of t ig); vm_compute; reflexivity. }
  set (J := jar_report_node _ _ _ _ _ _ _ _ _ _).
  assert (TJ : template (k_name (k_of J)) = Ok (lit "jardiff_JarReport")) by (vm_compute; reflexivity).
  assert (CJ : collect J = Ok [t; Node (contents_cls "JarContentsReport" None) (existsb is_change ks) None ks (jar_entries fmt reprs ffmt text order up (Ok l) (Ok r))]) by reflexivity.
  assert (TC : template (lit "JarContentsReport") = Ok (lit "jardiff_JarContentsReport")) by (vm_compute; reflexivity).
  assert (PG : page env o J = (hs <- mapM (render o) [t; Node (contents_cls "JarContentsReport" None) (existsb is_change ks) None ks (jar_entries fmt reprs ffmt text order up (Ok l) (Ok r))] ;;
     Ok (page_with env (lit "JarReport") (el "div" (attrs_of [("id", "report-details")]%string) (concat hs))))).
  { unfold page. rewrite TJ. cbn [rbind]. rewrite CJ. cbn [rbind]. rewrite seqb_refl. reflexivity. }
  assert (RC : render o (Node (contents_cls "JarContentsReport" None) (existsb is_change ks) None ks (jar_entries fmt reprs ffmt text order up (Ok l) (Ok r))) =
     match ks with [] => Err AssertionError | _ => b <- listing jar_page_order jar_aliases (map (seen o) ks) ;; Ok (Comment :: el "div" (class_is "details") b ++ [Comment]) end).
  { cbn [render]. assert (KN : k_name (contents_cls "JarContentsReport" None) = lit "JarContentsReport") by reflexivity. rewrite KN, TC. cbn [rbind]. rewrite seqb_refl. replace (seqb (lit "jardiff_JarContentsReport") (lit "change_SquashedChange")) with false by (vm_compute; reflexivity). destruct ks; reflexivity. }
  clearbody J ty. split.
  - intros ->. inversion EM; subst. rewrite PG. cbn [mapM]. rewrite RT. cbn [rbind]. rewrite RC. reflexivity.
  - intros NR. assert (KN : ks <> []) by (intros ->; inversion EM; subst; contradiction).
    assert (FK : Forall2 (fun en y => exists k c' ig, jar_kind up (fst en) (snd en) k /\ check (jar_event fmt reprs ffmt text order up l r en) = Ok c' /\ is_ignored o c' = Ok ig /\ good_kid (seen o y) /\ name_of_kid (seen o y) = snd en /\
       key jar_aliases (seen o y) = jname (fst en) k /\ (is_squashed (seen o y) = true -> k_orig (k_of y) <> None) /\ jar_item (fst en) k (snd en) (state_of c' ig) (html_of (seen o y))) rows ks).
    { revert EM. apply Forall2_impl'. intros [e n] y Hy. destruct (jar_kind_total up e n) as [k HK]. destruct (jar_report_entry fmt reprs ffmt text order up OP o l r e n k y HK Hy) as (c' & i & R). exists k, c', i. cbn [fst snd]. split; [exact HK|exact R]. }
    assert (NM : map name_of_kid (map (seen o) ks) = map snd rows).
    { rewrite map_map. clear -FK. induction FK as [|en y a b (k & c' & i & _ & _ & _ & _ & N & _) _ IH]; [reflexivity|]. cbn [map]. now rewrite N, IH. }
    assert (IN : forall y, In y ks -> exists en, In en rows /\ exists k c' ig, jar_kind up (fst en) (snd en) k /\ check (jar_event fmt reprs ffmt text order up l r en) = Ok c' /\ is_ignored o c' = Ok ig /\ good_kid (seen o y) /\ name_of_kid (seen o y) = snd en /\
       key jar_aliases (seen o y) = jname (fst en) k /\ (is_squashed (seen o y) = true -> k_orig (k_of y) <> None) /\ jar_item (fst en) k (snd en) (state_of c' ig) (html_of (seen o y))).
    { clear -FK. induction FK as [|en y a b H _ IH]; [intros ? []|]. intros z [<-|Hz]; [exists en; split; [now left|exact H]|]. destruct (IH z Hz) as (en' & I1 & I2). exists en'. split; [now right|exact I2]. }
    destruct (listing_groups jar_page_order jar_aliases jar_all (map (seen o) ks)) as (gs & L1 & L2 & L3 & L4 & L5).
    { vm_compute. reflexivity. } { vm_compute. reflexivity. }
    { rewrite Forall_map. apply Forall_forall. intros y Hy. destruct (IN y Hy) as (en & _ & k & c' & i & _ & _ & _ & G & _). exact G. }
    { rewrite NM. apply CR. }
    { rewrite Forall_map. apply Forall_forall. intros y Hy. destruct (IN y Hy) as (en & _ & k & c' & i & _ & _ & _ & _ & _ & _ & G & _). exact G. }
    { rewrite Forall_map. apply Forall_forall. intros y Hy. destruct (IN y Hy) as (en & _ & k & c' & i & KK & _ & _ & _ & _ & G & _). rewrite G. eapply jname_all. exact KK. }
    rewrite jar_all_labels in L2. rewrite NM in L4.
    exists (page_with env (lit "JarReport") ((Open (lit "div") (attrs_of [("id", "report-details")]%string) :: ty ++ [Comment; Open (lit "div") (class_is "details")]) ++ flat_map group_html gs ++ [Close (lit "div"); Comment; Close (lit "div")])), gs.
    split; [|split; [|split; [exact L2|split; [exact L3|split; [exact L4|]]]]].
    + rewrite PG. cbn [mapM]. rewrite RT. cbn [rbind]. rewrite RC. destruct ks as [|k0 ks]; [contradiction|]. rewrite L1. cbn [rbind concat]. do 2 f_equal. unfold el. cbn [app]. rewrite <- !app_assoc. cbn [app]. do 4 f_equal. rewrite <- !app_assoc. reflexivity.
    + apply page_lists; [|repeat constructor]. constructor; [reflexivity|]. apply no_group_app; [exact NT|repeat constructor].
    + revert L5. apply Forall_impl. intros g. apply Forall_impl. intros it (x & HX & -> & HG). apply in_map_iff in HX as (y & <- & Hy). destruct (IN y Hy) as ([e n] & I1 & k & c' & i & K1 & K2 & K3 & _ & K5 & K6 & _ & K8). cbn [fst snd] in *.
      unfold jar_item_fits. cbn [fst snd]. exists e, k, (state_of c' i). rewrite K5. split; [exact I1|]. split; [exact K1|]. split; [rewrite HG, K6; unfold label_of; now rewrite (proj2 (jname_class up e n k K1))|]. split; [|exact K8].
      eapply (jar_state fmt reprs ffmt text order up OP o l r Kl Kr Ol Or); eassumption.
Qed.

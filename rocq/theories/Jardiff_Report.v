(** After a completed check the change tree of a jar comparison can be written
    as a report: every collect() succeeds. *)
From Verif Require Import Base Pack_Model ConstPool_Model ConstPool_Spec ClassFile_Model Manifest_Model Sign_Spec
  Change_Model Change_Spec Change_Proofs Change_Report Classdiff_Model Classdiff_Spec Classdiff_Class Classdiff_Passes Change_Tame
  Zip_Spec Zip_Proofs Jardiff_Model Jardiff_Spec Jardiff_Proofs Jardiff_Jar.
From Verif Require Zip_Model Sign_Model.
From Coq Require Import Permutation.

Lemma ok_inj {A} (a b : A) : Ok a = Ok b -> a = b.
Proof. congruence. Qed.
Inductive ready : change -> Prop :=
| ready_node k ch d im :
    match k_check k with
    | CheckParts => k_incheck k = false \/ (im <> [] /\ k_gate k = false)
    | CheckOwn _ => k_super k = true -> k_incheck k = false /\ k_raises k = None /\ Forall (fun c => exists t, unfolds c t) im
    | CheckNothing => k_super k = false
    end -> Forall ready im -> ready (Node k ch d [] im).

Lemma unfolds_leaf k ch d im : k_super k = false -> exists t, unfolds (Node k ch d [] im) t.
Proof. intro H. eexists. econstructor; [cbn [collect pick]; rewrite H; reflexivity|reflexivity|constructor]. Qed.
Lemma unfolds_kids c ks : collect c = Ok ks -> (k_super (k_of c) = false -> ks = []) -> Forall (fun c => exists t, unfolds c t) ks -> exists t, unfolds c t.
Proof.
  intros H H0 H1. assert (exists ts, Forall2 unfolds ks ts) as [ts H2].
  { clear H H0. induction H1 as [|a l [t Ht] _ [ts IH]]; [exists []; constructor|]. exists (t :: ts). now constructor. }
  eexists. econstructor; eauto.
Qed.
Lemma collect_checked k ch d im c' : k_check k = CheckParts -> k_incheck k = false \/ (im <> [] /\ k_gate k = false) -> check (Node k ch d [] im) = Ok c' ->
  exists ks', collect c' = Ok ks' /\ (ks' = [] \/ Forall2 (fun a b => check a = Ok b) im ks').
Proof.
  intros Hk HK H. apply (check_parts _ _ _ _ _ _ Hk) in H as (ks & ks' & H1 & H2 & ->). cbn [collect_in pick] in H1.
  assert (HS : ks = [] \/ ks = im) by (destruct (k_super k); cbn [negb] in H1; [|left; congruence]; rewrite andb_false_r in H1; destruct (k_gate k && _); [left; congruence|]; destruct (k_raises k); [discriminate|right; congruence]).
  exists ks'. split; [|destruct HS as [-> | ->]; [inversion H2; now left|now right]].
  destruct (k_super k) eqn:Hs; cbn [negb] in H1.
  2: { injection H1 as <-. inversion H2; subst. cbn [collect pick]. now rewrite Hs. }
  destruct ks' as [|x ks']; [|reflexivity]. inversion H2; subst. cbn [existsb collect pick]. rewrite Hs. cbn [negb]. rewrite andb_true_r. rewrite andb_false_r in H1.
  destruct HK as [HK|[HK HG]].
  + rewrite HK. destruct (k_gate k); cbn [andb] in *.
    * rewrite orb_false_r. destruct (k_always k); cbn [negb orb] in *; [|reflexivity]. destruct (k_raises k); [discriminate|congruence].
    * destruct (k_raises k); [discriminate|congruence].
  + rewrite HG in H1. cbn [andb] in H1. destruct (k_raises k); [discriminate|]. congruence.
Qed.
Lemma ready_unfolds c : ready c -> forall c', check c = Ok c' -> exists t, unfolds c' t.
Proof.
  induction c as [k ch d cs im IH1 IH2] using change_rect'. intros HR c' H. inversion HR as [? ? ? ? HK HI]; subst. destruct (k_check k) as [|r|] eqn:Hk.
  - cbn [check] in H. rewrite Hk in H. injection H as <-. now apply unfolds_leaf.
  - cbn [check] in H. rewrite Hk in H. destruct r as [[b d']|]; cbn [rbind] in H; [|discriminate]. injection H as <-. destruct (k_super k) eqn:Hs; [|now apply unfolds_leaf].
    destruct (HK eq_refl) as (H1 & H2 & H3). destruct (k_gate k && negb (k_always k || b)) eqn:Hg.
    + apply unfolds_kids with (ks := []); [|reflexivity|constructor]. cbn [collect pick]. now rewrite Hs, H1, Hg.
    + apply unfolds_kids with (ks := im); [|cbn [k_of]; congruence|exact H3]. cbn [collect pick]. now rewrite Hs, H1, Hg, H2.
  - apply (check_parts _ _ _ _ _ _ Hk) in H as (ks & ks' & H1 & H2 & ->). cbn [collect_in pick] in H1.
    assert (HS : ks = [] \/ ks = im) by (destruct (k_super k); cbn [negb] in H1; [|left; congruence]; rewrite andb_false_r in H1; destruct (k_gate k && _); [left; congruence|]; destruct (k_raises k); [discriminate|right; congruence]).
    assert (HF : Forall (fun c => exists t, unfolds c t) ks').
    { destruct HS as [-> | ->]; [inversion H2; constructor|]. clear -H2 HI IH2. induction H2 as [|a b l r Hab H2 IH]; inversion HI; inversion IH2; subst; constructor; auto. }
    destruct (k_super k) eqn:Hs; cbn [negb] in H1.
    2: { injection H1 as <-. inversion H2; subst. now apply unfolds_leaf. }
    destruct ks' as [|x ks'].
    2: { apply unfolds_kids with (ks := x :: ks'); [reflexivity|cbn [k_of]; congruence|exact HF]. }
    inversion H2; subst. apply unfolds_kids with (ks := []); [|reflexivity|constructor]. cbn [existsb collect pick]. rewrite Hs. cbn [negb]. rewrite andb_true_r. rewrite andb_false_r in H1.
    destruct HK as [HK|[HK HG]].
    + rewrite HK. destruct (k_gate k); cbn [andb] in *.
      * rewrite orb_false_r. destruct (k_always k); cbn [negb orb] in *; [|reflexivity]. destruct (k_raises k); [discriminate|congruence].
      * destruct (k_raises k); [discriminate|congruence].
    + rewrite HG in H1. cbn [andb] in H1. destruct (k_raises k); [discriminate|]. congruence.
Qed.
Lemma ready_super n lb t rs kids : Forall ready kids -> ready (super n lb t rs kids).
Proof. intro H. unfold super. constructor; [now left|exact H]. Qed.
Lemma ready_leaf n lb own r lp rp : ready (leaf n lb own r lp rp).
Proof. unfold leaf. constructor; [cbn; discriminate|constructor]. Qed.
Lemma ready_iterate ch f lt : Forall ready ch -> Forall ready (iterate_by_type f ch lt).
Proof. destruct (iterate_spec f ch lt) as [P _]. apply Permutation_Forall. now apply Permutation_sym. Qed.
Lemma ready_section name label always add rem txt own same old new : ready (section_node name label always add rem txt own same old new).
Proof. unfold section_node. constructor; [cbn; discriminate|constructor]. Qed.

Section Jars.
Variable fmt : pyval -> str.
Variable reprs : str -> str.
Variable ffmt : pyval -> str.
Variable text : bytes -> res str.
Variable order : list str -> list str.
Variable up : Z -> str.

Lemma ready_class l r : ready (class_change fmt reprs ffmt l r).
Proof.
  assert (HC : forall lp rp lc rc, ready (method_code fmt reprs lp rp lc rc)).
  { intros lp rp lc rc. unfold method_code. assert (HL : Forall ready (code_parts fmt reprs lp rp lc rc)) by (unfold code_parts; repeat (apply Forall_cons; [apply ready_leaf|]); constructor).
    assert (HU : Forall (fun c => exists t, unfolds c t) (code_parts fmt reprs lp rp lc rc)) by (unfold code_parts; repeat (apply Forall_cons; [unfold leaf; now apply unfolds_leaf|]); constructor).
    destruct lc, rc; (constructor; [|first [exact HL|constructor]]); cbn [k_check]; [now left|intros _; repeat split; auto..]. }
  assert (HF : forall lp rp a b, ready (field_change fmt reprs lp rp a b)).
  { intros. unfold field_change. apply ready_super. repeat (apply Forall_cons; [apply ready_leaf|]). constructor. }
  assert (HM : forall lp rp a b, ready (method_change fmt reprs lp rp a b)).
  { intros. unfold method_change. cbv zeta. apply ready_super. do 10 (apply Forall_cons; [apply ready_leaf|]). apply Forall_cons; [|constructor]. destruct (get_code lp a), (get_code rp b); apply HC. }
  unfold class_change. apply ready_super. apply Forall_cons; [unfold class_info; apply ready_super; repeat (apply Forall_cons; [apply ready_leaf|]); constructor|].
  apply Forall_cons; [apply ready_leaf|]. apply Forall_cons; [apply ready_leaf|]. apply Forall_cons; [unfold pool_change; constructor; [cbn; discriminate|constructor]|].
  apply Forall_cons; [|apply Forall_cons; [|constructor]].
  - unfold fields_change. cbv zeta. apply ready_super. destruct (collect_members _ _ _ _ _); [|constructor]. apply ready_iterate. rewrite Forall_map. apply Forall_forall. intros [x|x|x y] _; [constructor; [cbn; auto; discriminate|constructor]..|apply HF].
  - unfold methods_change. cbv zeta. apply ready_super. destruct (collect_members _ _ _ _ _); [|constructor]. apply ready_iterate. rewrite Forall_map. apply Forall_forall. intros [x|x|x y] _; [constructor; [cbn; auto; discriminate|constructor]..|apply HM].
Qed.
Lemma ready_manifest_parts l r : Forall ready (manifest_parts order l r).
Proof.
  unfold manifest_parts. cbv zeta. apply Forall_cons; [apply ready_section|]. rewrite !Forall_app, !Forall_map. repeat split; apply Forall_forall; intros x _; apply ready_section.
Qed.
Lemma ready_manifest l r : ready (manifest_change order l r).
Proof. unfold manifest_change. constructor; [now left|apply ready_manifest_parts]. Qed.
Lemma ready_signature l r : ready (signature_change order l r).
Proof. unfold signature_change. constructor; [now left|apply ready_manifest_parts]. Qed.
Lemma ready_data name label txt sh l r : ready (data_node name label txt sh l r).
Proof. unfold data_node. constructor; [cbn; discriminate|constructor]. Qed.
Lemma ready_jar_node name label always add rem own parts changed sub entry :
  match sub with Some (Ok c) => ready c | _ => True end -> ready (jar_node name label always add rem own parts changed sub entry).
Proof. intro H. unfold jar_node. constructor; [now left|]. destruct sub as [[c|]|]; repeat constructor. exact H. Qed.
Lemma ready_event l r ev : ready (jar_event fmt reprs ffmt text order up l r ev).
Proof.
  assert (HM : forall mk e, (forall a b, ready (mk a b)) -> match Some (manifest_sub text l r mk e) with Some (Ok c) => ready c | _ => True end).
  { intros mk e H. unfold manifest_sub. destruct (read_entry text l e) as [p|]; cbn [rbind]; [|exact I]. destruct (parse_piece p); cbn [rbind]; [|exact I]. destruct (read_entry text r e) as [q|]; cbn [rbind]; [|exact I]. destruct (parse_piece q); cbn [rbind]; [apply H|exact I]. }
  assert (HD : forall mk e, (forall a b, ready (mk a b)) -> match Some (data_sub text l r mk e) with Some (Ok c) => ready c | _ => True end).
  { intros mk e H. unfold data_sub. destruct (read_entry text l e) as [p|]; cbn [rbind]; [|exact I]. destruct (read_entry text r e) as [q|]; cbn [rbind]; [apply H|exact I]. }
  assert (HC : forall e, match Some (class_sub fmt reprs ffmt text l r e) with Some (Ok c) => ready c | _ => True end).
  { intros e. unfold class_sub. destruct (read_entry text l e) as [p|]; cbn [rbind]; [|exact I]. destruct (unpack_piece p); cbn [rbind]; [|exact I]. destruct (read_entry text r e) as [q|]; cbn [rbind]; [|exact I]. destruct (unpack_piece q); cbn [rbind]; [apply ready_class|exact I]. }
  destruct ev as [e n]. destruct e; cbn [jar_event];
    repeat match goal with |- ready (if ?b then _ else _) => destruct b end; apply ready_jar_node;
    first [exact I|apply HC|apply HM; intros; first [apply ready_manifest|apply ready_signature]|apply HD; intros; apply ready_data].
Qed.
Lemma ready_entries l r : Forall ready (jar_entries fmt reprs ffmt text order up l r).
Proof.
  unfold jar_entries. destruct (jar_events text order l r) as [[[a b] evs]|]; [|constructor]. apply ready_iterate. rewrite Forall_map. apply Forall_forall. intros ev _. apply ready_event.
Qed.

Lemma ready_jar l r : jar_entries fmt reprs ffmt text order up l r <> [] -> ready (jar_change fmt reprs ffmt text order up l r).
Proof. intro H. unfold jar_change. apply ready_super. apply Forall_cons; [apply ready_leaf|]. apply Forall_cons; [|constructor]. unfold jar_contents. constructor; [right; now split|apply ready_entries]. Qed.

(** All reports can be written if there is an event, or unchanged parts are not
    asked for, and those of the changed classes can be written. *)
Lemma jar_plain o l r c : check (jar_change fmt reprs ffmt text order up l r) = Ok c -> jar_entries fmt reprs ffmt text order up l r = [] -> show_unchanged o = false ->
  exists t j, text_report o c = Ok t /\ json_of o c = Ok j.
Proof.
  intros HC EE HU. unfold jar_change, super in HC. apply check_parts in HC as (ks & ks' & H1 & H2 & ->); [|reflexivity]. cbn [collect_in pick k_super k_incheck k_gate k_raises negb andb] in H1. injection H1 as <-.
  inversion H2 as [|? t ? q Ht Hq]; subst. inversion Hq as [|? c ? q' Hc Hq']; subst. inversion Hq'; subst. clear H2 Hq Hq'.
  unfold jar_contents in Hc. rewrite EE in Hc. apply check_parts in Hc as (ks & ks' & H1 & H2 & ->); [|reflexivity]. unfold contents_cls in H1. cbn [collect_in pick k_super k_incheck k_gate k_raises negb andb] in H1. destruct (jar_events text order l r); [|discriminate]. injection H1 as <-. inversion H2; subst. cbn [existsb].
  unfold jar_type, leaf_text, leaf in Ht. cbn [check k_check] in Ht. unfold generic_check, pure2 in Ht. cbn [rbind] in Ht. unfold text_report. cbn [indent_change json_of]. set (K := contents_cls _ _).
  assert (KC : is_change (Node K false None [] []) = false) by reflexivity.
  destruct (Bool.eqb _ _); cbn [rbind] in Ht; injection Ht as <-.
  + eexists. eexists. cbn. rewrite HU. cbn. split; reflexivity.
  + eexists. eexists. cbn. destruct (show_ignored o); cbn; rewrite HU; cbn; split; reflexivity.
Qed.
Section Fit.
Variable S : rose -> Prop.
Variable N : cls -> Prop.
Hypothesis S_node : forall c subs, N (k_of c) -> Forall S subs -> S (R c subs).
Hypothesis N_leaf : forall n lb own x lp rp, N (k_of (leaf n lb own x (Ok lp) (Ok rp))).
Hypothesis N_super : forall n lb rs kids, N (k_of (super n lb None rs kids)).
Hypothesis N_node : forall nm lb al ad re own pt ch sub n, N (k_of (jar_node nm lb al ad re own pt ch sub n)).
Hypothesis N_section : forall name label always add rem txt own same old new, N (k_of (section_node name label always add rem txt own same old new)).
Hypothesis N_data : forall name label txt sh a b, N (k_of (data_node name label txt sh a b)).
Hypothesis N_plain : forall nm lb own pa incheck rs, N (mkcls nm lb false false false None own pa CheckParts true false incheck rs None None [] no_data no_data).

Inductive fit : change -> Prop :=
| fit_given c : (forall c' t, check c = Ok c' -> unfolds c' t -> S t) -> fit c
| fit_node k ch d im : N k -> k_check k = CheckParts \/ k_super k = false -> Forall fit im -> fit (Node k ch d [] im).
Lemma fit_all c : fit c -> ready c -> forall c' t, check c = Ok c' -> unfolds c' t -> S t.
Proof.
  induction c as [k ch d cs im IH1 IH2] using change_rect'. intros HF HR c' t H HU. inversion HF as [? G|? ? ? ? HN HK HI]; subst; [eauto|]. clear HF.
  inversion HR as [? ? ? ? RK RI]; subst. apply unfolds_inv in HU as (ks & subs & -> & U1 & U2 & U3). pose proof (check_cls _ _ H) as EC. cbn [k_of] in EC.
  apply S_node; [rewrite EC; exact HN|]. destruct (k_super k) eqn:Hs.
  2: { rewrite EC in U2. specialize (U2 Hs). subst ks. inversion U3. constructor. }
  destruct HK as [Hk|]; [|congruence]. rewrite Hk in RK. destruct (collect_checked k ch d im c' Hk RK H) as (ks' & C1 & [->|C2]).
  - rewrite U1 in C1. injection C1 as ->. inversion U3. constructor.
  - rewrite U1 in C1. injection C1 as ->. clear -C2 U3 IH2 HI RI. revert subs U3. induction C2 as [|a b l r Hab C2 IH]; intros subs U3; inversion U3; subst; constructor; inversion IH2; inversion HI; inversion RI; subst; eauto.
Qed.
Lemma fit_leaf n lb own x lp rp : fit (leaf n lb own x (Ok lp) (Ok rp)).
Proof. pose proof (N_leaf n lb own x lp rp) as HN. unfold leaf in *. apply fit_node; [exact HN|now right|constructor]. Qed.
Lemma fit_iterate ch f lt : Forall fit ch -> Forall fit (iterate_by_type f ch lt).
Proof. destruct (iterate_spec f ch lt) as [P _]. apply Permutation_Forall. now apply Permutation_sym. Qed.
Lemma fit_sections l r : Forall fit (manifest_parts order l r).
Proof.
  assert (FS : forall name label always add rem txt own same old new, fit (section_node name label always add rem txt own same old new)).
  { intros. pose proof (N_section name label always add rem txt own same old new) as HN. unfold section_node in *. apply fit_node; [exact HN|now right|constructor]. }
  unfold manifest_parts. cbv zeta. apply Forall_cons; [apply FS|]. rewrite !Forall_app, !Forall_map. repeat split; apply Forall_forall; intros x _; apply FS.
Qed.
(** The class comparisons whose reports are to be had *)
Definition classes_fit (a b : Zip_Model.archive) : Prop := forall n x y c t, class_sub fmt reprs ffmt text a b n = Ok (class_change fmt reprs ffmt x y) ->
  class_file n -> ~ the_manifest n -> ~ signature up n -> check (class_change fmt reprs ffmt x y) = Ok c -> unfolds c t -> S t.
Lemma fit_event a b ev : (forall n x y, fst ev = Zip_Model.DIFF -> snd ev = n -> class_file n -> ~ the_manifest n -> ~ signature up n ->
    class_sub fmt reprs ffmt text a b n = Ok (class_change fmt reprs ffmt x y) -> fit (class_change fmt reprs ffmt x y)) -> fit (jar_event fmt reprs ffmt text order up a b ev).
Proof.
  intro HC. assert (FN : forall nm lb al ad re own pt ch sub n, match sub with Some (Ok c) => fit c | _ => True end -> fit (jar_node nm lb al ad re own pt ch sub n)).
  { intros nm lb al ad re own pt ch sub n H. pose proof (N_node nm lb al ad re own pt ch sub n) as HN. unfold jar_node in *. apply fit_node; [exact HN|now left|]. destruct sub as [[c|]|]; [constructor; [exact H|constructor]|constructor|constructor]. }
  assert (HM : forall mk e, (forall a b, fit (mk a b)) -> match Some (manifest_sub text a b mk e) with Some (Ok c) => fit c | _ => True end).
  { intros mk e H. unfold manifest_sub. destruct (read_entry text a e) as [p|]; cbn [rbind]; [|exact I]. destruct (parse_piece p); cbn [rbind]; [|exact I]. destruct (read_entry text b e) as [q|]; cbn [rbind]; [|exact I]. destruct (parse_piece q); cbn [rbind]; [apply H|exact I]. }
  assert (HD : forall mk e, (forall a b, fit (mk a b)) -> match Some (data_sub text a b mk e) with Some (Ok c) => fit c | _ => True end).
  { intros mk e H. unfold data_sub. destruct (read_entry text a e) as [p|]; cbn [rbind]; [|exact I]. destruct (read_entry text b e) as [q|]; cbn [rbind]; [apply H|exact I]. }
  assert (F1 : forall x y, fit (manifest_change order x y)) by (intros; unfold manifest_change; apply fit_node; [apply N_plain|now left|apply fit_sections]).
  assert (F2 : forall x y, fit (signature_change order x y)) by (intros; unfold signature_change; apply fit_node; [apply N_plain|now left|apply fit_sections]).
  assert (F3 : forall name label txt sh x y, fit (data_node name label txt sh x y)) by (intros; pose proof (N_data name label txt sh x y) as HN; unfold data_node in *; apply fit_node; [exact HN|now right|constructor]).
  assert (F4 : forall e n ch own, (e = Zip_Model.SAME \/ ev = (e, n)) -> e = Zip_Model.SAME \/ e = Zip_Model.DIFF -> ch = (match e with Zip_Model.DIFF => true | _ => false end) -> seqb n Sign_Model.MANIFEST_NAME = false -> is_sigfile up n = false -> is_sigblock up n = false -> is_classfile n = true ->
    fit (jar_node (lit "JarClassChange") (lit "Java Class") false false false own true ch (Some (class_sub fmt reprs ffmt text a b n)) n)).
  { intros e n ch own He Hs -> E1 E2 E3 E4. destruct Hs as [-> | ->].
    - apply fit_given. intros c' t H U. unfold jar_node in H. apply check_parts in H as (ks & ks' & H1 & H2 & ->); [|reflexivity]. cbn [collect_in pick k_super k_gate k_always negb andb orb] in H1. injection H1 as <-. inversion H2; subst. cbn [existsb] in U.
      apply unfolds_inv in U as (ks & subs & -> & U1 & U2 & U3). cbn [collect pick k_super k_gate k_incheck k_always negb andb orb] in U1. injection U1 as <-. inversion U3. apply S_node; [|constructor].
      exact (N_node (lit "JarClassChange") (lit "Java Class") false false false own true false (Some (class_sub fmt reprs ffmt text a b n)) n).
    - apply FN. destruct (class_sub fmt reprs ffmt text a b n) as [c|] eqn:EC; [|exact I]. destruct He as [He|He]; [discriminate|].
      assert (exists x y, c = class_change fmt reprs ffmt x y) as (x & y & ->).
      { revert EC. unfold class_sub. destruct (read_entry text a n) as [p|]; cbn [rbind]; [|discriminate]. destruct (unpack_piece p); cbn [rbind]; [|discriminate]. destruct (read_entry text b n) as [q|]; cbn [rbind]; [|discriminate]. destruct (unpack_piece q); cbn [rbind]; [|discriminate]. intro H. apply ok_inj in H. eauto. }
      apply (HC n x y); [now rewrite He|now rewrite He|now apply is_classfile_iff| | |exact EC].
      + rewrite <- manifest_is_sigfree, E1. discriminate.
      + intros [H|H]; [apply is_sigfile_iff in H|apply is_sigblock_iff in H]; congruence. }
  destruct ev as [e n]. destruct e; cbn [jar_event]; repeat match goal with |- fit (if ?b then _ else _) => destruct b eqn:? end;
    first [eapply (F4 Zip_Model.SAME); auto; fail|eapply (F4 Zip_Model.DIFF); auto; fail|apply FN; first [exact I|apply HM; assumption|apply HD; intros; apply F3]].
Qed.
Lemma jar_fit l r c t : check (jar_change fmt reprs ffmt text order up l r) = Ok c -> jar_entries fmt reprs ffmt text order up l r <> [] ->
  (forall a b, l = Ok a -> r = Ok b -> classes_fit a b) -> unfolds c t -> S t.
Proof.
  intros HC HE HX HU.
  assert (HR : ready (jar_change fmt reprs ffmt text order up l r)) by now apply ready_jar.
  refine (fit_all _ _ HR _ _ HC HU). unfold jar_change. pose proof (N_super "JarChange" "JAR" None [jar_type l r; jar_contents fmt reprs ffmt text order up l r]) as HN. unfold super in *. apply fit_node; [exact HN|now left|].
  apply Forall_cons; [unfold jar_type, leaf_text; apply fit_leaf|]. apply Forall_cons; [|constructor]. unfold jar_contents. apply fit_node; [apply N_plain|now left|].
  unfold jar_entries. destruct (jar_events text order l r) as [[[a b] evs]|] eqn:EV; [|constructor]. apply fit_iterate. rewrite Forall_map. apply Forall_forall. intros ev _. apply fit_event. intros n x y _ _ H1 H2 H3 H4. apply fit_given. intros c' t' H5 H6.
  assert (l = Ok a /\ r = Ok b) as [-> ->] by (revert EV; unfold jar_events; destruct l; cbn [rbind]; [|discriminate]; destruct r; cbn [rbind]; [|discriminate]; destruct (Zip_Model.compare_zips _ _ _ _ _) as [? [?|]]; [discriminate|]; intro H; injection H as -> -> _; auto).
  exact (HX a b eq_refl eq_refl n x y c' t' H4 H1 H2 H3 H5 H6).
Qed.
End Fit.

(** The classes compared in two jars *)
Definition compared (l r : jar) (x y : classinfo) : Prop := exists a b n d d', l = Ok a /\ r = Ok b /\ content a n d /\ content b n d' /\
  class_file n /\ ~ the_manifest n /\ ~ signature up n /\ unpack_class d MNone = Ok x /\ unpack_class d' MNone = Ok y.
Lemma class_sub_compared a b n x y c : class_sub fmt reprs ffmt text a b n = Ok c -> c = class_change fmt reprs ffmt x y ->
  class_file n -> ~ the_manifest n -> ~ signature up n -> exists x' y', compared (Ok a) (Ok b) x' y' /\ c = class_change fmt reprs ffmt x' y'.
Proof.
  assert (RC : forall z p v, read_entry text z n = Ok p -> unpack_piece p = Ok v -> exists d, content z n d /\ unpack_class d MNone = Ok v).
  { intros z p v. unfold read_entry, Zip_Model.getinfo. destruct (Zip_Model.a_kind z).
    - destruct (Zip_Model.a_open z); [|discriminate]. destruct (Zip_Model.find_entry (Zip_Model.a_entries z) n) as [e|] eqn:E; cbn [rbind]; [|discriminate]. intros H1 H2. apply ok_inj in H1. subst p. cbn [unpack_piece] in H2. exists (Zip_Model.e_data e). split; [|exact H2]. apply find_entry_content. eauto.
    - destruct (Zip_Model.find_entry (Zip_Model.a_entries z) n); [|discriminate]. destruct (text _); cbn [rbind]; [|discriminate]. intros H1 H2. apply ok_inj in H1. subst p. discriminate H2. }
  intros H -> F1 F2 F3. unfold class_sub in H. destruct (read_entry text a n) as [p|] eqn:E1; cbn [rbind] in H; [|discriminate]. destruct (unpack_piece p) as [v|] eqn:E2; cbn [rbind] in H; [|discriminate].
  destruct (read_entry text b n) as [q|] eqn:E3; cbn [rbind] in H; [|discriminate]. destruct (unpack_piece q) as [w|] eqn:E4; cbn [rbind] in H; [|discriminate]. apply ok_inj in H.
  destruct (RC _ _ _ E1 E2) as (d & D1 & D2). destruct (RC _ _ _ E3 E4) as (d' & D3 & D4). exists v, w. split; [|now symmetry]. exists a, b, n, d, d'. auto 10.
Qed.
Theorem jar_text_report o l r c : check (jar_change fmt reprs ffmt text order up l r) = Ok c ->
  (show_unchanged o = true -> jar_entries fmt reprs ffmt text order up l r <> []) ->
  (forall x y c', compared l r x y -> check (class_change fmt reprs ffmt x y) = Ok c' -> exists t, text_report o c' = Ok t) ->
  exists t, text_report o c = Ok t.
Proof.
  intros HC HE HX. destruct (jar_entries fmt reprs ffmt text order up l r) as [|x xs] eqn:EE.
  { destruct (jar_plain o l r c HC EE) as (t & j & H & _); [destruct (show_unchanged o); [now destruct HE|reflexivity]|eauto]. }
  assert (NE : jar_entries fmt reprs ffmt text order up l r <> []) by (rewrite EE; discriminate). destruct (ready_unfolds _ (ready_jar l r NE) _ HC) as [t Ht].
  eexists. unfold text_report. apply (report_spec o t 0%nat c Ht). refine (jar_fit (tellable o) (fun k => forall f b, k_text k = Some f -> exists s, f b = Ok s) _ _ _ _ _ _ _ l r c t HC NE _ Ht).
  - intros c0 subs HN HS. apply tellable_inv. split; [|intros _; exact HS]. unfold speaks. destruct c0 as [k ch d cs im]. cbn [get_description k_of] in *. destruct (k_text k) eqn:E; [now apply HN|eexists; reflexivity].
  - intros n lb own z lp rp f b H. discriminate H.
  - intros n lb rs kids f b H. discriminate H.
  - intros nm lb al ad re own pt ch sub n f b H. cbn [jar_node k_of k_text] in H. injection H as <-. eexists. reflexivity.
  - intros name label always add rem txt own same old new f b H. cbn [section_node k_of k_text] in H. injection H as <-. eexists. reflexivity.
  - intros name label txt sh a b f b0 H. cbn [data_node k_of k_text] in H. injection H as <-. eexists. reflexivity.
  - intros nm lb own pa inc rs f b H. discriminate H.
  - intros a b -> -> n u v c' t' H1 H2 H3 H4 H5 H6. destruct (class_sub_compared a b n u v _ H1 eq_refl H2 H3 H4) as (x' & y' & H7 & H8). rewrite H8 in H5. destruct (HX x' y' c' H7 H5) as [out HO]. exact (report_tells o t' 0%nat c' out H6 HO).
Qed.
Theorem jar_json_report o l r c : check (jar_change fmt reprs ffmt text order up l r) = Ok c ->
  (show_unchanged o = true -> jar_entries fmt reprs ffmt text order up l r <> []) ->
  (forall x y c', compared l r x y -> check (class_change fmt reprs ffmt x y) = Ok c' -> exists j, json_of o c' = Ok j) ->
  exists j, json_of o c = Ok j.
Proof.
  intros HC HE HX. destruct (jar_entries fmt reprs ffmt text order up l r) as [|x xs] eqn:EE.
  { destruct (jar_plain o l r c HC EE) as (t & j & _ & H); [destruct (show_unchanged o); [now destruct HE|reflexivity]|eauto]. }
  assert (NE : jar_entries fmt reprs ffmt text order up l r <> []) by (rewrite EE; discriminate). destruct (ready_unfolds _ (ready_jar l r NE) _ HC) as [t Ht].
  assert (ST : storable o t); [|destruct (json_spec o t c Ht ST) as (j & Hj & _); eauto].
  refine (jar_fit (storable o) (fun k => (forall f b, k_text k = Some f -> exists s, f b = Ok s) /\ (exists x, k_old k = Ok x) /\ exists x, k_new k = Ok x) _ _ _ _ _ _ _ l r c t HC NE _ Ht).
  - intros c0 subs (HN & HO & HW) HS. apply storable_inv. split; [|revert HS; apply Forall_impl; auto]. split; [|split; [exact HO|exact HW]]. unfold speaks. destruct c0 as [k ch d cs im]. cbn [get_description k_of] in *. destruct (k_text k) eqn:E; [now apply HN|eexists; reflexivity].
  - intros n lb own z lp rp. split; [intros f b H; discriminate H|]. split; eexists; reflexivity.
  - intros n lb rs kids. split; [intros f b H; discriminate H|]. split; eexists; reflexivity.
  - intros nm lb al ad re own pt ch sub n. split; [intros f b H; cbn [jar_node k_of k_text] in H; injection H as <-; eexists; reflexivity|]. split; eexists; reflexivity.
  - intros name label always add rem txt own same old new. split; [intros f b H; cbn [section_node k_of k_text] in H; injection H as <-; eexists; reflexivity|]. split; eexists; reflexivity.
  - intros name label txt sh a b. split; [intros f b0 H; cbn [data_node k_of k_text] in H; injection H as <-; eexists; reflexivity|]. split; eexists; reflexivity.
  - intros nm lb own pa inc rs. split; [intros f b H; discriminate H|]. split; eexists; reflexivity.
  - intros a b -> -> n u v c' t' H1 H2 H3 H4 H5 H6. destruct (class_sub_compared a b n u v _ H1 eq_refl H2 H3 H4) as (x' & y' & H7 & H8). rewrite H8 in H5. destruct (HX x' y' c' H7 H5) as [j HJ]. exact (json_stores o t' c' j H6 HJ).
Qed.
End Jars.

(** ** Jars with the same contents, and directories in place of jars *)
Section Same.
Variable fmt : pyval -> str.
Variable reprs : str -> str.
Variable ffmt : pyval -> str.
Variable text : bytes -> res str.
Variable order : list str -> list str.
Variable up : Z -> str.
Hypothesis order_perm : forall s, Permutation (order s) s.

Lemma quiet_exit o c : quiet c -> exists c', check c = Ok c' /\ is_change c' = false /\ exit_status o c' = Ok 0.
Proof. intros (c' & H1 & H2). exists c'. split; [exact H1|]. split; [exact H2|]. unfold exit_status. now rewrite H2. Qed.
Theorem same_content_quiet l r : Zip_Model.a_kind l = Zip_Model.Zip -> Zip_Model.a_kind r = Zip_Model.Zip ->
  Zip_Model.a_open l = true -> Zip_Model.a_open r = true ->
  Forall sound (Zip_Model.a_entries l) -> Forall sound (Zip_Model.a_entries r) ->
  (forall n, In n (names l) <-> In n (names r)) ->
  (forall n d d', ~ directory n -> content l n d -> content r n d' -> d = d') ->
  quiet (jar_change fmt reprs ffmt text order up (Ok l) (Ok r)).
Proof.
  intros Kl Kr Ol Or Sl Sr HN HD.
  assert (HQ : Forall quiet (jar_entries fmt reprs ffmt text order up (Ok l) (Ok r))).
  { apply (entries_Forall fmt reprs ffmt text order up order_perm l r Kl Kr Ol Or Sl Sr quiet quiet_iterate). split; [|split; [|split]].
    - intros n H1 H2. exfalso. now apply H2, HN.
    - intros n H1 H2. exfalso. now apply H2, HN.
    - intros n d _ _ _. apply event_same.
    - intros n d d' H0 H1 H2 H3. exfalso. eauto. }
  unfold jar_change. apply quiet_super. split; [reflexivity|]. apply Forall_cons; [|apply Forall_cons; [|constructor]].
  - unfold jar_type. apply (quiet_leaf_of _ _ _ _ _ _ _ _ _ _ _ (pure2_iff _ _ eqb_iff')). apply Classdiff_Class.agree_ok. exact (type_same l r Kl Kr).
  - unfold jar_contents. rewrite (events_raises text order order_perm l r Kl Kr Ol Or Sl Sr).
    assert (exists ks, Forall2 (fun a b => check a = Ok b) (jar_entries fmt reprs ffmt text order up (Ok l) (Ok r)) ks /\ existsb is_change ks = false) as (ks & H1 & H2).
    { clear -HQ. induction HQ as [|a x (b & H1 & H2) HQ (ks & K1 & K2)]; [exists []; split; [constructor|reflexivity]|]. exists (b :: ks). split; [now constructor|]. cbn [existsb]. now rewrite H2. }
    eexists. split; [apply check_parts; [reflexivity|]; exists (jar_entries fmt reprs ffmt text order up (Ok l) (Ok r)), ks; split; [reflexivity|split; [exact H1|reflexivity]]|]. exact H2.
Qed.

(** Whatever kind the archives are: a changed class file, manifest or signature
    file read from a directory makes the comparison raise. *)
Theorem exploded_raises o a b evs n : Zip_Model.a_kind a = Zip_Model.Exploded \/ Zip_Model.a_kind b = Zip_Model.Exploded ->
  Zip_Model.compare_zips text order Zip_Model.CHUNKSIZE a b = (evs, None) -> In (Zip_Model.DIFF, n) evs ->
  the_manifest n \/ sig_file up n \/ (class_file n /\ ~ signature up n) ->
  exists e, jardiff fmt reprs ffmt text order up o (Ok a) (Ok b) = Err e.
Proof.
  intros HK HE HI HN. unfold jardiff. destruct (check _) as [c|e] eqn:EC; cbn [rbind]; [exfalso|eauto].
  assert (HX : completes (jar_change fmt reprs ffmt text order up (Ok a) (Ok b))) by (now exists c). clear EC c.
  unfold jar_change in HX. apply completes_super in HX as [_ HX]. rewrite !Forall_cons_eq in HX. destruct HX as (_ & HX & _). unfold jar_contents in HX. apply completes_kids in HX; [|reflexivity|reflexivity|now left]. destruct HX as [_ HX].
  unfold jar_entries, jar_events in HX. cbn [rbind] in HX. rewrite HE in HX. apply (proj1 (completes_iterate _ _ _)) in HX. rewrite Forall_map, Forall_forall in HX. specialize (HX _ HI).
  assert (HR : forall (A B : Type) (f : Zip_Model.piece -> res A) (g : A -> A -> B), (forall t, exists e, f (Zip_Model.PText t) = Err e) ->
    exists e, (lp <- read_entry text a n ;; x <- f lp ;; rp <- read_entry text b n ;; y <- f rp ;; Ok (g x y)) = Err e).
  { intros A B f g Hf. assert (HT : forall z, Zip_Model.a_kind z = Zip_Model.Exploded -> (exists e, read_entry text z n = Err e) \/ exists t, read_entry text z n = Ok (Zip_Model.PText t)).
    { intros z Hz. unfold read_entry. rewrite Hz. destruct (Zip_Model.find_entry _ n); [|eauto]. destruct (text _); cbn [rbind]; eauto. }
    destruct HK as [HK|HK].
    - destruct (HT a HK) as [[e ->]|[t ->]]; cbn [rbind]; [eauto|]. destruct (Hf t) as [e ->]. cbn [rbind]. eauto.
    - destruct (read_entry text a n) as [p|]; cbn [rbind]; [|eauto]. destruct (f p) as [x|]; cbn [rbind]; [|eauto]. destruct (HT b HK) as [[e ->]|[t ->]]; cbn [rbind]; [eauto|]. destruct (Hf t) as [e ->]. cbn [rbind]. eauto. }
  assert (HM : forall mk : manifest -> manifest -> change, exists e, manifest_sub text a b mk n = Err e) by (intro mk; apply (HR _ _ parse_piece); intro t; eexists; reflexivity).
  assert (HC : exists e, class_sub fmt reprs ffmt text a b n = Err e) by (apply (HR _ _ unpack_piece); intro t; eexists; reflexivity).
  cbn [jar_event] in HX. destruct (seqb n Sign_Model.MANIFEST_NAME) eqn:Em.
  { apply differs_completes in HX as (x & HX & _). destruct (HM (manifest_change order)) as [e He]. congruence. }
  apply not_true_iff_false in Em. rewrite (manifest_is_sigfree n) in Em. destruct (is_sigfile up n) eqn:Ef.
  { apply differs_completes in HX as (x & HX & _). destruct (HM (signature_change order)) as [e He]. congruence. }
  apply not_true_iff_false in Ef. rewrite is_sigfile_iff in Ef. destruct HN as [HN|[HN|[HN HS]]]; try contradiction.
  destruct (is_sigblock up n) eqn:Eb; [apply is_sigblock_iff in Eb; apply HS; now right|].
  assert (Ec : is_classfile n = true) by now apply is_classfile_iff. rewrite Ec in HX. apply differs_completes in HX as (x & HX & _). destruct HC as [e He]. congruence.
Qed.
End Same.

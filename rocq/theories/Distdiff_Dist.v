(** The exit status of distdiff. *)
From Verif Require Import Base Pack_Model ConstPool_Model ConstPool_Spec ClassFile_Model Manifest_Model Sign_Spec Sign_Names
  Change_Model Change_Spec Change_Proofs Change_Report Classdiff_Model Classdiff_Spec Classdiff_Class Classdiff_Passes Change_Tame
  Jardiff_Model Jardiff_Spec Jardiff_Proofs Jardiff_Jar Distdiff_Model Distdiff_Spec Distdiff_Proofs.
From Verif Require Zip_Model Dir_Model Dir_Spec Dir_Proofs.
From Coq Require Import Permutation.
Import Zip_Model (node, Dir, File, LEFT, RIGHT, SAME, DIFF, slashes).
Import Dir_Spec (found, file_at, data_at, dclass, plain, written).

Lemma data_diff_quiet n lb ad re own parts entry : quiet (jar_node n lb false ad re own parts true None entry).
Proof. eexists. split; reflexivity. Qed.

Section Dist.
Variable fmt : pyval -> str.
Variable reprs : str -> str.
Variable ffmt : pyval -> str.
Variable text : bytes -> res str.
Variable order : list str -> list str.
Variable up : Z -> str.
Variable unzip : bytes -> jar.
Hypothesis order_perm : forall s, Permutation (order s) s.

Lemma any_jar_tame a b : tame (jar_change fmt reprs ffmt text order up a b).
Proof.
  unfold jar_change. apply tame_super. apply Forall_cons; [apply tame_leaf|]. apply Forall_cons; [|constructor]. unfold jar_contents. constructor; [intros _; left; split; [reflexivity|discriminate]|constructor|].
  unfold jar_entries. destruct (jar_events _ _ _) as [[[x y] evs]|]; [|constructor]. apply tame_iterate. rewrite Forall_map. apply Forall_forall. intros ev _. now apply event_tame.
Qed.
Lemma jar_passes_iff o a b : passes o (jar_change fmt reprs ffmt text order up a b) <-> jardiff fmt reprs ffmt text order up o a b = Ok 0.
Proof.
  unfold jardiff, passes. destruct (check _) as [c|]; cbn [rbind].
  - rewrite exit_iff. split; [intros (c' & E & H); injection E as <-; exact H|]. intro H. exists c. now split.
  - split; [intros (c' & E & _); discriminate|discriminate].
Qed.
Lemma jar_completes_iff o a b : completes (jar_change fmt reprs ffmt text order up a b) <-> exists s, jardiff fmt reprs ffmt text order up o a b = Ok s.
Proof.
  unfold jardiff, completes. split.
  - intros [c H]. rewrite H. cbn [rbind]. destruct (exit_total o _ _ (any_jar_tame a b) H) as (s & Hs & _). eauto.
  - intros [s H]. destruct (check _) as [c|]; [eauto|discriminate].
Qed.

Variables l r : node.
Notation event := (dist_event fmt reprs ffmt text order up unzip l r).

Lemma one_sided sh o n : (passes o (event sh (LEFT, n)) <-> fmatched o n) /\ (passes o (event sh (RIGHT, n)) <-> fmatched o n).
Proof.
  unfold dist_event. destruct (negb sh && fnmatches n JAR_PATTERNS); [|destruct (negb sh && fnmatches n _)]; unfold dist_removed, dist_added, dist_node; rewrite !one_sided_passes, own_iff; split; reflexivity.
Qed.
Lemma one_sided_completes' sh n : completes (event sh (LEFT, n)) /\ completes (event sh (RIGHT, n)).
Proof.
  unfold dist_event. destruct (negb sh && fnmatches n JAR_PATTERNS); [|destruct (negb sh && fnmatches n _)]; unfold dist_removed, dist_added, dist_node; split; apply one_sided_completes.
Qed.
Lemma shallow_quiet n : quiet (event true (SAME, n)) /\ quiet (event true (DIFF, n)).
Proof. unfold dist_event. cbn [negb andb]. unfold dist_node. split; [apply unchanged_quiet|apply data_diff_quiet]. Qed.

Section Files.
Variables (n : str) (d d' : bytes).
Hypothesis Hl : read_file l n = Ok d.
Hypothesis Hr : read_file r n = Ok d'.
Notation acceptable := (file_acceptable fmt reprs ffmt text order up unzip).
Notation comparable := (file_comparable fmt reprs ffmt text order up unzip).

Lemma both_eq : both l r n = Ok (d, d').
Proof. unfold both. now rewrite Hl, Hr. Qed.
Lemma texts_iff a b : texts text l r n = Ok (a, b) <-> text d = Ok a /\ text d' = Ok b.
Proof. unfold texts. rewrite both_eq. cbn [rbind]. destruct (text d); cbn [rbind]; [|split; [discriminate|intros [H _]; discriminate]]. destruct (text d'); cbn [rbind]; split; intro H; try (destruct H; congruence); try discriminate. injection H as -> ->. auto. Qed.
Lemma class_sub_eq c : dist_class_sub fmt reprs ffmt l r n = Ok c <->
  exists a b, unpack_class d MNone = Ok a /\ unpack_class d' MNone = Ok b /\ c = class_change fmt reprs ffmt a b.
Proof.
  unfold dist_class_sub. rewrite Hl, Hr. cbn [rbind]. destruct (unpack_class d MNone) as [a|] eqn:Ea; cbn [rbind].
  2: { split; [discriminate|]. intros (a & b & H & _). congruence. }
  destruct (unpack_class d' MNone) as [b|] eqn:Eb; cbn [rbind].
  2: { split; [discriminate|]. intros (a' & b & _ & H & _). congruence. }
  split; [intro H; injection H as <-; eauto|]. intros (a' & b' & H1 & H2 & ->). congruence.
Qed.
Lemma manifest_sub_eq c : dist_manifest_sub order l r n = Ok c <-> exists a b, parses d a /\ parses d' b /\ c = manifest_change order a b.
Proof.
  unfold dist_manifest_sub, parses. rewrite Hl, Hr. cbn [rbind]. destruct (man_parse _ d) as [a|] eqn:Ea; cbn [rbind].
  2: { split; [discriminate|]. intros (a & b & H & _). congruence. }
  destruct (man_parse _ d') as [b|] eqn:Eb; cbn [rbind].
  2: { split; [discriminate|]. intros (a' & b & _ & H & _). congruence. }
  split; [intro H; injection H as <-; eauto|]. intros (a' & b' & H1 & H2 & ->). congruence.
Qed.
Lemma text_change_passes o a b : passes o (text_change a b) <-> a = b.
Proof.
  unfold text_change. rewrite (passes_never _ _ _ _ _ _ _ _ _ _ _ (pure2_iff _ _ seqb_iff)). apply agree_ok.
Qed.
Lemma text_change_completes a b : completes (text_change a b).
Proof. unfold text_change, leaf_text, leaf, generic_check, pure2, completes. cbn [check k_check rbind]. destruct (seqb a b); eexists; reflexivity. Qed.
Lemma text_completes ch : completes (dist_text text l r ch n) <-> exists a b, text d = Ok a /\ text d' = Ok b.
Proof.
  unfold dist_text. cbv zeta. rewrite completes_kids; [|reflexivity|reflexivity|now left]. cbn [k_raises]. destruct (texts text l r n) as [[a b]|e] eqn:E.
  - apply texts_iff in E as [E1 E2]. split; [eauto|]. intros _. split; [reflexivity|]. destruct (seqb a b); [constructor|]. constructor; [apply text_change_completes|constructor].
  - split; [intros [H _]; discriminate|]. intros (a & b & H1 & H2). rewrite (proj2 (texts_iff a b) (conj H1 H2)) in E. discriminate.
Qed.
Lemma text_passes o ch : passes o (dist_text text l r ch n) <-> exists a b, text d = Ok a /\ text d' = Ok b /\ (a = b \/ fmatched o n \/ (ignore_trailing_whitespace o = true /\ trailing_only a b)).
Proof.
  unfold dist_text. cbv zeta. rewrite passes_parts; try reflexivity; [|now left]. cbn [k_raises k_own]. destruct (texts text l r n) as [[a b]|e] eqn:E.
  - rewrite orb_true_iff, andb_true_iff, own_iff, trailing_iff. apply texts_iff in E as [E1 E2]. split.
    + intros (_ & _ & H). exists a, b. split; [exact E1|]. split; [exact E2|]. destruct (seqb_spec a b) as [->|Hab]; [now left|]. destruct H as [H|H]; [tauto|]. inversion H as [|? ? H1 _]; subst. apply text_change_passes in H1. now left.
    + intros (a' & b' & X1 & X2 & H). rewrite E1 in X1. rewrite E2 in X2. injection X1 as <-. injection X2 as <-. split; [reflexivity|]. destruct (seqb_spec a b) as [->|Hab]; [split; [constructor|right; constructor]|].
      split; [constructor; [apply text_change_completes|constructor]|]. destruct H as [H|H]; [contradiction|left; tauto].
  - split; [intros [H _]; discriminate|]. intros (a & b & H1 & H2 & _). rewrite (proj2 (texts_iff a b) (conj H1 H2)) in E. discriminate.
Qed.

(** The cases of dist_event for a common file. *)
Lemma by_kind (P : change -> Prop) ev b : (ev, b) = (SAME, false) \/ (ev, b) = (DIFF, true) ->
  (ends_in n KJar -> P (dist_node (lit "DistJarChange") (lit "Distributed JAR") false false false (dist_own n) true b (Some (dist_jar_sub fmt reprs ffmt text order up unzip l r n)) n)) ->
  (ends_in n KClass -> P (dist_node (lit "DistClassChange") (lit "Distributed Java Class") false false false (dist_own n) true b (Some (dist_class_sub fmt reprs ffmt l r n)) n)) ->
  (ends_in n KText -> P (dist_text text l r b n)) ->
  (ends_in n KManifest -> P (dist_node (lit "DistManifestChange") (lit "Distributed Manifest") false false false (dist_own n) true b (Some (dist_manifest_sub order l r n)) n)) ->
  (is_kind n KData -> P (dist_node (lit "DistContentChange") (lit "Distributed Content") false false false (dist_own n) true b None n)) ->
  P (event false (ev, n)).
Proof.
  intros HE H1 H2 H3 H4 H5. assert (HX : P (
    if fnmatches n JAR_PATTERNS then dist_node (lit "DistJarChange") (lit "Distributed JAR") false false false (dist_own n) true b (Some (dist_jar_sub fmt reprs ffmt text order up unzip l r n)) n
    else if fnmatches n [lit "*.class"] then dist_node (lit "DistClassChange") (lit "Distributed Java Class") false false false (dist_own n) true b (Some (dist_class_sub fmt reprs ffmt l r n)) n
    else if fnmatches n TEXT_PATTERNS then dist_text text l r b n
    else if fnmatches n [lit "*/MANIFEST.MF"] then dist_node (lit "DistManifestChange") (lit "Distributed Manifest") false false false (dist_own n) true b (Some (dist_manifest_sub order l r n)) n
    else dist_node (lit "DistContentChange") (lit "Distributed Content") false false false (dist_own n) true b None n)).
  { destruct (fnmatches n JAR_PATTERNS) eqn:E1; [now apply H1, is_jar_iff|]. destruct (fnmatches n [lit "*.class"]) eqn:E2; [now apply H2, is_class_iff|]. destruct (fnmatches n TEXT_PATTERNS) eqn:E3; [now apply H3, is_text_iff|].
    destruct (fnmatches n [lit "*/MANIFEST.MF"]) eqn:E4; [now apply H4, is_manifest_iff|]. apply H5. intros k. destruct k.
    - rewrite <- is_jar_iff. congruence. - rewrite <- is_class_iff. congruence. - rewrite <- is_text_iff. congruence. - rewrite <- is_manifest_iff. congruence. - intros (p & e & [] & _). }
  destruct HE as [HE|HE]; injection HE as -> ->; exact HX.
Qed.
Lemma same_completes : d = d' -> (completes (event false (SAME, n)) <-> (is_kind n KText -> exists t, text d = Ok t)).
Proof.
  intro Hd. apply (by_kind (fun c => completes c <-> (is_kind n KText -> exists t, text d = Ok t)) SAME false); [now left|..]; intro HK;
    try (split; [intros _ HT; exfalso; cbn [is_kind] in HT, HK; first [exact (HK KText HT)|discriminate (ends_unique _ _ _ HK HT)]|intros _; unfold dist_node; apply quiet_completes, unchanged_quiet]).
  rewrite text_completes, <- Hd. split; [intros (a & b & H & _) _; eauto|]. intro H. destruct (H HK) as [t Ht]. eauto.
Qed.
Lemma same_passes o : d = d' -> (passes o (event false (SAME, n)) <-> (is_kind n KText -> exists t, text d = Ok t)).
Proof.
  intro Hd. apply (by_kind (fun c => passes o c <-> (is_kind n KText -> exists t, text d = Ok t)) SAME false); [now left|..]; intro HK;
    try (split; [intros _ HT; exfalso; cbn [is_kind] in HT, HK; first [exact (HK KText HT)|discriminate (ends_unique _ _ _ HK HT)]|intros _; unfold dist_node; apply quiet_passes, unchanged_quiet]).
  rewrite text_passes, <- Hd. split; [intros (a & b & H & _) _; eauto|]. intro H. destruct (H HK) as [t Ht]. exists t, t. auto.
Qed.
Lemma kinds_clash k k' : is_kind n k -> is_kind n k' -> k = k'.
Proof.
  destruct k, k'; intros H1 H2; try reflexivity; cbn [is_kind] in H1, H2; first [exfalso; exact (H1 _ H2)|exfalso; exact (H2 _ H1)|discriminate (ends_unique _ _ _ H1 H2)].
Qed.
Ltac clash HK := match goal with H : is_kind n _ |- _ => discriminate (kinds_clash _ _ HK H) end.
Lemma diff_completes o : completes (event false (DIFF, n)) <-> comparable o n d d'.
Proof.
  apply (by_kind (fun c => completes c <-> comparable o n d d') DIFF true); [now right|..]; intro HK; [change (is_kind n KJar) in HK|change (is_kind n KClass) in HK|change (is_kind n KText) in HK|change (is_kind n KManifest) in HK|].
  - unfold dist_node. rewrite differs_completes. unfold dist_jar_sub. rewrite both_eq. cbn [rbind]. split.
    + intros (c & E & H). injection E as <-. apply (jar_completes_iff o) in H as [s Hs]. eapply fcmp_jar; eauto.
    + intro H. eexists. split; [reflexivity|]. destruct H; try clash HK. apply (jar_completes_iff o). eauto.
  - unfold dist_node. rewrite differs_completes. split.
    + intros (c & E & H). apply class_sub_eq in E as (a & b & H1 & H2 & ->). apply (classdiff_completes fmt reprs ffmt o) in H as [s Hs]. eapply fcmp_class; eauto.
    + intro H. destruct H as [s X|a b s X H1 H2 H3|a b X|a b X|X]; try discriminate (kinds_clash _ _ HK X). eexists. split; [apply class_sub_eq; eauto|]. apply (classdiff_completes fmt reprs ffmt o). eauto.
  - rewrite text_completes. split; [intros (a & b & H1 & H2); eapply fcmp_text; eauto|]. intro H. destruct H as [s X|a b s X|a b X H1 H2|a b X|X]; try discriminate (kinds_clash _ _ HK X). eauto.
  - unfold dist_node. rewrite differs_completes. split.
    + intros (c & E & H). apply manifest_sub_eq in E as (a & b & H1 & H2 & ->). eapply fcmp_manifest; eauto.
    + intro H. destruct H as [s X|a b s X|a b X|a b X H1 H2|X]; try discriminate (kinds_clash _ _ HK X). eexists. split; [apply manifest_sub_eq; eauto|]. now apply manifest_completes.
  - split; [intros _; now apply fcmp_data|]. intros _. unfold dist_node. apply quiet_completes, data_diff_quiet.
Qed.
Lemma diff_passes o : passes o (event false (DIFF, n)) <-> acceptable o n d d'.
Proof.
  apply (by_kind (fun c => passes o c <-> acceptable o n d d') DIFF true); [now right|..]; intro HK; [change (is_kind n KJar) in HK|change (is_kind n KClass) in HK|change (is_kind n KText) in HK|change (is_kind n KManifest) in HK|].
  - unfold dist_node. rewrite differs_passes. unfold dist_jar_sub. rewrite both_eq. cbn [rbind]. split.
    + intros (c & E & H). injection E as <-. assert (HC : completes (jar_change fmt reprs ffmt text order up (unzip d) (unzip d'))) by (destruct H as [[H _]|[H|[_ H]]]; [exact H|now apply quiet_completes|now apply passes_completes in H]).
      apply (jar_completes_iff o) in HC as [s Hs]. eapply facc_jar; [exact HK|exact Hs|]. destruct H as [[_ H]|[H|[_ H]]]; [left; now apply own_iff| |]; right; [apply (quiet_passes o) in H|]; apply jar_passes_iff in H; congruence.
    + intro H. eexists. split; [reflexivity|]. destruct H as [s X H1 H|a b s X|a b X|a b X|X]; try discriminate (kinds_clash _ _ HK X). destruct H as [H| ->]; [left; split; [apply (jar_completes_iff o); eauto|now apply own_iff]|]. right. right. split; [reflexivity|]. now apply jar_passes_iff.
  - unfold dist_node. rewrite differs_passes. split.
    + intros (c & E & H). apply class_sub_eq in E as (a & b & H1 & H2 & ->). assert (HC : completes (class_change fmt reprs ffmt a b)) by (destruct H as [[H _]|[H|[_ H]]]; [exact H|now apply quiet_completes|now apply passes_completes in H]).
      apply (classdiff_completes fmt reprs ffmt o) in HC as [s Hs]. eapply facc_class; [exact HK|exact H1|exact H2|exact Hs|]. destruct H as [[_ H]|[H|[_ H]]]; [left; now apply own_iff| |]; right; [apply (quiet_passes o) in H|]; apply classdiff_iff in H; congruence.
    + intro H. destruct H as [s X|a b s X H1 H2 H3 H|a b X|a b X|X]; try discriminate (kinds_clash _ _ HK X). eexists. split; [apply class_sub_eq; eauto|]. destruct H as [H| ->]; [left; split; [apply (classdiff_completes fmt reprs ffmt o); eauto|now apply own_iff]|]. right. right. split; [reflexivity|]. now apply classdiff_iff.
  - rewrite text_passes. split; [intros (a & b & H1 & H2 & H3); eapply facc_text; eauto|]. intro H. destruct H as [s X|a b s X|a b X H1 H2 H3|a b X|X]; try discriminate (kinds_clash _ _ HK X). eauto.
  - unfold dist_node. rewrite differs_passes. split.
    + intros (c & E & H). apply manifest_sub_eq in E as (a & b & H1 & H2 & ->). eapply facc_manifest; eauto. destruct H as [[_ H]|[H|[_ H]]]; [left; now apply own_iff| |]; right; [apply (quiet_passes o) in H|]; now apply (manifest_passes order order_perm) in H.
    + intro H. destruct H as [s X|a b s X|a b X|a b X H1 H2 H|X]; try discriminate (kinds_clash _ _ HK X). eexists. split; [apply manifest_sub_eq; eauto|]. destruct H as [H|H]; [left; split; [now apply manifest_completes|now apply own_iff]|]. right. right. split; [reflexivity|]. now apply (manifest_passes order order_perm).
  - split; [intros _; now apply facc_data|]. intros _. unfold dist_node. apply quiet_passes, data_diff_quiet.
Qed.
End Files.

Lemma text_tame ch n : tame (dist_text text l r ch n).
Proof.
  unfold dist_text. cbv zeta. constructor; [|constructor|].
  - intros _. left. split; [reflexivity|discriminate].
  - destruct (texts text l r n) as [[a b]|]; [|constructor]. destruct (seqb a b); constructor; [apply tame_leaf|constructor].
Qed.
Lemma dist_event_tame sh ev : tame (event sh ev).
Proof.
  destruct ev as [e n].
  assert (HJ : forall c, dist_jar_sub fmt reprs ffmt text order up unzip l r n = Ok c -> tame c).
  { intro c. unfold dist_jar_sub. destruct (both l r n) as [[a b]|]; cbn [rbind]; [|discriminate]. intro E. injection E as <-. apply any_jar_tame. }
  assert (HC : forall c, dist_class_sub fmt reprs ffmt l r n = Ok c -> tame c).
  { intro c. unfold dist_class_sub. destruct (read_file l n) as [a|]; cbn [rbind]; [|discriminate]. destruct (unpack_class a MNone); cbn [rbind]; [|discriminate]. destruct (read_file r n) as [b|]; cbn [rbind]; [|discriminate]. destruct (unpack_class b MNone); cbn [rbind]; [|discriminate]. intro E. injection E as <-. apply tame_class. }
  assert (HM : forall c, dist_manifest_sub order l r n = Ok c -> tame c).
  { intro c. unfold dist_manifest_sub. destruct (read_file l n) as [a|]; cbn [rbind]; [|discriminate]. destruct (man_parse _ a); cbn [rbind]; [|discriminate]. destruct (read_file r n) as [b|]; cbn [rbind]; [|discriminate]. destruct (man_parse _ b); cbn [rbind]; [|discriminate]. intro E. injection E as <-.
    unfold manifest_change. constructor; [|constructor|now apply parts_tame]. intros _. left. split; [reflexivity|discriminate]. }
  unfold dist_event, dist_removed, dist_added, dist_node. destruct e; repeat match goal with |- tame (if ?b then _ else _) => destruct b end;
    first [apply text_tame|apply jar_node_tame; [try discriminate; try reflexivity|intros c E; try discriminate; injection E as E; eauto]].
Qed.

(** ** The whole *)
Hypothesis Pl : plain l.
Hypothesis Pr : plain r.
Hypothesis Nl : names_ok l.
Hypothesis Nr : names_ok r.
Hypothesis HC : Dir_Spec.comparable l r.

Lemma written_one p : snd (written (LEFT, p)) = slashes p /\ snd (written (RIGHT, p)) = slashes p.
Proof. now destruct p as [|x [|y p]]. Qed.
Lemma written_common p : snd (written (SAME, p)) = name_of p /\ snd (written (DIFF, p)) = name_of p.
Proof. now destruct p as [|x [|y p]]. Qed.
Lemma not_root p d : data_at l p d -> p <> [].
Proof.
  intros H ->. destruct H as (x & m & H). apply Dir_Proofs.comparable_dir in HC as [H1 _]. inversion H; subst. discriminate.
Qed.
Lemma data_fun n p d d' : plain n -> data_at n p d -> data_at n p d' -> d = d'.
Proof.
  intros P (x & m & H) (x' & m' & H'). apply (lookup_found _ _ P) in H. apply (lookup_found _ _ P) in H'. congruence.
Qed.

Lemma dist_events_ok sh : exists K evs, dist_events fmt reprs ffmt text order up unzip l r sh = Ok evs /\ Permutation evs (map written K) /\ forall e p, In (e, p) K <-> dclass l r e p.
Proof.
  destruct (Dir_Proofs.gen_spec l Pl [] r Pr HC) as (K & E & N & H & _). unfold dist_events, Dir_Model.dir_compare. rewrite E. eexists K, _. split; [reflexivity|]. split; [|exact H]. apply (proj1 (iterate_spec _ _ _)).
Qed.
Lemma dist_Forall sh (P : change -> Prop) : exists evs, dist_events fmt reprs ffmt text order up unzip l r sh = Ok evs /\
  (Forall P (map (event sh) evs) <->
   (forall p, file_at l p -> ~ file_at r p -> P (event sh (LEFT, slashes p))) /\
   (forall p, file_at r p -> ~ file_at l p -> P (event sh (RIGHT, slashes p))) /\
   (forall p d, data_at l p d -> data_at r p d -> P (event sh (SAME, name_of p))) /\
   (forall p d d', data_at l p d -> data_at r p d' -> d <> d' -> P (event sh (DIFF, name_of p)))).
Proof.
  destruct (dist_events_ok sh) as (K & evs & E & HP & H). exists evs. split; [exact E|].
  rewrite Forall_map. transitivity (Forall (fun x => P (event sh x)) (map written K)); [split; apply Permutation_Forall; [exact HP|now apply Permutation_sym]|]. rewrite Forall_map, Forall_forall. split.
  - intro HF. split; [|split; [|split]].
    + intros p H1 H2. specialize (HF (LEFT, p) (proj2 (H LEFT p) (conj H1 H2))). unfold written in HF. cbn [fst snd] in HF. now destruct p as [|x [|y p]].
    + intros p H1 H2. specialize (HF (RIGHT, p) (proj2 (H RIGHT p) (conj H1 H2))). unfold written in HF. cbn [fst snd] in HF. now destruct p as [|x [|y p]].
    + intros p d H1 H2. specialize (HF (SAME, p) (proj2 (H SAME p) (ex_intro _ d (conj H1 H2)))). unfold written in HF. cbn [fst snd] in HF. now destruct p as [|x [|y p]].
    + intros p d d' H1 H2 H3. assert (HD : dclass l r DIFF p) by (exists d, d'; auto). specialize (HF (DIFF, p) (proj2 (H DIFF p) HD)). unfold written in HF. cbn [fst snd] in HF. now destruct p as [|x [|y p]].
  - intros (H1 & H2 & H3 & H4) [e p] Hin. apply H in Hin. destruct e.
    + destruct Hin as [A B]. specialize (H1 p A B). unfold written. cbn [fst snd]. now destruct p as [|x [|y p]].
    + destruct Hin as [A B]. specialize (H2 p A B). unfold written. cbn [fst snd]. now destruct p as [|x [|y p]].
    + destruct Hin as (d & d' & A & B & C). specialize (H4 p d d' A B C). unfold written. cbn [fst snd]. now destruct p as [|x [|y p]].
    + destruct Hin as (d & A & B). specialize (H3 p d A B). unfold written. cbn [fst snd]. now destruct p as [|x [|y p]].
Qed.
Lemma byte_dec (a b : bytes) : a = b \/ a <> b.
Proof. destruct (list_eq_dec Z.eq_dec a b); auto. Qed.

Lemma dist_completes sh o : completes (dist_change fmt reprs ffmt text order up unzip l r sh) <-> on_common text sh (file_comparable fmt reprs ffmt text order up unzip o) l r.
Proof.
  unfold dist_change. rewrite completes_super. destruct (dist_Forall sh completes) as (evs & -> & HF). rewrite HF. unfold on_common. destruct sh.
  - split; [now left|]. intros _. split; [reflexivity|]. split; [intros; apply one_sided_completes'|]. split; [intros; apply one_sided_completes'|]. split; intros; apply quiet_completes, shallow_quiet.
  - split.
    + intros (_ & _ & _ & H3 & H4). right. intros p d d' A B. pose proof (not_root _ _ A) as Hp. pose proof (read_data _ _ _ Pl Nl Hp A) as RA. pose proof (read_data _ _ _ Pr Nr Hp B) as RB. split.
      * intro D. apply (diff_completes (name_of p) d d' RA RB o). now apply (H4 p d d').
      * intros <-. apply (same_completes (name_of p) d d RA RB eq_refl). now apply (H3 p d).
    + intros [H|H]; [discriminate|]. split; [reflexivity|]. split; [intros; apply one_sided_completes'|]. split; [intros; apply one_sided_completes'|]. split.
      * intros p d A B. pose proof (not_root _ _ A) as Hp. pose proof (read_data _ _ _ Pl Nl Hp A) as RA. pose proof (read_data _ _ _ Pr Nr Hp B) as RB. apply (same_completes (name_of p) d d RA RB eq_refl). now apply (H p d d).
      * intros p d d' A B D. pose proof (not_root _ _ A) as Hp. pose proof (read_data _ _ _ Pl Nl Hp A) as RA. pose proof (read_data _ _ _ Pr Nr Hp B) as RB. apply (diff_completes (name_of p) d d' RA RB o). now apply (H p d d').
Qed.
Lemma dist_passes sh o : passes o (dist_change fmt reprs ffmt text order up unzip l r sh) <-> dists_ok fmt reprs ffmt text order up unzip o sh l r.
Proof.
  unfold dist_change. rewrite passes_super. destruct (dist_Forall sh (passes o)) as (evs & -> & HF). rewrite HF. unfold dists_ok, on_common. destruct sh.
  - split.
    + intros (_ & H1 & H2 & _). split; [intros p A B; apply (proj1 (one_sided true o _)); auto|]. split; [intros p A B; apply (proj2 (one_sided true o _)); auto|]. now left.
    + intros (H1 & H2 & _). split; [reflexivity|]. split; [intros; apply one_sided; auto|]. split; [intros; apply one_sided; auto|]. split; intros; apply quiet_passes, shallow_quiet.
  - split.
    + intros (_ & H1 & H2 & H3 & H4). split; [intros p A B; apply (proj1 (one_sided false o _)); auto|]. split; [intros p A B; apply (proj2 (one_sided false o _)); auto|]. right.
      intros p d d' A B. pose proof (not_root _ _ A) as Hp. pose proof (read_data _ _ _ Pl Nl Hp A) as RA. pose proof (read_data _ _ _ Pr Nr Hp B) as RB. split.
      * intro D. apply (diff_passes (name_of p) d d' RA RB o). now apply (H4 p d d').
      * intros <-. apply (same_passes (name_of p) d d RA RB o eq_refl). now apply (H3 p d).
    + intros (H1 & H2 & [H|H]); [discriminate|]. split; [reflexivity|]. split; [intros; apply one_sided; auto|]. split; [intros; apply one_sided; auto|]. split.
      * intros p d A B. pose proof (not_root _ _ A) as Hp. pose proof (read_data _ _ _ Pl Nl Hp A) as RA. pose proof (read_data _ _ _ Pr Nr Hp B) as RB. apply (same_passes (name_of p) d d RA RB o eq_refl). now apply (H p d d).
      * intros p d d' A B D. pose proof (not_root _ _ A) as Hp. pose proof (read_data _ _ _ Pl Nl Hp A) as RA. pose proof (read_data _ _ _ Pr Nr Hp B) as RB. apply (diff_passes (name_of p) d d' RA RB o). now apply (H p d d').
Qed.
End Dist.

Section Status.
Variable fmt : pyval -> str.
Variable reprs : str -> str.
Variable ffmt : pyval -> str.
Variable text : bytes -> res str.
Variable order : list str -> list str.
Variable up : Z -> str.
Variable unzip : bytes -> jar.
Hypothesis order_perm : forall s, Permutation (order s) s.
Variables l r : node.
Lemma dist_tame sh : tame (dist_change fmt reprs ffmt text order up unzip l r sh).
Proof.
  unfold dist_change. apply tame_super. destruct (dist_events _ _ _ _ _ _ _ _ _ _); [|constructor]. rewrite Forall_map. apply Forall_forall. intros ev _. now apply dist_event_tame.
Qed.
Theorem distdiff_status o sh s : distdiff fmt reprs ffmt text order up unzip l r o sh = Ok s -> s = 0 \/ s = 1.
Proof.
  unfold distdiff. destruct (check _) as [c|] eqn:E; cbn [rbind]; [|discriminate]. intro H. destruct (exit_total o _ _ (dist_tame sh) E) as (s' & Hs & Hd). rewrite Hs in H. injection H as <-. exact Hd.
Qed.
Hypothesis Pl : plain l.
Hypothesis Pr : plain r.
Hypothesis Nl : names_ok l.
Hypothesis Nr : names_ok r.
Hypothesis HC : Dir_Spec.comparable l r.
Theorem distdiff_ends o sh : (exists s, distdiff fmt reprs ffmt text order up unzip l r o sh = Ok s) <-> on_common text sh (file_comparable fmt reprs ffmt text order up unzip o) l r.
Proof.
  rewrite <- (dist_completes fmt reprs ffmt text order up unzip order_perm l r Pl Pr Nl Nr HC). unfold distdiff, completes. split.
  - intros [s H]. destruct (check _) as [c|]; [eauto|discriminate].
  - intros [c H]. rewrite H. cbn [rbind]. destruct (exit_total o _ _ (dist_tame sh) H) as (s & Hs & _). eauto.
Qed.
Theorem distdiff_zero o sh : distdiff fmt reprs ffmt text order up unzip l r o sh = Ok 0 <-> dists_ok fmt reprs ffmt text order up unzip o sh l r.
Proof.
  rewrite <- (dist_passes fmt reprs ffmt text order up unzip order_perm l r Pl Pr Nl Nr HC). unfold distdiff, passes. destruct (check _) as [c|]; cbn [rbind].
  - rewrite exit_iff. split; [intro H; exists c; now split|]. intros (c' & E & H). injection E as <-. exact H.
  - split; [discriminate|]. intros (c' & E & _). discriminate.
Qed.

(** ** With reports *)
Lemma agreeing_refl o x : agreeing o x x.
Proof. destruct x; cbn; [split; auto|reflexivity]. Qed.
Lemma squash_agree o c s : (exists x, is_ignored o c = Ok x) -> squash c false (Some o) = Ok s -> agree o c s.
Proof. intros [x Hx] H. destruct (squash_facts _ _ _ _ Hx H) as (S1 & S2 & _). split; [exact S1|]. intros _. now rewrite S2, Hx. Qed.
Lemma agree_trans o a b c : agree o a b -> agree o b c -> agree o a c.
Proof. intros [H1 H2] [H3 H4]. split; [congruence|]. intro H. rewrite H4, H2; congruence. Qed.
Lemma jar_change_event sh ev : is_report fmt reprs ffmt text order up unzip l r sh ev = true -> seqb (k_name (k_of (dist_event fmt reprs ffmt text order up unzip l r sh ev))) (lit "DistJarChange") = true ->
  dist_event fmt reprs ffmt text order up unzip l r sh ev = dist_node (lit "DistJarChange") (lit "Distributed JAR") false false false (dist_own (snd ev)) true true (Some (dist_jar_sub fmt reprs ffmt text order up unzip l r (snd ev))) (snd ev).
Proof.
  destruct ev as [e n]. unfold is_report, dist_event, dist_removed, dist_added. cbn [snd]. intros H1 H2. apply andb_true_iff in H1 as [_ H1].
  destruct (negb sh && fnmatches n JAR_PATTERNS).
  - destruct e; cbn in H1, H2; try discriminate; reflexivity.
  - exfalso. destruct (negb sh && fnmatches n [lit "*.class"]); [destruct e; discriminate H2|]. destruct e; try discriminate H2; destruct (negb sh && fnmatches n TEXT_PATTERNS); try discriminate H2; destruct (negb sh && fnmatches n [lit "*/MANIFEST.MF"]); discriminate H2.
Qed.
Lemma squash_named_total n o c : (exists x, is_ignored o c = Ok x) -> vocal (k_of c) -> exists s, squash (named n c) false (Some o) = Ok s.
Proof. intros H HV. apply squash_total; [now rewrite named_ignored|now apply named_vocal]. Qed.
Lemma dist_event_vocal sh ev : vocal (k_of (dist_event fmt reprs ffmt text order up unzip l r sh ev)).
Proof.
  destruct ev as [e n]. unfold dist_event, dist_removed, dist_added, dist_node. cbv zeta.
  repeat match goal with |- context [if ?x then _ else _] => destruct x end; try apply node_vocal; (eexists; split; [reflexivity|]; intro; eexists; reflexivity).
Qed.
Lemma squash_named_agree n o c s : (exists x, is_ignored o c = Ok x) -> squash (named n c) false (Some o) = Ok s -> agree o c s.
Proof.
  intros H HS. apply (agree_trans o c (named n c)); [split; [apply named_change|intros _; apply named_ignored]|]. apply squash_agree; [now rewrite named_ignored|exact HS].
Qed.
Lemma task_agree o sh ev : agreeing o (check (dist_event fmt reprs ffmt text order up unzip l r sh ev))
  (if is_report fmt reprs ffmt text order up unzip l r sh ev then report_task fmt reprs ffmt text order up unzip l r o sh ev else check (dist_event fmt reprs ffmt text order up unzip l r sh ev)).
Proof.
  destruct (is_report _ _ _ _ _ _ _ _ _ _ _) eqn:ER; [|apply agreeing_refl]. unfold report_task, report_check.
  destruct (seqb _ (lit "DistJarChange")) eqn:EJ.
  2: { destruct (check _) as [c|] eqn:Ec; cbn [rbind]; [|reflexivity]. pose proof (tame_checked o _ (dist_event_tame fmt reprs ffmt text order up unzip order_perm l r sh ev) c Ec) as HI. destruct (squash_named_total (report_class fmt reprs ffmt text order up unzip l r sh ev) o c HI) as [s Hs]; [rewrite (check_cls _ _ Ec); apply dist_event_vocal|]. rewrite Hs. cbn [agreeing]. revert Hs. now apply squash_named_agree. }
  pose proof (jar_change_event sh ev ER EJ) as HE. pose proof (dist_event_tame fmt reprs ffmt text order up unzip order_perm l r sh ev) as HT. rewrite HE in HT |- *. clear HE ER EJ.
  destruct ev as [e n]. cbn [snd] in *. unfold dist_node in *. unfold dist_jar_sub in *. destruct (both l r n) as [[a b]|x]; cbn [rbind] in *; [|reflexivity].
  pose proof (report_agree fmt reprs ffmt text order up order_perm o (unzip a) (unzip b)) as HA. unfold agreeing in HA.
  destruct (check (jar_change _ _ _ _ _ _ _ _)) as [c|] eqn:Ec; destruct (jar_report_check _ _ _ _ _ _ _ _ _) as [c'|] eqn:Ec'; try contradiction.
  - pose proof (differs_check (lit "DistJarChange") (lit "Distributed JAR") false false (dist_own n) true n _ _ Ec) as HD. pose proof (fun y => tame_checked o _ HT y) as HTo. rewrite HD in HTo |- *. unfold jar_node in HTo |- *. cbv iota in HTo |- *. cbn [rbind].
    set (K := mkcls _ _ _ _ _ _ _ _ _ _ _ _ _ _ _ _ _ _) in *. destruct HA as [A1 A2].
    assert (HG : agree o (Node K (is_change c) None [c] [jar_change fmt reprs ffmt text order up (unzip a) (unzip b)]) (Node K (is_change c') None [c'] [jar_change fmt reprs ffmt text order up (unzip a) (unzip b)])).
    { split; [cbn [is_change K k_always orb]; exact A1|]. cbn [is_change K k_always orb]. intro H. specialize (A2 H). rewrite !is_ignored_eq. cbn [is_change K k_always orb]. rewrite A1, H. cbn [negb]. cbn [collect pick K k_super negb map rbind]. now rewrite A1, A2. }
    assert (HI : exists x, is_ignored o (Node K (is_change c') None [c'] [jar_change fmt reprs ffmt text order up (unzip a) (unzip b)]) = Ok x).
    { destruct (is_change c) eqn:EC.
      - rewrite (proj2 HG) by reflexivity. apply (HTo _ eq_refl).
      - rewrite is_ignored_eq. cbn [is_change K k_always orb]. rewrite A1. cbn [negb]. destruct (k_own K o); [eauto|]. destruct (negb (k_parts K)); eauto. }
    match goal with |- context [squash (named ?n ?c) _ _] => destruct (squash_named_total n o c HI) as [s Hs]; [eexists; split; [reflexivity|]; intro; eexists; reflexivity|] end. rewrite Hs. cbn [agreeing]. eapply agree_trans; [exact HG|]. revert Hs. now apply squash_named_agree.
  - cbn [rbind agreeing]. unfold jar_node. cbn [check k_check map pick k_super negb k_incheck andb k_gate k_always orb k_raises]. rewrite Ec. cbn [rbind sequence]. exact HA.
Qed.
Lemma mapM_agree {A} o (f g : A -> res change) xs : (forall x, agreeing o (f x) (g x)) ->
  match mapM f xs, mapM g xs with Ok a, Ok b => Forall2 (agree o) a b | Err e, Err e' => e = e' | _, _ => False end.
Proof.
  intro H. induction xs as [|x xs IH]; cbn [mapM]; [constructor|]. specialize (H x). unfold agreeing in H. destruct (f x), (g x); cbn [rbind]; try contradiction; [|exact H].
  destruct (mapM f xs), (mapM g xs); cbn [rbind]; try contradiction; [|exact IH]. now constructor.
Qed.
Lemma mapM_map {A B C} (f : A -> B) (g : B -> res C) xs : mapM g (map f xs) = mapM (fun x => g (f x)) xs.
Proof. induction xs as [|x xs IH]; cbn [mapM map]; [reflexivity|]. now rewrite IH. Qed.
Lemma agree_any o a b : Forall2 (agree o) a b -> existsb is_change b = existsb is_change a.
Proof. induction 1 as [|x y a b [H _] _ IH]; cbn [existsb]; [reflexivity|]. now rewrite H, IH. Qed.
Lemma agree_all o a b : Forall2 (agree o) a b -> all_ignored (map (fun k => (is_change k, is_ignored o k)) b) = all_ignored (map (fun k => (is_change k, is_ignored o k)) a).
Proof.
  induction 1 as [|x y a b [H1 H2] _ IH]; cbn [map all_ignored]; [reflexivity|]. rewrite H1, IH. destruct (is_change x); [now rewrite H2|reflexivity].
Qed.
Theorem distdiff_report_same o sh : distdiff_report fmt reprs ffmt text order up unzip l r o sh = distdiff fmt reprs ffmt text order up unzip l r o sh.
Proof.
  unfold distdiff_report, distdiff, sequential_check, dist_report, dist_change, super. unfold named. destruct (dist_events _ _ _ _ _ _ _ _ _ _) as [evs|e]; cbn [rbind]; [|reflexivity].
  cbn [check k_check map pick k_super negb k_incheck andb k_gate k_always orb k_raises rbind]. rewrite sequence_map, mapM_map.
  pose proof (mapM_agree o _ _ evs (task_agree o sh)) as HM. destruct (mapM (fun x => check _) evs) as [a|]; destruct (mapM _ evs) as [b|]; try contradiction; cbn [rbind]; [|now subst].
  apply agree_exit. split; cbn [is_change k_always orb]; [now apply (agree_any o)|]. intro H. rewrite !is_ignored_eq. cbn [is_change k_always orb]. rewrite (agree_any _ _ _ HM), H. cbn [negb k_own k_parts never].
  destruct HM as [|x y a b Hxy HM]; [discriminate|]. cbn [collect pick k_super negb rbind]. now rewrite (agree_all o _ _ (Forall2_cons _ _ Hxy HM)).
Qed.
End Status.

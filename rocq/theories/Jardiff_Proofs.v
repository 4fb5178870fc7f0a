From Verif Require Import Base Pack_Model ConstPool_Model ConstPool_Spec ClassFile_Model Opcodes_Model Descr_Model Anno_Model Manifest_Model Sign_Spec Sign_Names Sign_Proofs
  Change_Model Change_Spec Change_Proofs Change_Report Classdiff_Model Classdiff_Spec Classdiff_Members Classdiff_Code Classdiff_Class Classdiff_Passes Change_Tame
  Zip_Spec Zip_Proofs Jardiff_Model Jardiff_Spec.
From Verif Require Zip_Model Sign_Model.
From Coq Require Import Permutation.

(** ** Sections *)
Lemma section_eqb_iff (l : section) : forall r, section_eqb l r = true <-> l = r.
Proof.
  unfold section_eqb. induction l as [|[k v] l IH]; intros [|[k' v'] r]; cbn [length combine forallb Nat.eqb andb fst snd]; try (split; [discriminate|discriminate]); [tauto|].
  specialize (IH r). rewrite !andb_true_iff, !seqb_eq in *. split.
  - intros (H1 & (-> & ->) & H2). f_equal. now apply IH.
  - intro E. injection E as -> -> ->. destruct (proj2 IH eq_refl). auto.
Qed.
Lemma has_item_iff d i : has_item d i = true <-> In i d.
Proof.
  unfold has_item. rewrite existsb_exists. split.
  - intros ([k v] & H & E). apply andb_true_iff in E as [E1 E2]. apply seqb_eq in E1, E2. destruct i as [a b]. cbn [fst snd] in *. now subst.
  - intro H. exists i. split; [exact H|]. now rewrite !seqb_refl.
Qed.
Lemma changed_keys_iff l r k : In k (changed_keys l r) <-> differs_in l r k.
Proof.
  unfold changed_keys, differs_in. rewrite in_map_iff. split.
  - intros ([k' v] & <- & H). exists v. cbn [fst]. apply in_app_iff in H as [H|H]; apply filter_In in H as [H1 H2]; apply negb_true_iff in H2; [left|right]; (split; [exact H1|]; rewrite <- has_item_iff, H2; discriminate).
  - intros (v & H). exists (k, v). split; [reflexivity|]. rewrite in_app_iff, !filter_In, !negb_true_iff. destruct H as [[H1 H2]|[H1 H2]]; [left|right]; (split; [exact H1|]; apply not_true_iff_false; now rewrite has_item_iff).
Qed.
Lemma keys_own_iff o l r : keys_own l r o = true <-> only_ignored_keys o l r.
Proof.
  unfold keys_own, only_ignored_keys. destruct (ignore_manifest_key o) as [|x ks]; [split; [discriminate|intros [H _]; congruence]|].
  rewrite forallb_forall. split.
  - intro H. split; [discriminate|]. intros k Hk. apply smem_In, H. now apply changed_keys_iff.
  - intros [_ H] k Hk. apply smem_In, H. now apply changed_keys_iff.
Qed.

Section Nodes.
Variable o : options.
Lemma section_completes n lb al ad re t own same old new : completes (section_node n lb al ad re t own same old new).
Proof. unfold section_node. destruct same; eexists; reflexivity. Qed.
Lemma section_passes n lb ad re t own same old new : passes o (section_node n lb false ad re t own same old new) <-> same = true \/ own o = true.
Proof.
  unfold section_node. erewrite passes_own by reflexivity. cbn [k_own]. split.
  - intros (b & d & E & H). destruct same; [now left|]. injection E as <- _. destruct H as [H|H]; [discriminate|now right].
  - intros [-> | H]; [exists false, None; auto|]. destruct same; eexists _, _; (split; [reflexivity|]); auto.
Qed.
Lemma section_passes_always n lb ad re t own same old new : passes o (section_node n lb true ad re t own same old new) <-> own o = true.
Proof.
  unfold section_node, passes. cbn [check k_check]. split.
  - intros (c' & H & Hc). destruct same; cbn [rbind] in H; injection H as <-; cbn [is_change k_always orb] in Hc; (destruct Hc as [Hc|Hc]; [discriminate|]; rewrite is_ignored_eq in Hc; cbn [k_own k_parts negb] in Hc; destruct (own o); [reflexivity|discriminate]).
  - intro H. destruct same; cbn [rbind]; (eexists; split; [reflexivity|right; rewrite is_ignored_eq; cbn [k_own]; now rewrite H]).
Qed.
Lemma section_quiet n lb al ad re t own same old new : quiet (section_node n lb al ad re t own same old new) <-> al = false /\ same = true.
Proof.
  unfold section_node, quiet. cbn [check k_check]. split.
  - intros (c' & H & Hc). destruct same; cbn [rbind] in H; injection H as <-; cbn [is_change k_always] in Hc; apply orb_false_iff in Hc as [H1 H2]; auto; discriminate.
  - intros [-> ->]. cbn [rbind]. eexists. split; reflexivity.
Qed.
End Nodes.

Section Manifests.
Variable order : list str -> list str.
Hypothesis order_perm : forall s, Permutation (order s) s.
Lemma order_Forall (P : str -> Prop) l : Forall P (order l) <-> Forall P l.
Proof. split; apply Permutation_Forall; [apply order_perm|symmetry; apply order_perm]. Qed.
Lemma Forall_filter {A} (P : A -> Prop) f l : Forall P (filter f l) <-> forall x, In x l -> f x = true -> P x.
Proof. rewrite Forall_forall. split; intros H x; [intros H1 H2; apply H, filter_In; auto|intro H1; apply filter_In in H1 as [H1 H2]; auto]. Qed.
Lemma dkeys_get {V} (d : dict V) n : In n (dkeys d) <-> exists v, dget d n = Some v.
Proof.
  split.
  - intro H. destruct (dget d n) eqn:E; [eauto|]. apply dget_None in E. contradiction.
  - intros [v H]. apply dget_In in H. apply (in_map fst) in H. exact H.
Qed.
Lemma dkeys_get_none {V} (d : dict V) n : smem n (dkeys d) = false <-> dget d n = None.
Proof. rewrite <- not_true_iff_false, smem_In, dkeys_get. destruct (dget d n); [split; [intro H; exfalso; apply H; eauto|discriminate]|split; [auto|intros _ [v H]; discriminate]]. Qed.
Lemma sub_of_get m n s : dget (m_subs m) n = Some s -> sub_of m n = s.
Proof. unfold sub_of. now intros ->. Qed.

(** A property of all the parts of a manifest comparison. *)
Lemma parts_Forall (P : change -> Prop) l r : Forall P (manifest_parts order l r) <->
  P (manifest_main l r) /\ forall n, match dget (m_subs l) n, dget (m_subs r) n with
    | Some a, Some b => P (section_change a b)
    | Some a, None => P (section_removed a)
    | None, Some b => P (section_added b)
    | None, None => True
    end.
Proof.
  unfold manifest_parts. cbv zeta. rewrite Forall_cons_eq, !Forall_app, !Forall_map, !order_Forall, !Forall_filter. split.
  - intros (H0 & H1 & H2 & H3). split; [exact H0|]. intro n.
    destruct (dget (m_subs l) n) as [a|] eqn:El, (dget (m_subs r) n) as [b|] eqn:Er.
    + rewrite <- (sub_of_get _ _ _ El), <- (sub_of_get _ _ _ Er). apply H1; [apply dkeys_get; eauto|]. apply smem_In, dkeys_get. eauto.
    + rewrite <- (sub_of_get _ _ _ El). apply H2; [apply dkeys_get; eauto|]. apply negb_true_iff. now apply dkeys_get_none.
    + rewrite <- (sub_of_get _ _ _ Er). apply H3; [apply dkeys_get; eauto|]. apply negb_true_iff. now apply dkeys_get_none.
    + exact I.
  - intros (H0 & H). split; [exact H0|]. repeat split; intros n Hn Hf; specialize (H n); apply dkeys_get in Hn as [a Ha]; rewrite Ha in H.
    + apply smem_In, dkeys_get in Hf as [b Hb]. rewrite Hb in H. now rewrite (sub_of_get _ _ _ Ha), (sub_of_get _ _ _ Hb).
    + apply negb_true_iff, dkeys_get_none in Hf. rewrite Hf in H. now rewrite (sub_of_get _ _ _ Ha).
    + apply negb_true_iff, dkeys_get_none in Hf. rewrite Hf in H. now rewrite (sub_of_get _ _ _ Ha).
Qed.
Lemma parts_complete l r : Forall completes (manifest_parts order l r).
Proof.
  apply parts_Forall. split; [apply section_completes|]. intro n. destruct (dget (m_subs l) n), (dget (m_subs r) n); [apply section_completes..|exact I].
Qed.
Lemma parts_passes o l r : Forall (passes o) (manifest_parts order l r) <-> main_ok o (m_main l) (m_main r) /\ subs_ok o (m_subs l) (m_subs r).
Proof.
  rewrite parts_Forall. unfold main_ok, subs_ok. split; intros [H0 H]; split.
  - unfold manifest_main in H0. rewrite section_passes, section_eqb_iff, keys_own_iff in H0. exact H0.
  - intro n. specialize (H n). destruct (dget (m_subs l) n), (dget (m_subs r) n).
    + unfold section_change in H. rewrite section_passes, section_eqb_iff, orb_true_iff, keys_own_iff in H. tauto.
    + now apply section_passes_always in H.
    + now apply section_passes_always in H.
    + exact I.
  - unfold manifest_main. rewrite section_passes, section_eqb_iff, keys_own_iff. exact H0.
  - intro n. specialize (H n). destruct (dget (m_subs l) n), (dget (m_subs r) n).
    + unfold section_change. rewrite section_passes, section_eqb_iff, orb_true_iff, keys_own_iff. tauto.
    + now apply section_passes_always.
    + now apply section_passes_always.
    + exact I.
Qed.
Lemma parts_quiet l r : Forall quiet (manifest_parts order l r) <-> manifest_same l r.
Proof.
  rewrite parts_Forall. unfold manifest_same. split; intros [H0 H]; split.
  - apply section_quiet in H0 as [_ H0]. now apply section_eqb_iff.
  - intro n. specialize (H n). destruct (dget (m_subs l) n), (dget (m_subs r) n); try (apply section_quiet in H as [H1 H2]; discriminate); [|reflexivity].
    apply section_quiet in H as [_ H]. apply section_eqb_iff in H. congruence.
  - apply section_quiet. split; [reflexivity|]. now apply section_eqb_iff.
  - intro n. specialize (H n). destruct (dget (m_subs l) n), (dget (m_subs r) n); try discriminate; [|exact I]. apply section_quiet. split; [reflexivity|]. apply section_eqb_iff. congruence.
Qed.
Lemma manifest_passes o l r : passes o (manifest_change order l r) <-> manifest_ok o l r.
Proof.
  unfold manifest_change. rewrite passes_parts by auto. cbn [k_raises k_own]. rewrite parts_passes. unfold manifest_ok.
  split; [tauto|]. intro H. split; [reflexivity|]. split; [apply parts_complete|exact H].
Qed.
Lemma manifest_completes l r : completes (manifest_change order l r).
Proof. unfold manifest_change. apply completes_kids; auto. split; [reflexivity|apply parts_complete]. Qed.
Lemma signature_completes l r : completes (signature_change order l r).
Proof. unfold signature_change. apply completes_kids; auto. split; [reflexivity|apply parts_complete]. Qed.
Lemma manifest_quiet l r : quiet (manifest_change order l r) <-> manifest_same l r.
Proof. unfold manifest_change. rewrite quiet_kids by reflexivity. rewrite parts_quiet. cbn [k_raises]. tauto. Qed.
Lemma signature_quiet l r : quiet (signature_change order l r) <-> manifest_same l r.
Proof. unfold signature_change. rewrite quiet_kids by reflexivity. rewrite parts_quiet. cbn [k_raises]. tauto. Qed.
Lemma parts_tame l r : Forall tame (manifest_parts order l r).
Proof.
  apply parts_Forall. split; [constructor; [discriminate|constructor|constructor]|]. intro n. destruct (dget (m_subs l) n), (dget (m_subs r) n); try exact I; (constructor; [discriminate|constructor|constructor]).
Qed.
End Manifests.

(** ** Entries *)
Section JarNodes.
Variable o : options.
Variables (n lb : str) (ad re : bool) (own : options -> bool) (parts : bool) (entry : str).
(** An entry on one side only. *)
Lemma one_sided_passes : passes o (jar_node n lb true ad re own parts true None entry) <-> own o = true.
Proof.
  unfold jar_node, passes. cbn [check k_check map pick k_super negb k_incheck andb k_gate k_always orb k_raises]. cbn [rbind sequence existsb]. split.
  - intros (c' & H & Hc). injection H as <-. destruct Hc as [Hc|Hc]; [discriminate|]. rewrite is_ignored_eq in Hc. cbn [k_own k_parts] in Hc. destruct (own o); [reflexivity|]. destruct parts; discriminate.
  - intro H. eexists. split; [reflexivity|]. right. rewrite is_ignored_eq. cbn [k_own]. now rewrite H.
Qed.
Lemma one_sided_completes : completes (jar_node n lb true ad re own parts true None entry).
Proof. eexists. reflexivity. Qed.
Lemma unchanged_passes sub : passes o (jar_node n lb false ad re own parts false sub entry).
Proof. eexists. split; [reflexivity|]. left. reflexivity. Qed.
Lemma unchanged_quiet sub : quiet (jar_node n lb false ad re own parts false sub entry).
Proof. eexists. split; reflexivity. Qed.
Lemma differs_completes sub : completes (jar_node n lb false ad re own parts true (Some sub) entry) <-> exists c, sub = Ok c /\ completes c.
Proof.
  unfold jar_node. rewrite completes_kids by auto. cbn [k_raises]. destruct sub as [c|e].
  - rewrite Forall_cons_eq, Forall_nil_eq. split; [intros (_ & H & _); eauto|]. intros (c' & E & H). injection E as <-. auto.
  - split; [intros [H _]; discriminate|intros (c & H & _); discriminate].
Qed.
Lemma differs_check c c' : check c = Ok c' -> check (jar_node n lb false ad re own parts true (Some (Ok c)) entry) =
  let 'Node k _ _ _ im := jar_node n lb false ad re own parts true (Some (Ok c)) entry in Ok (Node k (is_change c') None [c'] im).
Proof.
  intro H. unfold jar_node. cbn [check k_check map pick k_super negb k_incheck andb k_gate k_always orb k_raises]. rewrite H. cbn [rbind sequence existsb]. now rewrite orb_false_r.
Qed.
Lemma differs_passes sub : passes o (jar_node n lb false ad re own parts true (Some sub) entry) <->
  exists c, sub = Ok c /\ ((completes c /\ own o = true) \/ quiet c \/ (parts = true /\ passes o c)).
Proof.
  split.
  - intro H. pose proof (proj1 (differs_completes sub) (passes_completes _ _ H)) as (c & -> & c' & Hc). exists c. split; [reflexivity|].
    destruct H as (x & Hx & H). rewrite (differs_check _ _ Hc) in Hx. unfold jar_node in Hx. cbv iota in Hx. injection Hx as <-. cbn [is_change k_always orb] in H.
    destruct (own o) eqn:Eo; [left; split; [now exists c'|reflexivity]|]. right. destruct H as [H|H]; [left; now exists c'|]. rewrite is_ignored_eq in H. cbn [k_own k_parts] in H. rewrite Eo in H.
    destruct parts; cbn [negb] in H; [|discriminate]. cbn [is_change k_always orb] in H. destruct (is_change c') eqn:Ec; cbn [negb] in H; [|discriminate]. right. split; [reflexivity|]. exists c'. split; [exact Hc|]. right.
    cbn [collect pick rbind map] in H. rewrite Ec in H. cbn [all_ignored] in H. destruct (is_ignored o c') as [[|]|]; cbn [rbind] in H; congruence.
  - intros (c & -> & H). assert (HC : completes c) by (destruct H as [[H _]|[H|[_ H]]]; [exact H|now apply quiet_completes|now apply passes_completes in H]).
    destruct HC as [c' Hc]. eexists. split; [rewrite (differs_check _ _ Hc); unfold jar_node; cbv iota; reflexivity|]. cbn [is_change k_always orb]. rewrite is_ignored_eq. cbn [k_own k_parts].
    destruct (own o) eqn:Eo; [now right|]. destruct H as [[_ H]|[(c2 & H1 & H2)|[-> (c2 & H1 & H2)]]]; [discriminate| |].
    + rewrite Hc in H1. injection H1 as <-. now left.
    + rewrite Hc in H1. injection H1 as <-. destruct (is_change c') eqn:Ec; [|now left]. right. destruct H2 as [H2|H2]; [discriminate|]. cbn [negb is_change k_always orb collect pick rbind map all_ignored]. rewrite Ec, H2. reflexivity.
Qed.
Lemma differs_quiet sub : quiet (jar_node n lb false ad re own parts true (Some sub) entry) <-> exists c, sub = Ok c /\ quiet c.
Proof.
  split.
  - intro H. pose proof (proj1 (differs_completes sub) (quiet_completes _ H)) as (c & -> & c' & Hc). exists c. split; [reflexivity|]. destruct H as (x & Hx & H). rewrite (differs_check _ _ Hc) in Hx. unfold jar_node in Hx. cbv iota in Hx. injection Hx as <-. now exists c'.
  - intros (c & -> & c' & Hc & H). eexists. split; [rewrite (differs_check _ _ Hc); unfold jar_node; cbv iota; reflexivity|]. exact H.
Qed.
Lemma jar_node_tame al ch sub : (al = true -> sub = None) -> (forall c, sub = Some (Ok c) -> tame c) -> tame (jar_node n lb al ad re own parts ch sub entry).
Proof.
  intros HN HT. unfold jar_node. constructor; [|constructor|].
  - intros _. left. split; [reflexivity|]. cbn [k_always]. intro H. rewrite (HN H). auto.
  - destruct sub as [[c|]|]; constructor; auto.
Qed.
End JarNodes.

Section Jars.
Variable fmt : pyval -> str.
Variable reprs : str -> str.
Variable ffmt : pyval -> str.
Variable text : bytes -> res str.
Variable order : list str -> list str.
Variable up : Z -> str.
Hypothesis order_perm : forall s, Permutation (order s) s.

Lemma is_sigfile_iff n : is_sigfile up n = true <-> sig_file up n.
Proof. unfold is_sigfile, Sign_Model.file_matches_sigfile, sig_file, in_meta_inf. rewrite andb_true_iff, in_sig_dir, matches_pat1. reflexivity. Qed.
Lemma is_sigblock_iff n : is_sigblock up n = true <-> sig_block up n.
Proof.
  unfold is_sigblock, Sign_Model.file_matches_sigblock, sig_block, in_meta_inf. rewrite andb_true_iff, in_sig_dir, matches_pat4. split.
  - intros [(x & -> & H) H2]. exists x. split; [split; [reflexivity|exact H]|exact H2].
  - intros (x & [-> H] & H2). split; [exists x; split; [reflexivity|exact H]|exact H2].
Qed.
Lemma is_classfile_iff n : is_classfile n = true <-> class_file n.
Proof. unfold is_classfile, fnmatches, class_file. cbn [existsb]. rewrite orb_false_r. apply (glob_star (lit ".class")). reflexivity. Qed.
Lemma entry_own_iff o n : entry_own n o = true <-> matched o n.
Proof.
  unfold entry_own, matched. apply fnmatches_matched.
Qed.

Variables l r : Zip_Model.archive.
Notation event := (jar_event fmt reprs ffmt text order up l r).

Lemma event_one_sided o n : (passes o (event (Zip_Model.LEFT, n)) <-> one_sided_ok up o n) /\ (passes o (event (Zip_Model.RIGHT, n)) <-> one_sided_ok up o n).
Proof.
  unfold one_sided_ok, signature. cbn [jar_event].
  destruct (is_sigfile up n) eqn:Ef.
  { apply is_sigfile_iff in Ef. rewrite !one_sided_passes. split; (split; [intro H; left; auto|intros [[_ H]|[H _]]; [exact H|exfalso; auto]]). }
  apply not_true_iff_false in Ef. rewrite is_sigfile_iff in Ef. destruct (is_sigblock up n) eqn:Eb.
  { apply is_sigblock_iff in Eb. rewrite !one_sided_passes. split; (split; [intro H; left; auto|intros [[_ H]|[H _]]; [exact H|exfalso; auto]]). }
  apply not_true_iff_false in Eb. rewrite is_sigblock_iff in Eb.
  destruct (is_classfile n); rewrite !one_sided_passes, entry_own_iff; split; (split; [intro H; right; tauto|intros [[H _]|[_ H]]; [tauto|exact H]]).
Qed.
Lemma event_one_sided_completes n : completes (event (Zip_Model.LEFT, n)) /\ completes (event (Zip_Model.RIGHT, n)).
Proof. cbn [jar_event]. destruct (is_sigfile up n), (is_sigblock up n), (is_classfile n); split; apply one_sided_completes. Qed.
Lemma event_one_sided_not_quiet n : ~ quiet (event (Zip_Model.LEFT, n)) /\ ~ quiet (event (Zip_Model.RIGHT, n)).
Proof. cbn [jar_event]. destruct (is_sigfile up n), (is_sigblock up n), (is_classfile n); split; (intros (c' & H & Hc); cbn in H; injection H as <-; discriminate). Qed.
Lemma event_same n : quiet (event (Zip_Model.SAME, n)).
Proof. cbn [jar_event]. destruct (seqb n _), (is_sigfile up n), (is_sigblock up n), (is_classfile n); apply unchanged_quiet. Qed.
Lemma quiet_passes o c : quiet c -> passes o c.
Proof. intros (c' & H & Hc). exists c'. auto. Qed.

Section Bytes.
Variables (n : str) (d d' : bytes).
Hypothesis Hl : read_entry text l n = Ok (Zip_Model.PBytes d).
Hypothesis Hr : read_entry text r n = Ok (Zip_Model.PBytes d').

Lemma class_sub_iff c : class_sub fmt reprs ffmt text l r n = Ok c <->
  exists a b, unpack_class d MNone = Ok a /\ unpack_class d' MNone = Ok b /\ c = class_change fmt reprs ffmt a b.
Proof.
  unfold class_sub. rewrite Hl, Hr. cbn [rbind unpack_piece]. destruct (unpack_class d MNone) as [a|] eqn:Ea; cbn [rbind].
  2: { split; [discriminate|]. intros (a & b & H & _). congruence. }
  destruct (unpack_class d' MNone) as [b|] eqn:Eb; cbn [rbind].
  2: { split; [discriminate|]. intros (a' & b & _ & H & _). congruence. }
  split; [intro H; injection H as <-; eauto|]. intros (a' & b' & H1 & H2 & ->). congruence.
Qed.
Lemma manifest_sub_iff mk c : manifest_sub text l r mk n = Ok c <-> exists a b, parses d a /\ parses d' b /\ c = mk a b.
Proof.
  unfold manifest_sub, parses. rewrite Hl, Hr. cbn [rbind parse_piece]. destruct (man_parse _ d) as [a|] eqn:Ea; cbn [rbind].
  2: { split; [discriminate|]. intros (a & b & H & _). congruence. }
  destruct (man_parse _ d') as [b|] eqn:Eb; cbn [rbind].
  2: { split; [discriminate|]. intros (a' & b & _ & H & _). congruence. }
  split; [intro H; injection H as <-; eauto|]. intros (a' & b' & H1 & H2 & ->). congruence.
Qed.
Lemma data_sub_eq mk : data_sub text l r mk n = Ok (mk (Zip_Model.PBytes d) (Zip_Model.PBytes d')).
Proof. unfold data_sub. now rewrite Hl, Hr. Qed.
Lemma data_completes nm lb t sh a b : completes (data_node nm lb t sh a b).
Proof. unfold data_node. destruct (Zip_Model.peqb a b); eexists; reflexivity. Qed.
Lemma data_not_passes o nm lb t sh : d <> d' -> ~ passes o (data_node nm lb t sh (Zip_Model.PBytes d) (Zip_Model.PBytes d')).
Proof.
  intros Hd. unfold data_node. erewrite passes_own by reflexivity. cbn [Zip_Model.peqb]. destruct (seqb_spec d d'); [contradiction|]. intros (b & x & E & H). injection E as <- _. destruct H; discriminate.
Qed.

Lemma manifest_is_sigfree : seqb n Sign_Model.MANIFEST_NAME = true <-> the_manifest n.
Proof. rewrite seqb_eq. reflexivity. Qed.

Lemma event_diff_completes o : completes (event (Zip_Model.DIFF, n)) <-> comparable fmt reprs ffmt up o n d d'.
Proof.
  cbn [jar_event]. destruct (seqb n Sign_Model.MANIFEST_NAME) eqn:Em.
  { apply manifest_is_sigfree in Em. rewrite differs_completes. split.
    - intros (c & H & _). apply manifest_sub_iff in H as (a & b & H1 & H2 & _). eapply cmp_manifest; eauto.
    - intro H. assert (exists a b, parses d a /\ parses d' b) as (a & b & H1 & H2) by (destruct H; try contradiction; eauto).
      eexists. split; [apply manifest_sub_iff; eauto|]. apply manifest_completes. exact order_perm. }
  apply not_true_iff_false in Em. rewrite manifest_is_sigfree in Em.
  destruct (is_sigfile up n) eqn:Ef.
  { apply is_sigfile_iff in Ef. rewrite differs_completes. split.
    - intros (c & H & _). apply manifest_sub_iff in H as (a & b & H1 & H2 & _). eapply cmp_manifest; eauto.
    - intro H. assert (exists a b, parses d a /\ parses d' b) as (a & b & H1 & H2) by (unfold signature in H; destruct H as [? ? ? ? ?|? ? ? ? X|? X|? X]; eauto; unfold signature in X; exfalso; tauto).
      eexists. split; [apply manifest_sub_iff; eauto|]. apply signature_completes. exact order_perm. }
  apply not_true_iff_false in Ef. rewrite is_sigfile_iff in Ef. destruct (is_sigblock up n) eqn:Eb.
  { apply is_sigblock_iff in Eb. rewrite differs_completes, data_sub_eq. split; [intros _; now apply cmp_block|]. intros _. eexists. split; [reflexivity|]. apply data_completes. }
  apply not_true_iff_false in Eb. rewrite is_sigblock_iff in Eb. assert (Es : ~ signature up n) by (unfold signature; tauto). destruct (is_classfile n) eqn:Ec.
  { apply is_classfile_iff in Ec. rewrite differs_completes. split.
    - intros (c & H & HC). apply class_sub_iff in H as (a & b & H1 & H2 & ->). apply (classdiff_completes fmt reprs ffmt o) in HC as [s Hs]. eapply cmp_class; eassumption.
    - intro H. destruct H as [a b [X|X]|a b s X1 X2 X3 H1 H2 H3|X1 X2 X3|X1 X2 X3]; try contradiction. eexists. split; [apply class_sub_iff; eauto|]. apply (classdiff_completes fmt reprs ffmt o). eauto. }
  apply not_true_iff_false in Ec. rewrite is_classfile_iff in Ec. rewrite differs_completes, data_sub_eq. split; [intros _; now apply cmp_data|]. intros _. eexists. split; [reflexivity|]. apply data_completes.
Qed.

Lemma event_diff_passes o : d <> d' -> (passes o (event (Zip_Model.DIFF, n)) <-> acceptable fmt reprs ffmt up o n d d').
Proof.
  intro Hd. cbn [jar_event]. destruct (seqb n Sign_Model.MANIFEST_NAME) eqn:Em.
  { apply manifest_is_sigfree in Em. rewrite differs_passes. split.
    - intros (c & H & HC). apply manifest_sub_iff in H as (a & b & H1 & H2 & ->). eapply acc_manifest; eauto. rewrite entry_own_iff in HC.
      destruct HC as [[_ H]|[H|[_ H]]]; [now left|right; apply (manifest_passes order order_perm); now apply quiet_passes|right; now apply (manifest_passes order order_perm)].
    - intro H. destruct H as [a b X1 H1 H2 H|? ? X|X|? ? ? X|X]; try contradiction. eexists. split; [apply manifest_sub_iff; eauto|]. rewrite entry_own_iff.
      destruct H as [H|H]; [left; split; [apply manifest_completes; exact order_perm|exact H]|right; right; split; [reflexivity|]; now apply (manifest_passes order order_perm)]. }
  apply not_true_iff_false in Em. rewrite manifest_is_sigfree in Em.
  destruct (is_sigfile up n) eqn:Ef.
  { apply is_sigfile_iff in Ef. rewrite differs_passes. split.
    - intros (c & H & HC). apply manifest_sub_iff in H as (a & b & H1 & H2 & ->). eapply acc_sigfile; eauto.
      destruct HC as [[_ H]|[H|[H _]]]; [now left|right; now apply (signature_quiet order order_perm)|discriminate].
    - intro H. destruct H as [a b X|a b X X2 H1 H2 H|X X2|? ? ? X X2|X X2]; try contradiction; try (unfold signature in X2; exfalso; tauto). eexists. split; [apply manifest_sub_iff; eauto|].
      destruct H as [H|H]; [left; split; [apply signature_completes; exact order_perm|exact H]|right; left; now apply (signature_quiet order order_perm)]. }
  apply not_true_iff_false in Ef. rewrite is_sigfile_iff in Ef. destruct (is_sigblock up n) eqn:Eb.
  { apply is_sigblock_iff in Eb. rewrite differs_passes, data_sub_eq. split.
    - intros (c & H & HC). injection H as <-. apply acc_sigblock; auto. destruct HC as [[_ H]|[H|[H _]]]; [exact H| |discriminate]. apply (quiet_passes o) in H. now apply data_not_passes in H.
    - intro H. destruct H as [? ? X|? ? X X2|X X2 X3 H|? ? ? X X2|X X2]; try contradiction; try (unfold signature in X2; exfalso; tauto). eexists. split; [reflexivity|]. left. split; [apply data_completes|exact H]. }
  apply not_true_iff_false in Eb. rewrite is_sigblock_iff in Eb. assert (Es : ~ signature up n) by (unfold signature; tauto). destruct (is_classfile n) eqn:Ec.
  { apply is_classfile_iff in Ec. rewrite differs_passes. split.
    - intros (c & H & HC). apply class_sub_iff in H as (a & b & H1 & H2 & ->). assert (HX : completes (class_change fmt reprs ffmt a b)) by (destruct HC as [[H _]|[H|[_ H]]]; [exact H|now apply quiet_completes|now apply passes_completes in H]).
      apply (classdiff_completes fmt reprs ffmt o) in HX as [s Hs]. eapply acc_class; try eassumption. rewrite entry_own_iff in HC. destruct HC as [[_ H]|[H|[_ H]]]; [now left| |]; right.
      + apply (quiet_passes o) in H. apply classdiff_iff in H. congruence.
      + apply classdiff_iff in H. congruence.
    - intro H. destruct H as [? ? X|? ? X X2|X X2 X3|a b s X X2 X3 H1 H2 H3 H|X X2 X3]; try contradiction. eexists. split; [apply class_sub_iff; eauto|]. rewrite entry_own_iff.
      destruct H as [H| ->]; [left; split; [|exact H]; apply (classdiff_completes fmt reprs ffmt o); eauto|]. right. right. split; [reflexivity|]. now apply classdiff_iff. }
  apply not_true_iff_false in Ec. rewrite is_classfile_iff in Ec. rewrite differs_passes, data_sub_eq. split.
  - intros (c & H & HC). injection H as <-. apply acc_data; auto. rewrite entry_own_iff in HC. destruct HC as [[_ H]|[H|[_ H]]]; [exact H| |].
    + apply (quiet_passes o) in H. now apply data_not_passes in H.
    + now apply data_not_passes in H.
  - intro H. destruct H as [? ? X|? ? X X2|X X2 X3|? ? ? X X2 X3|X X2 X3 H]; try contradiction. eexists. split; [reflexivity|]. left. split; [apply data_completes|]. now apply entry_own_iff.
Qed.
Lemma event_diff_quiet : d <> d' -> quiet (event (Zip_Model.DIFF, n)) ->
  (exists a b, (the_manifest n \/ sig_file up n) /\ parses d a /\ parses d' b /\ manifest_same a b) \/
  (exists a b, ~ the_manifest n /\ ~ signature up n /\ class_file n /\ unpack_class d MNone = Ok a /\ unpack_class d' MNone = Ok b /\ quiet (class_change fmt reprs ffmt a b)).
Proof.
  intro Hd. cbn [jar_event]. destruct (seqb n Sign_Model.MANIFEST_NAME) eqn:Em.
  { apply manifest_is_sigfree in Em. rewrite differs_quiet. intros (c & H & HC). left. apply manifest_sub_iff in H as (a & b & H1 & H2 & ->). exists a, b. repeat split; auto; apply (manifest_quiet order order_perm) in HC; apply HC. }
  apply not_true_iff_false in Em. rewrite manifest_is_sigfree in Em. destruct (is_sigfile up n) eqn:Ef.
  { apply is_sigfile_iff in Ef. rewrite differs_quiet. intros (c & H & HC). left. apply manifest_sub_iff in H as (a & b & H1 & H2 & ->). exists a, b. repeat split; auto; apply (signature_quiet order order_perm) in HC; apply HC. }
  apply not_true_iff_false in Ef. rewrite is_sigfile_iff in Ef. destruct (is_sigblock up n) eqn:Eb.
  { rewrite differs_quiet, data_sub_eq. intros (c & H & HC). injection H as <-. apply (quiet_passes (mkopts false false false false false false false false false false false false [] false false false [] [] false)) in HC. now apply data_not_passes in HC. }
  apply not_true_iff_false in Eb. rewrite is_sigblock_iff in Eb. destruct (is_classfile n) eqn:Ec.
  { apply is_classfile_iff in Ec. rewrite differs_quiet. intros (c & H & HC). right. apply class_sub_iff in H as (a & b & H1 & H2 & ->). exists a, b. repeat split; auto. unfold signature. tauto. }
  rewrite differs_quiet, data_sub_eq. intros (c & H & HC). injection H as <-. apply (quiet_passes (mkopts false false false false false false false false false false false false [] false false false [] [] false)) in HC. now apply data_not_passes in HC.
Qed.
End Bytes.
Lemma event_tame ev : tame (event ev).
Proof.
  destruct ev as [e n]. assert (HM : forall mk c, (forall a b, tame (mk a b)) -> manifest_sub text l r mk n = Ok c -> tame c).
  { intros mk c H. unfold manifest_sub. destruct (read_entry text l n) as [p|]; cbn [rbind]; [|discriminate]. destruct (parse_piece p); cbn [rbind]; [|discriminate]. destruct (read_entry text r n) as [p2|]; cbn [rbind]; [|discriminate]. destruct (parse_piece p2); cbn [rbind]; [|discriminate]. intro E. injection E as <-. apply H. }
  assert (HD : forall mk c, (forall a b, tame (mk a b)) -> data_sub text l r mk n = Ok c -> tame c).
  { intros mk c H. unfold data_sub. destruct (read_entry text l n) as [p|]; cbn [rbind]; [|discriminate]. destruct (read_entry text r n) as [p2|]; cbn [rbind]; [|discriminate]. intro E. injection E as <-. apply H. }
  assert (HC : forall c, class_sub fmt reprs ffmt text l r n = Ok c -> tame c).
  { intros c. unfold class_sub. destruct (read_entry text l n) as [p|]; cbn [rbind]; [|discriminate]. destruct (unpack_piece p); cbn [rbind]; [|discriminate]. destruct (read_entry text r n) as [p2|]; cbn [rbind]; [|discriminate]. destruct (unpack_piece p2); cbn [rbind]; [|discriminate]. intro E. injection E as <-. apply tame_class. }
  assert (HP : forall k own a b, k_check k = CheckParts -> k_always k = false -> k_own k = own -> tame (Node k false None [] (manifest_parts order a b))).
  { intros k own a b H1 H2 _. constructor; [|constructor|now apply parts_tame]. intros _. left. split; [exact H1|congruence]. }
  cbn [jar_event]. destruct e; destruct (seqb n Sign_Model.MANIFEST_NAME), (is_sigfile up n), (is_sigblock up n), (is_classfile n); apply jar_node_tame; try discriminate; try reflexivity;
    intros c E; try discriminate; injection E as E; first [eapply HC; exact E | eapply HM; [|exact E]; intros; eapply HP; reflexivity | eapply HD; [|exact E]; intros; constructor; [discriminate|constructor|constructor]].
Qed.
End Jars.

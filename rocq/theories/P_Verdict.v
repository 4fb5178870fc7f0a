(** Properties C112 and C113: the verdict of classdiff, jardiff and distdiff does
    not depend on the order of the two sides, and verdicts of no change chain. *)
From Verif Require Import Base Pack_Model ConstPool_Model ConstPool_Spec ClassFile_Model ClassFile_Spec Manifest_Model
  Change_Model Classdiff_Model Classdiff_Spec Change_Tame Jardiff_Model Jardiff_Spec Distdiff_Model Distdiff_Spec Verdict_Spec Verdict_Class Verdict_Jar P_ClassFile P_Classdiff P_Jardiff P_Distdiff.
From Verif Require Zip_Model Zip_Spec Dir_Spec P_Zip.
From Coq Require Import Permutation.
Import Zip_Model (node, Dir, File, slashes, archive, a_entries, e_name, e_data).
Import Dir_Spec (found, file_at, data_at, plain).

(** ** Example data *)
Fixpoint tellsb (ks : list pyval) : bool := match ks with [] => true | k :: l' => forallb (fun k' => negb (py_eq k k')) l' && tellsb l' end.
Definition idsb (p : pool) (ms : list member) : bool :=
  match mapM (get_identifier no_fmt p) ms with
  | Ok ks => forallb (fun k => match k with PStr _ => true | _ => false end) ks && tellsb ks
  | Err _ => false
  end.
Lemma idsb_ok p ms : idsb p ms = true -> distinct_ids no_fmt p ms.
Proof.
  unfold idsb. destruct (mapM _ ms) as [ks|] eqn:E; [|discriminate]. intro H. apply andb_true_iff in H as [H1 H2]. apply distinct_by with ks; [| |exact H2]; clear H2; revert ks E H1; induction ms as [|m ms IH]; intros ks E H.
  - cbn [mapM] in E. injection E as <-. reflexivity.
  - cbn [mapM] in E. destruct (get_identifier no_fmt p m) as [k|] eqn:EK; cbn [rbind] in E; [|discriminate E]. destruct (mapM _ ms) as [ks'|] eqn:ES; cbn [rbind] in E; [|discriminate E]. injection E as <-.
    cbn [forallb] in H. apply andb_true_iff in H as [H1 H2]. cbn [combine forallb fst snd]. rewrite EK. destruct k; try discriminate H1. rewrite seqb_refl. exact (IH ks' eq_refl H2).
  - cbn [mapM] in E. injection E as <-. reflexivity.
  - cbn [mapM] in E. destruct (get_identifier no_fmt p m) as [k|]; cbn [rbind] in E; [|discriminate E]. destruct (mapM _ ms) as [ks'|] eqn:ES; cbn [rbind] in E; [|discriminate E]. injection E as <-.
    cbn [forallb] in H. apply andb_true_iff in H as [H1 H2]. cbn [length]. f_equal. exact (IH ks' eq_refl H2).
Qed.
Definition properb (c : classinfo) : bool := idsb (c_pool c) (c_fields c) && idsb (c_pool c) (c_methods c).
Lemma properb_ok c : properb c = true -> proper_class no_fmt c.
Proof. intro H. apply andb_true_iff in H as [H1 H2]. split; now apply idsb_ok. Qed.
(** Data that is no class file is none of a proper class either. *)
Definition data_properb (d : bytes) : bool := match unpack_class d MNone with Ok c => properb c | Err _ => true end.
Lemma data_proper d : data_properb d = true -> forall c, unpack_class d MNone = Ok c -> proper_class no_fmt c.
Proof. unfold data_properb. intros H c Hc. rewrite Hc in H. now apply properb_ok. Qed.
Definition jar_properb (a : archive) : bool :=
  match Zip_Model.a_kind a with Zip_Model.Zip => true | _ => false end && Zip_Model.a_open a && forallb soundb (a_entries a) &&
  forallb (fun e => data_properb (e_data e)) (a_entries a).
Lemma jar_properb_ok a : jar_properb a = true -> proper_jar no_fmt a.
Proof.
  unfold jar_properb. intro H. apply andb_true_iff in H as [H H4]. apply andb_true_iff in H as [H H3]. apply andb_true_iff in H as [H1 H2].
  split; [now destruct (Zip_Model.a_kind a)|]. split; [exact H2|]. split; [now apply soundb_sound|]. intros n d c _ (l1 & e & l2 & HE & _ & HD & _) HU. rewrite forallb_forall in H4.
  apply (data_proper (e_data e)); [|now rewrite HD]. apply H4. rewrite HE. apply in_or_app. right. now left.
Qed.
Fixpoint datas (fuel : nat) (t : node) : list bytes :=
  match fuel, t with
  | _, File _ d _ => [d]
  | S f, Dir _ kids => flat_map (fun k => datas f (snd k)) kids
  | _, _ => []
  end.
Fixpoint depthb (fuel : nat) (t : node) : bool :=
  match fuel, t with
  | S f, Dir _ kids => forallb (fun k => depthb f (snd k)) kids
  | O, Dir _ _ => false
  | _, _ => true
  end.
Lemma datas_In f : forall t p d, depthb f t = true -> data_at t p d -> In d (datas f t).
Proof.
  induction f as [|f IH]; intros t p d HD (l & m & HF).
  - inversion HF; subst; [now left|discriminate HD].
  - inversion HF as [|? kids k n q ? HI HF']; subst; [now left|]. cbn [datas]. apply in_flat_map. exists (k, n). split; [exact HI|]. cbn [depthb] in HD. rewrite forallb_forall in HD. apply (IH n q); [exact (HD _ HI)|]. now exists l, m.
Qed.
Definition tree_properb (t : node) : bool :=
  plainb 4 t && names_okb 4 t && depthb 4 t && forallb (fun d => data_properb d && match some_jars d with Ok a => jar_properb a | Err _ => true end) (datas 4 t).
Lemma tree_properb_ok t : tree_properb t = true -> proper_tree no_fmt some_jars t.
Proof.
  unfold tree_properb. intro H. apply andb_true_iff in H as [H H4]. apply andb_true_iff in H as [H H3]. apply andb_true_iff in H as [H1 H2].
  split; [exact (plainb_plain _ _ H1)|]. split; [exact (names_okb_ok _ _ H2)|]. intros p d HD. rewrite forallb_forall in H4. specialize (H4 d (datas_In 4 t p d H3 HD)). apply andb_true_iff in H4 as [H4 H5]. split.
  - intros _. now apply data_proper.
  - intros _ a Ha. rewrite Ha in H5. now apply jar_properb_ok.
Qed.
Lemma proper_dists : Forall (proper_tree no_fmt some_jars) all_dists.
Proof.
  assert (H : forallb tree_properb all_dists = true) by (vm_compute; reflexivity). rewrite forallb_forall in H. apply Forall_forall. intros t Ht. apply tree_properb_ok. auto.
Qed.
Lemma proper_jars : Forall (proper_jar no_fmt) [j_one; j_by; j_class; j_sig].
Proof.
  assert (H : forallb jar_properb [j_one; j_by; j_class; j_sig] = true) by (vm_compute; reflexivity). rewrite forallb_forall in H. apply Forall_forall. intros t Ht. apply jar_properb_ok. auto.
Qed.

(** ** C112 *)
(** Two class files: exit status 0 for one order of the arguments exactly if for
    the other, the options for higher and lower versions exchanged. *)
Theorem C112_class : forall fmt reprs ffmt o l r, proper_class fmt l -> proper_class fmt r ->
  (classdiff fmt reprs ffmt o l r = Ok 0 <-> classdiff fmt reprs ffmt (swapped o) r l = Ok 0).
Proof.
  intros fmt reprs ffmt o l r PL PR. split; [now apply classdiff_sym|]. intro H. apply (classdiff_sym fmt reprs ffmt (swapped o) r l PR PL) in H. now rewrite swapped_twice in H.
Qed.
Print Assumptions C112_class.
Definition older (c : classinfo) : classinfo := mkclass (50, 0) (c_pool c) (c_flags c) (c_this_ref c) (c_super_ref c) (c_interfaces c) (c_fields c) (c_methods c) (c_attrs c).
Definition lax_up : options := mkopts false false true false false false false false false false true false [] false false false [] [] false.
Example C112_class_ex : proper_class no_fmt c_left /\ proper_class no_fmt (older c_right) /\
  run_diff lax_up c_left c_right = Ok 0 /\ run_diff lax_up (older c_left) c_right = run_diff (swapped lax_up) c_right (older c_left) /\
  run_diff lax_up c_right (older c_left) = run_diff (swapped lax_up) (older c_left) c_right /\
  run_diff lax_up (older c_left) c_right <> run_diff lax_up c_right (older c_left).
Proof.
  split; [apply properb_ok; vm_compute; reflexivity|]. split; [apply properb_ok; vm_compute; reflexivity|]. split; [vm_compute; reflexivity|]. split; [vm_compute; reflexivity|]. split; [vm_compute; reflexivity|].
  intro H. vm_compute in H. discriminate H.
Qed.
(** Two methods that differ in their return type only: one of them may go unnoticed
    from the one side, and is reported from the other. *)
Theorem C112_overloads_refuted : exists l r, NoDup (c_methods l) /\ NoDup (c_methods r) /\ run_diff strict l r = Ok 0 /\ run_diff (swapped strict) r l = Ok 1.
Proof.
  exists c_twice, (mkclass (52, 0) (c_pool c_twice) 33 2 15 [] [] (tl (c_methods c_twice)) []).
  split. { constructor; [|constructor; [intros []|constructor]]. cbn. intros [H|[]]. discriminate. }
  split; [constructor; [intros []|constructor]|]. split; vm_compute; reflexivity.
Qed.
Print Assumptions C112_overloads_refuted.
(** Two jars, whatever the order in which sets are listed in the two runs *)
Theorem C112_jar : forall fmt reprs ffmt text order order' up o l r s s', (forall s, Permutation (order s) s) -> (forall s, Permutation (order' s) s) ->
  proper_jar fmt l -> proper_jar fmt r ->
  jardiff fmt reprs ffmt text order up o (Ok l) (Ok r) = Ok s -> jardiff fmt reprs ffmt text order' up (swapped o) (Ok r) (Ok l) = Ok s' -> s = s'.
Proof. intros. eapply jardiff_sym; [exact H|exact H0|exact H1|exact H2|eassumption|eassumption]. Qed.
Print Assumptions C112_jar.
Example C112_jar_ex : Forall (proper_jar no_fmt) [j_one; j_by; j_class; j_sig] /\
  map (run_jardiff strict j_one) [j_one; j_by; j_class; j_sig] = [Ok 0; Ok 1; Ok 1; Ok 1] /\
  map (fun r => run_jardiff (swapped strict) r j_one) [j_one; j_by; j_class; j_sig] = [Ok 0; Ok 1; Ok 1; Ok 1] /\
  run_jardiff (jar_opts [] true false false []) j_one j_sig = Ok 0 /\ run_jardiff (swapped (jar_opts [] true false false [])) j_sig j_one = Ok 0.
Proof. split; [exact proper_jars|]. vm_compute. auto. Qed.
(** Two distributions.  Missing from the full claim: trees the comparison of
    directories does not handle (see C46). *)
Theorem C112_dist_partial : forall fmt reprs ffmt text order order' up unzip o shallow l r s s', (forall s, Permutation (order s) s) -> (forall s, Permutation (order' s) s) ->
  proper_tree fmt unzip l -> proper_tree fmt unzip r -> Dir_Spec.comparable l r ->
  distdiff fmt reprs ffmt text order up unzip l r o shallow = Ok s -> distdiff fmt reprs ffmt text order' up unzip r l (swapped o) shallow = Ok s' -> s = s'.
Proof. intros. eapply distdiff_sym; [exact H|exact H0|exact H1|exact H2|exact H3|eassumption|eassumption]. Qed.
Print Assumptions C112_dist_partial.
Example C112_dist_ex : Forall (proper_tree no_fmt some_jars) all_dists /\ Forall (Dir_Spec.comparable d_one) all_dists /\
  map (run_distdiff strict false d_one) all_dists = [Ok 0; Ok 1; Ok 1; Ok 1; Ok 1; Ok 1; Ok 0; Ok 1] /\
  map (fun r => run_distdiff (swapped strict) false r d_one) all_dists = [Ok 0; Ok 1; Ok 1; Ok 1; Ok 1; Ok 1; Ok 0; Ok 1].
Proof.
  split; [exact proper_dists|]. split; [|vm_compute; auto]. pose proof dists_fine as H. rewrite Forall_forall in *. intros t Ht. apply (H t Ht).
Qed.

(** ** C113 *)
(** Three class files: if neither the first and the second nor the second and the
    third differ in something not ignored, the first and the third do not. *)
Theorem C113_class : forall fmt reprs ffmt o a b c, proper_class fmt a -> proper_class fmt b -> proper_class fmt c ->
  classdiff fmt reprs ffmt o a b = Ok 0 -> classdiff fmt reprs ffmt o b c = Ok 0 -> classdiff fmt reprs ffmt o a c = Ok 0.
Proof. intros. eapply classdiff_trans; [exact H|exact H0|exact H1|eassumption|eassumption]. Qed.
Print Assumptions C113_class.
Example C113_class_ex : proper_class no_fmt c_left /\ proper_class no_fmt (c_right_at 20) /\ proper_class no_fmt (c_right_at 30) /\
  run_diff lax_lines c_left (c_right_at 20) = Ok 0 /\ run_diff lax_lines (c_right_at 20) (c_right_at 30) = Ok 0 /\ run_diff lax_lines c_left (c_right_at 30) = Ok 0 /\
  run_diff lax_pool (c_right_at 20) (c_right_at 30) = Ok 1.
Proof. repeat (split; [apply properb_ok; vm_compute; reflexivity|]). vm_compute. auto. Qed.
(** The name of the manifest has no upper case form that is that of a signature
    file. *)
Theorem C113_jar : forall fmt reprs ffmt text order1 order2 order3 up o a b c s,
  (forall s, Permutation (order1 s) s) -> (forall s, Permutation (order2 s) s) -> (forall s, Permutation (order3 s) s) -> ~ signature up (lit "META-INF/MANIFEST.MF") ->
  proper_jar fmt a -> proper_jar fmt b -> proper_jar fmt c ->
  jardiff fmt reprs ffmt text order1 up o (Ok a) (Ok b) = Ok 0 -> jardiff fmt reprs ffmt text order2 up o (Ok b) (Ok c) = Ok 0 ->
  jardiff fmt reprs ffmt text order3 up o (Ok a) (Ok c) = Ok s -> s = 0.
Proof. intros. eapply (jardiff_trans fmt reprs ffmt up text order1 order2 order3); [exact H|exact H0|exact H1|exact H2|exact H3|exact H4|exact H5|eassumption|eassumption|eassumption]. Qed.
Print Assumptions C113_jar.
Definition j_both := jar_of (mf_text "carol") class_bytes [P_Zip.zfile (lit "META-INF/K.SF") (lit "Signature-Version: 1.0" ++ crlf ++ crlf); P_Zip.zfile (lit "META-INF/K.RSA") [2]].
Lemma manifest_unsigned : ~ signature ascii_up (lit "META-INF/MANIFEST.MF").
Proof.
  intro H. assert (is_sigfile ascii_up (lit "META-INF/MANIFEST.MF") = true \/ is_sigblock ascii_up (lit "META-INF/MANIFEST.MF") = true) as [X|X].
  { destruct H as [H|H]; [left; now apply Jardiff_Proofs.is_sigfile_iff|right; now apply Jardiff_Proofs.is_sigblock_iff]. }
  all: vm_compute in X; discriminate X.
Qed.
Example C113_jar_ex : let o := jar_opts [] true false false [lit "Built-By"] in ~ signature ascii_up (lit "META-INF/MANIFEST.MF") /\ proper_jar no_fmt j_both /\
  run_jardiff o j_by j_sig = Ok 0 /\ run_jardiff o j_sig j_both = Ok 0 /\ run_jardiff o j_by j_both = Ok 0 /\ run_jardiff strict j_by j_sig = Ok 1.
Proof. split; [exact manifest_unsigned|]. split; [apply jar_properb_ok; vm_compute; reflexivity|]. vm_compute. auto. Qed.
(** Three distributions, where an ignored file missing from the second only would
    be ignored by the name common files have, too.  Missing from the full claim:
    other patterns, see below. *)
Theorem C113_dist_partial : forall fmt reprs ffmt text order1 order2 order3 up unzip o shallow a b c s,
  (forall s, Permutation (order1 s) s) -> (forall s, Permutation (order2 s) s) -> (forall s, Permutation (order3 s) s) -> ~ signature up (lit "META-INF/MANIFEST.MF") ->
  proper_tree fmt unzip a -> proper_tree fmt unzip b -> proper_tree fmt unzip c -> Dir_Spec.comparable a b -> Dir_Spec.comparable b c -> Dir_Spec.comparable a c ->
  (forall p, file_at a p -> file_at c p -> ~ file_at b p -> fmatched o (slashes p) -> fmatched o (name_of p)) ->
  distdiff fmt reprs ffmt text order1 up unzip a b o shallow = Ok 0 -> distdiff fmt reprs ffmt text order2 up unzip b c o shallow = Ok 0 ->
  distdiff fmt reprs ffmt text order3 up unzip a c o shallow = Ok s -> s = 0.
Proof. intros. eapply (distdiff_trans fmt reprs ffmt up text unzip order1 order2 order3); [exact H|exact H0|exact H1|exact H2|exact H3|exact H4|exact H5|exact H6|exact H7|exact H8|exact H9|eassumption|eassumption|eassumption]. Qed.
Print Assumptions C113_dist_partial.
Definition d_ws2 := dist (lit "one  ") [1] class_bytes [1] "ann" [] 3.
Example C113_dist_ex : let o := file_opts [lit "b.*"] true in Forall (proper_tree no_fmt some_jars) [d_more; d_ws; d_ws2] /\
  Dir_Spec.comparable d_more d_ws /\ Dir_Spec.comparable d_ws d_ws2 /\ Dir_Spec.comparable d_more d_ws2 /\
  run_distdiff o false d_more d_ws = Ok 0 /\ run_distdiff o false d_ws d_ws2 = Ok 0 /\ run_distdiff o false d_more d_ws2 = Ok 0 /\ run_distdiff (file_opts [] false) false d_ws d_ws2 = Ok 1.
Proof.
  cbv zeta. split. { repeat (apply Forall_cons; [apply tree_properb_ok; vm_compute; reflexivity|]). constructor. }
  split; [apply (comparableb_ok 4); vm_compute; reflexivity|]. split; [apply (comparableb_ok 4); vm_compute; reflexivity|]. split; [apply (comparableb_ok 4); vm_compute; reflexivity|]. vm_compute. auto.
Qed.
(** At the top level a pattern may ignore that a file is missing, but not that it
    is changed: the file may come and go unreported, and be different. *)
Theorem C113_dist_refuted : exists o a b c, Forall (proper_tree no_fmt some_jars) [a; b; c] /\ Dir_Spec.comparable a b /\ Dir_Spec.comparable b c /\ Dir_Spec.comparable a c /\
  run_distdiff o false a b = Ok 0 /\ run_distdiff o false b c = Ok 0 /\ run_distdiff o false a c = Ok 1.
Proof.
  exists (file_opts [lit "README.txt"] false), d_one, (Dir false (tl match d_one with Dir _ k => k | _ => [] end)), d_txt.
  split. { repeat (apply Forall_cons; [apply tree_properb_ok; vm_compute; reflexivity|]). constructor. }
  split; [apply (comparableb_ok 4); vm_compute; reflexivity|]. split; [apply (comparableb_ok 4); vm_compute; reflexivity|]. split; [apply (comparableb_ok 4); vm_compute; reflexivity|]. vm_compute. auto.
Qed.
Print Assumptions C113_dist_refuted.

(** C97: the template used for a change is the most specific one there is. *)
From Verif Require Import Base Tmpl_Model Tmpl_Spec Tmpl_Proofs.

(** C97, for any program and any set of templates: the template chosen is named
    after the class of the change or an ancestor, and no template is named after a
    class in between *)
Theorem C97_most_specific : forall cs names ct t, names_ok cs -> resolve cs names ct = Ok t ->
  exists e, inherits cs ct e /\ template_for cs names e t /\
    forall f t', inherits cs ct f -> template_for cs names f t' -> inherits cs f e -> f = e.
Proof.
  intros cs names ct t N H. unfold resolve in H. destruct (compose cs [] names) as [tm|x] eqn:C; [|discriminate]. cbn [rbind] in H.
  destruct (mros initial cs) as [d|] eqn:M; [|discriminate]. destruct (dget d ct) as [m|] eqn:D; [|discriminate].
  pose proof (compose_spec cs names [] tm N C) as T. assert (T' : forall e t0, dget tm e = Some t0 <-> template_for cs names e t0).
  { intros e t0. rewrite T. split; [intros [X|(X & _)]; [exact X|discriminate]|intros X; left; exact X]. }
  assert (G : good cs d). { apply (mros_good cs [] initial d); [exact good_initial|exact (proj1 N)|exact M]. }
  apply first_template_spec in H as (a & e & b & -> & E & F). exists e.
  assert (IE : inherits cs ct e) by (apply (g_mem _ _ G ct _ D); apply in_or_app; right; left; reflexivity).
  split; [exact IE|]. split; [apply T', E|]. intros f t' If Tf Hf. destruct (list_eq_dec Z.eq_dec f e) as [Q|Q]; [exact Q|]. exfalso.
  assert (B : before f e (a ++ e :: b)) by (apply (g_order _ _ G ct _ D); [apply (g_mem _ _ G ct _ D), If|exact Hf|exact Q]).
  apply nodup_before in B; [|eapply g_nodup; eauto]. apply F in B. apply T' in Tf. congruence.
Qed.
Print Assumptions C97_most_specific.

(** C97, a template is found as soon as some ancestor has one *)
Theorem C97_found : forall cs names ct e t, names_ok cs -> mros initial cs <> None -> is_ok (compose cs [] names) = true ->
  In ct (map kl_name cs) -> inherits cs ct e -> template_for cs names e t -> exists t', resolve cs names ct = Ok t'.
Proof.
  intros cs names ct e t N M C I H T. unfold resolve. destruct (compose cs [] names) as [tm|x] eqn:CC; [|discriminate]. cbn [rbind].
  destruct (mros initial cs) as [d|] eqn:MM; [|congruence].
  assert (G : good cs d). { apply (mros_good cs [] initial d); [exact good_initial|exact (proj1 N)|exact MM]. }
  assert (D : dhas d ct = true) by (apply (g_keys _ _ G); right; exact I). unfold dhas in D. destruct (dget d ct) as [m|] eqn:E; [|discriminate].
  eapply first_template_total; [apply (g_mem _ _ G ct m E); exact H|]. apply (compose_spec cs names [] tm N CC). left. exact T.
Qed.
Print Assumptions C97_found.

(** ** The program *)
Definition no_under (c : klass) : bool := negb (smem [95] (map (fun x => [x]) (kl_module c))).
Fixpoint distinct (l : list str) : bool := match l with [] => true | x :: r => negb (smem x r) && distinct r end.
Lemma distinct_NoDup : forall l, distinct l = true -> NoDup l.
Proof.
  induction l as [|x l IH]; intros H; [constructor|]. cbn [distinct] in H. apply andb_prop in H as [A B]. constructor; [|apply IH, B].
  intros I. apply smem_In in I. rewrite I in A. discriminate.
Qed.
Lemma program_ok : names_ok change_classes.
Proof.
  split; [apply distinct_NoDup; vm_compute; reflexivity|].
  assert (A : forallb no_under change_classes = true) by (vm_compute; reflexivity). rewrite forallb_forall in A. rewrite Forall_forall. intros c I. specialize (A c I).
  unfold no_under in A. apply negb_true_iff in A. intros J. assert (smem [95] (map (fun x => [x]) (kl_module c)) = true); [|congruence].
  apply smem_In. apply (in_map (fun x => [x])) in J. exact J.
Qed.

(** C97 for the classes and templates of javatools: every change class has a
    template, the most specific one *)
Theorem C97_program : forall c, In c change_classes -> exists t e, resolve change_classes template_names (kl_name c) = Ok t /\
  inherits change_classes (kl_name c) e /\ template_for change_classes template_names e t /\
  forall f t', inherits change_classes (kl_name c) f -> template_for change_classes template_names f t' ->
    inherits change_classes f e -> f = e.
Proof.
  intros c I. assert (A : forallb (fun c => is_ok (resolve change_classes template_names (kl_name c))) change_classes = true) by (vm_compute; reflexivity).
  rewrite forallb_forall in A. specialize (A c I). destruct (resolve change_classes template_names (kl_name c)) as [t|x] eqn:R; [|discriminate].
  destruct (C97_most_specific _ _ _ _ program_ok R) as (e & H). exists t, e. split; [reflexivity|exact H].
Qed.
Print Assumptions C97_program.

(** C97, no template goes unused: each is the template of the class it is named
    after, except the two without an underscore, which others extend *)
Theorem C97_no_template_unused : forall t, In t template_names -> t <> lit "report" -> t <> lit "subreport" ->
  exists c, In c change_classes /\ t = kl_module c ++ 95 :: kl_name c /\ resolve change_classes template_names (kl_name c) = Ok t.
Proof.
  intros t I N1 N2.
  assert (A : forallb (fun t => seqb t (lit "report") || seqb t (lit "subreport") ||
    existsb (fun c => seqb t (kl_module c ++ 95 :: kl_name c) && match resolve change_classes template_names (kl_name c) with Ok t' => seqb t' t | _ => false end) change_classes) template_names = true)
    by (vm_compute; reflexivity).
  rewrite forallb_forall in A. specialize (A t I). apply orb_prop in A as [A|A].
  { apply orb_prop in A as [A|A]; apply seqb_eq in A; contradiction. }
  apply existsb_exists in A as (c & J & A). apply andb_prop in A as [A B]. exists c. split; [exact J|]. split; [apply seqb_eq, A|].
  destruct (resolve _ _ (kl_name c)) as [t'|]; [|discriminate]. apply seqb_eq in B. rewrite B. reflexivity.
Qed.
Print Assumptions C97_no_template_unused.

Example C97_examples : forallb (fun p => match resolve change_classes template_names (lit (fst p)) with Ok t => seqb t (lit (snd p)) | _ => false end)
  [("FieldAdded", "change_Addition"); ("MethodAdded", "classdiff_MethodAdded"); ("ClassInvisibleAnnotationsChange", "classdiff_AnnotationsChange");
   ("JarContentAdded", "jardiff_JarContentChange"); ("ManifestSectionRemoved", "change_Removal"); ("SquashedAddition", "change_SquashedChange");
   ("SignatureManifestChange", "manifest_ManifestChange"); ("DistJarReport", "distdiff_DistContentChange"); ("CodeStackChange", "change_Change");
   ("DistReport", "distdiff_DistReport"); ("JarChange", "change_SuperChange")]%string = true.
Proof. vm_compute. reflexivity. Qed.
(** A diamond: the order of a class with two parents puts both before their common
    parent, so a template of the second parent wins over one of the common parent *)
Example C97_diamond :
  let cs := [kl "m" "A" ["object"]; kl "m" "B" ["A"]; kl "m" "C" ["A"]; kl "m" "D" ["B"; "C"]]%string in
  resolve cs [lit "m_A"; lit "m_C"] (lit "D") = Ok (lit "m_C") /\ resolve cs [lit "m_A"; lit "m_Nope"] (lit "D") = Err RuntimeError.
Proof. vm_compute. auto. Qed.

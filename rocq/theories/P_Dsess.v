(** Property C140: what a DistInfo object for a directory answers over several calls. *)
From Verif Require Import Base Pack_Model ConstPool_Model ClassFile_Model Descr_Model Manifest_Model
  Change_Model Classdiff_Model Jardiff_Model Distdiff_Model Info_Model Dsess_Model.
From Verif Require Zip_Model P_Info P_Zip.
Import P_Info.

(** ** The specification *)
(** What a new object for the directory answers, as in C58 *)
Definition fresh_answer fmt repr text order unzip (t : Zip_Model.node) (c : qcall) : res qanswer :=
  let d := mkdist false t in
  match c with
  | QContents => Ok (QNames (dist_contents d))
  | QJars => Ok (QNames (dist_jars d))
  | QClasses => Ok (QNames (dist_classes d))
  | QRequires ign => a <- dist_requires fmt repr text order unzip d ign ;; Ok (QApi a)
  | QProvides ign => a <- dist_provides fmt repr text order unzip d ign ;; Ok (QApi a)
  | QClose => Ok QDone
  | QDropRequires _ _ | QDropProvides _ _ => a <- dist_requires fmt repr text order unzip d [] ;; Ok QDone
  end.
(** A caller who only changes mappings that it got for some patterns *)
Definition careful (c : qcall) : Prop := match c with QDropRequires [] _ | QDropProvides [] _ => False | _ => True end.
(** Calls answered with the names of files, and those about requirements *)
Definition about_names (c : qcall) : Prop := match c with QContents | QJars | QClasses => True | _ => False end.
Definition about_api (c : qcall) : Prop := match c with QRequires _ | QProvides _ => True | _ => False end.
(** A moment since the last close *)
Definition since_close (h : list (Zip_Model.node * qcall)) (t : Zip_Model.node) : Prop :=
  exists h1 h2, h = h1 ++ h2 /\ ~ In QClose (map snd h2) /\ In t (map fst h2).

(** ** Lemmas *)
Section Lemmas.
Variable fmt : pyval -> str.
Variable repr : pyval -> str.
Variable text : bytes -> res str.
Variable order : list str -> list str.
Variable unzip : bytes -> jar.
Let step := qstep fmt repr text order unzip.
Let play := qplay fmt repr text order unzip.
Let api t := dist_api fmt repr text order unzip (mkdist false t).

Lemma play_app h1 h2 s : fst (play s (h1 ++ h2)) = fst (play (fst (play s h1)) h2).
Proof.
  revert s. induction h1 as [|x h1 IH]; intros s; [reflexivity|]. cbn [app]. unfold play in *. cbn [qplay].
  destruct (qstep fmt repr text order unzip s x) as [s1 r]. specialize (IH s1).
  destruct (qplay fmt repr text order unzip s1 (h1 ++ h2)) as [s2 rs]. destruct (qplay fmt repr text order unzip s1 h1) as [s3 rs3]. exact IH.
Qed.

(** The object for a directory that stays the same *)
Definition steady t (s : qobj) := (forall l, q_contents s = Some l -> l = dist_contents (mkdist false t)) /\ (forall x, q_api s = Some x -> api t = Ok x).
Lemma list_steady t s : steady t s -> steady t (fst (q_list t s)) /\ snd (q_list t s) = dist_contents (mkdist false t).
Proof.
  intros [H1 H2]. unfold q_list. destruct (q_contents s) as [l|] eqn:E; cbn [fst snd].
  - split; [split; [rewrite E; exact H1|exact H2]|apply H1; reflexivity].
  - split; [split; cbn [q_contents q_api]; [congruence|exact H2]|reflexivity].
Qed.
Lemma collect_steady t s : steady t s -> steady t (fst (q_collect fmt repr text order unzip t s)) /\ snd (q_collect fmt repr text order unzip t s) = api t.
Proof.
  intros H. unfold q_collect. destruct (q_api s) as [x|] eqn:E.
  - cbn [fst snd]. split; [exact H|]. symmetry. apply H. exact E.
  - destruct (list_steady t s H) as [S L]. destruct (q_list t s) as [s1 l]. cbn [fst snd] in *. subst l.
    unfold api, dist_api, dist_jars, dist_classes.
    destruct (dist_jar_loop _ _ _ _ _ _ _ _) as [st|e] eqn:EJ; cbn [rbind]; [|split; [exact S|reflexivity]].
    destruct (dist_class_loop _ _ _ _ _ st) as [[[req prov] p]|e] eqn:EC; cbn [rbind]; [|split; [exact S|reflexivity]].
    cbn [fst snd]. split; [|reflexivity]. split; cbn [q_contents q_api]; [apply S|]. intros x [= <-].
    unfold api, dist_api, dist_jars, dist_classes. rewrite EJ. cbn [rbind]. rewrite EC. reflexivity.
Qed.
Lemma step_steady t c s : careful c -> steady t s -> steady t (fst (step s (t, c))) /\ snd (step s (t, c)) = fresh_answer fmt repr text order unzip t c.
Proof.
  intros C H. destruct (list_steady t s H) as [S L]. destruct (collect_steady t s H) as [S2 A]. unfold step, fresh_answer, dist_requires, dist_provides.
  destruct c as [| | |ign|ign| |ign k|ign k]; cbn [qstep];
    try (destruct (q_list t s) as [s1 l]; cbn [fst snd] in *; subst l; split; [exact S|reflexivity]).
  - destruct (q_collect _ _ _ _ _ t s) as [s1 r]. cbn [fst snd] in *. split; [exact S2|]. rewrite A. unfold api. destruct (dist_api _ _ _ _ _ _); reflexivity.
  - destruct (q_collect _ _ _ _ _ t s) as [s1 r]. cbn [fst snd] in *. split; [exact S2|]. rewrite A. unfold api. destruct (dist_api _ _ _ _ _ _); reflexivity.
  - cbn [fst snd]. split; [|reflexivity]. split; cbn [q_contents q_api]; [discriminate|apply H].
  - destruct (q_collect _ _ _ _ _ t s) as [s1 r]. cbn [fst snd] in *. rewrite A. destruct ign as [|i ign]; [destruct C|].
    unfold api. destruct (dist_api _ _ _ _ _ _); cbn [fst snd rbind]; split; try exact S2; reflexivity.
  - destruct (q_collect _ _ _ _ _ t s) as [s1 r]. cbn [fst snd] in *. rewrite A. destruct ign as [|i ign]; [destruct C|].
    unfold api. destruct (dist_api _ _ _ _ _ _); cbn [fst snd rbind]; split; try exact S2; reflexivity.
Qed.
Lemma play_steady t h : forall s, steady t s -> Forall (fun x => fst x = t /\ careful (snd x)) h ->
  snd (play s h) = map (fun x => fresh_answer fmt repr text order unzip t (snd x)) h.
Proof.
  induction h as [|[t0 c] h IH]; intros s S F; [reflexivity|]. destruct (Forall_inv F) as [E C]. pose proof (Forall_inv_tail F) as F'. cbn [fst snd] in E, C. subst t0.
  destruct (step_steady t c s C S) as [S1 A]. unfold play, step in *. cbn [qplay map snd].
  destruct (qstep fmt repr text order unzip s (t, c)) as [s1 r]. cbn [fst snd] in *. specialize (IH s1 S1 F').
  destruct (qplay fmt repr text order unzip s1 h) as [s2 rs]. cbn [snd] in *. congruence.
Qed.

(** The names remembered are those of a moment since the last close *)
Lemma list_keeps t s : q_contents (fst (q_list t s)) = Some (snd (q_list t s)) /\ q_api (fst (q_list t s)) = q_api s /\
  (q_contents s = Some (snd (q_list t s)) \/ (q_contents s = None /\ snd (q_list t s) = dist_contents (mkdist false t))).
Proof. unfold q_list. destruct (q_contents s) as [l|] eqn:E; cbn [fst snd q_contents q_api]; repeat split; auto. Qed.
Lemma collect_keeps t s : q_contents (fst (q_collect fmt repr text order unzip t s)) = q_contents s \/
  (q_contents s = None /\ q_contents (fst (q_collect fmt repr text order unzip t s)) = Some (dist_contents (mkdist false t))).
Proof.
  unfold q_collect. destruct (q_api s); [left; reflexivity|]. destruct (list_keeps t s) as (K1 & _ & K2).
  destruct (q_list t s) as [s1 l]. cbn [fst snd] in *.
  assert (G : q_contents s1 = q_contents s \/ (q_contents s = None /\ q_contents s1 = Some (dist_contents (mkdist false t)))).
  { destruct K2 as [K2|[K2 ->]]; [left; congruence|right; split; assumption]. }
  destruct (rbind _ _) as [[[req prov] p]|e]; exact G.
Qed.
Lemma step_contents t c s l : q_contents (fst (step s (t, c))) = Some l -> c <> QClose /\ (q_contents s = Some l \/ l = dist_contents (mkdist false t)).
Proof.
  unfold step. pose proof (collect_keeps t s) as K. destruct (list_keeps t s) as (K1 & _ & K2).
  destruct c as [| | |ign|ign| |ign k|ign k]; cbn [qstep]; try (destruct (q_list t s) as [s1 l1]; cbn [fst snd] in *; rewrite K1; intros [= <-];
    (split; [discriminate|]); (destruct K2 as [K2|[_ K2]]; [left; exact K2|right; exact K2])).
  3:{ cbn [fst q_contents]. discriminate. }
  all: destruct (q_collect _ _ _ _ _ t s) as [s1 r]; cbn [fst snd] in K; try (destruct r as [x|e]; destruct ign as [|i ign]); cbn [fst q_contents]; intros E;
    (split; [discriminate|]); (destruct K as [K|[_ K]]; [left; congruence|right; congruence]).
Qed.
Lemma since_more h t x : since_close h t -> snd x <> QClose -> since_close (h ++ [x]) t.
Proof.
  intros (h1 & h2 & -> & N & I) X. exists h1, (h2 ++ [x]). split; [rewrite app_assoc; reflexivity|]. rewrite !map_app. split.
  - intros J. apply in_app_iff in J. destruct J as [J|[J|[]]]; [exact (N J)|congruence].
  - apply in_app_iff. left. exact I.
Qed.
Lemma since_now h t c : c <> QClose -> since_close (h ++ [(t, c)]) t.
Proof. intros C. exists h, [(t, c)]. split; [reflexivity|]. cbn. split; [intros [J|[]]; congruence|left; reflexivity]. Qed.
Lemma play_since h : forall l, q_contents (fst (play new_q h)) = Some l -> exists t, since_close h t /\ l = dist_contents (mkdist false t).
Proof.
  induction h as [|[t c] h IH] using rev_ind; intros l H; [discriminate|].
  rewrite play_app in H. unfold play in H at 1. cbn [qplay] in H.
  pose proof (step_contents t c (fst (play new_q h)) l) as G. unfold step in G.
  destruct (qstep fmt repr text order unzip (fst (play new_q h)) (t, c)) as [s1 r]. cbn [fst] in *.
  destruct (G H) as [C [E|E]].
  - destruct (IH l E) as (t' & S & ->). exists t'. split; [apply since_more; [exact S|exact C]|reflexivity].
  - exists t. split; [apply since_now; exact C|exact E].
Qed.

(** What is required and provided is kept *)
Lemma step_api s x a : careful (snd x) -> q_api s = Some a -> q_api (fst (step s x)) = Some a.
Proof.
  intros C E. destruct x as [t c]. unfold step. destruct (list_keeps t s) as (_ & K & _).
  assert (Q : q_collect fmt repr text order unzip t s = (s, Ok a)) by (unfold q_collect; rewrite E; reflexivity).
  destruct c as [| | |ign|ign| |ign k|ign k]; cbn [qstep snd] in *; try (destruct (q_list t s) as [s1 l1]; cbn [fst] in *; congruence);
    try (rewrite Q; cbn [fst]; exact E); try exact E.
  all: destruct ign; [destruct C|]; rewrite Q; exact E.
Qed.
Lemma play_api h : forall s a, q_api s = Some a -> Forall (fun x => careful (snd x)) h -> q_api (fst (play s h)) = Some a.
Proof.
  induction h as [|x h IH]; intros s a E F; [exact E|]. inversion F as [|? ? C F']; subst.
  pose proof (step_api s x a C E) as E1. unfold play, step in *. cbn [qplay]. destruct (qstep fmt repr text order unzip s x) as [s1 r]. cbn [fst] in *.
  specialize (IH s1 a E1 F'). destruct (qplay fmt repr text order unzip s1 h) as [s2 rs]. exact IH.
Qed.
End Lemmas.

(** ** C140 *)
(** For a directory that stays the same, whatever is called and in whatever order, and also
    when the caller changes the mappings it got for some patterns: every answer, or
    exception, is that of a new object. *)
Theorem C140_answers : forall fmt repr text order unzip t h, Forall (fun x : Zip_Model.node * qcall => fst x = t /\ careful (snd x)) h ->
  snd (qplay fmt repr text order unzip new_q h) = map (fun x => fresh_answer fmt repr text order unzip t (snd x)) h.
Proof. intros. apply play_steady; [split; discriminate|assumption]. Qed.
Print Assumptions C140_answers.
Definition hist0 : list (Zip_Model.node * qcall) :=
  [(dist_two, QProvides []); (dist_two, QDropProvides [lit "java.*"] (lit "A")); (dist_two, QClose); (dist_two, QJars); (dist_two, QProvides []); (dist_two, QRequires [])].
Example C140_answers_ex : Forall (fun x : Zip_Model.node * qcall => fst x = dist_two /\ careful (snd x)) hist0 /\
  match snd (qplay nofmt nofmt P_Zip.no_text id_order unzip_ex new_q hist0) with
  | [Ok (QApi a); Ok QDone; Ok QDone; Ok (QNames l); Ok (QApi b); Ok (QApi c)] => a = b /\ a <> [] /\ l = [lit "lib/a.jar"; lit "lib/b.jar"]
  | _ => False
  end.
Proof. split; [repeat (constructor; [split; [reflexivity|exact I]|]); constructor|]. vm_compute. repeat split. discriminate. Qed.

(** If the directory changes: the names are those of one moment since the last close. *)
Theorem C140_moment : forall fmt repr text order unzip h t c r, about_names c ->
  snd (qstep fmt repr text order unzip (fst (qplay fmt repr text order unzip new_q h)) (t, c)) = r ->
  exists t', since_close (h ++ [(t, c)]) t' /\ r = fresh_answer fmt repr text order unzip t' c.
Proof.
  intros fmt repr text order unzip h t c r A H. set (s := fst (qplay fmt repr text order unzip new_q h)) in *.
  assert (N : c <> QClose) by (intros ->; exact A).
  destruct (list_keeps t s) as (_ & _ & K).
  assert (R : exists t', since_close (h ++ [(t, c)]) t' /\ snd (q_list t s) = dist_contents (mkdist false t')).
  { destruct K as [K|[_ K]].
    - destruct (play_since fmt repr text order unzip h _ K) as (t' & S & E). exists t'. split; [apply since_more; [exact S|exact N]|exact E].
    - exists t. split; [apply since_now; exact N|exact K]. }
  destruct R as (t' & S & E). exists t'. split; [exact S|]. subst r.
  destruct c; try destruct A; cbn [qstep]; destruct (q_list t s) as [s1 l]; cbn [snd] in *; subst l; reflexivity.
Qed.
Print Assumptions C140_moment.
Definition dist_none : Zip_Model.node := Zip_Model.Dir false [].
Example C140_moment_ex : snd (qplay nofmt nofmt P_Zip.no_text id_order unzip_ex new_q [(dist_two, QJars); (dist_none, QJars); (dist_none, QClose); (dist_none, QJars)]) =
  [Ok (QNames [lit "lib/a.jar"; lit "lib/b.jar"]); Ok (QNames [lit "lib/a.jar"; lit "lib/b.jar"]); Ok QDone; Ok (QNames [])].
Proof. vm_compute. reflexivity. Qed.

(** Once get_requires or get_provides has answered, both answer from what was collected
    then, whatever becomes of the directory. *)
Theorem C140_fixed : forall fmt repr text order unzip h h' t c t' c' d, about_api c -> about_api c' -> Forall (fun x => careful (snd x)) h' ->
  snd (qstep fmt repr text order unzip (fst (qplay fmt repr text order unzip new_q h)) (t, c)) = Ok (QApi d) ->
  let s := fst (qplay fmt repr text order unzip new_q (h ++ [(t, c)])) in
  snd (qstep fmt repr text order unzip (fst (qplay fmt repr text order unzip s h')) (t', c')) = snd (qstep fmt repr text order unzip s (t, c')).
Proof.
  intros fmt repr text order unzip h h' t c t' c' d A A' F H. cbn zeta.
  rewrite play_app. set (s0 := fst (qplay fmt repr text order unzip new_q h)) in *. cbn [qplay].
  destruct (qstep fmt repr text order unzip s0 (t, c)) as [s1 r] eqn:E. cbn [fst snd] in *.
  assert (Q : exists a, q_api s1 = Some a).
  { destruct c; try destruct A; cbn [qstep] in E;
      (unfold q_collect in E; destruct (q_api s0) as [x|] eqn:QA;
       [injection E as <- _; exists x; exact QA
       |destruct (q_list t s0) as [s2 l]; destruct (rbind _ _) as [[[req prov] p]|e];
        [injection E as <- _; eexists; reflexivity|injection E as _ <-; discriminate]]). }
  destruct Q as [a Q]. pose proof (play_api fmt repr text order unzip h' s1 a Q F) as P.
  destruct c'; try destruct A'; cbn [qstep]; unfold q_collect; rewrite P, Q; reflexivity.
Qed.
Print Assumptions C140_fixed.
Example C140_fixed_ex : match snd (qstep nofmt nofmt P_Zip.no_text id_order unzip_ex (fst (qplay nofmt nofmt P_Zip.no_text id_order unzip_ex new_q [(dist_two, QJars)])) (dist_two, QProvides [])) with
  | Ok (QApi d) => d <> [] | _ => False end.
Proof. vm_compute. discriminate. Qed.

(** Closing does not help: after a change of the directory the names are those of the new
    one, the symbols those of the old one. *)
Theorem C140_refresh_refuted : exists h, match snd (qplay nofmt nofmt P_Zip.no_text id_order unzip_ex new_q h) with
  | [Ok (QApi a); Ok QDone; Ok (QNames []); Ok (QApi b)] => b = a /\ a <> []
  | _ => False end /\ h = [(dist_two, QProvides []); (dist_none, QClose); (dist_none, QContents); (dist_none, QProvides [])] /\
  fresh_answer nofmt nofmt P_Zip.no_text id_order unzip_ex dist_none (QProvides []) = Ok (QApi []).
Proof. eexists. split; [|split; [reflexivity|vm_compute; reflexivity]]. vm_compute. split; [reflexivity|discriminate]. Qed.
Print Assumptions C140_refresh_refuted.

(** The mapping returned without patterns is the one the object keeps: what the caller
    deletes from it is missing from all later answers. *)
Theorem C140_shared_refuted : exists k, match snd (qplay nofmt nofmt P_Zip.no_text id_order unzip_ex new_q
    [(dist_two, QProvides []); (dist_two, QDropProvides [] k); (dist_two, QProvides [])]) with
  | [Ok (QApi a); Ok QDone; Ok (QApi b)] => In k (map fst a) /\ ~ In k (map fst b)
  | _ => False end.
Proof.
  exists (match dist_provides nofmt nofmt P_Zip.no_text id_order unzip_ex (mkdist false dist_two) [] with Ok ((k, _) :: _) => k | _ => [] end).
  vm_compute. split; [left; reflexivity|]. intros H. repeat (destruct H as [H|H]; [discriminate|]). exact H.
Qed.
Print Assumptions C140_shared_refuted.

(** Property C141: what a class object answers over several calls of get_provides and
    get_requires. *)
From Verif Require Import Base Pack_Model ConstPool_Model ClassFile_Model ClassFile_Spec Descr_Model Manifest_Model
  Change_Model Classdiff_Model Jardiff_Model Distdiff_Model Info_Model Csess_Model.
From Verif Require Zip_Model P_Info.
Import P_Info.

(** ** The specification *)
(** The answer for the class alone, as in C54 to C56 *)
Definition class_answer fmt repr order (c : classinfo) (k : kcall) : res (list str) :=
  match k with
  | KProvides ign private => get_provides fmt order c ign private
  | KRequires ign => get_requires fmt repr order c ign
  end.
(** Two calls about the same set *)
Definition same_set (k k' : kcall) : Prop :=
  match k, k' with
  | KProvides _ p, KProvides _ p' => p = p'
  | KRequires _, KRequires _ => True
  | _, _ => False
  end.

(** ** Lemmas *)
Section Lemmas.
Variable fmt : pyval -> str.
Variable repr : pyval -> str.
Variable order : list str -> list str.
(** What is remembered of a class that stays the same *)
Definition right (c : classinfo) (s : kobj) :=
  (forall l, k_public s = Some l -> exists a, get_provides_all fmt c false = Ok a /\ l = set_list order a) /\
  (forall l, k_private s = Some l -> exists a, get_provides_all fmt c true = Ok a /\ l = set_list order a) /\
  (forall l, k_requires s = Some l -> exists a, get_requires_all fmt repr order c = Ok a /\ l = set_list order a).
Lemma provided_right c b s : right c s -> right c (fst (k_provided fmt order c b s)) /\
  snd (k_provided fmt order c b s) = (a <- get_provides_all fmt c b ;; Ok (set_list order a)).
Proof.
  intros H. pose proof H as (H1 & H2 & H3). unfold k_provided. destruct b.
  - destruct (k_private s) as [l|] eqn:E.
    + cbn [fst snd]. split; [exact H|]. destruct (H2 l eq_refl) as (a & -> & ->). reflexivity.
    + destruct (get_provides_all fmt c true) as [a|e] eqn:G; cbn [fst snd rbind]; [|split; [exact H|reflexivity]].
      split; [|reflexivity]. split; [exact H1|]. split; [|exact H3]. cbn [k_private]. intros l [= <-]. exists a. split; [exact G|reflexivity].
  - destruct (k_public s) as [l|] eqn:E.
    + cbn [fst snd]. split; [exact H|]. destruct (H1 l eq_refl) as (a & -> & ->). reflexivity.
    + destruct (get_provides_all fmt c false) as [a|e] eqn:G; cbn [fst snd rbind]; [|split; [exact H|reflexivity]].
      split; [|reflexivity]. split; [|split; [exact H2|exact H3]]. cbn [k_public]. intros l [= <-]. exists a. split; [exact G|reflexivity].
Qed.
Lemma required_right c s : right c s -> right c (fst (k_required fmt repr order c s)) /\
  snd (k_required fmt repr order c s) = (a <- get_requires_all fmt repr order c ;; Ok (set_list order a)).
Proof.
  intros H. unfold k_required. destruct (k_requires s) as [l|] eqn:E.
  - cbn [fst snd]. split; [exact H|]. destruct H as (_ & _ & H3). destruct (H3 l E) as (a & -> & ->). reflexivity.
  - destruct (provided_right c true s H) as [S A]. destruct (k_provided fmt order c true s) as [s1 r]. cbn [fst snd] in *.
    unfold get_requires_all, get_provides. rewrite A.
    destruct (get_provides_all fmt c true) as [a|e] eqn:GP; cbn [rbind]; [|split; [exact S|reflexivity]].
    destruct (requires_loop _ _ _ _ _ _) as [l|e] eqn:RL; [|split; [exact S|reflexivity]].
    cbn [fst snd rbind]. split; [|reflexivity]. destruct S as (S1 & S2 & S3). split; [exact S1|]. split; [exact S2|].
    cbn [k_requires]. intros l' [= <-]. exists l. split; [|reflexivity]. unfold get_requires_all, get_provides. rewrite GP. cbn [rbind]. exact RL.
Qed.
Lemma step_right c k s : right c s -> right c (fst (kstep fmt repr order s (c, k))) /\ snd (kstep fmt repr order s (c, k)) = class_answer fmt repr order c k.
Proof.
  intros H. destruct k as [ign b|ign]; cbn [kstep class_answer].
  - destruct (provided_right c b s H) as [S A]. destruct (k_provided fmt order c b s) as [s1 r]. cbn [fst snd] in *. split; [exact S|]. rewrite A.
    unfold get_provides. destruct (get_provides_all fmt c b); reflexivity.
  - destruct (required_right c s H) as [S A]. destruct (k_required fmt repr order c s) as [s1 r]. cbn [fst snd] in *. split; [exact S|]. rewrite A.
    unfold get_requires. destruct (get_requires_all fmt repr order c); reflexivity.
Qed.
Lemma play_right c h : forall s, right c s -> Forall (fun x => fst x = c) h ->
  snd (kplay fmt repr order s h) = map (fun x => class_answer fmt repr order c (snd x)) h.
Proof.
  induction h as [|[c0 k] h IH]; intros s S F; [reflexivity|]. pose proof (Forall_inv F) as E. pose proof (Forall_inv_tail F) as F'. cbn [fst] in E. subst c0.
  destruct (step_right c k s S) as [S1 A]. cbn [kplay map snd].
  destruct (kstep fmt repr order s (c, k)) as [s1 r]. cbn [fst snd] in *. specialize (IH s1 S1 F').
  destruct (kplay fmt repr order s1 h) as [s2 rs]. cbn [snd] in *. congruence.
Qed.

(** The set a call is answered from *)
Definition memory (k : kcall) (s : kobj) : option (list str) :=
  match k with KProvides _ true => k_private s | KProvides _ false => k_public s | KRequires _ => k_requires s end.
Lemma provided_keeps c b s k l : memory k s = Some l -> memory k (fst (k_provided fmt order c b s)) = Some l.
Proof.
  intros E. unfold k_provided. destruct (if b then k_private s else k_public s) eqn:M; [exact E|].
  destruct (get_provides_all fmt c b); [|exact E]. cbn [fst].
  destruct k as [ign [|]|ign]; destruct b; cbn [memory k_public k_private k_requires] in *; congruence.
Qed.
Lemma step_keeps s x k l : memory k s = Some l -> memory k (fst (kstep fmt repr order s x)) = Some l.
Proof.
  intros E. destruct x as [c [ign b|ign]]; cbn [kstep].
  - pose proof (provided_keeps c b s k l E) as P. destruct (k_provided fmt order c b s) as [s1 r]. exact P.
  - unfold k_required. destruct (k_requires s) as [y|] eqn:R; [exact E|].
    pose proof (provided_keeps c true s k l E) as P. destruct (k_provided fmt order c true s) as [s1 r]. cbn [fst] in P.
    destruct (rbind _ _) as [y|e]; [|exact P]. cbn [fst].
    destruct k as [ign' [|]|ign']; cbn [memory k_public k_private k_requires] in *; congruence.
Qed.
Lemma play_keeps h : forall s k l, memory k s = Some l -> memory k (fst (kplay fmt repr order s h)) = Some l.
Proof.
  induction h as [|x h IH]; intros s k l E; [exact E|]. cbn [kplay]. pose proof (step_keeps s x k l E) as E1.
  destruct (kstep fmt repr order s x) as [s1 r]. cbn [fst] in E1. specialize (IH s1 k l E1). destruct (kplay fmt repr order s1 h) as [s2 rs]. exact IH.
Qed.
Lemma step_memory s c k l : snd (kstep fmt repr order s (c, k)) = Ok l -> exists m, memory k (fst (kstep fmt repr order s (c, k))) = Some m.
Proof.
  destruct k as [ign b|ign]; cbn [kstep].
  - unfold k_provided. destruct b; [destruct (k_private s) as [m|] eqn:M|destruct (k_public s) as [m|] eqn:M].
    1,3: cbn [fst snd memory]; intros _; exists m; exact M.
    all: destruct (get_provides_all fmt c _); [intros _; eexists; reflexivity|discriminate].
  - unfold k_required. destruct (k_requires s) as [m|] eqn:M; [cbn [fst snd memory]; intros _; exists m; exact M|].
    destruct (k_provided fmt order c true s) as [s1 r]. destruct (rbind _ _) as [y|e]; [intros _; eexists; reflexivity|discriminate].
Qed.
Lemma step_from s c k m : memory k s = Some m ->
  snd (kstep fmt repr order s (c, k)) = Ok (filter (not_ignored (match k with KProvides i _ | KRequires i => i end)) m).
Proof.
  intros E. destruct k as [ign b|ign]; cbn [kstep memory] in *.
  - unfold k_provided. destruct b; rewrite E; reflexivity.
  - unfold k_required. rewrite E. reflexivity.
Qed.
End Lemmas.

(** ** C141 *)
(** Every answer is that of the class alone, whatever was asked before, with whatever
    patterns, and also after exceptions. *)
Theorem C141_answers : forall fmt repr order c h, Forall (fun x : classinfo * kcall => fst x = c) h ->
  snd (kplay fmt repr order new_k h) = map (fun x => class_answer fmt repr order c (snd x)) h.
Proof. intros. apply play_right; [repeat split; discriminate|assumption]. Qed.
Print Assumptions C141_answers.
(** A class with private and public members *)
Example C141_answers_ex :
  match unpack_class (enc_class class_a) MNone with
  | Ok c =>
      let h := [(c, KProvides [] false); (c, KRequires [lit "java.*"]); (c, KProvides [] true); (c, KRequires []); (c, KProvides [] false)] in
      Forall (fun x : classinfo * kcall => fst x = c) h /\
      match snd (kplay nofmt nofmt id_order new_k h) with
      | [Ok a; Ok b; Ok p; Ok r; Ok a'] => a = a' /\ length a = 2%nat /\ length p = 3%nat /\ length b = 3%nat /\ length r = 4%nat /\ In (lit "java.lang.Object") r
      | _ => False
      end
  | Err _ => False
  end.
Proof. vm_compute. split; [repeat constructor|]. repeat split. tauto. Qed.

(** Once a question has been answered, questions about the same set are answered from what
    was found then, whatever the object has become. *)
Theorem C141_kept : forall fmt repr order h h' c c' k k' l, same_set k k' ->
  let s := fst (kplay fmt repr order new_k h) in
  snd (kstep fmt repr order s (c, k)) = Ok l ->
  let s1 := fst (kstep fmt repr order s (c, k)) in
  snd (kstep fmt repr order (fst (kplay fmt repr order s1 h')) (c', k')) = snd (kstep fmt repr order s1 (c, k')).
Proof.
  intros fmt repr order h h' c c' k k' l K. cbn zeta. intros H. set (s := fst (kplay fmt repr order new_k h)) in *.
  destruct (step_memory fmt repr order s c k l H) as [m M].
  assert (M' : memory k' (fst (kstep fmt repr order s (c, k))) = Some m).
  { destruct k as [i [|]|i]; destruct k' as [i' [|]|i']; try destruct K; try discriminate; exact M. }
  rewrite (step_from fmt repr order _ c k' m M'). rewrite (step_from fmt repr order _ c' k' m); [reflexivity|].
  apply play_keeps. exact M'.
Qed.
Print Assumptions C141_kept.
Example C141_kept_ex : same_set (KProvides [] true) (KProvides [lit "java.*"] true) /\
  match unpack_class (enc_class class_a) MNone with
  | Ok c => match snd (kstep nofmt nofmt id_order new_k (c, KProvides [] true)) with Ok l => length l = 3%nat | Err _ => False end
  | Err _ => False
  end.
Proof. vm_compute. split; reflexivity. Qed.

(** An object that unpacks a second class answers for the first one, and lists what the
    second provides itself as required by it if only the private members had been asked
    for. *)
Theorem C141_unpacked_refuted :
  match unpack_class (enc_class class_a) MNone, unpack_class (enc_class class_b) MNone with
  | Ok a, Ok b =>
      match snd (kplay nofmt nofmt id_order new_k [(a, KProvides [] true); (b, KProvides [] true); (b, KRequires [])]) with
      | [Ok x; Ok y; Ok r] => y = x /\ class_answer nofmt nofmt id_order b (KProvides [] true) <> Ok y /\
          class_answer nofmt nofmt id_order b (KRequires []) <> Ok r /\ In (lit "pkg.B") r
      | _ => False
      end
  | _, _ => False
  end.
Proof. vm_compute. repeat split; try discriminate. tauto. Qed.
Print Assumptions C141_unpacked_refuted.

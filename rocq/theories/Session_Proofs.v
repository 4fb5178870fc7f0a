(** Proofs about JarInfo objects over several calls. *)
From Verif Require Import Base Pack_Model ConstPool_Model ClassFile_Model Descr_Model Manifest_Model
  Change_Model Classdiff_Model Jardiff_Model Distdiff_Model Info_Model Session_Model Session_Spec.
From Verif Require Zip_Model.

Lemma unused_fresh l : ~ In (unused l) l.
Proof.
  assert (H : forall l x, In x l -> (x <= fold_right Nat.max O l)%nat) by (clear; induction l as [|y l IH]; intros x []; [subst|apply IH in H]; cbn [fold_right]; lia).
  intro Hi. apply H in Hi. unfold unused in Hi. lia.
Qed.
Lemma filter_other i l : ~ In i l -> filter (fun j => negb (Nat.eqb j i)) l = l.
Proof.
  induction l as [|x l IH]; intro H; [reflexivity|]. cbn [filter]. destruct (Nat.eqb_spec x i) as [->|]; [exfalso; apply H; now left|].
  cbn [negb]. f_equal. apply IH. intro. apply H. now right.
Qed.
Lemma lately_more h d x : lately h d -> snd x <> CClose -> lately (h ++ [x]) d.
Proof.
  intros (h1 & h2 & -> & Hc & Hd) Hx. exists h1, (h2 ++ [x]). split; [now rewrite app_assoc|]. rewrite !map_app. split.
  - intro H. apply in_app_or in H as [H|[H|[]]]; contradiction.
  - apply in_or_app. now left.
Qed.
Lemma lately_now h d c : c <> CClose -> lately (h ++ [(d, c)]) d.
Proof. intro Hc. exists h, [(d, c)]. split; [reflexivity|]. cbn. split; [intros [H|[]]; congruence|now left]. Qed.

Section S.
Variable fmt : pyval -> str.
Variable repr : pyval -> str.
Variable text : bytes -> res str.
Variable order : list str -> list str.
Notation step := (step fmt repr text order). Notation play := (play fmt repr text order). Notation body := (body fmt repr text order).
Notation answer_of := (answer_of fmt repr text order). Notation api := (jar_api fmt repr text order).
Notation collected := (collected fmt repr text order).

Record Inv (name : str) (open : list nat) (h : list (disk * call)) (s : session) : Prop := mkinv {
  i_name : s_name s = Some name;
  i_zip : forall i a, s_zip s = Some (i, a) -> exists d, lately h d /\ d name = Ok a;
  i_api : forall x, s_api s = Some x -> exists d, In d (map fst h) /\ api (d name) = Ok x;
  i_open : match s_zip s with None => s_open s = open | Some (i, _) => s_open s = i :: open /\ ~ In i open end }.

Lemma inv_start name open : Inv name open [] (named name open).
Proof. constructor; cbn; [reflexivity|discriminate|discriminate|reflexivity]. Qed.
Lemma in_more h (d : disk) (x : disk * call) : In d (map fst h) -> In d (map fst (h ++ [x])).
Proof. intro H. rewrite map_app. apply in_or_app. now left. Qed.
Lemma lately_in h d : lately h d -> In d (map fst h).
Proof. intros (h1 & h2 & -> & _ & H). rewrite map_app. apply in_or_app. now right. Qed.
Lemma inv_zip name open h s d c : c <> CClose -> Inv name open h s ->
  Inv name open (h ++ [(d, c)]) (fst (get_zipfile d s)) /\
  exists d', (d' = d \/ lately h d') /\ d' name = snd (get_zipfile d s) /\ In d' (map fst (h ++ [(d, c)])).
Proof.
  intros Hc [H1 H2 H3 H4]. unfold get_zipfile. destruct (s_zip s) as [[i a]|] eqn:EZ; cbn [fst snd].
  - destruct (H2 i a eq_refl) as (d0 & HL & HD). split.
    + constructor; [exact H1| |intros x Hx; destruct (H3 x Hx) as (d1 & ? & ?); exists d1; split; [now apply in_more|assumption]|now rewrite EZ].
      intros j b Hj. rewrite EZ in Hj. injection Hj as <- <-. exists d0. split; [now apply lately_more|exact HD].
    + exists d0. split; [now right|]. split; [exact HD|]. apply in_more. now apply lately_in.
  - rewrite H1. destruct (d name) as [a|e] eqn:ED; cbn [fst snd].
    + split; [constructor; cbn [s_name s_zip s_api s_open]; [reflexivity| | |]|].
      * intros j b Hj. injection Hj as <- <-. exists d. split; [now apply lately_now|exact ED].
      * intros x Hx. destruct (H3 x Hx) as (d1 & ? & ?). exists d1. split; [now apply in_more|assumption].
      * rewrite H4. split; [reflexivity|]. apply unused_fresh.
      * exists d. split; [now left|]. split; [exact ED|]. rewrite map_app. apply in_or_app. right. now left.
    + split; [constructor; [exact H1| |intros x Hx; destruct (H3 x Hx) as (d1 & ? & ?); exists d1; split; [now apply in_more|assumption]|now rewrite EZ]|].
      * intros j b Hj. congruence.
      * exists d. split; [now left|]. split; [exact ED|]. rewrite map_app. apply in_or_app. right. now left.
Qed.
Lemma api_ok_bind j : (a <- j ;; api (Ok a)) = api j.
Proof. destruct j; reflexivity. Qed.
Lemma inv_collected name open h s d c : c <> CClose -> Inv name open h s ->
  Inv name open (h ++ [(d, c)]) (fst (collected d s)) /\
  exists d', In d' (map fst (h ++ [(d, c)])) /\ api (d' name) = snd (collected d s).
Proof.
  intros Hc HI. unfold Session_Model.collected. destruct (s_api s) as [x|] eqn:EA.
  - cbn [fst snd]. destruct HI as [H1 H2 H3 H4]. split.
    + constructor; [exact H1| | |exact H4].
      * intros i a Hi. destruct (H2 i a Hi) as (d0 & ? & ?). exists d0. split; [now apply lately_more|assumption].
      * intros y Hy. destruct (H3 y Hy) as (d0 & ? & ?). exists d0. split; [now apply in_more|assumption].
    + destruct (H3 x EA) as (d0 & ? & ?). exists d0. split; [now apply in_more|assumption].
  - destruct (inv_zip name open h s d c Hc HI) as ([H1 H2 H3 H4] & d' & _ & HD & HIn). destruct (get_zipfile d s) as [s' r] eqn:EG. cbn [fst snd] in *. subst r.
    rewrite api_ok_bind. destruct (api (d' name)) as [x|e] eqn:EX; cbn [fst snd].
    + split; [constructor; cbn [s_name s_zip s_api s_open]; [exact H1|exact H2| |exact H4]|exists d'; auto].
      intros y Hy. injection Hy as <-. exists d'. auto.
    + split; [constructor; assumption|]. exists d'. auto.
Qed.
Lemma inv_shut name open h s x : Inv name open h s -> Inv name open (h ++ [x]) (shut s) /\ s_open (shut s) = open.
Proof.
  intros [H1 H2 H3 H4]. unfold shut. assert (H3' : forall y, s_api s = Some y -> exists d, In d (map fst (h ++ [x])) /\ api (d name) = Ok y).
  { intros y Hy. destruct (H3 y Hy) as (d & ? & ?). exists d. split; [now apply in_more|assumption]. }
  destruct (s_zip s) as [[i a]|] eqn:EZ.
  - assert (E : filter (fun j => negb (Nat.eqb j i)) (s_open s) = open).
    { destruct H4 as [-> Hn]. cbn [filter]. rewrite Nat.eqb_refl. cbn [negb]. now apply filter_other. }
    split; [|exact E]. constructor; cbn [s_name s_zip s_api s_open]; [exact H1|discriminate|exact H3'|exact E].
  - split; [|exact H4]. constructor; [exact H1|rewrite EZ; discriminate|exact H3'|now rewrite EZ].
Qed.
Lemma inv_step name open h s d c : Inv name open h s ->
  Inv name open (h ++ [(d, c)]) (fst (step s (d, c))) /\
  exists d', (d' = d \/ if match c with CClasses | CInfo _ => true | _ => false end then lately h d' else In d' (map fst h)) /\ snd (step s (d, c)) = answer_of (d' name) c.
Proof.
  intro HI. assert (HM : forall d', In d' (map fst (h ++ [(d, c)])) -> d' = d \/ In d' (map fst h)).
  { intros d' H. rewrite map_app in H. apply in_app_or in H as [H|[H|[]]]; auto. }
  destruct c as [|e|ign|ign|]; cbn [Session_Model.step Session_Spec.answer_of].
  - destruct (inv_zip name open h s d CClasses ltac:(discriminate) HI) as (HN & d' & HW & HD & _). destruct (get_zipfile d s) as [s' r]. cbn [fst snd] in *. split; [exact HN|]. exists d'. split; [exact HW|]. now rewrite HD.
  - destruct (inv_zip name open h s d (CInfo e) ltac:(discriminate) HI) as (HN & d' & HW & HD & _). destruct (get_zipfile d s) as [s' r]. cbn [fst snd] in *. split; [exact HN|]. exists d'. split; [exact HW|]. now rewrite HD.
  - destruct (inv_collected name open h s d (CRequires ign) ltac:(discriminate) HI) as (HN & d' & HW & HD). destruct (collected d s) as [s' r]. cbn [fst snd] in *. split; [exact HN|]. exists d'. split; [now apply HM|]. unfold jar_requires. rewrite HD. now destruct r.
  - destruct (inv_collected name open h s d (CProvides ign) ltac:(discriminate) HI) as (HN & d' & HW & HD). destruct (collected d s) as [s' r]. cbn [fst snd] in *. split; [exact HN|]. exists d'. split; [now apply HM|]. unfold jar_provides. rewrite HD. now destruct r.
  - cbn [fst snd]. split; [apply (inv_shut name open h s (d, CClose) HI)|]. exists d. split; [now left|reflexivity].
Qed.
Lemma inv_play name open : forall h h0 s, Inv name open h0 s -> Inv name open (h0 ++ h) (fst (play s h)).
Proof.
  induction h as [|[d c] h IH]; intros h0 s HI; cbn [Session_Model.play]; [now rewrite app_nil_r|].
  destruct (inv_step name open h0 s d c HI) as [HN _]. destruct (step s (d, c)) as [s1 r]. cbn [fst] in HN. specialize (IH _ _ HN). destruct (play s1 h) as [s2 rs]. cbn [fst] in *. now rewrite <- app_assoc in IH.
Qed.
Lemma inv_body name open : forall h h0 s, Inv name open h0 s -> exists h1, Inv name open h1 (fst (body s h)).
Proof.
  induction h as [|[d c] h IH]; intros h0 s HI; cbn [Session_Model.body]; [eauto|].
  destruct (inv_step name open h0 s d c HI) as [HN _]. destruct (step s (d, c)) as [s1 [r|e]]; cbn [fst] in *; [|eauto]. specialize (IH _ _ HN). destruct (body s1 h) as [s2 rs]. exact IH.
Qed.
Lemma play_steady name open j : forall h h0 s, Inv name open h0 s -> Forall (fun x : disk * call => fst x name = j) (h0 ++ h) ->
  snd (play s h) = map (fun x => answer_of j (snd x)) h.
Proof.
  induction h as [|[d c] h IH]; intros h0 s HI HF; cbn [Session_Model.play map snd]; [reflexivity|].
  assert (HD : forall d', In d' (map fst (h0 ++ [(d, c)])) -> d' name = j).
  { intros d' H. apply in_map_iff in H as (x & <- & Hx). rewrite Forall_forall in HF. apply HF. apply in_app_or in Hx as [Hx|[Hx|[]]]; apply in_or_app; [now left|right; left; exact Hx]. }
  destruct (inv_step name open h0 s d c HI) as (HN & d' & HW & HA). destruct (step s (d, c)) as [s1 r]. cbn [fst snd] in *.
  specialize (IH _ _ HN). rewrite <- app_assoc in IH. specialize (IH HF). destruct (play s1 h) as [s2 rs]. cbn [snd] in *. rewrite IH, HA. f_equal. f_equal. apply HD.
  destruct HW as [->|HW]; [rewrite map_app; apply in_or_app; right; now left|]. apply in_more. destruct c; first [exact HW|now apply lately_in].
Qed.
Lemma body_play : forall h s, snd (body s h) = mapM (fun x => x) (snd (play s h)).
Proof.
  induction h as [|x h IH]; intro s; cbn [Session_Model.body Session_Model.play]; [reflexivity|].
  destruct (step s x) as [s1 [r|e]].
  - specialize (IH s1). destruct (body s1 h) as [s2 rs]. destruct (play s1 h) as [s3 rs']. cbn [snd] in *. cbn [mapM rbind]. now rewrite IH.
  - destruct (play s1 h) as [s3 rs']. reflexivity.
Qed.

(** ** A given archive *)
Lemma given_step i a open d c s : s_zip s = Some (i, a) -> (forall x, s_api s = Some x -> api (Ok a) = Ok x) -> s_open s = open -> c <> CClose ->
  s_zip (fst (step s (d, c))) = Some (i, a) /\ (forall x, s_api (fst (step s (d, c))) = Some x -> api (Ok a) = Ok x) /\ s_open (fst (step s (d, c))) = open /\ snd (step s (d, c)) = answer_of (Ok a) c.
Proof.
  intros HZ HA HO Hc. assert (G : get_zipfile d s = (s, Ok a)) by (unfold get_zipfile; now rewrite HZ).
  assert (C : s_zip (fst (collected d s)) = Some (i, a) /\ (forall x, s_api (fst (collected d s)) = Some x -> api (Ok a) = Ok x) /\ s_open (fst (collected d s)) = open /\ snd (collected d s) = api (Ok a)).
  { unfold Session_Model.collected. destruct (s_api s) as [x|] eqn:EA; [cbn [fst snd]; rewrite (HA x eq_refl), EA; split; [exact HZ|]; split; [intros y Hy; now injection Hy as <-|auto]|].
    rewrite G. cbn [rbind]. destruct (api (Ok a)) as [x|e] eqn:EX; cbn [fst snd s_zip s_api s_open]; [split; [exact HZ|]; split; [intros y Hy; now injection Hy as <-|auto]|].
    split; [exact HZ|]. split; [intros y Hy; congruence|auto]. }
  destruct c as [|e|ign|ign|]; cbn [Session_Model.step Session_Spec.answer_of]; [rewrite G; cbn [fst snd]; auto|rewrite G; cbn [fst snd]; auto| | |congruence];
    destruct (collected d s) as [s' r]; cbn [fst snd] in *; destruct C as (C1 & C2 & C3 & ->); (split; [exact C1|]; split; [exact C2|]; split; [exact C3|]).
  - unfold jar_requires. destruct (api (Ok a)); reflexivity.
  - unfold jar_provides. destruct (api (Ok a)); reflexivity.
Qed.
Lemma given_play i a open : forall h s, s_zip s = Some (i, a) -> (forall x, s_api s = Some x -> api (Ok a) = Ok x) -> s_open s = open -> ~ In CClose (map snd h) ->
  snd (play s h) = map (fun x => answer_of (Ok a) (snd x)) h /\ s_open (fst (play s h)) = open.
Proof.
  induction h as [|[d c] h IH]; intros s HZ HA HO Hc; cbn [Session_Model.play map snd]; [auto|].
  assert (Hc1 : c <> CClose) by (intros ->; apply Hc; now left). destruct (given_step i a open d c s HZ HA HO Hc1) as (H1 & H2 & H3 & H4).
  destruct (step s (d, c)) as [s1 r]. cbn [fst snd] in *. assert (Hc2 : ~ In CClose (map snd h)) by (intro; apply Hc; now right). destruct (IH s1 H1 H2 H3 Hc2) as [I1 I2].
  destruct (play s1 h) as [s2 rs]. cbn [fst snd] in *. rewrite I1, H4. auto.
Qed.
End S.

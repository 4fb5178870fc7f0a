(** Proofs about DistInfo objects over several calls. *)
From Verif Require Import Base Pack_Model ConstPool_Model ClassFile_Model Descr_Model Manifest_Model
  Change_Model Classdiff_Model Jardiff_Model Distdiff_Model Info_Model Session_Model Session_Proofs Tmp_Model Tmp_Spec.
From Verif Require Zip_Model.

(** Temporary directories *)
Definition tidy (dirs : list nat) (s : dsession) : Prop :=
  match t_tmp s with None => t_dirs s = dirs | Some (i, _) => t_dirs s = i :: dirs /\ ~ In i dirs end.
Lemma tidy_work dirs b s : tidy dirs s -> tidy dirs (fst (working_path b s)).
Proof.
  unfold working_path, tidy. destruct (t_tmp s) as [[i t]|] eqn:E; cbn [fst]; [now rewrite E|]. destruct b as [t|t f]; cbn [fst t_tmp t_dirs]; [now rewrite E|].
  intros ->. split; [reflexivity|apply unused_fresh].
Qed.
Lemma tidy_contents dirs b s : tidy dirs s -> tidy dirs (fst (contents b s)).
Proof.
  intro H. unfold contents. destruct (t_contents s); [exact H|]. apply (tidy_work dirs b) in H. destruct (working_path b s) as [s' [t|e]]; exact H.
Qed.
Lemma tidy_close dirs s : tidy dirs s -> tidy dirs (close_dist s) /\ t_dirs (close_dist s) = dirs.
Proof.
  unfold tidy, close_dist. destruct (t_tmp s) as [[i t]|]; cbn [t_tmp t_dirs]; [|auto]. intros [-> Hn]. cbn [filter]. rewrite Nat.eqb_refl. cbn [negb]. rewrite filter_other by exact Hn. auto.
Qed.
Lemma tidy_step dirs s x : tidy dirs s -> tidy dirs (fst (dstep s x)).
Proof.
  intro H. destruct x as [b c]. destruct c; cbn [dstep]; try (apply (tidy_contents dirs b) in H; destruct (contents b s); exact H). now apply tidy_close.
Qed.
Lemma tidy_play dirs : forall h s, tidy dirs s -> tidy dirs (fst (dplay s h)).
Proof.
  induction h as [|x h IH]; intros s H; cbn [dplay]; [exact H|]. apply (tidy_step dirs s x) in H. destruct (dstep s x) as [s1 r]. specialize (IH s1 H). destruct (dplay s1 h). exact IH.
Qed.
Lemma dplay_snoc : forall h s x, fst (dplay s (h ++ [x])) = fst (dstep (fst (dplay s h)) x).
Proof.
  induction h as [|y h IH]; intros s x; cbn [app dplay].
  - cbn [fst]. destruct (dstep s x) as [s1 r]. reflexivity.
  - destruct (dstep s y) as [s1 r]. specialize (IH s1 x). destruct (dplay s1 (h ++ [x])) as [a ra]. destruct (dplay s1 h) as [b rb]. exact IH.
Qed.
Lemma step_contents s b c : c <> DClose -> fst (dstep s (b, c)) = fst (contents b s) /\
  (forall t, snd (contents b s) = Ok (dist_contents (mkdist false t)) -> snd (dstep s (b, c)) = Ok (files_answer t c)) /\
  (forall e, snd (contents b s) = Err e -> snd (dstep s (b, c)) = Err e).
Proof.
  intro Hc. destruct c; [| | |congruence]; cbn [dstep files_answer]; destruct (contents b s) as [s' r]; cbn [fst snd]; (split; [reflexivity|]; split; [intros t ->|intros e ->]; reflexivity).
Qed.

(** The files stay the same *)
Definition knows (t : Zip_Model.node) (s : dsession) : Prop :=
  (forall i t', t_tmp s = Some (i, t') -> t' = t) /\ (forall l, t_contents s = Some l -> l = dist_contents (mkdist false t)).
Lemma knows_contents t b s : b = BDir t \/ b = BFile t None -> knows t s -> knows t (fst (contents b s)) /\ snd (contents b s) = Ok (dist_contents (mkdist false t)).
Proof.
  intros Hb [H1 H2]. unfold contents. destruct (t_contents s) as [l|] eqn:EC; [cbn [fst snd]; split; [split; [exact H1|now rewrite EC]|now rewrite (H2 l eq_refl)]|].
  unfold working_path. destruct (t_tmp s) as [[i t']|] eqn:ET.
  - pose proof (H1 i t' eq_refl) as ->. cbn [fst snd t_tmp t_contents]. split; [|reflexivity]. split; cbn [t_tmp t_contents]; [rewrite ET; exact H1|intros l Hl; now injection Hl as <-].
  - destruct Hb as [-> | ->]; cbn [fst snd t_tmp t_contents]; (split; [|reflexivity]); split; cbn [t_tmp t_contents].
    + now rewrite ET.
    + intros l Hl; now injection Hl as <-.
    + intros i t' Hi; now injection Hi as _ <-.
    + intros l Hl; now injection Hl as <-.
Qed.
Lemma knows_close t s : knows t (close_dist s).
Proof. unfold knows, close_dist. destruct (t_tmp s) as [[i t']|]; cbn [t_tmp t_contents]; split; discriminate. Qed.
Lemma play_good t : forall h s, knows t s -> Forall (fun x : base * dcall => fst x = BDir t \/ fst x = BFile t None) h ->
  snd (dplay s h) = map (fun x => Ok (files_answer t (snd x))) h.
Proof.
  induction h as [|[b c] h IH]; intros s HK HF; cbn [dplay map]; [reflexivity|]. apply Forall_cons_iff in HF as [Hb HF]. cbn [fst snd] in *.
  assert (HS : knows t (fst (dstep s (b, c))) /\ snd (dstep s (b, c)) = Ok (files_answer t c)).
  { destruct (knows_contents t b s Hb HK) as [K1 K2]. destruct c; [| | |cbn [dstep fst snd files_answer]; split; [apply knows_close|reflexivity]];
      match goal with |- context [dstep s (b, ?c)] => destruct (step_contents s b c ltac:(discriminate)) as (E1 & E2 & _) end; rewrite E1; split; [exact K1|now apply E2|exact K1|now apply E2|exact K1|now apply E2]. }
  destruct HS as [K E]. destruct (dstep s (b, c)) as [s1 r]. cbn [fst snd] in *. specialize (IH s1 K HF). destruct (dplay s1 h). cbn [snd] in *. now rewrite E, IH.
Qed.

(** A file that cannot be extracted *)
Lemma asked_snoc h x : asked (h ++ [x]) <-> snd x <> DClose.
Proof.
  split.
  - intros (h1 & y & h2 & E & Hc) Hx. apply Hc. destruct (exists_last (l := y :: h2)) as (k & z & Ek); [discriminate|]. rewrite Ek in *. rewrite app_assoc in E. apply app_inj_tail in E as [_ <-]. rewrite map_app. apply in_or_app. right. now left.
  - intro Hx. exists h, x, []. split; [reflexivity|]. intros [H|[]]. contradiction.
Qed.
Lemma asked_nil : ~ asked [].
Proof. intros (h1 & x & h2 & E & _). destruct h1; discriminate E. Qed.
Lemma fail_contents t e s : knows t s -> (t_tmp s = None -> t_contents s = None) ->
  knows t (fst (contents (BFile t (Some e)) s)) /\ t_tmp (fst (contents (BFile t (Some e)) s)) <> None /\
  snd (contents (BFile t (Some e)) s) = match t_tmp s with None => Err e | Some _ => Ok (dist_contents (mkdist false t)) end.
Proof.
  intros [H1 H2] H3. unfold contents. destruct (t_contents s) as [l|] eqn:EC.
  - cbn [fst snd]. destruct (t_tmp s) as [[i t']|] eqn:ET; [|discriminate (H3 eq_refl)]. split; [split; [rewrite ET; exact H1|now rewrite EC]|]. split; [discriminate|now rewrite (H2 l eq_refl)].
  - unfold working_path. destruct (t_tmp s) as [[i t']|] eqn:ET.
    + pose proof (H1 i t' eq_refl) as ->. cbn [fst snd t_tmp t_contents]. split; [split; cbn [t_tmp t_contents]; [rewrite ET; exact H1|intros l Hl; now injection Hl as <-]|]. split; [rewrite ET; discriminate|reflexivity].
    + cbn [fst snd]. split; [split; cbn [t_tmp t_contents]; [intros i t' Hi; now injection Hi as _ <-|now rewrite EC]|]. split; [discriminate|reflexivity].
Qed.
Lemma fail_state t e dirs h : Forall (fun x : base * dcall => fst x = BFile t (Some e)) h ->
  let s := fst (dplay (new_dist dirs) h) in knows t s /\ (t_tmp s = None -> t_contents s = None) /\ (asked h <-> t_tmp s <> None).
Proof.
  induction h as [|[b c] h IH] using rev_ind; intro HF; cbn zeta.
  - cbn. split; [split; discriminate|]. split; [reflexivity|]. split; [intro H; now apply asked_nil in H|congruence].
  - apply Forall_app in HF as [HF Hx]. apply Forall_inv in Hx. cbn [fst] in Hx. subst b. specialize (IH HF). cbn zeta in IH. destruct IH as (K & L & A). rewrite dplay_snoc, asked_snoc. cbn [snd].
    set (s := fst (dplay (new_dist dirs) h)) in *. destruct (fail_contents t e s K L) as (F1 & F2 & _).
    destruct c; [| | |cbn [dstep fst]; split; [apply knows_close|]; split; [unfold close_dist; destruct (t_tmp s) as [[]|]; reflexivity|]; split; [congruence|unfold close_dist; destruct (t_tmp s) as [[]|]; cbn [t_tmp]; congruence]];
      match goal with |- context [dstep s (?b, ?c)] => destruct (step_contents s b c ltac:(discriminate)) as (-> & _) end; (split; [exact F1|]; split; [intro; contradiction|]; split; [intros _; exact F2|discriminate]).
Qed.

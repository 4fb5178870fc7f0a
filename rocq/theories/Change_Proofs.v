(** Proofs about change trees. *)
From Verif Require Import Base Change_Model Change_Spec.
From Coq Require Import Permutation.

(** ** Induction on changes *)
Lemma change_rect' (P : change -> Prop) :
  (forall k ch d cs im, Forall P cs -> Forall P im -> P (Node k ch d cs im)) -> forall c, P c.
Proof.
  intro H. fix IH 1. intros [k ch d cs im]. apply H.
  - induction cs as [|c cs IHc]; constructor; [apply IH|exact IHc].
  - induction im as [|c cs' IHc]; constructor; [apply IH|exact IHc].
Qed.
Lemma rose_rect' (P : rose -> Prop) : (forall c subs, Forall P subs -> P (R c subs)) -> forall t, P t.
Proof.
  intro H. fix IH 1. intros [c subs]. apply H. induction subs as [|s subs IHs]; constructor; [apply IH|exact IHs].
Qed.

Lemma pick_map {A B} (f : A -> B) inside k ch cs im :
  pick inside k ch (map f cs) (map f im) = match pick inside k ch cs im with Ok l => Ok (map f l) | Err e => Err e end.
Proof.
  unfold pick. destruct cs as [|c cs]; [|reflexivity]. cbn [map]. destruct (negb (k_super k)); [reflexivity|].
  destruct (k_incheck k && negb inside); [reflexivity|]. destruct (k_gate k && _); [reflexivity|]. destruct (k_raises k); reflexivity.
Qed.
Lemma pick_In {A} inside k ch (cs im : list A) l x : pick inside k ch cs im = Ok l -> In x l -> In x cs \/ In x im.
Proof.
  unfold pick. destruct cs as [|c cs]; [|intro H; injection H as <-; now left].
  destruct (negb (k_super k)); [intro H; injection H as <-; intros []|].
  destruct (k_incheck k && negb inside); [discriminate|]. destruct (k_gate k && _); [intro H; injection H as <-; intros []|].
  destruct (k_raises k); [discriminate|]. intro H; injection H as <-. now right.
Qed.
Lemma pick_Forall {A} (P : A -> Prop) inside k ch cs im l : Forall P cs -> Forall P im -> pick inside k ch cs im = Ok l -> Forall P l.
Proof. rewrite !Forall_forall. intros H1 H2 H x Hx. destruct (pick_In _ _ _ _ _ _ _ H Hx); auto. Qed.
Lemma pick_inside {A} k ch (cs im l : list A) : pick false k ch cs im = Ok l -> pick true k ch cs im = Ok l.
Proof.
  unfold pick. destruct cs as [|c cs]; [|easy]. destruct (negb (k_super k)); [easy|]. cbn [negb]. rewrite andb_true_r, andb_false_r.
  destruct (k_incheck k); [discriminate|easy].
Qed.

Lemma sequence_map {A B} (f : A -> res B) l : sequence (map f l) = mapM f l.
Proof. induction l as [|x l IH]; [reflexivity|]. cbn. destruct (f x); [|reflexivity]. cbn. now rewrite IH. Qed.
Lemma sequence_Forall2 {A B} (f : A -> res B) l r : sequence (map f l) = Ok r <-> Forall2 (fun a b => f a = Ok b) l r.
Proof.
  revert r. induction l as [|x l IH]; intro r; cbn [map sequence].
  - split; intro H; [injection H as <-; constructor|inversion H; reflexivity].
  - split; intro H.
    + destruct (f x) as [y|] eqn:E; [|discriminate]. cbn [rbind] in H. destruct (sequence (map f l)) as [ys|] eqn:E2; [|discriminate].
      injection H as <-. constructor; [exact E|]. now apply IH.
    + inversion H as [|? y ? ys E1 E2]; subst. rewrite E1. cbn [rbind]. apply IH in E2. now rewrite E2.
Qed.

(** Unfolding lemmas *)
Lemma check_parts k ch d cs im c' : k_check k = CheckParts ->
  check (Node k ch d cs im) = Ok c' <->
  exists ks ks', collect_in (Node k ch d cs im) = Ok ks /\ Forall2 (fun a b => check a = Ok b) ks ks' /\
    c' = Node k (existsb is_change ks') None ks' im.
Proof.
  intro Hk. cbn [check]. rewrite Hk. unfold collect_in. rewrite pick_map. destruct (pick true k ch cs im) as [ks|e]; cbn [rbind].
  - destruct (sequence (map check ks)) as [ks'|e] eqn:E; cbn [rbind].
    + apply sequence_Forall2 in E. split.
      * intro H. injection H as <-. eauto.
      * intros (ks1 & ks2 & H1 & H2 & ->). injection H1 as <-. apply sequence_Forall2 in E. apply sequence_Forall2 in H2. congruence.
    + split; [discriminate|]. intros (ks1 & ks2 & H1 & H2 & ->). injection H1 as <-. apply sequence_Forall2 in H2. congruence.
  - split; [discriminate|]. intros (ks1 & ks2 & H1 & _). discriminate.
Qed.
Lemma is_ignored_eq o k ch d cs im : is_ignored o (Node k ch d cs im) =
  if k_own k o then Ok true else if negb (k_parts k) then Ok false else if negb (is_change (Node k ch d cs im)) then Ok false
  else kids <- collect (Node k ch d cs im) ;;
       match kids with [] => Ok false | _ => all_ignored (map (fun kid => (is_change kid, is_ignored o kid)) kids) end.
Proof.
  cbn [is_ignored collect]. rewrite pick_map. destruct (k_own k o); [reflexivity|]. destruct (negb (k_parts k)); [reflexivity|].
  destruct (negb _); [reflexivity|]. destruct (pick false k ch cs im) as [[|x l]|]; reflexivity.
Qed.
Lemma indent_change_eq o n k ch d cs im : indent_change o n (Node k ch d cs im) =
  let c := Node k ch d cs im in
  let rest := kids <- collect c ;; ls <- mapM (indent_change o (S n)) kids ;; Ok (concat ls) in
  de <- get_description c ;;
  if is_change c then
    ig <- is_ignored o c ;;
    if ig then if show_ignored o then r <- rest ;; Ok (indent_line n [de; lit " [IGNORED]"] ++ r) else Ok []
    else r <- rest ;; Ok (indent_line n [de] ++ r)
  else if show_unchanged o then r <- rest ;; Ok (indent_line n [de] ++ r) else Ok [].
Proof.
  assert (E : (rs <- pick false k ch (map (indent_change o (S n)) cs) (map (indent_change o (S n)) im) ;;
               ls <- sequence rs ;; Ok (concat ls)) =
              (kids <- collect (Node k ch d cs im) ;; ls <- mapM (indent_change o (S n)) kids ;; Ok (concat ls))).
  { rewrite pick_map. unfold collect. destruct (pick false k ch cs im) as [l|]; [|reflexivity]. cbn [rbind]. now rewrite sequence_map. }
  cbv zeta. rewrite <- E. reflexivity.
Qed.
Lemma json_of_eq o k ch d cs im : json_of o (Node k ch d cs im) =
  let c := Node k ch d cs im in
  de <- get_description c ;;
  ig <- is_ignored o c ;;
  old <- k_old k ;; new <- k_new k ;;
  let mk := J (k_name k) (is_change c) de (k_label k) ig (k_addition k) (k_removal k)
              (match k_entry k with Some (x :: s) => Some (x :: s) | _ => None end) (k_orig k) old new in
  if k_super k then
    kids <- collect c ;; marks <- mapM (fun kid => keep o (is_change kid) (is_ignored o kid)) kids ;;
    subs <- mapM (json_of o) (map fst (filter snd (combine kids marks))) ;; Ok (mk (Some subs))
  else Ok (mk None).
Proof.
  cbn [json_of]. cbv zeta. destruct (get_description _) as [de|]; [|reflexivity]. cbn [rbind]. destruct (is_ignored o _) as [ig|]; [|reflexivity]. cbn [rbind].
  destruct (k_old k); [|reflexivity]. destruct (k_new k); [|reflexivity]. cbn [rbind]. destruct (k_super k); [|reflexivity].
  rewrite pick_map. unfold collect. destruct (pick false k ch cs im) as [l|]; [|reflexivity]. cbn [rbind].
  rewrite map_map. cbn [fst]. rewrite sequence_map. destruct (mapM _ l) as [marks|]; [|reflexivity]. cbn [rbind].
  rewrite <- sequence_map, map_map. f_equal. f_equal. clear.
  revert marks. induction l as [|x l IH]; intros [|m marks]; try reflexivity.
  cbn [map combine filter snd]. destruct m; [|apply IH]. cbn [map fst snd]. f_equal. apply IH.
Qed.

(** ** Checking *)
Lemma check_real c : forall c', check c = Ok c' -> (is_change c' = true <-> real c).
Proof.
  induction c as [k ch d cs im IHcs IHim] using change_rect'. intros c' H. destruct (k_check k) as [|r|] eqn:Ek.
  - cbn [check] in H. rewrite Ek in H. injection H as <-. cbn [is_change]. rewrite orb_true_iff. split.
    + intros [H| ->]; [now apply real_kind|now apply real_given].
    + intro H. inversion H; subst; auto; congruence.
  - cbn [check] in H. rewrite Ek in H. destruct r as [[b d']|e]; [|discriminate]. injection H as <-. cbn [is_change]. rewrite orb_true_iff. split.
    + intros [H| ->]; [now apply real_kind|now apply (real_own _ _ _ _ _ d')].
    + intro H. inversion H; subst; auto; try congruence. right. congruence.
  - apply check_parts in H; [|exact Ek]. destruct H as (ks & ks' & H1 & H2 & ->). cbn [is_change]. rewrite orb_true_iff.
    assert (HF : Forall (fun c => forall c', check c = Ok c' -> is_change c' = true <-> real c) ks) by exact (pick_Forall _ _ _ _ _ _ _ IHcs IHim H1).
    assert (HE : existsb is_change ks' = true <-> exists kid, In kid ks /\ real kid).
    { clear H1. induction H2 as [|a b l l' Hab H2 IH]; cbn [existsb].
      - split; [discriminate|]. intros (? & [] & _).
      - inversion HF as [|? ? Ha HF']; subst. specialize (IH HF'). rewrite orb_true_iff, IH, (Ha _ Hab). split.
        + intros [H|(kid & Hi & Hr)]; [exists a; split; [now left|exact H]|exists kid; split; [now right|exact Hr]].
        + intros (kid & [<-|Hi] & Hr); [now left|right; eauto]. }
    rewrite HE. split.
    + intros [H|(kid & Hi & Hr)]; [now apply real_kind|now apply (real_part _ _ _ _ _ ks kid)].
    + intro H. inversion H; subst; auto; try congruence. right. match goal with X : collect_in _ = Ok _ |- _ => rewrite H1 in X; injection X as <- end. eauto.
Qed.

Lemma check_idempotent c : forall c', check c = Ok c' -> check c' = Ok c'.
Proof.
  induction c as [k ch d cs im IHcs IHim] using change_rect'. intros c' H. destruct (k_check k) as [|r|] eqn:Ek.
  - cbn [check] in H. rewrite Ek in H. injection H as <-. cbn [check]. now rewrite Ek.
  - cbn [check] in H. rewrite Ek in H. destruct r as [[b d']|e]; [|discriminate]. injection H as <-. cbn [check]. now rewrite Ek.
  - apply check_parts in H; [|exact Ek]. destruct H as (ks & ks' & H1 & H2 & ->).
    apply check_parts; [exact Ek|]. exists ks', ks'. split; [|split; [|reflexivity]].
    + destruct H2 as [|a b l l' Hab H2]; [|reflexivity]. cbn [collect_in pick existsb] in *. unfold pick in *. destruct cs; [|discriminate].
      destruct (negb (k_super k)); [reflexivity|]. cbn [negb] in *. rewrite andb_false_r in *. destruct (k_gate k); cbn [andb] in *.
      * destruct (k_always k); cbn [orb negb] in *; [exact H1|reflexivity].
      * exact H1.
    + assert (HF : Forall (fun c => forall c', check c = Ok c' -> check c' = Ok c') ks) by exact (pick_Forall _ _ _ _ _ _ _ IHcs IHim H1).
      clear H1. induction H2 as [|a b l l' Hab H2 IH]; [constructor|]. inversion HF as [|? ? Ha HF']; subst. constructor; [now apply Ha|now apply IH].
Qed.

(** After check the children are the checked parts. *)
Lemma check_composite c c' : k_check (k_of c) = CheckParts -> check c = Ok c' ->
  exists before after, collect_in c = Ok before /\ collect_in c' = Ok after /\ Forall2 (fun a b => check a = Ok b) before after /\
    (is_change c' = true <-> k_always (k_of c) = true \/ exists p, In p after /\ is_change p = true).
Proof.
  destruct c as [k ch d cs im]. cbn [k_of]. intros Ek H. pose proof (check_idempotent _ _ H) as HI.
  apply check_parts in H; [|exact Ek]. destruct H as (ks & ks' & H1 & H2 & ->). exists ks, ks'. split; [exact H1|].
  apply check_parts in HI; [|exact Ek]. destruct HI as (l & l' & HI1 & HI2 & HI3). injection HI3 as _ <-.
  split.
  - destruct ks' as [|b ks']; [|reflexivity]. inversion HI2; subst; assumption.
  - split; [exact H2|]. cbn [is_change k_of]. rewrite orb_true_iff, existsb_exists. reflexivity.
Qed.

(** ** Ignoring *)
Lemma unfolds_inv c t : unfolds c t -> exists ks subs, t = R c subs /\ collect c = Ok ks /\ (k_super (k_of c) = false -> ks = []) /\ Forall2 unfolds ks subs.
Proof. intro H. destruct H as [c ks subs H1 H2 H3]. eauto 7. Qed.

Lemma all_ignored_spec o ks : Forall (fun kid => exists b, is_ignored o kid = Ok b) ks ->
  exists b, all_ignored (map (fun kid => (is_change kid, is_ignored o kid)) ks) = Ok b /\
    (b = true <-> Forall (fun kid => is_change kid = true -> is_ignored o kid = Ok true) ks).
Proof.
  induction 1 as [|kid ks (b & Hb) H IH]; cbn [map all_ignored].
  - exists true. split; [reflexivity|]. split; [constructor|reflexivity].
  - destruct IH as (r & Hr & HR). destruct (is_change kid) eqn:Ec.
    + rewrite Hb. cbn [rbind]. destruct b.
      * exists r. split; [exact Hr|]. rewrite HR. split; [intro; constructor; [intros _; exact Hb|assumption]|intro H0; now inversion H0].
      * exists false. split; [reflexivity|]. split; [discriminate|]. intro H0. inversion H0 as [|? ? H1 H2]; subst. specialize (H1 Ec). congruence.
    + exists r. split; [exact Hr|]. rewrite HR. split; [intro; constructor; [congruence|assumption]|intro H0; now inversion H0].
Qed.

Lemma is_ignored_total o t : forall c, unfolds c t -> exists b, is_ignored o c = Ok b.
Proof.
  induction t as [c0 subs IH] using rose_rect'. intros c H. apply unfolds_inv in H as (ks & subs' & E & H1 & H2 & H3). injection E as -> <-.
  destruct c as [k ch d cs im]. rewrite is_ignored_eq. destruct (k_own k o); [eauto|]. destruct (negb (k_parts k)); [eauto|].
  destruct (negb _); [eauto|]. rewrite H1. cbn [rbind]. destruct ks as [|x ks]; [eauto|].
  destruct (all_ignored_spec o (x :: ks)) as (b & Hb & _); [|eauto]. clear H1 H2.
  induction H3 as [|a s l l' Ha H3 IH3]; [constructor|]. inversion IH as [|? ? I1 I2]; subst. constructor; [now apply I1|now apply IH3].
Qed.

Lemma ignored_exact o c ks : collect c = Ok ks -> Forall (fun kid => exists b, is_ignored o kid = Ok b) ks ->
  k_own (k_of c) o = false -> k_parts (k_of c) = true ->
  (is_ignored o c = Ok true <-> is_change c = true /\ ks <> [] /\ Forall (fun kid => is_change kid = true -> is_ignored o kid = Ok true) ks).
Proof.
  destruct c as [k ch d cs im]. cbn [k_of]. intros H1 HT Ho Hp. rewrite is_ignored_eq, Ho, Hp. cbn [negb].
  destruct (is_change (Node k ch d cs im)); cbn [negb]; [|split; [discriminate|intros [? _]; discriminate]].
  rewrite H1. cbn [rbind]. destruct ks as [|x ks]; [split; [discriminate|intros (_ & H & _); now destruct H]|].
  destruct (all_ignored_spec o (x :: ks) HT) as (b & Hb & HB). rewrite Hb. split.
  - intro H. injection H as ->. split; [reflexivity|]. split; [discriminate|]. now apply HB.
  - intros (_ & _ & H). apply HB in H. now rewrite H.
Qed.

Lemma exposed_iff o t : forall c, unfolds c t -> founded t -> is_change c = true -> (is_ignored o c = Ok false <-> exposed o t).
Proof.
  induction t as [c0 subs IH] using rose_rect'. intros c HU HF HC. pose proof (is_ignored_total o _ _ HU) as (b & Hb).
  apply unfolds_inv in HU as (ks & subs' & E & H1 & H2 & H3). injection E as -> <-.
  inversion HF as [? ? F1 F2]; subst.
  assert (HT : Forall (fun kid => exists b, is_ignored o kid = Ok b) ks).
  { clear - H3. induction H3 as [|a s l l' Ha H3 IH3]; constructor; [exact (is_ignored_total o _ _ Ha)|exact IH3]. }
  assert (HK : (exists s, In s subs /\ exposed o s) <-> (exists kid, In kid ks /\ is_change kid = true /\ is_ignored o kid = Ok false)).
  { clear - IH F2 H3. induction H3 as [|a s l l' Ha H3 IH3].
    - split; intros (? & [] & _).
    - inversion IH as [|? ? I1 I2]; subst. inversion F2 as [|? ? G1 G2]; subst. specialize (IH3 I2 G2).
      assert (HE : exposed o s <-> is_change a = true /\ is_ignored o a = Ok false).
      { split.
        - intro HX. assert (HCa : is_change a = true).
          { destruct Ha as [c ks subs _ _ _]. inversion HX; assumption. }
          split; [exact HCa|]. now apply (I1 a Ha G1 HCa).
        - intros [HCa HX]. now apply (I1 a Ha G1 HCa). }
      split.
      + intros (x & [<-|Hx] & Hxe); [exists a; split; [now left|now apply HE]|].
        destruct (proj1 IH3 (ex_intro _ x (conj Hx Hxe))) as (kid & K1 & K2). exists kid. split; [now right|exact K2].
      + intros (x & [<-|Hx] & Hxe); [exists s; split; [now left|now apply HE]|].
        destruct (proj2 IH3 (ex_intro _ x (conj Hx Hxe))) as (kid & K1 & K2). exists kid. split; [now right|exact K2]. }
  assert (HL : ks = [] <-> subs = []).
  { clear - H3. destruct H3; split; congruence. }
  destruct (k_own (k_of c) o) eqn:Ho.
  { assert (is_ignored o c = Ok true) by (destruct c as [k ch d cs im]; rewrite is_ignored_eq; cbn [k_of] in Ho; now rewrite Ho).
    split; [congruence|]. intro HX. inversion HX; congruence. }
  destruct (k_parts (k_of c)) eqn:Hp.
  2:{ assert (is_ignored o c = Ok false) by (destruct c as [k ch d cs im]; rewrite is_ignored_eq; cbn [k_of] in Ho, Hp; now rewrite Ho, Hp).
      split; [|auto]. intros _. apply exposed_leaf; auto. }
  pose proof (ignored_exact o c ks H1 HT Ho Hp) as HX. destruct b.
  - split; [congruence|]. intro HE. apply HX in Hb as (_ & B1 & B2). exfalso.
    inversion HE as [? ? E1 E2 [E3|E3]|? ? s E1 E2 E3 E4 E5]; subst; [congruence| |].
    { destruct F1 as (kid & s & K1 & K2); [exact HC|intro HS; now apply B1, HL|]. rewrite Forall_forall in E3. specialize (E3 _ K1). cbn [top] in E3. congruence. }
    destruct (proj1 HK (ex_intro _ s (conj E4 E5))) as (kid & K1 & K2 & K3). rewrite Forall_forall in B2. specialize (B2 kid K1 K2). congruence.
  - split; [intros _|auto].
    destruct subs as [|s0 subs]; [apply exposed_leaf; auto|].
    assert (HN : ~ Forall (fun kid => is_change kid = true -> is_ignored o kid = Ok true) ks).
    { intro HN. assert (is_ignored o c = Ok true); [|congruence]. apply HX. split; [exact HC|]. split; [|exact HN].
      intro HE. apply HL in HE. discriminate. }
    assert (HEx : exists kid, In kid ks /\ is_change kid = true /\ is_ignored o kid = Ok false).
    { clear - HN HT. induction HT as [|kid ks (b & Hb) HT IHT]; [exfalso; apply HN; constructor|].
      destruct (is_change kid) eqn:Ec.
      - destruct b; [|exists kid; split; [now left|split; [exact Ec|exact Hb]]].
        destruct IHT as (kid' & K1 & K2); [intro HF; apply HN; constructor; [intros _; exact Hb|exact HF]|]. exists kid'. split; [now right|exact K2].
      - destruct IHT as (kid' & K1 & K2); [intro HF; apply HN; constructor; [congruence|exact HF]|]. exists kid'. split; [now right|exact K2]. }
    apply HK in HEx as (s & S1 & S2). exact (exposed_part o c _ s HC Ho Hp S1 S2).
Qed.

(** Checked trees whose composites all check their parts are founded. *)
Inductive proper : change -> Prop :=
| proper_node k ch d cs im : (k_super k = true -> k_check k = CheckParts /\ k_always k = false) -> (k_super k = false -> cs = []) ->
    Forall proper cs -> Forall proper im -> proper (Node k ch d cs im).
Lemma check_founded c : forall c' t, proper c -> check c = Ok c' -> unfolds c' t -> founded t.
Proof.
  induction c as [k ch d cs im IHcs IHim] using change_rect'. intros c' t HP H HU. inversion HP as [? ? ? ? ? P1 P2 P3 P4]; subst.
  pose proof (unfolds_inv _ _ HU) as (ks0 & subs & -> & U1 & U2 & U3).
  destruct (k_super k) eqn:Es.
  - destruct (P1 eq_refl) as [Ek Ea]. apply check_parts in H; [|exact Ek]. destruct H as (ks & ks' & H1 & H2 & ->).
    assert (HPk : Forall proper ks) by exact (pick_Forall _ _ _ _ _ _ _ P3 P4 H1).
    assert (HIk : Forall (fun c => forall c' t, proper c -> check c = Ok c' -> unfolds c' t -> founded t) ks) by exact (pick_Forall _ _ _ _ _ _ _ IHcs IHim H1).
    assert (Eks : ks0 = ks').
    { apply pick_inside in U1. destruct ks' as [|b ks']; [|cbn in U1; congruence].
      assert (HH : check (Node k ch d cs im) = Ok (Node k (existsb is_change []) None [] im)) by (apply check_parts; [exact Ek|eauto]).
      apply check_idempotent in HH. apply check_parts in HH; [|exact Ek]. destruct HH as (l & l' & L1 & L2 & L3). injection L3 as _ <-. inversion L2; subst.
      cbn [collect_in] in L1. congruence. }
    subst ks0. constructor.
    + cbn [is_change]. rewrite Ea. cbn [orb]. intros HC _. apply existsb_exists in HC as (kid & K1 & K2).
      clear - K1 K2 U3. induction U3 as [|a s l l' Ha U3 IH]; [destruct K1|]. destruct K1 as [->|K1].
      * destruct Ha as [c ks subs _ _ _]. exists c, subs. split; [now left|exact K2].
      * destruct (IH K1) as (kid' & s' & I1 & I2). exists kid', s'. split; [now right|exact I2].
    + clear - H2 U3 HPk HIk. revert subs U3. induction H2 as [|a b l l' Hab H2 IH]; intros subs U3; inversion U3; subst; [constructor|].
      inversion HPk; subst. inversion HIk; subst. constructor; [eauto|eauto].
  - cbn [k_of] in U2. assert (Es' : k_super (k_of c') = false).
    { cbn [check] in H. destruct (k_check k) as [|r|]; [injection H as <-; exact Es|destruct r as [[? ?]|]; [|discriminate]; injection H as <-; exact Es|].
      destruct (pick _ _ _ _ _) as [rs|]; [|discriminate]. cbn [rbind] in H. destruct (sequence rs); [|discriminate]. injection H as <-. exact Es. }
    specialize (U2 Es'). subst ks0. inversion U3; subst. constructor; [intros _ []; reflexivity|constructor].
Qed.

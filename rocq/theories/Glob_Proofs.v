(** Proofs about glob patterns. *)
From Verif Require Import Base Glob_Model Glob_Spec.

Lemma cons_inj' {A} (x y : A) l m : x :: l = y :: m -> x = y /\ l = m.
Proof. intro H. split; congruence. Qed.

Lemma to_bracket_iff p a r : to_bracket p = Some (a, r) <-> p = a ++ 93 :: r /\ ~ In 93 a.
Proof.
  revert a r. induction p as [|c p IH]; intros a r; cbn [to_bracket].
  - split; [discriminate|]. intros [H _]. destruct a; discriminate.
  - destruct (Z.eqb_spec c 93) as [->|Hc].
    + split.
      * intro H. injection H as <- <-. split; [reflexivity|intros []].
      * intros [H Hn]. destruct a as [|y a]; [cbn [app] in H; apply cons_inj' in H as [_ ->]; reflexivity|].
        cbn [app] in H. apply cons_inj' in H as [<- _]. exfalso. apply Hn. now left.
    + destruct (to_bracket p) as [[a' r']|] eqn:E.
      * split.
        -- intro H. injection H as <- <-. destruct (proj1 (IH a' r') eq_refl) as [-> Hn]. split; [reflexivity|].
           intros [?|?]; [congruence|contradiction].
        -- intros [H Hn]. destruct a as [|y a]; cbn [app] in H; apply cons_inj' in H as [Ec H]; [congruence|subst y].
           assert (E2 : Some (a', r') = Some (a, r)) by (apply IH; split; [exact H|intro; apply Hn; now right]).
           injection E2 as -> ->. reflexivity.
      * split; [discriminate|]. intros [H Hn]. destruct a as [|y a]; cbn [app] in H; apply cons_inj' in H as [Ec H]; [congruence|subst y].
        assert (E2 : None = Some (a, r)) by (apply IH; split; [exact H|intro; apply Hn; now right]). discriminate.
Qed.

(** The part of [bracket] after the exclamation mark *)
Definition closed (p1 : str) : option (str * str) :=
  let '(lead, p2) := match p1 with c :: p' => if c =? 93 then ([93], p') else ([], p1) | [] => ([], p1) end in
  match to_bracket p2 with Some (a, r) => Some (lead ++ a, r) | None => None end.
Lemma closed_iff p b r : closed p = Some (b, r) <-> set_body b /\ p = b ++ 93 :: r.
Proof.
  unfold closed. destruct p as [|c p].
  - cbn [to_bracket]. split; [discriminate|]. intros [_ H]. destruct b; discriminate.
  - destruct (Z.eqb_spec c 93) as [->|Hc].
    + destruct (to_bracket p) as [[a r']|] eqn:E.
      * apply to_bracket_iff in E as [-> Hn]. split.
        -- intro H. injection H as <- <-. split; [|reflexivity]. exists 93, a. auto.
        -- intros [(x & b' & -> & Hb) H]. cbn [app] in H. apply cons_inj' in H as [<- H].
           assert (E1 : to_bracket (a ++ 93 :: r') = Some (a, r')) by (apply to_bracket_iff; auto).
           assert (E2 : to_bracket (a ++ 93 :: r') = Some (b', r)) by (apply to_bracket_iff; auto).
           rewrite E1 in E2. injection E2 as -> ->. reflexivity.
      * split; [discriminate|]. intros [(x & b' & -> & Hb) H]. cbn [app] in H. apply cons_inj' in H as [<- H].
        assert (E2 : to_bracket p = Some (b', r)) by (apply to_bracket_iff; auto). congruence.
    + destruct (to_bracket (c :: p)) as [[a r']|] eqn:E.
      * apply to_bracket_iff in E as [E Hn]. split.
        -- intro H. injection H as <- <-. cbn [app]. split; [|exact E]. destruct a as [|y a]; cbn [app] in E; apply cons_inj' in E as [-> ->]; [congruence|].
           exists y, a. split; [reflexivity|]. intro; apply Hn; now right.
        -- intros [(x & b' & -> & Hb) H]. cbn [app] in H. pose proof H as H'. apply cons_inj' in H as [<- H].
           assert (E2 : to_bracket (c :: p) = Some (c :: b', r)) by (apply to_bracket_iff; split; [exact H'|intros [?|?]; [congruence|contradiction]]).
           assert (E1 : to_bracket (c :: p) = Some (a, r')) by (apply to_bracket_iff; auto).
           rewrite E1 in E2. injection E2 as -> ->. reflexivity.
      * split; [discriminate|]. intros [(x & b' & -> & Hb) H]. cbn [app] in H. pose proof H as H'. apply cons_inj' in H as [<- H].
        assert (E2 : to_bracket (c :: p) = Some (c :: b', r)) by (apply to_bracket_iff; split; [exact H'|intros [?|?]; [congruence|contradiction]]).
        congruence.
Qed.
Lemma bracket_closed p : bracket p =
  match p with
  | c :: p' => if c =? 33 then match closed p' with Some (b, r) => Some (true, b, r) | None => None end
               else match closed p with Some (b, r) => Some (false, b, r) | None => None end
  | [] => None
  end.
Proof.
  unfold bracket, closed. destruct p as [|c p]; [reflexivity|]. destruct (c =? 33).
  - destruct p as [|d p]; [reflexivity|]. destruct (d =? 93); destruct (to_bracket _) as [[]|]; reflexivity.
  - destruct (c =? 93); destruct (to_bracket _) as [[]|]; reflexivity.
Qed.
Lemma bracket_iff p neg b r : bracket p = Some (neg, b, r) <->
  set_body b /\ (neg = true /\ p = 33 :: b ++ 93 :: r \/ neg = false /\ hd 0 b <> 33 /\ p = b ++ 93 :: r).
Proof.
  rewrite bracket_closed. destruct p as [|c p].
  - split; [discriminate|]. intros [_ [[_ H]|[_ [_ H]]]]; [discriminate|destruct b; discriminate].
  - destruct (Z.eqb_spec c 33) as [->|Hc].
    + split.
      * destruct (closed p) as [[b' r']|] eqn:E; [|discriminate]. intro H. injection H as <- <- <-. apply closed_iff in E as [HB ->]. auto.
      * intros [HB [[-> H]|[-> [Hh H]]]].
        -- apply cons_inj' in H as [_ H]. rewrite (proj2 (closed_iff p b r)) by auto. reflexivity.
        -- destruct HB as (x & b' & -> & _). cbn [app] in H. apply cons_inj' in H as [<- _]. now cbn [hd] in Hh.
    + split.
      * destruct (closed (c :: p)) as [[b' r']|] eqn:E; [|discriminate]. intro H. injection H as <- <- <-. apply closed_iff in E as [HB E].
        split; [exact HB|]. right. split; [reflexivity|]. split; [|exact E]. destruct HB as (x & b0 & -> & _). cbn [app] in E. apply cons_inj' in E as [<- _]. exact Hc.
      * intros [HB [[-> H]|[-> [Hh H]]]]; [apply cons_inj' in H as [-> _]; congruence|].
        rewrite (proj2 (closed_iff (c :: p) b r)) by auto. reflexivity.
Qed.
Lemma bracket_none p : bracket p = None <-> never_closed p.
Proof.
  split.
  - intros H b r HB. split.
    + intros Hh E. assert (X : bracket p = Some (false, b, r)) by (apply bracket_iff; auto). congruence.
    + intro E. assert (X : bracket p = Some (true, b, r)) by (apply bracket_iff; auto). congruence.
  - intro H. destruct (bracket p) as [[[neg b] r]|] eqn:E; [|reflexivity]. exfalso. apply bracket_iff in E as [HB [[_ E]|[_ [Hh E]]]].
    + exact (proj2 (H b r HB) E).
    + exact (proj1 (H b r HB) Hh E).
Qed.

Lemma set_has_iff b c : existsb (fun r => (fst r <=? c) && (c <=? snd r)) (set_ranges b) = true <-> SetHas b c.
Proof.
  assert (G : forall n b, (length b <= n)%nat -> (existsb (fun r => (fst r <=? c) && (c <=? snd r)) (set_ranges b) = true <-> SetHas b c)).
  { induction n as [|n IH]; intros b0 Hl.
    - destruct b0; [|cbn [length] in Hl; lia]. cbn. split; [discriminate|]. intro H. inversion H.
    - destruct b0 as [|x b1]; [cbn; split; [discriminate|intro H; inversion H]|].
      assert (SR : ~ starts_range (x :: b1) -> (existsb (fun r => (fst r <=? c) && (c <=? snd r)) ((x, x) :: set_ranges b1) = true <-> SetHas (x :: b1) c)).
      { intro Hn. cbn [existsb fst snd]. rewrite orb_true_iff, IH by (cbn [length] in Hl; lia). split.
        - intros [H|H]; [assert (x = c) by lia; subst; now apply has_char|now apply has_after_char].
        - intro H. inversion H; subst; try (exfalso; apply Hn; repeat eexists; reflexivity); [left; lia|now right]. }
      destruct b1 as [|h [|y b2]]; cbn [set_ranges].
      + apply SR. intros (? & ? & ? & E). discriminate.
      + apply SR. intros (? & ? & ? & E). discriminate.
      + destruct (Z.eqb_spec h 45) as [->|Hh].
        * cbn [existsb fst snd]. rewrite orb_true_iff, IH by (cbn [length] in Hl; lia). split.
          -- intros [H|H]; [apply has_range; lia|now apply has_after_range].
          -- intro H. inversion H; subst; [left; lia|now right| |]; exfalso; match goal with N : ~ starts_range _ |- _ => apply N end; repeat eexists; reflexivity.
        * apply SR. intros (? & ? & ? & E). congruence. }
  apply (G (length b)). lia.
Qed.

Lemma app_nonnil {A} (b : list A) x r : b ++ x :: r <> [].
Proof. destruct b; discriminate. Qed.

Lemma matches_star p s : Matches (42 :: p) s <-> exists a b, s = a ++ b /\ Matches p b.
Proof.
  split.
  - intro H. remember (42 :: p) as q eqn:E. revert p E. induction H; intros q' E; try discriminate.
    + apply cons_inj' in E as [_ <-]. now exists [], s.
    + destruct (IHMatches q' E) as (a & b & -> & HM). now exists (c :: a), b.
    + apply cons_inj' in E as [-> _]. congruence.
  - intros (a & b & -> & HM). induction a as [|c a IH]; [now apply m_star_none|]. cbn [app]. now apply m_star_one.
Qed.
Lemma toks_star ts s : toks_match (GStar :: ts) s = true <-> exists a b, s = a ++ b /\ toks_match ts b = true.
Proof.
  induction s as [|c s IH].
  - cbn [toks_match]. rewrite orb_false_r. split; [intro H; now exists [], []|]. intros (a & b & E & H). symmetry in E. apply app_eq_nil in E as [-> ->]. exact H.
  - change (toks_match (GStar :: ts) (c :: s)) with (toks_match ts (c :: s) || toks_match (GStar :: ts) s). rewrite orb_true_iff, IH. split.
    + intros [H|(a & b & -> & H)]; [now exists [], (c :: s)|now exists (c :: a), b].
    + intros (a & b & E & H). destruct a as [|y a]; cbn [app] in E; [left; now rewrite E|]. apply cons_inj' in E as [_ ->]. right. eauto.
Qed.
Lemma toks_one t ts s : t <> GStar -> (toks_match (t :: ts) s = true <-> exists c s', s = c :: s' /\ fits t c = true /\ toks_match ts s' = true).
Proof.
  intro Ht. assert (E : toks_match (t :: ts) s = match s with [] => false | x :: s' => fits t x && toks_match ts s' end) by (destruct t; [congruence|reflexivity..]).
  rewrite E. destruct s as [|c s]; split; try discriminate.
  - intros (? & ? & ? & _). discriminate.
  - intro H. apply andb_prop in H as [H1 H2]. eauto.
  - intros (x & s' & E' & H1 & H2). apply cons_inj' in E' as [<- <-]. now rewrite H1, H2.
Qed.

Lemma matches_one p s c : Matches (c :: p) s -> c <> 42 -> exists d s', s = d :: s'.
Proof. intros H Hc. inversion H; subst; try congruence; eauto. Qed.

Lemma translate_matches : forall n p fuel, (length p <= n)%nat -> (length p < fuel)%nat -> forall s,
  toks_match (translate fuel p) s = true <-> Matches p s.
Proof.
  induction n as [|n IH]; intros p fuel Hn Hf s; (destruct fuel as [|fu]; [lia|]); destruct p as [|c p]; cbn [length] in *; try lia.
  1, 2: cbn [translate toks_match]; destruct s; split; try discriminate; try (intro H; now inversion H); intros _; constructor.
  assert (IHp : forall s, toks_match (translate fu p) s = true <-> Matches p s) by (intro; apply IH; lia).
  cbn [translate]. destruct (Z.eqb_spec c 42) as [->|H42].
  { rewrite toks_star, matches_star. split; intros (a & b & E & H); exists a, b; (split; [exact E|]); now apply IHp. }
  destruct (Z.eqb_spec c 63) as [->|H63].
  { rewrite toks_one by discriminate. split.
    - intros (x & s' & -> & _ & H). apply m_any. now apply IHp.
    - intro H. inversion H; subst; try congruence. eexists _, _. split; [reflexivity|]. split; [reflexivity|]. now apply IHp. }
  destruct (Z.eqb_spec c 91) as [->|H91].
  - destruct (bracket p) as [[[neg b] r]|] eqn:EB.
    + apply bracket_iff in EB as [HB HP].
      assert (IHr : forall s, toks_match (translate fu r) s = true <-> Matches r s).
      { intro s0. assert (length r < length p)%nat by (destruct HP as [[_ ->]|[_ [_ ->]]]; cbn [length]; rewrite app_length; cbn [length]; lia). apply IH; lia. }
      rewrite toks_one by discriminate. split.
      * intros (x & s' & -> & HF & H). apply IHr in H. cbn [fits] in HF.
        destruct HP as [[-> ->]|[-> [Hh ->]]].
        -- apply m_set_not; [exact HB| |exact H]. rewrite <- set_has_iff. intro E. rewrite E in HF. discriminate.
        -- apply m_set; [exact HB|exact Hh| |exact H]. apply set_has_iff. now rewrite xorb_false_l in HF.
      * intro H.
        assert (D : forall b1 r1 b2 r2, set_body b1 -> set_body b2 -> b1 ++ 93 :: r1 = b2 ++ 93 :: r2 -> b1 = b2 /\ r1 = r2).
        { intros b1 r1 b2 r2 B1 B2 E. assert (E1 : closed (b1 ++ 93 :: r1) = Some (b1, r1)) by (apply closed_iff; auto).
          assert (E2 : closed (b1 ++ 93 :: r1) = Some (b2, r2)) by (apply closed_iff; auto). rewrite E1 in E2. injection E2. auto. }
        inversion H; subst; try congruence.
        -- exfalso. match goal with N : never_closed _ |- _ => destruct (N b r HB) as [N1 N2] end. destruct HP as [[_ E]|[_ [Hh E]]]; [exact (N2 E)|exact (N1 Hh E)].
        -- eexists _, _. split; [reflexivity|]. destruct HP as [[-> E]|[-> [Hh E]]].
           ++ exfalso. match goal with S : set_body ?q, N : hd 0 ?q <> 33 |- _ => destruct S as (y & b' & -> & _); cbn [app] in E; apply cons_inj' in E as [-> _]; now cbn [hd] in N end.
           ++ apply D in E as [-> ->]; [|assumption..]. split; [|now apply IHr]. cbn [fits]. rewrite xorb_false_l. now apply set_has_iff.
        -- eexists _, _. split; [reflexivity|]. destruct HP as [[-> E]|[-> [Hh E]]].
           ++ apply cons_inj' in E as [_ E]. apply D in E as [-> ->]; [|assumption..]. split; [|now apply IHr]. cbn [fits].
              destruct (existsb _ (set_ranges b)) eqn:EE; [|reflexivity]. exfalso. match goal with N : ~ SetHas _ _ |- _ => apply N end. now apply set_has_iff.
           ++ exfalso. destruct HB as (y & b' & -> & _). cbn [app] in E. apply cons_inj' in E as [<- _]. now cbn [hd] in Hh.
    + apply bracket_none in EB. rewrite toks_one by discriminate. split.
      * intros (x & s' & -> & HF & H). cbn [fits] in HF. apply Z.eqb_eq in HF as <-. apply m_open; [exact EB|now apply IHp].
      * intro H. inversion H; subst; try congruence.
        -- eexists _, _. split; [reflexivity|]. split; [reflexivity|now apply IHp].
        -- exfalso. match goal with S : set_body ?q, N : hd 0 ?q <> 33 |- _ => exact (proj1 (EB q _ S) N eq_refl) end.
        -- exfalso. match goal with S : set_body ?q |- _ => exact (proj2 (EB q _ S) eq_refl) end.
  - rewrite toks_one by discriminate. split.
    + intros (x & s' & -> & HF & H). cbn [fits] in HF. apply Z.eqb_eq in HF as <-. apply m_char; try assumption. now apply IHp.
    + intro H. inversion H; subst; try congruence. eexists _, _. split; [reflexivity|]. split; [apply Z.eqb_refl|now apply IHp].
Qed.

Lemma glob_iff p s : glob p s = true <-> Matches p s.
Proof. unfold glob. apply (translate_matches (length p)); lia. Qed.
Lemma fnmatches_matched s ps : fnmatches s ps = true <-> matched_by ps s.
Proof.
  unfold fnmatches, matched_by. rewrite existsb_exists. split.
  - intros (p & H1 & H2). exists p. split; [exact H1|]. destruct p; [discriminate|]. split; [discriminate|now apply glob_iff].
  - intros (p & H1 & H2 & H3). exists p. split; [exact H1|]. destruct p; [contradiction|]. now apply glob_iff.
Qed.

(** ** Simple patterns *)
Definition no_wild (p : str) : bool := forallb (fun c => negb (c =? 42) && negb (c =? 63) && negb (c =? 91)) p.
Lemma lit_matches p : no_wild p = true -> forall q s, Matches (p ++ q) s <-> exists s', s = p ++ s' /\ Matches q s'.
Proof.
  induction p as [|c p IH]; intros H q s; cbn [app].
  - split; [intro M; now exists s|]. now intros (s' & -> & M).
  - unfold no_wild in H. cbn [forallb] in H. apply andb_prop in H as [H1 H2]. specialize (IH H2 q). split.
    + intro M. inversion M; subst; try (exfalso; lia). match goal with X : Matches (p ++ q) _ |- _ => apply IH in X as (s' & -> & X) end. now exists s'.
    + intros (s' & -> & M). apply m_char; try lia. apply IH. eauto.
Qed.
Lemma glob_lit p : no_wild p = true -> forall s, glob p s = true <-> s = p.
Proof.
  intros H s. rewrite glob_iff, <- (app_nil_r p) at 1. rewrite (lit_matches p H). split.
  - intros (s' & -> & M). inversion M; subst. apply app_nil_r.
  - intros ->. exists []. split; [now rewrite app_nil_r|constructor].
Qed.
Lemma glob_star p : no_wild p = true -> forall s, glob (42 :: p) s = true <-> exists x, s = x ++ p.
Proof.
  intros H s. rewrite glob_iff, matches_star. split.
  - intros (a & b & -> & M). apply glob_iff, (glob_lit p H) in M as ->. eauto.
  - intros (x & ->). exists x, p. split; [reflexivity|]. now apply glob_iff, (glob_lit p H).
Qed.
Lemma glob_prefix p : no_wild p = true -> forall s, glob (p ++ [42]) s = true <-> exists x, s = p ++ x.
Proof.
  intros H s. rewrite glob_iff, (lit_matches p H). split.
  - intros (s' & -> & _). eauto.
  - intros (x & ->). exists x. split; [reflexivity|]. apply matches_star. exists x, []. split; [now rewrite app_nil_r|constructor].
Qed.

(** What the page says of each member: the events, the code tables, the tables of
    values. *)
From Verif Require Import Base Pack_Model ConstPool_Model ClassFile_Model Descr_Model Opcodes_Model Opcodes_Spec Opcodes_Proofs Anno_Model
  Change_Model Change_Spec Change_Proofs Change_Report Classdiff_Model Classdiff_Spec Classdiff_Members Classdiff_Merge Info_Model Print_Model Print_Code Report_Model
  Html_Model Html_Spec Html_Table Html_Page.
From Coq Require Import Permutation Sorting.Sorted.

(** ** Events *)
Section Events.
Variable fmt : pyval -> str.
Lemma idents_in p ms ks m : idents fmt p ms ks -> In m ms -> exists k, get_identifier fmt p m = Ok k /\ In k ks.
Proof. induction 1 as [|a k ms ks Hk H IH]; [intros []|]. intros [<-|HI]; [exists k; split; [exact Hk|now left]|]. destruct (IH HI) as (k' & ? & ?). exists k'. split; [assumption|now right]. Qed.
Lemma distinct_same p ms a b : distinct_ids fmt p ms -> In a ms -> In b ms ->
  (exists x y, get_identifier fmt p a = Ok x /\ get_identifier fmt p b = Ok y /\ pyeq x y) -> a = b.
Proof.
  intros (ks & HK & HD) Ha Hb (x & y & Ex & Ey & E). revert HD. induction HK as [|m k ms ks Hk HK IH]; [destruct Ha|]. intro HD. apply FOP_inv in HD as [D1 D2].
  destruct Ha as [->|Ha], Hb as [->|Hb]; [reflexivity| | |now apply IH]; exfalso.
  - destruct (idents_in _ _ _ _ HK Hb) as (k' & E' & HI). rewrite Forall_forall in D1. apply (D1 _ HI). congruence.
  - destruct (idents_in _ _ _ _ HK Ha) as (k' & E' & HI). rewrite Forall_forall in D1. apply (D1 _ HI). apply pyeq_sym. congruence.
Qed.

Lemma right_event r : forall ev, In r (rights ev) -> In (MAdded r) ev \/ exists l, In (MChanged l r) ev.
Proof.
  induction ev as [|[x|x|x y] ev IH]; cbn; [intros []| | |].
  - intros [->|H]; [left; now left|]. destruct (IH H) as [?|(l & ?)]; [left; now right|right; exists l; now right].
  - intro H. destruct (IH H) as [?|(l & ?)]; [left; now right|right; exists l; now right].
  - intros [->|H]; [right; exists x; now left|]. destruct (IH H) as [?|(l & ?)]; [left; now right|right; exists l; now right].
Qed.
Lemma left_event l : forall ev, In l (lefts ev) -> In (MRemoved l) ev \/ exists r, In (MChanged l r) ev.
Proof.
  induction ev as [|[x|x|x y] ev IH]; cbn; [intros []| | |].
  - intro H. destruct (IH H) as [?|(r & ?)]; [left; now right|right; exists r; now right].
  - intros [->|H]; [left; now left|]. destruct (IH H) as [?|(r & ?)]; [left; now right|right; exists r; now right].
  - intros [->|H]; [right; exists y; now left|]. destruct (IH H) as [?|(r & ?)]; [left; now right|right; exists r; now right].
Qed.
Lemma changed_sides a b : forall ev, In (MChanged a b) ev -> In a (lefts ev) /\ In b (rights ev).
Proof. induction ev as [|[x|x|x y] ev IH]; cbn; [intros []| | |]; (intros [H|H]; [try discriminate H|destruct (IH H); split; try assumption; now right]). injection H as <- <-. split; now left. Qed.

Lemma pair_event lp rp ls rs ev a b : collect_members fmt lp rp ls rs = Ok ev -> distinct_ids fmt lp ls -> distinct_ids fmt rp rs ->
  In a ls -> In b rs -> same_identity fmt lp rp a b -> In (MChanged a b) ev.
Proof.
  intros H DL DR Ha Hb S. destruct (collect_members_facts _ _ _ _ _ _ H) as (F1 & _ & F3 & _ & F5). pose proof (collect_members_complete _ _ _ _ _ _ H DL) as FP.
  rewrite <- F1 in Hb. destruct (right_event _ _ Hb) as [HE|(a' & HE)]; [exfalso; exact (F5 DR _ _ HE Ha S)|].
  destruct (changed_sides _ _ _ HE) as [HL _]. apply (Permutation_in _ FP) in HL. pose proof (F3 _ _ HE) as (x & y & X & Y & XY). destruct S as (x' & y' & X' & Y' & XY').
  replace a with a'; [exact HE|]. apply (distinct_same lp ls); [exact DL|exact HL|exact Ha|]. exists x, x'. repeat split; try assumption. assert (y = y') by congruence. subst y'. apply (pyeq_trans _ y); [exact XY|now apply pyeq_sym].
Qed.
Lemma added_event lp rp ls rs ev b : collect_members fmt lp rp ls rs = Ok ev -> distinct_ids fmt lp ls -> In b rs -> (forall a, In a ls -> ~ same_identity fmt lp rp a b) -> In (MAdded b) ev.
Proof.
  intros H DL Hb N. destruct (collect_members_facts _ _ _ _ _ _ H) as (F1 & _ & F3 & _). pose proof (collect_members_complete _ _ _ _ _ _ H DL) as FP.
  rewrite <- F1 in Hb. destruct (right_event _ _ Hb) as [HE|(a' & HE)]; [exact HE|]. destruct (changed_sides _ _ _ HE) as [HL _]. apply (Permutation_in _ FP) in HL. exfalso. exact (N _ HL (F3 _ _ HE)).
Qed.
Lemma removed_event lp rp ls rs ev a : collect_members fmt lp rp ls rs = Ok ev -> distinct_ids fmt lp ls -> In a ls -> (forall b, In b rs -> ~ same_identity fmt lp rp a b) -> In (MRemoved a) ev.
Proof.
  intros H DL Ha N. destruct (collect_members_facts _ _ _ _ _ _ H) as (F1 & _ & F3 & _). pose proof (collect_members_complete _ _ _ _ _ _ H DL) as FP.
  apply (Permutation_in _ (Permutation_sym FP)) in Ha. destruct (left_event _ _ Ha) as [HE|(b & HE)]; [exact HE|]. destruct (changed_sides _ _ _ HE) as [_ HR]. rewrite F1 in HR. exfalso. exact (N _ HR (F3 _ _ HE)).
Qed.
End Events.

(** ** Sorting by relative line *)
Lemma insert_perm {V} (x : Z * V) l : Permutation (insert_line x l) (x :: l).
Proof. induction l as [|y l IH]; cbn [insert_line]; [reflexivity|]. destruct (fst x <=? fst y); [reflexivity|]. rewrite IH. apply perm_swap. Qed.
Lemma sort_perm {V} (l : list (Z * V)) : Permutation (sort_lines l) l.
Proof. induction l as [|x l IH]; [reflexivity|]. cbn [sort_lines fold_right]. fold (sort_lines l). rewrite insert_perm. now constructor. Qed.
Lemma insert_sorted {V} (x : Z * V) l : ~ In (fst x) (map fst l) -> StronglySorted (fun a b => fst a < fst b) l -> StronglySorted (fun a b => fst a < fst b) (insert_line x l).
Proof.
  intros N H. induction H as [|y l H IH HF]; cbn [insert_line].
  - constructor; constructor.
  - cbn [map fst] in N. destruct (Z.leb_spec (fst x) (fst y)) as [L|L].
    + assert (fst x < fst y) by (assert (fst x <> fst y) by (intro; apply N; left; congruence); lia).
      constructor; [now constructor|]. constructor; [assumption|]. eapply Forall_impl; [|exact HF]. cbn. intros; lia.
    + constructor; [apply IH; intro; apply N; now right|]. apply Forall_forall. intros z Hz. apply (Permutation_in _ (insert_perm x l)) in Hz. destruct Hz as [<-|Hz]; [lia|]. rewrite Forall_forall in HF. now apply HF.
Qed.
Lemma sort_sorted {V} (l : list (Z * V)) : NoDup (map fst l) -> StronglySorted (fun a b => fst a < fst b) (sort_lines l).
Proof.
  induction l as [|x l IH]; [constructor|]. cbn [map]. intro H. inversion H as [|? ? H1 H2]; subst. cbn [sort_lines fold_right]. fold (sort_lines l). apply insert_sorted; [|now apply IH].
  intro HI. apply H1. eapply Permutation_in; [|exact HI]. apply Permutation_map, sort_perm.
Qed.

(** ** Tables without code *)
Definition block (n : nat) (ts : list html) (grid : list (list str)) : Prop :=
  existsb (starts "table") ts = false /\ exists rows,
  (forall rest, read_rows (ts ++ rest) None None = rows ++ read_rows rest None None) /\ form (repeat None n) rows = Some (grid, repeat None n).
Lemma block_nil n : block n [] [].
Proof. split; [reflexivity|]. exists []. split; reflexivity. Qed.
Lemma block_app n a b g h : block n a g -> block n b h -> block n (a ++ b) (g ++ h).
Proof.
  intros (T1 & r1 & R1 & F1) (T2 & r2 & R2 & F2). split; [rewrite existsb_app, T1, T2; reflexivity|]. exists (r1 ++ r2). split.
  - intro rest. rewrite <- app_assoc, R1, R2, app_assoc. reflexivity.
  - rewrite form_app, F1, F2. reflexivity.
Qed.
Lemma block_table n a ts g : block n ts g -> shows_table (el "table" a ts) n g.
Proof.
  intros (T & r & R & F). exists ts. split.
  - exists a. split; [apply within_refl|exact T].
  - unfold reads_as. specialize (R []). rewrite app_nil_r in R. cbn [read_rows end_row] in R. rewrite app_nil_r in R. rewrite R. exact F.
Qed.
Lemma block_changed label mark old new : block 2 (row_changed label mark old new) [[lit label; old]; [lit label; new]].
Proof. split; [destruct mark; reflexivity|]. exists [[(1%nat, 2%nat, lit label); (1%nat, 1%nat, old)]; [(1%nat, 1%nat, new)]]. split; [intro rest; destruct mark; reflexivity|reflexivity]. Qed.
Lemma block_same label old : block 2 (row_same label old) [[lit label; old]].
Proof. split; [reflexivity|]. exists [[(1%nat, 1%nat, lit label); (1%nat, 1%nat, old)]]. split; reflexivity. Qed.
Lemma block_open label old : block 2 (row_same_open label old) [[lit label; old]].
Proof. split; [reflexivity|]. exists [[(1%nat, 1%nat, lit label); (1%nat, 1%nat, old)]]. split; reflexivity. Qed.
Lemma shows_within h page n g : within h page -> shows_table h n g -> shows_table page n g.
Proof. intros W (body & (a & W' & T) & R). exists body. split; [|exact R]. exists a. split; [|exact T]. eapply within_trans; [exact W'|exact W]. Qed.
Lemma heading_within h page s : within h page -> shows_heading h s -> shows_heading page s.
Proof. intros W H. eapply within_trans; [exact H|exact W]. Qed.

Lemma escape_is s : xml_entity_escape s = esc s.
Proof.
  unfold xml_entity_escape, replace_char, esc. induction s as [|c s IH]; [reflexivity|]. cbn [flat_map]. rewrite <- IH, !flat_map_app. f_equal.
  destruct (Z.eqb_spec c 38) as [->|]; [reflexivity|]. cbn [flat_map app]. destruct (Z.eqb_spec c 62) as [->|]; [reflexivity|]. cbn [flat_map app]. destruct (c =? 60); reflexivity.
Qed.
Lemma hex_is z : hexpad 4 z = hex_digits z.
Proof.
  unfold hex_digits. cbn [hexpad map app]. unfold hexdigit. cbn zeta.
  replace (z / 16 ^ 3) with (z / 16 / 16 / 16) by (rewrite !Z.div_div by lia; reflexivity).
  replace (z / 16 ^ 2) with (z / 16 / 16) by (rewrite !Z.div_div by lia; reflexivity).
  replace (z / 16 ^ 1) with (z / 16) by reflexivity.
  replace (z / 16 ^ 0) with z by (symmetry; apply Z.div_1_r). reflexivity.
Qed.

(** ** The code of a method *)
Lemma groups_usual k ll dl g : code_lines (Some k) = Ok ll -> disassemble_all (k_code k) = Ok dl -> forallb usual_code dl = true -> In g ll -> forallb usual_code (snd g) = true.
Proof.
  intros H D U HI. destruct (code_lines_all _ _ H) as (dis & D1 & D2). rewrite D in D1. injection D1 as <-. apply forallb_forall. intros x Hx. rewrite forallb_forall in U. apply U. rewrite <- D2.
  apply in_concat. exists (snd g). split; [now apply in_map|exact Hx].
Qed.
Definition usual_codes (c : option code) : Prop := forall k dl, c = Some k -> disassemble_all (k_code k) = Ok dl -> forallb usual_code dl = true.
Lemma last_usual c ll rel : code_lines c = Ok ll -> usual_codes c -> usual_group (last_group rel ll) = true.
Proof.
  intros H U. destruct (last_group rel ll) as [g|] eqn:E; [|reflexivity]. apply last_group_some in E. destruct c as [k|]; [|cbn [code_lines] in H; injection H as <-; destruct E].
  destruct (code_lines_all _ _ H) as (dis & D & _). exact (groups_usual _ _ _ _ H D (U k dis eq_refl D) E).
Qed.
(** The lines of both sides *)
Definition merges (ll rl : list (Z * Z * list insn)) (d : merged) : Prop :=
  StronglySorted (fun x y => fst x < fst y) d /\
  forall rel g h, In (rel, (g, h)) d <-> g = last_group rel ll /\ h = last_group rel rl /\ (g <> None \/ h <> None).
Lemma code_dual o c lc rc h : method_code_html o c lc rc = Ok h -> is_change c = true \/ code_bytes lc <> code_bytes rc -> usual_codes lc -> usual_codes rc ->
  exists ll rl d, code_lines lc = Ok ll /\ code_lines rc = Ok rl /\ merges ll rl d /\ shows_table h 9 (dual_grid_head ++ flat_map line_grid d).
Proof.
  intros H HC UL UR. unfold method_code_html in H. replace (is_change c || negb (seqb (code_bytes lc) (code_bytes rc))) with true in H.
  2:{ symmetry. apply orb_true_iff. destruct HC as [HC|HC]; [now left|right]. destruct (seqb (code_bytes lc) (code_bytes rc)) eqn:E; [apply seqb_eq in E; congruence|reflexivity]. }
  unfold code_rows in H. destruct (merge_code lc rc) as [d|] eqn:EM; [|discriminate]. cbn [rbind] in H. destruct (mapM group_rows (sort_lines d)) as [rs|] eqn:ER; [|discriminate]. cbn [rbind] in H.
  destruct (merge_code_exact _ _ _ EM) as (ll & rl & El & Er & ND & HG). exists ll, rl, (sort_lines d). split; [exact El|]. split; [exact Er|].
  assert (HIn : forall rel g h0, In (rel, (g, h0)) (sort_lines d) <-> g = last_group rel ll /\ h0 = last_group rel rl /\ (g <> None \/ h0 <> None)).
  { intros rel g h0. transitivity (In (rel, (g, h0)) d).
    - split; apply Permutation_in; [apply sort_perm|symmetry; apply sort_perm].
    - rewrite <- (zget_in d rel (g, h0) ND), HG. destruct (last_group rel ll) as [x|], (last_group rel rl) as [y|]; split.
      all: try (intro X; injection X as <- <-; repeat split; try reflexivity; (left; discriminate) || (right; discriminate)).
      all: try (intros (-> & -> & _); reflexivity). discriminate. intros (-> & -> & [X|X]); congruence. }
  split; [split; [now apply sort_sorted|exact HIn]|].
  apply within_change_div in H. eapply shows_within; [eapply within_trans; [|exact H]; apply within_r, within_details|]. exists (dual_head ++ rows_html (concat rs)). split.
  - exists []. split; [apply within_refl|]. rewrite existsb_app, no_table_rows. reflexivity.
  - unfold reads_as. rewrite dual_head_form, (groups_form (sort_lines d) rs); [reflexivity| |exact ER]. apply Forall_forall. intros [rel [g h0]] HI. apply HIn in HI as (-> & -> & _). cbn [fst snd].
    split; eapply last_usual; eassumption.
Qed.
Lemma code_single o c k rc h ll : method_code_html o c (Some k) rc = Ok h -> is_change c = false -> k_code k = code_bytes rc -> usual_codes (Some k) -> code_lines (Some k) = Ok ll ->
  shows_table h 5 (single_grid_head ++ flat_map single_grid ll).
Proof.
  intros H HC HB U HL. unfold method_code_html in H. rewrite HC in H. cbn [code_bytes] in H. rewrite HB, seqb_refl in H. cbn [orb negb] in H. unfold single_code_rows in H.
  cbn [code_lines] in HL. destruct (get_linenumbertable k) as [t|] eqn:ET; [|discriminate]. cbn [rbind] in H, HL. rewrite HL in H. cbn [rbind] in H.
  match type of H with context [mapM ?f ll] => destruct (mapM f ll) as [rs|] eqn:ER; [|discriminate] end. cbn [rbind] in H.
  apply within_change_div in H. eapply shows_within; [eapply within_trans; [|exact H]; apply within_r, within_details|]. exists (single_head ++ rows_html (concat rs)). split.
  - exists []. split; [apply within_refl|]. rewrite existsb_app, no_table_rows. reflexivity.
  - unfold reads_as. rewrite single_head_form. assert (UL : forall g, In g ll -> forallb usual_code (snd g) = true).
    { intros g HI. assert (EL : code_lines (Some k) = Ok ll) by (cbn [code_lines]; rewrite ET; exact HL). destruct (code_lines_all _ _ EL) as (dis & D & _). exact (groups_usual _ _ _ _ EL D (U k dis eq_refl D) HI). }
    assert (F : form (repeat None 5) (map (map triple) (concat rs)) = Some (flat_map single_grid ll, repeat None 5)).
    { clear -ER UL. revert rs ER. induction ll as [|g ll IH]; intros rs ER; cbn [mapM] in ER; [injection ER as <-; reflexivity|].
      destruct g as [[abs rel] dis]. destruct (single_rows rel abs (length dis) true dis) as [r0|] eqn:E0; [|discriminate]. cbn [rbind] in ER.
      match type of ER with context [mapM ?f ll] => destruct (mapM f ll) as [rest|] eqn:EM; [|discriminate] end. cbn [rbind] in ER. injection ER as <-. cbn [concat flat_map].
      rewrite map_app, form_app, (single_group_form (abs, rel, dis) r0 (UL _ (or_introl eq_refl)) E0), (IH (fun g HI => UL g (or_intror HI)) rest eq_refl). reflexivity. }
    rewrite F. reflexivity.
Qed.

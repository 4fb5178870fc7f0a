(** The constant pool on the page. *)
From Verif Require Import Base Pack_Model ConstPool_Model ConstPool_Spec ClassFile_Model Descr_Model Opcodes_Model Opcodes_Spec Anno_Model
  Change_Model Change_Spec Change_Proofs Change_Report Classdiff_Model Classdiff_Spec Classdiff_Members Classdiff_Code Classdiff_Class Classdiff_Merge Info_Model Print_Model Print_Spec Print_Code Print_List Report_Model
  Html_Model Html_Spec Html_Table Html_Page Html_Members Html_Values.

Section Pool.
Variable reprs : str -> str.
Variable ffmt : pyval -> str.
Notation ct := (const_text reprs (fun b => ffmt (PF32 b)) (fun b => ffmt (PF64 b))).

Lemma entry_stands k a : pretty_entry reprs ffmt (shown_const k) = Ok a ->
  exists v, a = Some (fst (ct k), v) /\ str_pretty v = snd (ct k) /\ dynamic k = false /\
  match k with JInteger z | JModule z | JPackage z => v = PNum z | _ => exists s, v = PText s end.
Proof.
  destruct k; intro H; try (vm_compute in H; discriminate H); apply ok_inj in H; subst a; (eexists; split; [reflexivity|]; split; [reflexivity|]; split; [reflexivity|]; try (eexists; reflexivity); reflexivity).
Qed.
Lemma at_stands l p i a : pool_shows l p -> 1 <= i -> shows_at reprs ffmt p i a ->
  match jat l i with
  | None => a = None
  | Some k => exists v, a = Some (fst (ct k), v) /\ str_pretty v = snd (ct k) /\
                match k with JInteger z | JModule z | JPackage z => v = PNum z | _ => exists s, v = PText s end
  end.
Proof.
  intros [HL HG] Hi H. unfold shows_at in H. rewrite HL in H. specialize (HG i ltac:(lia)). unfold pretty_const in H. destruct (Z.ltb_spec i (1 + jslots l)) as [LT|GE].
  - destruct (jat l i) as [k|]; rewrite HG in H; cbn [rbind] in H.
    + apply entry_stands in H as (v & E & V & _ & K). now exists v.
    + cbn [pretty_entry] in H. now injection H as <-.
  - destruct (jat l i) as [k|] eqn:EJ; [|exact H]. exfalso. clear -EJ GE. unfold jat in EJ. revert EJ GE. generalize 1. induction l as [|c l IH]; intros b EJ GE; [discriminate|]. cbn [jat_from jslots] in *.
    assert (W : 1 <= jwidth c) by (unfold jwidth; destruct (jwide c); lia). assert (SN : forall m, 0 <= jslots m) by (clear; induction m as [|c m IHm]; cbn [jslots]; [lia|]; unfold jwidth; destruct (jwide c); lia). specialize (SN l).
    destruct (Z.eqb_spec i b); [lia|]. apply (IH _ EJ). lia.
Qed.

Lemma shown_same l r lp rp i a b : pool_shows l lp -> pool_shows r rp -> 1 <= i -> shows_at reprs ffmt lp i a -> shows_at reprs ffmt rp i b ->
  shown_eqb a b = looks_same ct (jat l i) (jat r i).
Proof.
  intros PL PR Hi SA SB. pose proof (at_stands _ _ _ _ PL Hi SA) as HA. pose proof (at_stands _ _ _ _ PR Hi SB) as HB.
  destruct (jat l i) as [k|]; [destruct HA as (v & -> & V & K)|subst a]; (destruct (jat r i) as [k'|]; [destruct HB as (v' & -> & V' & K')|subst b]); cbn [shown_eqb looks_same]; try reflexivity.
  destruct (seqb (fst (ct k)) (fst (ct k'))) eqn:E; [|reflexivity]. cbn [andb]. rewrite <- V, <- V'.
  assert (T : forall x y : Z, (x =? y) = seqb (dec x) (dec y)).
  { intros x y. destruct (Z.eqb_spec x y) as [->|N]; [symmetry; apply seqb_refl|]. destruct (seqb (dec x) (dec y)) eqn:D; [|reflexivity]. apply seqb_eq in D. now apply dec_inj in D. }
  destruct k; destruct k'; try (vm_compute in E; discriminate E); repeat match goal with K : exists s, _ = PText s |- _ => destruct K as [? ->] | K : _ = PNum _ |- _ => rewrite K end; cbn [pretty_val_eqb str_pretty]; auto.
Qed.
Lemma shown_cells l p i a : pool_shows l p -> 1 <= i -> shows_at reprs ffmt p i a -> (forall k, jat l i = Some k -> zero_const k = false) ->
  [type_or_blank a; xml_entity_escape (value_or_blank a)] = const_cells ct (jat l i).
Proof.
  intros PL Hi SA Z0. pose proof (at_stands _ _ _ _ PL Hi SA) as HA. rewrite escape_is. destruct (jat l i) as [k|]; [|subst a; reflexivity]. specialize (Z0 k eq_refl).
  destruct HA as (v & -> & V & K). cbn [type_or_blank const_cells]. f_equal. f_equal. f_equal. rewrite <- V. destruct k; cbn [zero_const] in Z0; try (destruct K as [? ->]; reflexivity); cbv iota beta in K; subst v; cbn [value_or_blank str_pretty]; now rewrite Z0.
Qed.

(** Rows, of which the last may still be open *)
Definition shown_row (e : merge_entry) : list str :=
  let '(i, a, b) := e in
  dec i :: [type_or_blank a; xml_entity_escape (value_or_blank a)] ++ (if shown_eqb a b then blanks 2 else [type_or_blank b; xml_entity_escape (value_or_blank b)]).
Definition one (s : str) : gcell := (1%nat, 1%nat, s).
Lemma read_td kind s ts row : read_rows (const_td kind s ++ ts) (Some row) None = read_rows ts (Some (row ++ [one s])) None.
Proof. reflexivity. Qed.
Lemma read_empty kind ts row : read_rows (el "td" (class_is kind) [] ++ ts) (Some row) None = read_rows ts (Some (row ++ [one []])) None.
Proof. reflexivity. Qed.
Lemma read_tr ts row : read_rows (Open (lit "tr") [] :: ts) row None = end_row row None ++ read_rows ts (Some []) None.
Proof. reflexivity. Qed.
Lemma read_end ts row : read_rows (Close (lit "tr") :: ts) (Some row) None = row :: read_rows ts None None.
Proof. reflexivity. Qed.
Lemma read_ths l : forall ts row, read_rows (flat_map th l ++ ts) (Some row) None = read_rows ts (Some (row ++ map one (map lit l))) None.
Proof.
  induction l as [|x l IH]; intros ts row; [cbn [flat_map map]; now rewrite app_nil_r|]. cbn [flat_map map]. rewrite <- app_assoc.
  transitivity (read_rows (flat_map th l ++ ts) (Some (row ++ [one (lit x)])) None); [reflexivity|]. rewrite IH, <- app_assoc. reflexivity.
Qed.
Lemma read_thead l ts : read_rows (el "thead" [] (th_row (flat_map th l)) ++ ts) None None = map one (map lit l) :: read_rows ts None None.
Proof.
  transitivity (read_rows (flat_map th l ++ Close (lit "tr") :: Close (lit "thead") :: ts) (Some []) None).
  - unfold th_row, el. rewrite <- !app_comm_cons, <- !app_assoc. reflexivity.
  - rewrite read_ths. reflexivity.
Qed.
Lemma read_dual es : forall row, read_rows (flat_map dual_const_row es) row None = end_row row None ++ map (fun e => map one (shown_row e)) es.
Proof.
  induction es as [|[[i a] b] es IH]; intro row; [cbn [flat_map map read_rows]; now rewrite app_nil_r|].
  cbn [flat_map map]. unfold dual_const_row at 1. unfold shown_row at 1. rewrite <- app_comm_cons, read_tr. f_equal. rewrite <- !app_assoc, !read_td. destruct (shown_eqb a b).
  - rewrite <- !app_assoc, !read_empty, IH. reflexivity.
  - rewrite <- !app_assoc, !read_td. cbn [app]. rewrite read_end, IH. reflexivity.
Qed.
Lemma form_plain n rows : Forall (fun r : list str => length r = n) rows -> form (repeat None n) (map (map one) rows) = Some (rows, repeat None n).
Proof.
  assert (R : forall r, form_row (repeat None (length r)) (O, O, []) (map one r) = Some (r, repeat None (length r))).
  { induction r as [|s r IH]; [reflexivity|]. cbn [length repeat map one form_row]. rewrite form_wide0, IH. reflexivity. }
  induction rows as [|r rows IH]; intro H; [reflexivity|]. inversion H as [|? ? H1 H2]; subst. cbn [map form]. rewrite R, IH by assumption. reflexivity.
Qed.
Lemma shown_row_length e : length (shown_row e) = 5%nat.
Proof. destruct e as [[i a] b]. unfold shown_row. destruct (shown_eqb a b); reflexivity. Qed.
Lemma no_table_dual es : existsb (starts "table") (flat_map dual_const_row es) = false.
Proof. induction es as [|[[i a] b] es IH]; [reflexivity|]. cbn [flat_map]. rewrite existsb_app, IH. unfold dual_const_row. destruct (shown_eqb a b); reflexivity. Qed.

Lemma pool_dual o c l r h : pool_html reprs ffmt o c l r = Ok h -> is_change c = true ->
  exists es, pretty_merge_constants reprs ffmt (c_pool l) (c_pool r) = Ok es /\ shows_table h 5 (dual_const_head :: map shown_row es).
Proof.
  intros H C. unfold pool_html in H. rewrite C in H. destruct (pretty_merge_constants reprs ffmt (c_pool l) (c_pool r)) as [es|] eqn:E; [|discriminate]. cbn [rbind] in H. destruct (subreport_head c) as [hd|]; [|discriminate]. cbn [rbind] in H. exists es. split; [reflexivity|].
  apply within_change_div in H. eapply shows_within; [eapply within_trans; [|exact H]; apply within_r, within_details|].
  eexists. split; [eexists; split; [apply within_refl|]|].
  - rewrite existsb_app, no_table_dual. reflexivity.
  - unfold reads_as. replace (read_rows _ None None) with (map (map one) (dual_const_head :: map shown_row es)).
    + apply form_plain. constructor; [reflexivity|]. apply Forall_forall. intros x HX. apply in_map_iff in HX as (e & <- & _). apply shown_row_length.
    + symmetry. rewrite read_thead, read_dual. cbn [map end_row app]. rewrite map_map. reflexivity.
Qed.

Lemma count_zrange n : forall i, count_up i n = zrange i (i + Z.of_nat n).
Proof.
  induction n as [|n IH]; intro i; [cbn [count_up]; symmetry; apply zrange_nil; lia|]. cbn [count_up]. rewrite IH. unfold zrange.
  replace (Z.to_nat (i + Z.of_nat (S n) - i)) with (S n) by lia. replace (Z.to_nat (i + 1 + Z.of_nat n - (i + 1))) with n by lia. cbn [seq map]. rewrite <- seq_shift, map_map. f_equal; [lia|]. apply map_ext. intro k. lia.
Qed.

(** What is shown of two pools *)
Definition no_zero (l : list jconst) : Prop := forall i k, jat l i = Some k -> zero_const k = false.
Lemma entry_row l r lp rp e : pool_shows l lp -> pool_shows r rp -> no_zero l -> no_zero r -> 1 <= e_index e ->
  shows_at reprs ffmt lp (e_index e) (snd (fst e)) -> shows_at reprs ffmt rp (e_index e) (snd e) -> shown_row e = const_row ct l r (e_index e).
Proof.
  intros PL PR ZL ZR Hi SA SB. destruct e as [[i a] b]. cbn [e_index fst snd] in *. unfold shown_row, const_row. rewrite (shown_same _ _ _ _ _ _ _ PL PR Hi SA SB).
  rewrite (shown_cells _ _ _ _ PL Hi SA) by (intros; eapply ZL; eassumption). rewrite (shown_cells _ _ _ _ PR Hi SB) by (intros; eapply ZR; eassumption). reflexivity.
Qed.
Lemma pool_page o c l r h jl jr : pool_html reprs ffmt o c l r = Ok h -> is_change c = true -> pool_shows jl (c_pool l) -> pool_shows jr (c_pool r) -> no_zero jl -> no_zero jr ->
  exists rows, shows_table h 5 (dual_const_head :: rows) /\
  (forall i, 1 <= i <= Z.max (jslots jl) (jslots jr) -> In (const_row ct jl jr i) rows) /\
  (jslots jl = jslots jr -> rows = map (const_row ct jl jr) (count_up 1 (Z.to_nat (jslots jl)))).
Proof.
  intros H C PL PR ZL ZR. destruct (pool_dual _ _ _ _ _ H C) as (es & E & T). exists (map shown_row es). split; [exact T|]. pose proof (proj1 PL) as LL. pose proof (proj1 PR) as LR. split.
  - intros i Hi. destruct (merge_constants_cover _ _ _ _ _ E) as (G & _ & _). destruct (G i ltac:(lia)) as (pre & e & post & -> & Ei & _ & SA & SB). apply in_map_iff. exists e. split; [|apply in_app_iff; right; now left].
    subst i. apply (entry_row _ _ _ _ _ PL PR ZL ZR (proj1 Hi) SA SB).
  - intro EQ. destruct (merge_constants_exact _ _ _ _ _ E) as (bs & rest & -> & B1 & B2 & R1 & _). rewrite LL, LR, EQ, Z.eqb_refl in R1. apply map_eq_nil in R1 as ->. rewrite app_nil_r.
    rewrite LL, LR, EQ, Z.min_id in B1. rewrite EQ. rewrite count_zrange. rewrite Z2Nat.id by (rewrite <- EQ; clear; induction jl as [|k jl IH]; cbn [jslots]; [lia|]; unfold jwidth; destruct (jwide k); lia).
    rewrite <- B1, map_map. apply map_ext_in. intros e HE. rewrite Forall_forall in B2. destruct (B2 e HE) as [SA SB]. apply (entry_row _ _ _ _ _ PL PR ZL ZR); try assumption. assert (HI : In (e_index e) (zrange 1 (1 + jslots jr))) by (rewrite <- B1; now apply in_map). apply zrange_in in HI. lia.
Qed.

(** The pool alone *)
Lemma pool_rows_block jl : forall i rs, pool_rows reprs ffmt (concat (map expand jl)) i = Ok rs -> block 3 rs (const_rows ct i jl).
Proof.
  induction jl as [|k jl IH]; intros i rs H; [cbn in H; injection H as <-; apply block_nil|].
  cbn [map concat] in H. unfold expand at 1 in H. cbn [app pool_rows] in H. destruct (pretty_entry reprs ffmt (shown_const k)) as [x|] eqn:E; [|discriminate]. cbn [rbind] in H.
  apply entry_stands in E as (v & -> & V & _ & _). cbn [const_rows].
  assert (G : exists t, pool_rows reprs ffmt (concat (map expand jl)) (i + jwidth k) = Ok t /\ rs = el "tr" [] (const_td "const-index" (dec i) ++ const_td "const-type" (fst (ct k)) ++ const_td "const-value" (xml_entity_escape (str_pretty v))) ++ t).
  { destruct (Z.eqb_spec (jwidth k) 2) as [W|W]; cbn [app pool_rows pretty_entry rbind] in H.
    - rewrite W. replace (i + 2) with (i + 1 + 1) by lia. destruct (pool_rows reprs ffmt (concat (map expand jl)) (i + 1 + 1)) as [t|]; [|discriminate]. cbn [rbind] in H. apply ok_inj in H. now exists t.
    - replace (jwidth k) with 1 by (revert W; unfold jwidth; destruct (jwide k); [lia|reflexivity]). destruct (pool_rows reprs ffmt (concat (map expand jl)) (i + 1)) as [t|]; [|discriminate]. cbn [rbind] in H. apply ok_inj in H. now exists t. }
  destruct G as (t & G & ->). change ((dec i :: const_cells ct (Some k)) :: const_rows ct (i + jwidth k) jl) with ([dec i :: const_cells ct (Some k)] ++ const_rows ct (i + jwidth k) jl). apply block_app; [|now apply IH].
  rewrite V, escape_is. split; [reflexivity|]. exists [map one (dec i :: const_cells ct (Some k))]. split; [reflexivity|]. apply (form_plain 3 [dec i :: const_cells ct (Some k)]). constructor; [reflexivity|constructor].
Qed.
Lemma pool_alone o c l r h jl : pool_html reprs ffmt o c l r = Ok h -> is_change c = false -> pool_shows jl (c_pool l) ->
  shows_table h 3 (const_head :: const_rows ct 1 jl).
Proof.
  intros H C PL. unfold pool_html in H. rewrite C in H. rewrite (pool_list _ _ PL) in H. destruct (pool_rows _ _ _ 1) as [rs|] eqn:E; [|discriminate]. cbn [rbind] in H. destruct (subreport_head c) as [hd|]; [|discriminate]. cbn [rbind] in H. apply pool_rows_block in E.
  apply within_change_div in H. eapply shows_within; [eapply within_trans; [|exact H]; apply within_r, within_details|]. apply block_table.
  change (const_head :: const_rows ct 1 jl) with ([const_head] ++ const_rows ct 1 jl). apply block_app; [|exact E].
  split; [reflexivity|]. exists [map one const_head]. split; reflexivity.
Qed.
End Pool.

(** The tables of code: how they are read and formed. *)
From Verif Require Import Base Pack_Model ConstPool_Model ClassFile_Model Descr_Model Opcodes_Model Opcodes_Spec Opcodes_Proofs Anno_Model
  Change_Model Classdiff_Model Info_Model Print_Model Print_Code Report_Model Html_Model Html_Spec.

(** ** Reading *)
Definition triple (c : cell) : gcell := (cl_cols c, cl_rows c, cl_text c).
Lemma number_dec n : number (dec (Z.of_nat n)) = n.
Proof. destruct (dec_nat (Z.of_nat n)) as (V & _); [lia|]. unfold number. unfold value in V. rewrite V. apply Nat2Z.id. Qed.
Lemma spans_col c r : spans "colspan" (span "colspan" c ++ span "rowspan" r) = c.
Proof.
  unfold span. destruct c as [|[|c]]; [reflexivity| |].
  - destruct r as [|[|r]]; reflexivity.
  - cbn [app]. unfold spans. cbn [find fst]. change (seqb (lit "colspan") (lit "colspan")) with true. cbn [snd]. apply number_dec.
Qed.
Lemma spans_row c r : spans "rowspan" (span "colspan" c ++ span "rowspan" r) = r.
Proof.
  unfold span. destruct c as [|[|c]], r as [|[|r]]; try reflexivity; cbn [app]; unfold spans; cbn [find fst];
    change (seqb (lit "colspan") (lit "rowspan")) with false; change (seqb (lit "rowspan") (lit "rowspan")) with true; cbn [snd]; try reflexivity; apply number_dec.
Qed.
Lemma read_cell c ts row : read_rows (cell_html c ++ ts) (Some row) None = read_rows ts (Some (row ++ [triple c])) None.
Proof.
  unfold cell_html, el, txt. cbn [app read_rows]. change (is_row (lit "td")) with false. change (is_cell (lit "td")) with true.
  rewrite spans_col, spans_row. reflexivity.
Qed.
Lemma read_cells cs : forall ts row, read_rows (flat_map cell_html cs ++ ts) (Some row) None = read_rows ts (Some (row ++ map triple cs)) None.
Proof.
  induction cs as [|c cs IH]; intros ts row; cbn [flat_map map]; [now rewrite app_nil_r|]. rewrite <- app_assoc, read_cell, IH, <- app_assoc. reflexivity.
Qed.
Lemma read_rows_html rs : forall ts, read_rows (rows_html rs ++ ts) None None = map (map triple) rs ++ read_rows ts None None.
Proof.
  unfold rows_html, el. induction rs as [|r rs IH]; intro ts; cbn [flat_map map]; [reflexivity|]. cbn [app]. rewrite <- !app_assoc. cbn [read_rows app]. change (is_row (lit "tr")) with true. cbv iota. cbn [end_row app].
  rewrite read_cells. cbn [read_rows app]. change (is_row (lit "tr")) with true. cbv iota. cbn [end_row end_cell app]. f_equal. apply IH.
Qed.
Lemma no_table_cells cs : existsb (starts "table") (flat_map cell_html cs) = false.
Proof. induction cs as [|c cs IH]; [reflexivity|]. cbn [flat_map]. rewrite existsb_app, IH. reflexivity. Qed.
Lemma no_table_rows rs : existsb (starts "table") (rows_html rs) = false.
Proof.
  unfold rows_html. induction rs as [|r rs IH]; [reflexivity|]. cbn [flat_map]. rewrite existsb_app, IH, orb_false_r. unfold el. cbn [existsb]. rewrite existsb_app, no_table_cells. reflexivity.
Qed.

(** ** Forming *)
Lemma form_app rows1 : forall cols rows2, form cols (rows1 ++ rows2) =
  match form cols rows1 with
  | Some (g, q) => match form q rows2 with Some (g', q') => Some (g ++ g', q') | None => None end
  | None => None
  end.
Proof.
  induction rows1 as [|r rows1 IH]; intros cols rows2; cbn [app form].
  - destruct (form cols rows2) as [[g q]|]; reflexivity.
  - destruct (form_row cols _ r) as [[x q]|]; [|reflexivity]. rewrite IH. destruct (form q rows1) as [[g q']|]; [|reflexivity]. destruct (form q' rows2) as [[g' q'']|]; reflexivity.
Qed.

Lemma insn_cells_row i cs : usual_code i = true -> insn_cells i = Ok cs ->
  exists a b c, op_row i = [a; b; c] /\ map triple cs = [(1%nat, 1%nat, a); (1%nat, 1%nat, b); (1%nat, 1%nat, c)].
Proof.
  unfold usual_code. intros U H. apply andb_prop in U as [U1 U2]. unfold insn_cells in H.
  rewrite names_jvm in H by lia. unfold op_row. destruct (jvm_name (i_code i)) as [n|]; [|discriminate]. cbn [rbind] in H.
  unfold args_text in H. rewrite const_jvm in H by lia. destruct (jvm_const (i_code i)) as [k|]; [|discriminate]. cbn [rbind] in H. destruct k.
  - destruct (i_args i) as [[|x l]| |]; try discriminate. cbn [rbind] in H. injection H as <-. eexists _, _, _. split; reflexivity.
  - cbn [rbind] in H. injection H as <-. eexists _, _, _. split; [reflexivity|]. cbn [map triple cl_cols cl_rows cl_text]. destruct (i_args i); reflexivity.
Qed.

(** One instruction into three free columns *)
Lemma form_three a b c cols cells : form_row (None :: None :: None :: cols) (O, O, []) ((1%nat, 1%nat, a) :: (1%nat, 1%nat, b) :: (1%nat, 1%nat, c) :: cells) =
  match form_row cols (O, O, []) cells with Some (r, q) => Some (a :: b :: c :: r, None :: None :: None :: q) | None => None end.
Proof.
  cbn [form_row]. assert (E : forall r t, form_row cols (O, r, t) cells = form_row cols (O, O, []) cells).
  { clear. induction cols as [|[[n x]|] cols IH]; intros r t; cbn [form_row]; try reflexivity. now rewrite IH. }
  rewrite E. destruct (form_row cols (O, O, []) cells) as [[r q]|]; reflexivity.
Qed.
Lemma form_wide0 cols : forall cells r t, form_row cols (O, r, t) cells = form_row cols (O, O, []) cells.
Proof. induction cols as [|[[n x]|] cols IH]; intros cells r t; cbn [form_row]; try reflexivity. now rewrite IH. Qed.

Lemma triple_mk a b c : triple (mkcell a b c) = (a, b, c).
Proof. reflexivity. Qed.
Lemma map_nth {A} (f : A -> list str) l d : map f l = map (fun i => match nth_error l i with Some x => f x | None => d end) (seq 0 (length l)).
Proof. induction l as [|x l IH]; [reflexivity|]. cbn [map length seq nth_error]. f_equal. rewrite <- seq_shift, map_map. exact IH. Qed.

Ltac by_form H := match goal with |- context [form ?a ?b] => let E := fresh in pose proof H as E; match type of E with _ = ?v => replace (form a b) with v by (symmetry; exact E) end; clear E end.

Section Lines.
Variable rel lline rline : Z.
Variable rowspan lastrow : nat.

Notation blank := (@nil Z).
(** the left side alone, when the right side is blank *)
Lemma rows_left l : forall rt rows, forallb usual_code l = true ->
  line_rows rel rowspan lastrow false true lline rline (zip_longest l []) = Ok rows ->
  form [covers (length l) (dec rel); covers (length l) (dec lline); None; None; None; covers (length l) rt; covers (length l) blank; covers (length l) blank; covers (length l) blank]
       (map (map triple) rows) =
  Some (map (fun i => dec rel :: dec lline :: op_row i ++ rt :: blanks 3) l, repeat None 9).
Proof.
  induction l as [|i l IH]; intros rt rows U H; cbn [zip_longest line_rows] in H.
  - injection H as <-. reflexivity.
  - cbn [forallb] in U. apply andb_prop in U as [U1 U2]. cbn [side_cells] in H. destruct (insn_cells i) as [cs|] eqn:E; [|discriminate]. cbn [rbind fst snd app] in H.
    destruct (line_rows _ _ _ _ _ _ _ (zip_longest l [])) as [rest|] eqn:R; [|discriminate]. cbn [rbind] in H. injection H as <-. rewrite app_nil_r.
    destruct (insn_cells_row _ _ U1 E) as (a & b & c & ER & EC). cbn [map]. rewrite EC, ER. cbn [length covers form].
    cbn [form_row covers Nat.sub]. fold (covers (length l)). by_form (IH rt _ U2 eq_refl). reflexivity.
Qed.
Lemma rows_right r : forall lt rows, forallb usual_code r = true ->
  line_rows rel rowspan lastrow false true lline rline (zip_longest [] r) = Ok rows ->
  form [covers (length r) (dec rel); covers (length r) lt; covers (length r) blank; covers (length r) blank; covers (length r) blank; covers (length r) (dec rline); None; None; None]
       (map (map triple) rows) =
  Some (map (fun i => dec rel :: lt :: blanks 3 ++ dec rline :: op_row i) r, repeat None 9).
Proof.
  induction r as [|i r IH]; intros lt rows U H; cbn [zip_longest line_rows] in H.
  - injection H as <-. reflexivity.
  - cbn [forallb] in U. apply andb_prop in U as [U1 U2]. cbn [side_cells rbind fst snd app] in H. destruct (insn_cells i) as [cs|] eqn:E; [|discriminate]. cbn [rbind fst snd app] in H.
    assert (EZ : (fix right (r : list insn) : list (option insn * option insn) := match r with [] => [] | y :: r' => (None, Some y) :: right r' end) r = zip_longest [] r) by (clear; induction r as [|y r IH]; [reflexivity|]; cbn; f_equal; destruct r; reflexivity).
    rewrite EZ in H.
    destruct (line_rows _ _ _ _ _ _ _ (zip_longest [] r)) as [rest|] eqn:R; [|discriminate]. cbn [rbind] in H. injection H as <-.
    destruct (insn_cells_row _ _ U1 E) as (a & b & c & ER & EC). cbn [map]. rewrite EC, ER. cbn [length covers form].
    cbn [form_row covers Nat.sub]. fold (covers (length r)). by_form (IH lt _ U2 eq_refl). reflexivity.
Qed.

(** both sides, after the first row *)
Lemma rows_both l : forall r rows, forallb usual_code l = true -> forallb usual_code r = true ->
  lastrow = (Nat.max (length l) (length r) - Nat.min (length l) (length r))%nat ->
  line_rows rel rowspan lastrow false false lline rline (zip_longest l r) = Ok rows ->
  let k := Nat.max (length l) (length r) in
  form [covers k (dec rel); covers k (dec lline); None; None; None; covers k (dec rline); None; None; None] (map (map triple) rows) =
  Some (map (fun i => dec rel :: (dec lline :: match nth_error l i with Some x => op_row x | None => blanks 3 end) ++
                                 (dec rline :: match nth_error r i with Some x => op_row x | None => blanks 3 end)) (seq 0 k), repeat None 9).
Proof.
  induction l as [|i l IH]; intros [|j r] rows U V EL H.
  - injection H as <-. reflexivity.
  - cbn [length Nat.max Nat.min Nat.sub] in EL. cbn [zip_longest line_rows side_cells rbind fst snd app] in H. cbn [forallb] in V. apply andb_prop in V as [V1 V2].
    destruct (insn_cells j) as [cs|] eqn:E; [|discriminate]. cbn [rbind fst snd app] in H.
    assert (EZ : (fix right (r : list insn) : list (option insn * option insn) := match r with [] => [] | y :: r' => (None, Some y) :: right r' end) r = zip_longest [] r) by (clear; induction r as [|y r IH]; [reflexivity|]; cbn; f_equal; destruct r; reflexivity).
    rewrite EZ in H. destruct (line_rows _ _ _ _ _ _ _ (zip_longest [] r)) as [rest|] eqn:R; [|discriminate]. cbn [rbind] in H. injection H as <-.
    destruct (insn_cells_row _ _ V1 E) as (a & b & c & ER & EC). cbn [map]. rewrite EC. cbn [length Nat.max seq map nth_error triple cl_cols cl_rows cl_text]. rewrite ER. cbn [covers form].
    rewrite EL, triple_mk. cbn [form_row covers Nat.sub]. rewrite !Nat.sub_0_r. fold (covers (length r)). pose proof (rows_right r (dec lline) rest V2 R) as HR. by_form HR. cbn [app blanks repeat]. do 3 f_equal.
    rewrite <- seq_shift, map_map, (map_nth _ r (dec rel :: dec lline :: blanks 3 ++ dec rline :: blanks 3)). apply map_ext. intro n. cbn [nth_error]. destruct (nth_error r n); destruct n; reflexivity.
  - clear IH. cbn [length Nat.max Nat.min Nat.sub] in EL. cbn [zip_longest line_rows side_cells] in H. cbn [forallb] in U. apply andb_prop in U as [U1 U2].
    destruct (insn_cells i) as [cs|] eqn:E; [|discriminate]. cbn [rbind fst snd app] in H.
    destruct (line_rows _ _ _ _ _ _ _ (zip_longest l [])) as [rest|] eqn:R; [|discriminate]. cbn [rbind] in H. injection H as <-.
    destruct (insn_cells_row _ _ U1 E) as (a & b & c & ER & EC). cbn [map]. rewrite map_app, EC. cbn [length Nat.max seq map nth_error triple cl_cols cl_rows cl_text]. rewrite ER. cbn [covers form].
    rewrite EL, triple_mk. cbn [app form_row covers Nat.sub]. rewrite !Nat.sub_0_r. fold (covers (length l)). pose proof (rows_left l (dec rline) rest U2 R) as HR. by_form HR. cbn [app blanks repeat]. do 3 f_equal.
    rewrite <- seq_shift, map_map, (map_nth _ l (dec rel :: dec lline :: blanks 3 ++ dec rline :: blanks 3)). apply map_ext. intro n. cbn [nth_error]. destruct (nth_error l n); destruct n; reflexivity.
  - cbn [length Nat.max Nat.min Nat.sub] in EL. cbn [zip_longest line_rows side_cells] in H. cbn [forallb] in U, V. apply andb_prop in U as [U1 U2]. apply andb_prop in V as [V1 V2].
    destruct (insn_cells i) as [cs|] eqn:E; [|discriminate]. destruct (insn_cells j) as [ds|] eqn:F; [|discriminate]. cbn [rbind fst snd app] in H.
    destruct (line_rows _ _ _ _ _ _ _ (zip_longest l r)) as [rest|] eqn:R; [|discriminate]. cbn [rbind] in H. injection H as <-.
    destruct (insn_cells_row _ _ U1 E) as (a & b & c & ER & EC). destruct (insn_cells_row _ _ V1 F) as (a' & b' & c' & FR & FC).
    cbn [map]. rewrite map_app, EC, FC. cbn [length Nat.max seq map nth_error]. rewrite ER, FR. cbn [app covers form form_row Nat.sub].
    fold (covers (Nat.max (length l) (length r))). specialize (IH r rest U2 V2 EL R). cbn zeta in IH. by_form IH. do 3 f_equal. rewrite <- seq_shift, map_map. reflexivity.
Qed.
End Lines.

(** ** The rows of a relative line *)
Definition usual_group (g : option group) : bool := forallb usual_code (group_dis g).
Lemma side_size_dis g : side_size g = length (group_dis g).
Proof. destruct g as [[? ?]|]; reflexivity. Qed.
Lemma group_form e rows : usual_group (fst (snd e)) = true -> usual_group (snd (snd e)) = true -> group_rows e = Ok rows ->
  form (repeat None 9) (map (map triple) rows) = Some (line_grid e, repeat None 9).
Proof.
  destruct e as [rel [l r]]. unfold usual_group. cbn [fst snd]. intros U V H. unfold group_rows in H. unfold line_grid. rewrite !side_size_dis.
  assert (SL : forall i, side_row l i = match group_dis l with [] => blanks 4 | is => dec (group_line l) :: match nth_error is i with Some x => op_row x | None => blanks 3 end end) by (intro i; destruct l as [[? [|? ?]]|]; reflexivity).
  assert (SR : forall i, side_row r i = match group_dis r with [] => blanks 4 | is => dec (group_line r) :: match nth_error is i with Some x => op_row x | None => blanks 3 end end) by (intro i; destruct r as [[? [|? ?]]|]; reflexivity).
  set (shown g i := match group_dis g with [] => blanks 4 | is => dec (group_line g) :: match nth_error is i with Some x => op_row x | None => blanks 3 end end) in *.
  replace (map (fun i => dec rel :: side_row l i ++ side_row r i) (seq 0 (Nat.max (length (group_dis l)) (length (group_dis r)))))
    with (map (fun i => dec rel :: shown l i ++ shown r i) (seq 0 (Nat.max (length (group_dis l)) (length (group_dis r))))) by (apply map_ext; intro i; now rewrite SL, SR).
  unfold shown. clear SL SR shown.
  destruct (group_dis l) as [|i ls]; destruct (group_dis r) as [|j rs]; cbn [zip_longest line_rows] in H; cbn [length Nat.max Nat.min Nat.sub] in H.
  - injection H as <-. reflexivity.
  - cbn [forallb] in V. apply andb_prop in V as [V1 V2]. cbn [side_cells rbind fst snd app] in H. destruct (insn_cells j) as [cs|] eqn:E; [|discriminate]. cbn [rbind fst snd app] in H.
    assert (EZ : (fix right (r : list insn) : list (option insn * option insn) := match r with [] => [] | y :: r' => (None, Some y) :: right r' end) rs = zip_longest [] rs) by (clear; induction rs as [|y r IH]; [reflexivity|]; cbn; f_equal; destruct r; reflexivity).
    rewrite EZ in H. destruct (line_rows _ _ _ _ _ _ _ (zip_longest [] rs)) as [rest|] eqn:R; [|discriminate]. cbn [rbind] in H. injection H as <-.
    destruct (insn_cells_row _ _ V1 E) as (a & b & c & ER & EC). cbn [map]. rewrite EC, !triple_mk. cbn [length Nat.max seq map nth_error]. rewrite ER. cbn [repeat form form_row covers Nat.sub].
    rewrite !Nat.sub_0_r. fold (covers (length rs)). pose proof (rows_right rel (group_line l) (group_line r) (S (length rs)) (S (length rs)) rs [] rest V2 R) as HR. by_form HR. cbn [app blanks repeat]. do 3 f_equal.
    rewrite <- seq_shift, map_map, (map_nth _ rs (dec rel :: [] :: blanks 3 ++ dec (group_line r) :: blanks 3)). apply map_ext. intro n. cbn [nth_error]. destruct (nth_error rs n); reflexivity.
  - cbn [forallb] in U. apply andb_prop in U as [U1 U2]. cbn [side_cells] in H. destruct (insn_cells i) as [cs|] eqn:E; [|discriminate]. cbn [rbind fst snd app] in H.
    destruct (line_rows _ _ _ _ _ _ _ (zip_longest ls [])) as [rest|] eqn:R; [|discriminate]. cbn [rbind] in H. injection H as <-.
    destruct (insn_cells_row _ _ U1 E) as (a & b & c & ER & EC). cbn [map]. rewrite map_app, EC. cbn [map]. rewrite !triple_mk. cbn [length Nat.max seq map nth_error]. rewrite ER. cbn [app repeat form form_row covers Nat.sub].
    rewrite !Nat.sub_0_r. fold (covers (length ls)). pose proof (rows_left rel (group_line l) (group_line r) (S (length ls)) (S (length ls)) ls [] rest U2 R) as HR. by_form HR. cbn [app blanks repeat]. do 3 f_equal.
    rewrite <- seq_shift, map_map, (map_nth _ ls (dec rel :: dec (group_line l) :: blanks 3 ++ [] :: blanks 3)). apply map_ext. intro n. cbn [nth_error]. destruct (nth_error ls n); reflexivity.
  - cbn [forallb] in U, V. apply andb_prop in U as [U1 U2]. apply andb_prop in V as [V1 V2]. cbn [side_cells] in H.
    destruct (insn_cells i) as [cs|] eqn:E; [|discriminate]. destruct (insn_cells j) as [ds|] eqn:F; [|discriminate]. cbn [rbind fst snd app] in H.
    destruct (line_rows _ _ _ _ _ _ _ (zip_longest ls rs)) as [rest|] eqn:R; [|discriminate]. cbn [rbind] in H. injection H as <-.
    destruct (insn_cells_row _ _ U1 E) as (a & b & c & ER & EC). destruct (insn_cells_row _ _ V1 F) as (a' & b' & c' & FR & FC).
    cbn [map]. rewrite map_app, EC. cbn [map]. rewrite FC, !triple_mk. cbn [length Nat.max seq map nth_error]. rewrite ER, FR. cbn [app repeat covers form form_row Nat.sub].
    fold (covers (Nat.max (length ls) (length rs))). pose proof (rows_both rel (group_line l) (group_line r) _ _ ls rs rest U2 V2 eq_refl R) as HB. cbn zeta in HB. by_form HB. do 3 f_equal. rewrite <- seq_shift, map_map. reflexivity.
Qed.

Lemma groups_form d rs : Forall (fun e => usual_group (fst (snd e)) = true /\ usual_group (snd (snd e)) = true) d -> mapM group_rows d = Ok rs ->
  form (repeat None 9) (map (map triple) (concat rs)) = Some (flat_map line_grid d, repeat None 9).
Proof.
  intro U. revert rs. induction U as [|e d [U1 U2] U IH]; intros rs H; cbn [mapM] in H.
  - injection H as <-. reflexivity.
  - destruct (group_rows e) as [r|] eqn:E; [|discriminate]. cbn [rbind] in H. destruct (mapM group_rows d) as [rest|]; [|discriminate]. cbn [rbind] in H. injection H as <-.
    cbn [concat flat_map]. rewrite map_app, form_app, (group_form _ _ U1 U2 E), (IH _ eq_refl). reflexivity.
Qed.

(** The whole table *)
Lemma dual_head_form rs : form (repeat None 9) (read_rows (dual_head ++ rows_html rs) None None) =
  match form (repeat None 9) (map (map triple) rs) with Some (g, q) => Some (dual_grid_head ++ g, q) | None => None end.
Proof.
  rewrite <- (app_nil_r (rows_html rs)).
  assert (E : read_rows (dual_head ++ rows_html rs ++ []) None None = read_rows dual_head None None ++ read_rows (rows_html rs ++ []) None None) by reflexivity.
  rewrite E, read_rows_html, form_app. cbn [read_rows end_row]. rewrite app_nil_r.
  assert (EH : form (repeat None 9) (read_rows dual_head None None) = Some (dual_grid_head, repeat None 9)) by (vm_compute; reflexivity).
  rewrite EH. reflexivity.
Qed.
Lemma single_form rel abs n is : forall rows, forallb usual_code is = true -> single_rows rel abs n false is = Ok rows ->
  form [covers (length is) (dec rel); covers (length is) (dec abs); None; None; None] (map (map triple) rows) =
  Some (map (fun i => dec rel :: dec abs :: op_row i) is, repeat None 5).
Proof.
  induction is as [|i is IH]; intros rows U H; cbn [single_rows] in H.
  - injection H as <-. reflexivity.
  - cbn [forallb] in U. apply andb_prop in U as [U1 U2]. destruct (insn_cells i) as [cs|] eqn:E; [|discriminate]. cbn [rbind] in H.
    destruct (single_rows _ _ _ _ is) as [rest|]; [|discriminate]. cbn [rbind app] in H. injection H as <-.
    destruct (insn_cells_row _ _ U1 E) as (a & b & c & ER & EC). cbn [map]. rewrite EC, ER. cbn [length covers form form_row Nat.sub].
    fold (covers (length is)). by_form (IH _ U2 eq_refl). reflexivity.
Qed.
Lemma single_group_form g rows : forallb usual_code (snd g) = true ->
  (let '(abs, rel, dis) := g in single_rows rel abs (length dis) true dis) = Ok rows ->
  form (repeat None 5) (map (map triple) rows) = Some (single_grid g, repeat None 5).
Proof.
  destruct g as [[abs rel] is]. cbn [snd]. intros U H. unfold single_grid. destruct is as [|i is]; cbn [single_rows] in H.
  - injection H as <-. reflexivity.
  - cbn [forallb] in U. apply andb_prop in U as [U1 U2]. destruct (insn_cells i) as [cs|] eqn:E; [|discriminate]. cbn [rbind] in H.
    destruct (single_rows _ _ _ _ is) as [rest|] eqn:R; [|discriminate]. cbn [rbind app] in H. injection H as <-.
    destruct (insn_cells_row _ _ U1 E) as (a & b & c & ER & EC). cbn [map]. rewrite EC, ER, !triple_mk. cbn [length repeat covers form form_row Nat.sub].
    fold (covers (length is)). by_form (single_form _ _ _ _ _ U2 R). reflexivity.
Qed.
Lemma single_head_form rs : form (repeat None 5) (read_rows (single_head ++ rows_html rs) None None) =
  match form (repeat None 5) (map (map triple) rs) with Some (g, q) => Some (single_grid_head ++ g, q) | None => None end.
Proof.
  rewrite <- (app_nil_r (rows_html rs)).
  assert (E : read_rows (single_head ++ rows_html rs ++ []) None None = read_rows single_head None None ++ read_rows (rows_html rs ++ []) None None) by reflexivity.
  rewrite E, read_rows_html, form_app. cbn [read_rows end_row]. rewrite app_nil_r.
  assert (EH : form (repeat None 5) (read_rows single_head None None) = Some (single_grid_head, repeat None 5)) by (vm_compute; reflexivity).
  rewrite EH. reflexivity.
Qed.

(** Proofs about descriptors, pretty types, platforms and line tables. *)
From Verif Require Import Base Opcodes_Model Opcodes_Spec Opcodes_Proofs Descr_Model Descr_Spec.
From Coq Require Import Sorting.Sorted.

(** ** Splitting *)
Lemma split_after_app c a b : ~ In c a -> split_after c (a ++ c :: b) = Some (a ++ [c], b).
Proof.
  induction a as [|x a IH]; intro H; cbn [app split_after].
  - now rewrite Z.eqb_refl.
  - destruct (Z.eqb_spec x c) as [->|_]; [exfalso; apply H; now left|].
    rewrite IH; [reflexivity|]. intro Hin. apply H. now right.
Qed.
Lemma split_after_eq c s a b : split_after c s = Some (a, b) -> s = a ++ b /\ a <> [].
Proof.
  revert a b. induction s as [|x s IH]; intros a b H; cbn [split_after] in H; [discriminate|].
  destruct (x =? c); [injection H as <- <-; split; [reflexivity|discriminate]|].
  destruct (split_after c s) as [[a' b']|]; [|discriminate]. injection H as <- <-.
  destruct (IH a' b' eq_refl) as [-> _]. split; [reflexivity|discriminate].
Qed.

Lemma name_char_not c n : forallb name_char n = true -> (c = 46 \/ c = 59 \/ c = 91) -> ~ In c n.
Proof.
  intros H Hc Hin. rewrite forallb_forall in H. specialize (H c Hin). unfold name_char in H. lia.
Qed.

Lemma next_argsig_desc t rest : jtype_ok t = true -> next_argsig (desc t ++ rest) = Ok (desc t, rest).
Proof.
  induction t as [p|n|t IH]; intro H.
  - destruct p; reflexivity.
  - cbn [desc app next_argsig]. cbn [jtype_ok] in H.
    assert (Hn : forallb name_char n = true) by (destruct n; [discriminate|exact H]).
    change (is_prim_char 76) with false. cbn beta iota. change (76 =? 91) with false.
    change (76 =? 76) with true. cbn beta iota. unfold find_split.
    rewrite <- app_assoc. cbn [app]. change (76 :: n ++ 59 :: rest) with ((76 :: n) ++ 59 :: rest).
    rewrite split_after_app; [reflexivity|].
    intros [E|Hin]; [discriminate|]. apply (name_char_not 59 n); auto.
  - cbn [desc app next_argsig]. change (is_prim_char 91) with false. change (91 =? 91) with true.
    cbn beta iota. rewrite IH by exact H. reflexivity.
Qed.

Lemma desc_nonempty t : desc t <> [].
Proof. destruct t; discriminate. Qed.

Lemma typeseq_descs ts : forall fuel rest rs, (length (concat (map desc ts) ++ rest) < fuel)%nat ->
  forallb jtype_ok ts = true ->
  (forall fu, (length rest < fu)%nat -> typeseq_f fu rest = Ok rs) ->
  typeseq_f fuel (concat (map desc ts) ++ rest) = Ok (map desc ts ++ rs).
Proof.
  induction ts as [|t ts IH]; intros fuel rest rs Hf Hok Hr.
  - cbn in *. now apply Hr.
  - cbn [forallb] in Hok. apply andb_prop in Hok as [Ht Hts].
    cbn [map concat]. rewrite <- app_assoc.
    destruct fuel as [|fu]; [cbn in Hf; lia|].
    cbn [map concat] in Hf. rewrite <- app_assoc in Hf.
    pose proof (desc_nonempty t) as HN. pose proof (next_argsig_desc t (concat (map desc ts) ++ rest) Ht) as HE.
    destruct (desc t ++ concat (map desc ts) ++ rest) as [|x l] eqn:E.
    { destruct (desc t); [contradiction|discriminate]. }
    cbn [typeseq_f]. rewrite HE. cbn [rbind fst snd].
    assert (HS : seqb (desc t) [] = false) by (apply seqb_neq; exact HN).
    rewrite HS, andb_false_r.
    rewrite IH with (rs := rs); [reflexivity| |exact Hts|exact Hr].
    cbn [length] in Hf. rewrite <- E in HE. clear HE. 
    assert (HL : length (x :: l) = length (desc t ++ concat (map desc ts) ++ rest)) by now rewrite E.
    rewrite app_length in HL. cbn [length] in HL.
    assert (0 < length (desc t))%nat by (destruct (desc t); [contradiction|cbn; lia]). lia.
Qed.

Lemma typeseq_fields ts : forallb jtype_ok ts = true -> typeseq (concat (map desc ts)) = Ok (map desc ts).
Proof.
  intro H. unfold typeseq. rewrite <- (app_nil_r (concat (map desc ts))) at 2.
  rewrite typeseq_descs with (rs := []).
  - now rewrite app_nil_r.
  - rewrite app_nil_r. lia.
  - exact H.
  - intros [|fu] _; reflexivity.
Qed.

Lemma no_paren_desc t : no_paren t = true -> ~ In 41 (desc t).
Proof.
  induction t as [p|n|t IH]; intro H; cbn [desc no_paren] in *.
  - destruct p; cbn; lia.
  - intros [E|Hin]; [discriminate|]. apply in_app_or in Hin as [Hin|[E|[]]]; [|discriminate].
    rewrite forallb_forall in H. specialize (H 41 Hin). discriminate.
  - intros [E|Hin]; [discriminate|]. now apply IH.
Qed.
Lemma no_paren_descs ts : forallb no_paren ts = true -> ~ In 41 (concat (map desc ts)).
Proof.
  induction ts as [|t ts IH]; intro H; [intros []|]. cbn [forallb] in H. apply andb_prop in H as [H1 H2].
  cbn [map concat]. intro Hin. apply in_app_or in Hin as [Hin|Hin].
  - now apply no_paren_desc in Hin.
  - now apply IH.
Qed.

Lemma typeseq_ret r : ret_ok r = true -> forall fu, (length (ret_desc r) < fu)%nat ->
  typeseq_f fu (ret_desc r) = Ok [ret_desc r].
Proof.
  intros H fu Hf. destruct r as [t|]; cbn [ret_ok] in H.
  - cbn [ret_desc] in *. pose proof (typeseq_descs [t] fu [] []) as HT. cbn [map concat] in HT.
    rewrite !app_nil_r in HT. apply HT; [exact Hf|cbn; now rewrite H|].
    intros [|?] _; reflexivity.
  - destruct fu as [|[|fu]]; [cbn in Hf; lia..|]. reflexivity.
Qed.

Lemma typeseq_method args r : forallb jtype_ok args = true -> forallb no_paren args = true ->
  ret_ok r = true ->
  typeseq (method_desc args r) = Ok [40 :: concat (map desc args) ++ [41]; ret_desc r].
Proof.
  intros Ha Hp Hr. unfold typeseq, method_desc.
  set (s := 40 :: concat (map desc args) ++ 41 :: ret_desc r).
  assert (EN : next_argsig s = Ok (40 :: concat (map desc args) ++ [41], ret_desc r)).
  { unfold s. cbn [next_argsig]. change (is_prim_char 40) with false. change (40 =? 91) with false.
    change (40 =? 76) with false. change (40 =? 40) with true. cbn beta iota. unfold find_split.
    change (40 :: concat (map desc args) ++ 41 :: ret_desc r)
      with ((40 :: concat (map desc args)) ++ 41 :: ret_desc r).
    rewrite split_after_app; [reflexivity|].
    intros [E|Hin]; [discriminate|]. now apply no_paren_descs in Hin. }
  remember (S (length s)) as fuel eqn:Hf. destruct fuel as [|fu]; [discriminate|].
  unfold s at 1. cbn [typeseq_f]. fold s. rewrite EN. cbn [rbind fst snd].
  rewrite andb_false_r. rewrite typeseq_ret; [reflexivity|exact Hr|].
  injection Hf as ->. unfold s. cbn [length]. rewrite app_length. cbn [length]. lia.
Qed.

Lemma strip_ends_cons c s d : strip_ends (c :: s ++ [d]) = s.
Proof. unfold strip_ends. cbn [tl]. apply removelast_last. Qed.

Lemma method_split args r : forallb jtype_ok args = true -> forallb no_paren args = true ->
  ret_ok r = true ->
  get_arg_type_descriptors true (method_desc args r) = Ok (map desc args) /\
  get_type_descriptor (method_desc args r) = Ok (ret_desc r).
Proof.
  intros Ha Hp Hr. unfold get_arg_type_descriptors, get_type_descriptor.
  rewrite typeseq_method by assumption. cbn [rbind py_first py_last rev app].
  rewrite strip_ends_cons. split; [now apply typeseq_fields|reflexivity].
Qed.

Lemma field_split t : jtype_ok t = true ->
  get_arg_type_descriptors false (desc t) = Ok [] /\ get_type_descriptor (desc t) = Ok (desc t).
Proof.
  intro H. split; [reflexivity|]. unfold get_type_descriptor.
  pose proof (typeseq_fields [t]) as E. cbn [map concat forallb] in E. rewrite app_nil_r, H in E.
  now rewrite E.
Qed.

(** ** Any string *)
Lemma find_split_eq c s : find_split c s = ([], s) \/ (s = fst (find_split c s) ++ snd (find_split c s)
  /\ fst (find_split c s) <> []).
Proof.
  unfold find_split. destruct (split_after c s) as [[a b]|] eqn:E; [right|now left].
  now apply split_after_eq in E.
Qed.

Lemma next_argsig_parts s : forall t r, next_argsig s = Ok (t, r) ->
  s = t ++ r \/ exists a b, s = a ++ 46 :: b /\ t = a ++ b /\ r = [] /\ forallb (Z.eqb 91) a = true.
Proof.
  induction s as [|c s IH]; intros t r H; cbn [next_argsig] in H; [discriminate|].
  destruct (is_prim_char c); [injection H as <- <-; now left|].
  destruct (Z.eqb_spec c 91) as [->|_].
  { destruct (next_argsig s) as [[t' r']|] eqn:E; cbn [rbind] in H; [|discriminate].
    injection H as <- <-. cbn [fst snd]. destruct (IH t' r' eq_refl) as [->|(a & b & -> & -> & -> & Ha)].
    - now left.
    - right. exists (91 :: a), b. auto. }
  assert (HF : forall d, find_split d (c :: s) = (t, r) -> c :: s = t ++ r).
  { intros d E. destruct (find_split_eq d (c :: s)) as [E'|[E' _]]; rewrite E in E'.
    - injection E' as -> ->. reflexivity.
    - exact E'. }
  destruct (c =? 76); [left; injection H as H; eapply HF; exact H|].
  destruct (c =? 40); [left; injection H as H; eapply HF; exact H|].
  destruct (Z.eqb_spec c 46) as [->|_]; [|discriminate].
  injection H as <- <-. right. exists [], s. auto.
Qed.

Lemma next_argsig_err s e : next_argsig s = Err e -> e = IndexError \/ e = Unimplemented.
Proof.
  induction s as [|c s IH]; intro H; cbn [next_argsig] in H; [injection H as <-; auto|].
  destruct (is_prim_char c); [discriminate|].
  destruct (c =? 91).
  { destruct (next_argsig s) as [r|x] eqn:E; cbn [rbind] in H; [discriminate|]. injection H as <-. auto. }
  destruct (c =? 76); [discriminate|]. destruct (c =? 40); [discriminate|].
  destruct (c =? 46); [discriminate|]. injection H as <-. auto.
Qed.

Lemma typeseq_outcome_f fuel : forall s, (length s < fuel)%nat ->
  match typeseq_f fuel s with
  | Ok ts => concat ts = s \/ exists a b, s = a ++ 46 :: b /\ concat ts = a ++ b
  | Err e => e = IndexError \/ e = Unimplemented
  end.
Proof.
  induction fuel as [|fu IH]; intros s Hf; [lia|].
  destruct s as [|c s]; [now left|]. cbn [typeseq_f].
  destruct (next_argsig (c :: s)) as [[t r]|e] eqn:E; cbn [rbind fst snd].
  2:{ now apply next_argsig_err in E. }
  destruct (seqb (c :: s) r && seqb t []) eqn:EB; [auto|].
  apply next_argsig_parts in E.
  assert (HL : (length r < fu)%nat).
  { destruct E as [E|(a & b & E & _ & -> & _)].
    - destruct t as [|x t].
      + cbn [app] in E. subst r. rewrite !seqb_refl in EB. discriminate.
      + pose proof (f_equal (@length Z) E) as EL. rewrite app_length in EL. cbn [length] in *. lia.
    - cbn [length] in *. lia. }
  specialize (IH r HL). destruct (typeseq_f fu r) as [ts|e]; cbn [rbind]; [|exact IH].
  cbn [concat]. destruct E as [E|(a & b & E & -> & -> & _)].
  - rewrite E. destruct IH as [->|(a & b & -> & ->)]; [now left|].
    right. exists (t ++ a), b. now rewrite <- !app_assoc.
  - right. exists a, b. split; [exact E|].
    destruct IH as [->|(a' & b' & H & _)]; [now rewrite app_nil_r|]. destruct a'; discriminate.
Qed.

Lemma typeseq_outcome s :
  match typeseq s with
  | Ok ts => concat ts = s \/ exists a b, s = a ++ 46 :: b /\ concat ts = a ++ b
  | Err e => e = IndexError \/ e = Unimplemented
  end.
Proof. apply typeseq_outcome_f. lia. Qed.

(** ** Pretty types *)
Lemma length_desc_pos t : (0 < length (desc t))%nat.
Proof. pose proof (desc_nonempty t). destruct (desc t); [contradiction|cbn; lia]. Qed.

Lemma repeat_snoc {A} (x : A) n : repeat x n ++ [x] = x :: repeat x n.
Proof. induction n as [|n IH]; [reflexivity|]. cbn. now rewrite IH. Qed.

Lemma concat_repeat_snoc (x : str) n : concat (repeat x n) ++ x = concat (repeat x (S n)).
Proof.
  induction n as [|n IH]; [cbn; now rewrite app_nil_r|].
  cbn [repeat concat]. rewrite <- app_assoc, IH. reflexivity.
Qed.

Lemma pretty_type_f_desc t : forall fuel, (length (desc t) < fuel)%nat ->
  pretty_type_f fuel (desc t) = Ok (type_name t).
Proof.
  induction t as [p|n|t IH]; intros [|fu] Hf; try (cbn in Hf; lia).
  - destruct p; reflexivity.
  - cbn [desc pretty_type_f]. cbn -[removelast app].
    rewrite removelast_last. unfold type_name. cbn. now rewrite app_nil_r.
  - cbn [desc pretty_type_f]. cbn [desc length] in Hf.
    cbn -[removelast app pretty_type_f]. rewrite IH by lia. cbn [rbind].
    unfold type_name. cbn [elem dims]. rewrite <- app_assoc. f_equal. f_equal.
    apply (concat_repeat_snoc (lit "[]")).
Qed.

Lemma pretty_desc t : pretty_type (desc t) = Ok (type_name t).
Proof. apply pretty_type_f_desc. lia. Qed.

Lemma pretty_ret r : pretty_type (ret_desc r) = Ok (ret_name r).
Proof. destruct r; [apply pretty_desc|reflexivity]. Qed.

Lemma mapM_pretty ts : mapM pretty_type (map desc ts) = Ok (map type_name ts).
Proof. induction ts as [|t ts IH]; [reflexivity|]. cbn [map mapM]. now rewrite pretty_desc, IH. Qed.

Lemma pretty_method args r : forallb jtype_ok args = true -> forallb no_paren args = true ->
  ret_ok r = true ->
  pretty_arg_types true (method_desc args r) = Ok (map type_name args) /\
  member_pretty_type (method_desc args r) = Ok (ret_name r).
Proof.
  intros Ha Hp Hr. destruct (method_split args r Ha Hp Hr) as [E1 E2].
  unfold pretty_arg_types, member_pretty_type. rewrite E1, E2. cbn [rbind].
  split; [apply mapM_pretty|apply pretty_ret].
Qed.

(** Injectivity *)
Lemma brackets_inj a b n m : ~ In 91 a -> ~ In 91 b ->
  a ++ concat (repeat (lit "[]") n) = b ++ concat (repeat (lit "[]") m) -> a = b /\ n = m.
Proof.
  revert b. induction a as [|x a IH]; intros b Ha Hb E.
  - destruct b as [|y b].
    + split; [reflexivity|]. cbn [app] in E.
      assert (HL : forall k, length (concat (repeat (lit "[]") k)) = (2 * k)%nat).
      { induction k as [|k IHk]; [reflexivity|]. cbn [repeat concat]. rewrite app_length, IHk. cbn. lia. }
      apply (f_equal (@length Z)) in E. rewrite !HL in E. lia.
    + exfalso. destruct n as [|n]; [discriminate|]. cbn in E. injection E as E _. apply Hb. left. congruence.
  - destruct b as [|y b].
    + exfalso. destruct m as [|m]; [discriminate|]. cbn in E. injection E as E _. apply Ha. now left.
    + cbn [app] in E. injection E as -> E.
      destruct (IH b) as [-> ->]; auto.
      * intro H. apply Ha. now right.
      * intro H. apply Hb. now right.
Qed.

Lemma elem_is_elem t : match elem t with TArr _ => False | _ => True end.
Proof. induction t; cbn; auto. Qed.
Lemma elem_ok t : jtype_ok (elem t) = jtype_ok t.
Proof. induction t; cbn; auto. Qed.
Lemma elem_kw t : no_keyword (elem t) = no_keyword t.
Proof. induction t; cbn; auto. Qed.
Lemma elem_dims t u : elem t = elem u -> dims t = dims u -> t = u.
Proof.
  revert u. induction t as [p|n|t IH]; intros [p'|n'|u]; cbn; try congruence.
  intros E D. injection D as D. f_equal. now apply IH.
Qed.

Lemma slash_dot_inj a b : ~ In 46 a -> ~ In 46 b ->
  map (fun c => if c =? 47 then 46 else c) a = map (fun c => if c =? 47 then 46 else c) b -> a = b.
Proof.
  revert b. induction a as [|x a IH]; intros [|y b] Ha Hb E; try discriminate; [reflexivity|].
  cbn [map] in E. injection E as E1 E2. f_equal.
  - destruct (Z.eqb_spec x 47), (Z.eqb_spec y 47); subst; try congruence.
    + exfalso. apply Hb. left. congruence.
    + exfalso. apply Ha. left. congruence.
  - apply IH; auto; intro H; [apply Ha|apply Hb]; now right.
Qed.

Lemma elem_name_nobr t : jtype_ok t = true -> match t with TArr _ => False | _ => True end ->
  ~ In 91 (elem_name t).
Proof.
  destruct t as [p|n|t]; intros H HA; [| |contradiction].
  - destruct p; cbn; lia.
  - cbn [elem_name]. intro Hin. apply in_map_iff in Hin as (c & E & Hc).
    destruct (Z.eqb_spec c 47); [discriminate|]. subst c.
    cbn [jtype_ok] in H. assert (Hn : forallb name_char n = true) by (destruct n; [discriminate|exact H]).
    eapply name_char_not in Hc; eauto.
Qed.

Lemma pretty_class_keyword n p : map (fun c => if c =? 47 then 46 else c) n = prim_name p ->
  ~ In 46 n -> keyword_name n = true.
Proof.
  intros E Hd.
  assert (Hn : n = prim_name p).
  { apply slash_dot_inj; [exact Hd|destruct p; cbn; lia|]. rewrite E. destruct p; reflexivity. }
  subst n. destruct p; reflexivity.
Qed.

Lemma type_name_inj t u : jtype_ok t = true -> jtype_ok u = true ->
  no_keyword t = true -> no_keyword u = true -> type_name t = type_name u -> t = u.
Proof.
  intros Ht Hu Kt Ku E. unfold type_name in E.
  rewrite <- elem_ok in Ht, Hu. rewrite <- elem_kw in Kt, Ku.
  pose proof (elem_is_elem t) as At. pose proof (elem_is_elem u) as Au.
  apply brackets_inj in E as [E D]; [|now apply elem_name_nobr..].
  apply elem_dims; [|exact D].
  assert (HD : forall n, class_name n = true -> ~ In 46 n).
  { intros n H. apply name_char_not with (n := n); [destruct n; [discriminate|exact H]|auto]. }
  destruct (elem t) as [p|n|], (elem u) as [q|m|]; try contradiction; cbn [elem_name jtype_ok no_keyword] in *.
  - f_equal. destruct p, q; try reflexivity; discriminate.
  - symmetry in E. apply pretty_class_keyword in E; [|now apply HD]. rewrite E in Ku. discriminate.
  - apply pretty_class_keyword in E; [|now apply HD]. rewrite E in Kt. discriminate.
  - f_equal. apply slash_dot_inj; auto.
Qed.

(** ** Platforms *)
Lemma platform_spec major minor :
  platform_from_version major minor =
    if (0 <=? minor) && (minor <? 65536) then
      if major =? 45 then Some (if minor <? 4 then lit "1.0.2" else lit "1.1")
      else if (46 <=? major) && (major <=? 52) then Some (lit "1." ++ [major - 44 + 48])
      else None
    else None.
Proof.
  unfold platform_from_version, platforms, pair_le. cbn [find fst snd].
  assert (HC : (minor < 0 \/ 65536 <= minor) \/ (0 <= minor < 4 \/ 4 <= minor < 65536)) by lia.
  assert (HM : (major < 45 \/ 52 < major) \/ major = 45 \/ major = 46 \/ major = 47 \/ major = 48
     \/ major = 49 \/ major = 50 \/ major = 51 \/ major = 52) by lia.
  destruct HC as [HC|[HC|HC]];
    repeat (destruct HM as [HM|HM]); try subst major;
    repeat match goal with |- context [if ?b then _ else _] =>
       first [replace b with true by lia | replace b with false by lia]; cbn beta iota end;
    reflexivity.
Qed.

(** ** Line tables *)
Lemma line_loop_covering t : forall o prev, increasing t ->
  (Forall (fun e => o < fst e) t -> line_loop t o prev = prev) /\
  (forall line, covering t o line -> line_loop t o prev = line).
Proof.
  induction t as [|[s l] t IH]; intros o prev Hinc; split.
  - reflexivity.
  - intros line (pre & s & post & E & _). destruct pre; discriminate.
  - intro HF. inversion HF; subst. cbn [fst] in *. cbn [line_loop].
    destruct (Z.ltb_spec s o); [lia|]. destruct (Z.eqb_spec s o); [lia|]. reflexivity.
  - intros line (pre & s' & post & E & Hs & HF).
    inversion Hinc as [|? ? Hinc' Hall]; subst.
    cbn [line_loop]. destruct pre as [|e pre].
    + cbn [app] in E. injection E as -> -> ->.
      destruct (Z.ltb_spec s' o); [now apply (proj1 (IH o line Hinc'))|]. destruct (Z.eqb_spec s' o); [reflexivity|lia].
    + cbn [app] in E. injection E as <- ->.
      assert (Hlt : s < s').
      { rewrite Forall_forall in Hall. apply (Hall (s', line)). apply in_or_app. right. now left. }
      destruct (Z.ltb_spec s o); [|lia].
      apply (proj2 (IH o l Hinc')). exists pre, s', post. auto.
Qed.

Lemma covering_total t o : increasing t -> Forall (fun e => o < fst e) t \/ exists line, covering t o line.
Proof.
  induction t as [|[s l] t IH]; intro Hinc; [left; constructor|].
  inversion Hinc as [|? ? Hinc' Hall]; subst.
  destruct (IH Hinc') as [HF|(line & pre & s' & post & -> & H1 & H2)].
  - destruct (Z.leb_spec s o).
    + right. exists l, [], s, t. auto.
    + left. constructor; [cbn; lia|exact HF].
  - right. exists line, ((s, l) :: pre), s', post. auto.
Qed.

Lemma line_lookup t o : increasing t ->
  (Forall (fun e => o < fst e) t /\ get_line_for_offset t o = 0) \/
  (exists line, covering t o line /\ get_line_for_offset t o = line /\
                forall line', covering t o line' -> line' = line).
Proof.
  intro H. destruct (covering_total t o H) as [HF|(line & HC)].
  - left. split; [exact HF|]. now apply (proj1 (line_loop_covering t o 0 H)).
  - right. exists line. split; [exact HC|].
    assert (HU : forall l', covering t o l' -> get_line_for_offset t o = l')
      by (intros l' Hl'; now apply (proj2 (line_loop_covering t o 0 H))).
    split; [now apply HU|]. intros l' Hl'. rewrite <- (HU l' Hl'). now apply HU.
Qed.

Lemma relative_spec t o l rest : t = (o, l) :: rest ->
  length (relative_lines t) = length t /\
  map fst (relative_lines t) = map fst t /\
  map (fun e => snd e + l) (relative_lines t) = map snd t /\
  forall x line, covering t x line -> covering (relative_lines t) x (line - l).
Proof.
  intros ->. cbn [relative_lines]. set (t := (o, l) :: rest).
  split; [apply map_length|]. split; [now rewrite map_map|]. split.
  - rewrite map_map. apply map_ext. intros [a b]. cbn. lia.
  - intros x line (pre & s & post & E & Hs & HF).
    exists (map (fun x => (fst x, snd x - l)) pre), s, (map (fun x => (fst x, snd x - l)) post).
    rewrite E at 1. rewrite map_app. split; [reflexivity|]. split; [exact Hs|].
    apply Forall_map. exact HF.
Qed.

(** ** Grouping *)
Lemma group_loop_spec t first dis : forall l g,
  g <> [] -> Forall (fun i => get_line_for_offset t (Z.of_nat (i_off i)) = l) g ->
  exists g' gs, group_loop t first dis (Some (l, g)) = (l, l - first, g') :: gs /\
  grouping (fun i => get_line_for_offset t (Z.of_nat (i_off i))) first (g ++ dis)
    (group_loop t first dis (Some (l, g))).
Proof.
  induction dis as [|c dis IH]; intros l g Hg Hl; cbn [group_loop].
  - destruct g as [|x g]; [contradiction|]. exists (x :: g), []. split; [reflexivity|].
    split.
    + cbn. now rewrite app_nil_r.
    + constructor; [discriminate|constructor].
    + constructor; [exact Hl|constructor].
    + constructor; [reflexivity|constructor].
    + intros [|? [|]] ? ? ? E; discriminate.
  - destruct (Z.eqb_spec l (get_line_for_offset t (Z.of_nat (i_off c)))) as [El|El].
    + destruct (IH l (g ++ [c])) as (g' & gs & E & HG).
      * destruct g; discriminate.
      * apply Forall_app. split; [exact Hl|]. constructor; [now symmetry|constructor].
      * exists g', gs. split; [exact E|]. rewrite <- app_assoc in HG. exact HG.
    + destruct (IH (get_line_for_offset t (Z.of_nat (i_off c))) [c]) as (g' & gs & E & HG).
      * discriminate.
      * constructor; [reflexivity|constructor].
      * exists g, (group_loop t first dis (Some (get_line_for_offset t (Z.of_nat (i_off c)), [c]))).
        split; [reflexivity|].
        destruct HG as [H1 H2 H3 H4 H5]. split.
        -- cbn [map concat snd]. rewrite H1. reflexivity.
        -- constructor; assumption.
        -- constructor; assumption.
        -- constructor; [reflexivity|assumption].
        -- intros [|p pre] x y post EE.
           ++ cbn [app] in EE. rewrite E in EE. injection EE as <- <- _. exact El.
           ++ cbn [app] in EE. injection EE as _ EE. eapply H5, EE.
Qed.

Lemma group_spec t first dis :
  grouping (fun i => get_line_for_offset t (Z.of_nat (i_off i))) first dis (group_loop t first dis None).
Proof.
  destruct dis as [|c dis]; cbn [group_loop].
  - split; try constructor. intros [|] ? ? ? E; discriminate.
  - destruct (group_loop_spec t first dis (get_line_for_offset t (Z.of_nat (i_off c))) [c])
      as (g' & gs & _ & HG).
    + discriminate.
    + constructor; [reflexivity|constructor].
    + exact HG.
Qed.

(** A grouping is determined by the instructions. *)
Lemma grouping_unique line first dis : forall gs gs',
  grouping line first dis gs -> grouping line first dis gs' -> gs = gs'.
Proof.
  intros gs. revert dis. induction gs as [|[[l r] g] gs IH]; intros dis gs' H H'.
  - destruct gs' as [|[[l' r'] g'] gs']; [reflexivity|]. exfalso.
    destruct H as [H1 _ _ _ _]. cbn in H1. subst dis. destruct H' as [H1 H2 _ _ _].
    inversion H2 as [|? ? HN _]; subst. cbn [map concat snd] in *. destruct g'; [contradiction|discriminate].
  - destruct gs' as [|[[l' r'] g'] gs'].
    { exfalso. destruct H' as [H1 _ _ _ _]. cbn in H1. subst dis. destruct H as [H1 H2 _ _ _].
      inversion H2 as [|? ? HN _]; subst. cbn [map concat snd] in *. destruct g; [contradiction|discriminate]. }
    destruct H as [A1 A2 A3 A4 A5]. destruct H' as [B1 B2 B3 B4 B5].
    inversion A2 as [|? ? An An']; inversion A3 as [|? ? Al Al']; inversion A4 as [|? ? Ar Ar']; subst.
    inversion B2 as [|? ? Bn Bn']; inversion B3 as [|? ? Bl Bl']; inversion B4 as [|? ? Br Br']; subst.
    cbn [map concat fst snd] in *.
    assert (El : l = l').
    { destruct g as [|x g]; [contradiction|]. destruct g' as [|y g']; [contradiction|].
      cbn [app] in B1. injection B1 as -> _. inversion Al; subst. inversion Bl; subst. congruence. }
    subst l'.
    assert (Hgg : forall g gs g' gs', (forall z zs, concat (map snd gs) = z :: zs -> line z <> l) ->
       (forall z zs, concat (map (@snd (Z * Z) (list insn)) gs') = z :: zs -> line z <> l) ->
       Forall (fun i => line i = l) g -> Forall (fun i => line i = l) g' ->
       g' ++ concat (map snd gs') = g ++ concat (map (@snd (Z * Z) (list insn)) gs) -> g = g').
    { clear. induction g as [|x g IHg]; intros gs [|y g'] gs' Hn Hn' Hg Hg' E; [reflexivity| | |].
      - exfalso. cbn [app] in E. inversion Hg'; subst. symmetry in E. now apply Hn in E.
      - exfalso. cbn [app] in E. inversion Hg; subst. now apply Hn' in E.
      - cbn [app] in E. injection E as <- E. f_equal.
        apply Forall_inv_tail in Hg. apply Forall_inv_tail in Hg'. apply (IHg gs g' gs'); assumption. }
    assert (Hd : forall (g : list insn) gs r, (forall pre a b post, (l, r, g) :: gs = pre ++ a :: b :: post ->
        fst (fst a) <> fst (fst b)) ->
       Forall (fun g => snd g <> []) gs -> Forall (fun g => Forall (fun i => line i = fst (fst g)) (snd g)) gs ->
       forall z zs, concat (map (@snd (Z * Z) (list insn)) gs) = z :: zs -> line z <> l).
    { clear. intros g gs r Hadj Hne Hli z zs E. destruct gs as [|[[l2 r2] g2] gs]; [discriminate|].
      inversion Hne; inversion Hli; subst. cbn [fst snd map concat] in *.
      destruct g2 as [|w g2]; [contradiction|]. cbn [app] in E. injection E as -> _.
      match goal with HH : Forall _ (z :: g2) |- _ => inversion HH; subst end.
      specialize (Hadj [] (l, r, g) (line z, r2, z :: g2) gs eq_refl). cbn in Hadj. congruence. }
    assert (Eg : g = g').
    { eapply Hgg; [eapply (Hd g); eassumption|eapply (Hd g'); eassumption|exact Al|exact Bl|exact B1]. }
    subst g'. f_equal.
    + f_equal. congruence.
    + apply app_inv_head in B1. apply (IH (concat (map snd gs))).
      * split; auto. intros pre a b post E. apply (A5 ((l, r, g) :: pre) a b post). cbn [app]. now rewrite E.
      * split; auto. intros pre a b post E. apply (B5 ((l, r', g) :: pre) a b post). cbn [app]. now rewrite E.
Qed.

Lemma iter_code_spec t bc :
  match disassemble_all bc with
  | Err e => iter_code_by_lines t bc = Err e
  | Ok dis =>
      match t with
      | [] => iter_code_by_lines t bc = Ok [(1, 1, dis)]
      | (_, first) :: _ =>
          forall gs, iter_code_by_lines t bc = Ok gs <->
            grouping (fun i => get_line_for_offset t (Z.of_nat (i_off i))) first dis gs
      end
  end.
Proof.
  unfold iter_code_by_lines. destruct (disassemble_all bc) as [dis|e]; [|reflexivity]. cbn [rbind].
  destruct t as [|[o first] t]; [reflexivity|]. intro gs. split.
  - intro H. injection H as <-. apply group_spec.
  - intro H. f_equal. eapply grouping_unique; [apply group_spec|exact H].
Qed.

Lemma platform_rows_disjoint : forall v i j r s,
  nth_error platforms i = Some r -> nth_error platforms j = Some s ->
  pair_le (fst (fst r)) v = true -> pair_le v (snd (fst r)) = true ->
  pair_le (fst (fst s)) v = true -> pair_le v (snd (fst s)) = true -> i = j.
Proof.
  intros [a b] i j r s Hi Hj H1 H2 H3 H4.
  repeat (destruct i as [|i]; [injection Hi as <-|try (exfalso; destruct i; discriminate)]);
  repeat (destruct j as [|j]; [injection Hj as <-; try reflexivity|try (exfalso; destruct j; discriminate)]);
  unfold pair_le in *; cbn [fst snd] in *; lia.
Qed.

(** Code listings: what is printed, and that it determines the instructions. *)
From Verif Require Import Base Pack_Model Pack_Spec ConstPool_Model ConstPool_Spec ClassFile_Model ClassFile_Spec ClassFile_Proofs
  Descr_Spec Opcodes_Model Opcodes_Spec Opcodes_Proofs Anno_Model Classdiff_Model Classdiff_Code Info_Model Info_Spec Info_Class
  Print_Model Print_Spec Print_Decl.

(** ** Decimal numbers *)
Definition digit (c : Z) : bool := (48 <=? c) && (c <=? 57).
Definition value (s : str) : Z := fold_left (fun a c => a * 10 + (c - 48)) s 0.
Lemma dec_aux_value fuel : forall n acc, 0 <= n < 10 ^ Z.of_nat fuel -> (0 < fuel)%nat ->
  exists ds, dec_aux fuel n acc = ds ++ acc /\ value ds = n /\ forallb digit ds = true /\ ds <> [].
Proof.
  induction fuel as [|fu IH]; intros n acc Hn Hf; [lia|]. cbn [dec_aux].
  pose proof (Z.mod_pos_bound n 10 ltac:(lia)) as Hm. pose proof (Z.div_mod n 10 ltac:(lia)) as Hd.
  assert (Hdig : digit (48 + n mod 10) = true) by (unfold digit; lia).
  destruct (Z.ltb_spec n 10) as [Hs|Hs].
  - exists [48 + n mod 10]. split; [reflexivity|]. split; [|split; [cbn [forallb]; now rewrite Hdig|discriminate]].
    unfold value. cbn [fold_left]. rewrite Z.mod_small by lia. lia.
  - assert (Hp : 10 ^ Z.of_nat (S fu) = 10 * 10 ^ Z.of_nat fu) by (rewrite Nat2Z.inj_succ, Z.pow_succ_r by lia; reflexivity).
    destruct fu as [|fu]; [change (10 ^ Z.of_nat 1) with 10 in Hn; lia|].
    destruct (IH (n / 10) (48 + n mod 10 :: acc)) as (ds & E & V & D & N); [|lia|].
    + split; [apply Z.div_pos; lia|]. apply Z.div_lt_upper_bound; lia.
    + exists (ds ++ [48 + n mod 10]). rewrite <- app_assoc. split; [exact E|]. split.
      * unfold value in *. rewrite fold_left_app, V. cbn [fold_left]. lia.
      * split; [rewrite forallb_app, D; cbn [forallb andb]; now rewrite Hdig|destruct ds; discriminate].
Qed.
Lemma dec_nat n : 0 <= n -> value (dec n) = n /\ forallb digit (dec n) = true /\ dec n <> [].
Proof.
  intro Hn. unfold dec. replace (n <? 0) with false by lia.
  destruct (dec_aux_value (S (Z.to_nat (Z.log2 n))) n []) as (ds & E & V & D & N); [|lia|].
  - split; [exact Hn|]. rewrite Nat2Z.inj_succ, Z2Nat.id by apply Z.log2_nonneg.
    destruct (Z.eq_dec n 0) as [->|Hz]; [reflexivity|].
    pose proof (Z.log2_spec n ltac:(lia)) as [_ HL]. eapply Z.lt_le_trans; [exact HL|]. apply Z.pow_le_mono_l. lia.
  - rewrite app_nil_r in E. rewrite E. auto.
Qed.
Lemma dec_neg n : n < 0 -> dec n = 45 :: dec (- n).
Proof. intro H. unfold dec. replace (n <? 0) with true by lia. replace (- n <? 0) with false by lia. reflexivity. Qed.
Lemma dec_inj a b : dec a = dec b -> a = b.
Proof.
  assert (no_minus : forall n x, 0 <= n -> dec n <> 45 :: x).
  { intros n x Hn E. destruct (dec_nat n Hn) as (_ & D & _). rewrite E in D. discriminate. }
  intro E. destruct (Z.ltb_spec a 0) as [Ha|Ha]; destruct (Z.ltb_spec b 0) as [Hb|Hb].
  - rewrite (dec_neg a Ha), (dec_neg b Hb) in E. injection E as E.
    destruct (dec_nat (- a)) as [Va _]; [lia|]. destruct (dec_nat (- b)) as [Vb _]; [lia|]. rewrite E, Vb in Va. lia.
  - rewrite (dec_neg a Ha) in E. symmetry in E. now apply no_minus in E.
  - rewrite (dec_neg b Hb) in E. now apply no_minus in E.
  - destruct (dec_nat a Ha) as [Va _]. destruct (dec_nat b Hb) as [Vb _]. now rewrite E, Vb in Va.
Qed.
Definition numc (c : Z) : bool := (c =? 45) || digit c.
Lemma dec_numc z : forallb numc (dec z) = true /\ dec z <> [].
Proof.
  assert (G : forall n, 0 <= n -> forallb numc (dec n) = true /\ dec n <> []).
  { intros n Hn. destruct (dec_nat n Hn) as (_ & D & N). split; [|exact N]. rewrite forallb_forall in *. intros x Hx. unfold numc. rewrite (D x Hx). apply orb_true_r. }
  destruct (Z.ltb_spec z 0) as [H|H]; [|now apply G]. rewrite dec_neg by exact H. destruct (G (- z)) as [G1 G2]; [lia|].
  split; [cbn [forallb]; now rewrite G1|discriminate].
Qed.
Lemma dec_avoid c z : numc c = false -> ~ In c (dec z).
Proof. intros H HI. destruct (dec_numc z) as [D _]. rewrite forallb_forall in D. rewrite (D c HI) in H. discriminate. Qed.

(** ** Numbers in a text *)
Fixpoint tk (s : str) : str * list str :=
  match s with
  | [] => ([], [])
  | c :: s' => let '(w, ws) := tk s' in
               if numc c then (c :: w, ws) else ([], match w with [] => ws | _ => w :: ws end)
  end.
Definition toks (s : str) : list str := let '(w, ws) := tk s in match w with [] => ws | _ => w :: ws end.
Lemma tk_sep a c b : numc c = false -> tk (a ++ c :: b) = (fst (tk a), snd (tk a) ++ toks b).
Proof.
  intro Hc. induction a as [|x a IH]; cbn [app tk].
  - unfold toks. rewrite Hc. destruct (tk b) as [w ws]. reflexivity.
  - rewrite IH. destruct (tk a) as [w ws]. cbn [fst snd]. destruct (numc x); [reflexivity|]. destruct w; reflexivity.
Qed.
Lemma toks_sep a c b : numc c = false -> toks (a ++ c :: b) = toks a ++ toks b.
Proof. intro Hc. unfold toks at 1 2. rewrite tk_sep by exact Hc. destruct (tk a) as [w ws]. cbn [fst snd]. destruct w; reflexivity. Qed.
Lemma toks_cons c b : numc c = false -> toks (c :: b) = toks b.
Proof. intro Hc. exact (toks_sep [] c b Hc). Qed.
Lemma tk_word w : forallb numc w = true -> tk w = (w, []).
Proof. induction w as [|c w IH]; [reflexivity|]. cbn [forallb tk]. intro H. apply andb_prop in H as [H1 H2]. now rewrite IH, H1. Qed.
Lemma toks_dec z : toks (dec z) = [dec z].
Proof. destruct (dec_numc z) as [H N]. unfold toks. rewrite tk_word by exact H. destruct (dec z); [now elim N|reflexivity]. Qed.
Lemma toks_join l : toks (concat_with (lit ", ") l) = concat (map toks l).
Proof.
  induction l as [|x l IH]; [reflexivity|]. destruct l as [|y l]; [cbn [concat_with map concat]; now rewrite app_nil_r|].
  rewrite join_cons by discriminate. cbn [map concat] in *. rewrite <- IH.
  change (x ++ lit ", " ++ concat_with (lit ", ") (y :: l)) with (x ++ 44 :: 32 :: concat_with (lit ", ") (y :: l)).
  rewrite toks_sep by reflexivity. now rewrite toks_cons by reflexivity.
Qed.
Lemma toks_decs l : concat (map toks (map dec l)) = map dec l.
Proof. induction l as [|x l IH]; [reflexivity|]. cbn [map concat]. now rewrite toks_dec, IH. Qed.
Lemma toks_brackets s : toks (lit "[" ++ s ++ lit "]") = toks s.
Proof. change (lit "[" ++ s ++ lit "]") with (91 :: s ++ 93 :: []). rewrite toks_cons, toks_sep by reflexivity. apply app_nil_r. Qed.
Lemma toks_pair x : toks (pair_text x) = [dec (fst x); dec (snd x)].
Proof.
  unfold pair_text. change (lit "(" ++ dec (fst x) ++ lit ", " ++ dec (snd x) ++ lit ")") with (40 :: dec (fst x) ++ 44 :: 32 :: dec (snd x) ++ 41 :: []).
  rewrite toks_cons, toks_sep, toks_cons, toks_sep, !toks_dec by reflexivity. reflexivity.
Qed.
Lemma toks_single o : toks (lit "(" ++ dec o ++ lit ",)") = [dec o].
Proof.
  change (lit "(" ++ dec o ++ lit ",)") with (40 :: dec o ++ 44 :: 41 :: []).
  rewrite toks_cons, toks_sep, toks_dec, toks_cons by reflexivity. reflexivity.
Qed.

(** The numbers of an instruction *)
Definition numbers (j : jinsn) : list Z :=
  match j with
  | JOp code ops => if code =? 16 then map (fun v => v mod 256) ops else ops
  | JTable d low offs => d :: low :: (low + Z.of_nat (length offs) - 1) :: offs
  | JLookup d pairs => d :: concat (map (fun x => [fst x; snd x]) pairs)
  | JWide c i => [c; i]
  | JWideIinc i d => [132; i; d]
  end.
Lemma toks_operands j : toks (concat_with (lit ", ") (operand_texts j)) = map dec (numbers j).
Proof.
  rewrite toks_join. destruct j as [code ops|d low offs|d pairs|c i|i d]; unfold operand_texts, numbers.
  - apply toks_decs.
  - cbn [map concat]. rewrite !toks_dec, toks_brackets, toks_join, app_nil_r. cbn [app]. repeat f_equal. rewrite map_map.
    induction offs as [|o offs IH]; [reflexivity|]. cbn [map concat]. now rewrite toks_single, IH.
  - cbn [map concat]. rewrite toks_dec, toks_brackets, toks_join, app_nil_r. cbn [app]. f_equal. rewrite map_map.
    induction pairs as [|x pairs IH]; [reflexivity|]. cbn [map concat app]. now rewrite toks_pair, IH.
  - cbn [map concat]. now rewrite !toks_dec.
  - cbn [map concat]. now rewrite !toks_dec.
Qed.
Lemma map_dec_inj l : forall l', map dec l = map dec l' -> l = l'.
Proof. induction l as [|x l IH]; intros [|y l'] E; try discriminate; [reflexivity|]. cbn [map] in E. injection E as E1 E2. f_equal; [now apply dec_inj|auto]. Qed.

Lemma pairs_inj (l : list (Z * Z)) : forall l', concat (map (fun x => [fst x; snd x]) l) = concat (map (fun x => [fst x; snd x]) l') -> l = l'.
Proof.
  induction l as [|[a b] l IH]; intros [|[a' b'] l'] E; cbn [map concat app fst snd] in E; try discriminate; [reflexivity|].
  injection E as -> -> E. f_equal. now apply IH.
Qed.
Lemma field_cb v : field_ok cb v = true -> -128 <= v < 128.
Proof. unfold field_ok. cbn. lia. Qed.
Lemma same_numbers j j' : jinsn_ok j = true -> jinsn_ok j' = true -> jinsn_code j = jinsn_code j' -> numbers j = numbers j' -> j = j'.
Proof.
  destruct j as [c1 o1|d1 l1 s1|d1 p1|c1 i1|i1 d1], j' as [c2 o2|d2 l2 s2|d2 p2|c2 i2|i2 d2]; cbn [jinsn_code jinsn_ok numbers]; intros H1 H2 EC EN;
    try discriminate; try (subst; cbn in *; discriminate).
  - subst c2. destruct (Z.eqb_spec c1 16) as [->|Hc]; [|now subst].
    change (jvm_layout 16) with (Some (Ops [S1])) in H1, H2. cbv beta iota in H1, H2. cbn [map kfmt] in H1, H2.
    destruct o1 as [|v1 [|x o1]]; try discriminate; [|cbn [fields_ok] in H1; rewrite andb_false_r in H1; discriminate].
    destruct o2 as [|v2 [|y o2]]; try discriminate.
    cbn [fields_ok] in H1, H2. apply andb_prop in H1 as [H1 _]. apply andb_prop in H2 as [H2 _]. apply field_cb in H1. apply field_cb in H2.
    cbn [map] in EN. injection EN as EN. f_equal. f_equal.
    assert (M : forall v, -128 <= v < 128 -> v = if 128 <=? v mod 256 then v mod 256 - 256 else v mod 256).
    { intros v Hv. destruct (Z.ltb_spec v 0).
      - replace (v mod 256) with (v + 256); [|apply (Z.mod_unique_pos v 256 (-1)); lia]. replace (128 <=? v + 256) with true by lia. lia.
      - rewrite Z.mod_small by lia. now replace (128 <=? v) with false by lia. }
    rewrite (M v1 H1), (M v2 H2), EN. reflexivity.
  - injection EN as -> -> _ ->. reflexivity.
  - injection EN as -> EN. apply pairs_inj in EN. now subst.
  - injection EN as -> ->. reflexivity.
  - injection EN as -> ->. reflexivity.
Qed.

(** ** Lines *)
Lemma cut_unique c a : forall b r s : str, ~ In c a -> ~ In c b -> a ++ c :: r = b ++ c :: s -> a = b /\ r = s.
Proof.
  induction a as [|x a IH]; intros [|y b] r s Ha Hb E; cbn [app] in E.
  - injection E as E. auto.
  - injection E as E1 E2. subst. exfalso. apply Hb. now left.
  - injection E as E1 E2. subst. exfalso. apply Ha. now left.
  - injection E as -> E2. destruct (IH b r s) as [-> ->]; auto; intro HI; [apply Ha|apply Hb]; now right.
Qed.
Lemma cut_two x y a : forall b r s : str, (~ In x a /\ ~ In y a) -> (~ In x b /\ ~ In y b) -> a ++ x :: r = b ++ y :: s -> a = b /\ x = y /\ r = s.
Proof.
  induction a as [|z a IH]; intros [|w b] r s [A1 A2] [B1 B2] E; cbn [app] in E.
  - injection E as -> ->. auto.
  - injection E as -> E2. exfalso. apply B1. now left.
  - injection E as -> E2. exfalso. apply A2. now left.
  - injection E as -> E2. destruct (IH b r s) as (-> & -> & ->); auto; split; intro HI; firstorder.
Qed.

Definition opname_ok (n : String.string) : bool := forallb (fun c => negb ((c =? 9) || (c =? 10))) (lit n).
Lemma mnemonic_chars j : ~ In 9 (mnemonic j) /\ ~ In 10 (mnemonic j).
Proof.
  unfold mnemonic, jvm_name, jvm_entry. destruct (jinsn_code j <? 0); [split; intros []|].
  destruct (nth_error jvm_table (Z.to_nat (jinsn_code j))) as [[n l]|] eqn:E; [|split; intros []].
  assert (HF : forallb (fun e => opname_ok (fst e)) jvm_table = true) by (vm_compute; reflexivity).
  rewrite forallb_forall in HF. specialize (HF _ (nth_error_In _ _ E)). cbn [fst] in HF. unfold opname_ok in HF. rewrite forallb_forall in HF.
  split; intro HI; specialize (HF _ HI); discriminate.
Qed.
Lemma jvm_names_distinct c c' n : jvm_name c = Some n -> jvm_name c' = Some n -> c = c'.
Proof.
  unfold jvm_name, jvm_entry. destruct (Z.ltb_spec c 0) as [|Hc]; [discriminate|]. destruct (Z.ltb_spec c' 0) as [|Hc']; [discriminate|].
  destruct (nth_error jvm_table (Z.to_nat c)) as [[a la]|] eqn:E; [|discriminate]. destruct (nth_error jvm_table (Z.to_nat c')) as [[b lb]|] eqn:E'; [|discriminate].
  intros H H'. injection H as H. injection H' as H'.
  assert (HN : NoDup (map (fun e => lit (fst e)) jvm_table)).
  { assert (G : forall l : list str, (fix nd (l : list str) := match l with [] => true | x :: l' => negb (smem x l') && nd l' end) l = true -> NoDup l).
    { induction l as [|x l IH]; [constructor|]. intro G. apply andb_prop in G as [H1 H2]. constructor; [|auto].
      intro HI. apply smem_In in HI. rewrite HI in H1. discriminate. }
    apply G. vm_compute. reflexivity. }
  assert (En : nth_error (map (fun e => lit (fst e)) jvm_table) (Z.to_nat c) = Some n) by (rewrite nth_error_map, E; cbn; now rewrite H).
  assert (En' : nth_error (map (fun e => lit (fst e)) jvm_table) (Z.to_nat c') = Some n) by (rewrite nth_error_map, E'; cbn; now rewrite H').
  assert (EQ : Z.to_nat c = Z.to_nat c'); [|lia].
  rewrite NoDup_nth_error in HN. apply HN; [|congruence]. apply nth_error_Some. congruence.
Qed.
Lemma ok_name j : jinsn_ok j = true -> exists n, jvm_name (jinsn_code j) = Some n.
Proof.
  destruct j as [c o|d l s|d p|c i|i d]; intro H; cbn [jinsn_code]; try (eexists; reflexivity).
  cbn [jinsn_ok] in H. unfold jvm_layout in H. unfold jvm_name. destruct (jvm_entry c) as [[n l]|]; [eauto|discriminate].
Qed.

Lemma avoid_app (c : Z) a b : ~ In c a -> ~ In c b -> ~ In c (a ++ b).
Proof. intros H1 H2 HI. apply in_app_or in HI as [HI|HI]; auto. Qed.
Lemma dec_no_nl z : ~ In 10 (dec z).
Proof. now apply dec_avoid. Qed.
Lemma operands_no_nl j : ~ In 10 (concat_with (lit ", ") (operand_texts j)).
Proof.
  assert (S : ~ In 10 (lit ", ")) by (intros [E|[E|[]]]; discriminate).
  assert (D : forall l, Forall (fun x => ~ In 10 x) (map dec l)) by (induction l; constructor; [apply dec_no_nl|assumption]).
  apply join_no'; [exact S|]. destruct j as [code ops|d low offs|d pairs|c i|i d]; unfold operand_texts; [apply D| | | |]; repeat constructor; try apply dec_no_nl.
  - apply avoid_app; [intros [E|[]]; discriminate|]. apply avoid_app; [|intros [E|[]]; discriminate]. apply join_no'; [exact S|].
    induction offs as [|o offs IH]; constructor; [|exact IH]. apply avoid_app; [intros [E|[]]; discriminate|]. apply avoid_app; [apply dec_no_nl|intros [E|[E|[]]]; discriminate].
  - apply avoid_app; [intros [E|[]]; discriminate|]. apply avoid_app; [|intros [E|[]]; discriminate]. apply join_no'; [exact S|].
    induction pairs as [|o pairs IH]; constructor; [|exact IH]. unfold pair_text. apply avoid_app; [intros [E|[]]; discriminate|].
    apply avoid_app; [apply dec_no_nl|]. apply avoid_app; [exact S|]. apply avoid_app; [apply dec_no_nl|intros [E|[]]; discriminate].
Qed.

Lemma line_inj off j rest off' j' rest' : jinsn_ok j = true -> jinsn_ok j' = true ->
  jinsn_line off j ++ rest = jinsn_line off' j' ++ rest' -> off = off' /\ j = j' /\ rest = rest'.
Proof.
  intros O O' E. unfold jinsn_line in E. rewrite <- !app_assoc in E. apply app_inv_head in E.
  change (lit ":" ++ ?x) with (58 :: x) in E. apply cut_unique in E as [ED E]; [|now apply dec_avoid|now apply dec_avoid].
  apply dec_inj in ED. cbn [app] in E. injection E as E.
  pose proof (mnemonic_chars j) as M. pose proof (mnemonic_chars j') as M'.
  assert (G : mnemonic j = mnemonic j' /\ concat_with (lit ", ") (operand_texts j) = concat_with (lit ", ") (operand_texts j') /\ rest = rest').
  { destruct (operand_texts j) as [|x l] eqn:Eo; destruct (operand_texts j') as [|x' l'] eqn:Eo'; unfold nl in E; rewrite <- ?app_assoc in E; cbn [app] in E.
    - apply cut_unique in E as [E1 E2]; [auto|tauto|tauto].
    - apply (cut_two 10 9) in E as (_ & E & _); [discriminate|tauto|tauto].
    - apply (cut_two 9 10) in E as (_ & E & _); [discriminate|tauto|tauto].
    - apply cut_unique in E as [E1 E2]; [|tauto|tauto].
      pose proof (operands_no_nl j) as N. pose proof (operands_no_nl j') as N'. rewrite Eo in N. rewrite Eo' in N'.
      apply cut_unique in E2 as [E2 E3]; auto. }
  destruct G as (GM & GO & GR). split; [lia|]. split; [|exact GR].
  apply same_numbers; [exact O|exact O'| |].
  - unfold mnemonic in GM. destruct (ok_name j O) as [n Hn]. destruct (ok_name j' O') as [n' Hn']. rewrite Hn, Hn' in GM. subst n'. eapply jvm_names_distinct; eauto.
  - apply map_dec_inj. rewrite <- !toks_operands. now rewrite GO.
Qed.
Lemma line_nonempty off j rest : jinsn_line off j ++ rest <> [].
Proof. unfold jinsn_line. discriminate. Qed.
Lemma listing_inj l : forall l' off, forallb jinsn_ok l = true -> forallb jinsn_ok l' = true -> jcode_lines off l = jcode_lines off l' -> l = l'.
Proof.
  induction l as [|j l IH]; intros [|j' l'] off H H' E; cbn [jcode_lines] in E.
  - reflexivity.
  - symmetry in E. now apply line_nonempty in E.
  - now apply line_nonempty in E.
  - cbn [forallb] in H, H'. apply andb_prop in H as [H1 H2]. apply andb_prop in H' as [H1' H2'].
    apply line_inj in E as (_ & <- & E); [|assumption|assumption]. f_equal. eapply IH; eauto.
Qed.

(** ** The lines the model prints *)
Lemma insn_line_ok off j : jinsn_ok j = true -> jinsn_code j <> 194 -> insn_line (show1 off j) = Ok (jinsn_line off j).
Proof.
  intros O N. destruct (ok_name j O) as [n Hn]. unfold insn_line, jinsn_line, mnemonic. rewrite Hn.
  assert (EC : i_code (show1 off j) = jinsn_code j) by (destruct j; reflexivity).
  assert (EO : i_off (show1 off j) = off) by (destruct j; reflexivity).
  assert (EA : arg_strs (i_args (show1 off j)) = operand_texts j) by (destruct j; reflexivity).
  rewrite EC, EO, EA, names_jvm, Hn by exact N. cbn [rbind]. unfold line, tab, nl. f_equal. rewrite <- !app_assoc. repeat f_equal.
Qed.
Lemma insn_lines_ok l : forall off, forallb jinsn_ok l = true -> no_monitorenter l = true ->
  exists ls, mapM insn_line (show off l) = Ok ls /\ concat ls = jcode_lines off l.
Proof.
  induction l as [|j l IH]; intros off H N; cbn [show mapM jcode_lines].
  - exists []. now split.
  - cbn [forallb no_monitorenter] in H, N. unfold no_monitorenter in *. cbn [forallb] in N. apply andb_prop in H as [H1 H2]. apply andb_prop in N as [N1 N2].
    rewrite insn_line_ok by (auto; lia). cbn [rbind]. destruct (IH (off + length (assemble1 off j))%nat H2 N2) as (ls & E & EC). rewrite E. cbn [rbind].
    exists (jinsn_line off j :: ls). split; [reflexivity|]. cbn [concat]. now rewrite EC.
Qed.

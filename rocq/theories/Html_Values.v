(** The tables of values of classes, fields and methods. *)
From Verif Require Import Base Pack_Model ConstPool_Model ClassFile_Model Descr_Model Descr_Spec Descr_Proofs Opcodes_Model Opcodes_Spec Opcodes_Proofs Anno_Model
  Change_Model Change_Spec Change_Proofs Change_Report Classdiff_Model Classdiff_Spec Classdiff_Members Classdiff_Code Classdiff_Class Classdiff_Merge Info_Model Info_Spec Print_Model Print_Spec Print_Code Print_Decl Report_Model
  Html_Model Html_Spec Html_Table Html_Page Html_Members.
From Coq Require Import Permutation Sorting.Sorted.

(** ** Parts of a checked change, by name *)
Lemma changed_iff c c' P : check c = Ok c' -> (quiet c <-> P) -> (is_change c' = true <-> ~ P).
Proof.
  intros H [Q1 Q2]. split.
  - intros E HP. destruct (Q2 HP) as (c2 & H2 & E2). rewrite H in H2. injection H2 as <-. congruence.
  - intro N. destruct (is_change c') eqn:E; [reflexivity|]. exfalso. apply N, Q1. now exists c'.
Qed.
Lemma leaf_name {A} n lb own (ld rd : res A) eqf lt rt lp rp c : check (leaf_text n lb own ld rd eqf lt rt lp rp) = Ok c -> k_name (k_of c) = lit n.
Proof. intro H. apply check_leaf_of in H as (x & y & e & _ & _ & _ & K & _). exact K. Qed.
Lemma annos_name fmt reprs n lb attr lp rp la ra c : check (annos_leaf fmt reprs n lb attr lp rp la ra) = Ok c -> k_name (k_of c) = lit n.
Proof. apply leaf_name. Qed.
Lemma method_code_name fmt reprs lp rp lc rc c : check (method_code fmt reprs lp rp lc rc) = Ok c -> k_name (k_of c) = lit "MethodCodeChange".
Proof.
  unfold method_code. destruct lc, rc.
  1:{ intro H. apply check_parts in H; [|reflexivity]. destruct H as (? & ? & _ & _ & ->). reflexivity. }
  all: cbn [check k_check rbind]; intro H; injection H as <-; reflexivity.
Qed.
Ltac names := repeat match goal with
  | H : check (leaf_text ?n _ _ _ _ _ _ _ _ _) = Ok ?c |- _ =>
      lazymatch goal with | _ : k_name (k_of c) = _ |- _ => fail | _ => pose proof (leaf_name _ _ _ _ _ _ _ _ _ _ _ H) end
  | H : check (leaf_of _ ?n _ _ _ _ _ _ _) = Ok ?c |- _ =>
      lazymatch goal with | _ : k_name (k_of c) = _ |- _ => fail | _ => pose proof (leaf_name _ _ _ _ _ _ _ _ _ _ _ H) end
  | H : check (annos_leaf _ _ ?n _ _ _ _ _ _) = Ok ?c |- _ =>
      lazymatch goal with | _ : k_name (k_of c) = _ |- _ => fail | _ => pose proof (annos_name _ _ _ _ _ _ _ _ _ _ H) end
  | H : check (method_code _ _ _ _ _ _) = Ok ?c |- _ =>
      lazymatch goal with | _ : k_name (k_of c) = _ |- _ => fail | _ => pose proof (method_code_name _ _ _ _ _ _ _ H) end
  end.
(** Evaluates comparisons of literals in [H] *)
Ltac lits H := repeat match type of H with context [seqb (lit ?a) (lit ?b)] => let v := eval vm_compute in (seqb (lit a) (lit b)) in change (seqb (lit a) (lit b)) with v in H; cbv iota in H end.
Ltac find_part H :=
  unfold part_changed, part in H; cbn [find] in H;
  repeat match goal with K : k_name (k_of ?c) = lit _ |- _ => rewrite K in H end; lits H; cbn [rbind] in H.
Ltac split_parts HF := repeat (let c := fresh "k" in let C := fresh "C" in let F := fresh "F" in
  inversion HF as [|? c ? ? C F]; clear HF; subst; rename F into HF).

(** ** Rows *)
Lemma value_block label changed same worth w old new mark : (changed = true <-> ~ same) -> (w = true <-> worth) ->
  (same \/ ~ same) -> exists rows, value_rows label same worth old new rows /\ block 2 (if changed then row_changed label mark old new else if w then row_same label old else []) rows.
Proof.
  intros C W D. destruct changed.
  - eexists. split; [apply rows_differ; now apply C|apply block_changed].
  - assert (S : same) by (destruct D as [D|D]; [exact D|apply C in D; discriminate]). destruct w.
    + eexists. split; [apply rows_same; [exact S|now apply W]|apply block_same].
    + eexists. split; [apply rows_none; [exact S|]|apply block_nil]. intro X. apply W in X. discriminate.
Qed.
Lemma changed_dec (b : bool) P : (b = true <-> ~ P) -> (b = false -> P) -> P \/ ~ P.
Proof. intros [H1 _] H2. destruct b; [right; now apply H1|left; now apply H2]. Qed.
Lemma quiet_dec c c' P : check c = Ok c' -> (quiet c <-> P) -> P \/ ~ P.
Proof. intros H Q. apply (changed_dec (is_change c')); [now apply changed_iff with c|]. intro E. apply Q. now exists c'. Qed.
Lemma always_block label changed same old new mark : (changed = true <-> ~ same) -> (same \/ ~ same) ->
  exists rows, value_rows label same True old new rows /\ block 2 (row_always label changed mark old new) rows.
Proof. intros C D. apply (value_block label changed same True true old new mark C); [now split|exact D]. Qed.
Lemma open_block label changed same old new mark : (changed = true <-> ~ same) -> (same \/ ~ same) ->
  exists rows, value_rows label same True old new rows /\ block 2 (if changed then row_changed label mark old new else row_same_open label old) rows.
Proof.
  intros C D. destruct changed.
  - eexists. split; [apply rows_differ; now apply C|apply block_changed].
  - eexists. split; [apply rows_same; [|exact I]|apply block_open]. destruct D as [D|D]; [exact D|apply C in D; discriminate].
Qed.
Lemma opt_dec (s s' : option str) : s = s' \/ s <> s'.
Proof. destruct s as [s|], s' as [s'|]; try (right; discriminate); [|now left]. destruct (seqb s s') eqn:E; [left; apply seqb_eq in E; congruence|right; intro X; injection X as ->; rewrite seqb_refl in E; discriminate]. Qed.
Lemma sig_block changed s s' rows : (changed = true <-> s <> s') -> signature_rows changed (option_map PStr s) (option_map PStr s') = Ok rows ->
  exists g, value_rows "Generics Signature" (s = s') (has_text s) (sig_shown s) (sig_shown s') g /\ block 2 rows g.
Proof.
  intros C H. assert (T : forall s, esc_or_none (option_map PStr s) = Ok (sig_shown s)) by (intros [[|? ?]|]; cbn [option_map esc_or_none esc_v sig_shown py_true]; rewrite ?escape_is; reflexivity).
  assert (W : forall s, py_true (option_map PStr s) = true <-> has_text s).
  { intros [[|x t]|]; unfold has_text; split; intro H0; try discriminate; try reflexivity; try (destruct H0 as (? & ? & ?); discriminate). now exists x, t. }
  unfold signature_rows in H. rewrite !T in H. cbn [rbind] in H.
  destruct (value_block "Generics Signature" changed (s = s') (has_text s) (py_true (option_map PStr s)) (sig_shown s) (sig_shown s') true) as (g & G1 & G2); [exact C|apply W| |].
  - apply opt_dec.
  - exists g. split; [exact G1|]. destruct changed; [injection H as <-; exact G2|]. destruct (py_true (option_map PStr s)); injection H as <-; exact G2.
Qed.

Section Values.
Variable fmt : pyval -> str.
Variable repr : pyval -> str.
Variable reprs : str -> str.

(** What is known of a method *)
Record known_method (p : pool) (m : member) (n : str) (args : list jtype) (ret : option jtype) (sig : option str) (ex : list str) : Prop := {
  km_method : is_method_of p m n args ret;
  km_bits : only_bits method_bits (m_flags m);
  km_sig : get_signature p (m_attrs m) = Ok (option_map PStr sig);
  km_ex : get_exceptions p m = Ok (map PStr ex) }.
Lemma known_texts p m n args ret sig ex : known_method p m n args ret sig ex ->
  m_type fmt p m = Ok (ret_desc ret) /\ m_arg_types fmt p m = Ok (map desc args) /\ m_pretty_type fmt p m = Ok (ret_name ret) /\
  m_pretty_arg_types fmt p m = Ok (map type_name args) /\ pretty_exceptions p m = Ok (map dotted ex) /\ method_heading fmt p m = Ok (esc (method_shown n args ret)).
Proof.
  intros [[H1 H2 H3 H4 H5 H6 _] _ _ HX]. destruct (method_split args ret H4 H5 H6) as [S1 S2].
  assert (T1 : m_type fmt p m = Ok (ret_desc ret)) by (unfold m_type, m_desc_str; rewrite H3; exact S2).
  assert (T2 : m_arg_types fmt p m = Ok (map desc args)) by (unfold m_arg_types, m_desc_str; rewrite H1, H3; exact S1).
  assert (T3 : m_pretty_type fmt p m = Ok (ret_name ret)) by (unfold m_pretty_type; rewrite T1; apply pretty_ret).
  assert (T4 : m_pretty_arg_types fmt p m = Ok (map type_name args)) by (unfold m_pretty_arg_types; rewrite T2; apply mapM_pretty).
  repeat split; try assumption.
  - unfold pretty_exceptions. rewrite HX. apply mapM_class.
  - unfold method_heading. rewrite H2, T3, T4. cbn [rbind pct_s]. rewrite escape_is. reflexivity.
Qed.
Lemma flags_is t z w : w = keywords t z -> flags_text z w = flags_shown t z.
Proof. intros ->. unfold flags_text, hex4, flags_shown. now rewrite hex_is, <- app_assoc. Qed.
Lemma opt_pyeq s s' : opt_rel pyeq (option_map PStr s) (option_map PStr s') <-> s = s'.
Proof.
  destruct s as [s|], s' as [s'|]; cbn; split; intro H; try (inversion H; fail); try discriminate; try (constructor; fail).
  - inversion H as [|? ? E]; subst. unfold pyeq in E. cbn [py_eq] in E. apply seqb_eq in E as ->. reflexivity.
  - injection H as <-. constructor. unfold pyeq. cbn [py_eq]. apply seqb_refl.
Qed.
Lemma list_pyeq l : forall l', Forall2 pyeq (map PStr l) (map PStr l') <-> l = l'.
Proof.
  induction l as [|x l IH]; intros [|y l']; cbn [map]; split; intro H; try (inversion H; fail); try discriminate; try (constructor; fail); try reflexivity.
  - inversion H as [|? ? ? ? E F]; subst. unfold pyeq in E. cbn [py_eq] in E. apply seqb_eq in E as ->. f_equal. now apply IH.
  - injection H as <- <-. constructor; [unfold pyeq; cbn [py_eq]; apply seqb_refl|now apply IH].
Qed.

Lemma ret_desc_inj r r' : ret_desc r = ret_desc r' <-> r = r'.
Proof.
  split; [|now intros ->]. destruct r as [t|], r' as [t'|]; cbn [ret_desc]; intro E; [f_equal; now apply desc_inj| | |reflexivity]; exfalso.
  - destruct t as [[]|n|t]; discriminate.
  - destruct t' as [[]|n|t']; discriminate.
Qed.
Lemma descs_inj l : forall l', Forall2 eq (map desc l) (map desc l') <-> l = l'.
Proof.
  intro l'. rewrite Forall2_eq. split; [|now intros ->]. revert l'. induction l as [|x l IH]; intros [|y l'] E; try discriminate; [reflexivity|]. cbn [map] in E. apply cons_inj in E as [E1 E2]. f_equal; [now apply desc_inj|now apply IH].
Qed.
Lemma dec_prop (b : bool) P : (b = true <-> ~ P) -> (b = false -> P) -> P \/ ~ P.
Proof. apply changed_dec. Qed.

(** The page of a pair of methods: heading, values, code *)
Definition no_code (c : option code) : bool := match c with None => true | Some _ => false end.
Lemma method_page o c lp rp a b h n args ret sig ex n' args' ret' sig' ex' : check (method_change fmt reprs lp rp a b) = Ok c -> method_html fmt o c lp rp a b = Ok h ->
  known_method lp a n args ret sig ex -> known_method rp b n' args' ret' sig' ex' ->
  exists lc rc, get_code lp a = Ok lc /\ get_code rp b = Ok rc /\
  shows_heading h (esc (method_shown n args ret)) /\
  (exists r1 r2 r3 r4 r5 r6 r7 r8,
     value_rows "Method Name" (n = n') True (esc n) (esc n') r1 /\
     value_rows "Return Type" (ret = ret') True (ret_name ret) (ret_name ret') r2 /\
     value_rows "Argument Types" (args = args') True (parens (map type_name args)) (parens (map type_name args')) r3 /\
     value_rows "Method Flags" (m_flags a = m_flags b) True (flags_shown Print_Spec.method_table (m_flags a)) (flags_shown Print_Spec.method_table (m_flags b)) r4 /\
     value_rows "Generics Signature" (sig = sig') (has_text sig) (sig_shown sig) (sig_shown sig') r5 /\
     value_rows "Exceptions" (ex = ex') (ex <> []) (parens (map dotted ex)) (parens (map dotted ex')) r6 /\
     value_rows "Abstract" (no_code lc = no_code rc) (no_code lc = true) (truth (no_code lc)) (truth (no_code rc)) r7 /\
     value_rows "Deprecated" (is_deprecated (m_attrs a) = is_deprecated (m_attrs b)) (is_deprecated (m_attrs a) = true)
       (truth (is_deprecated (m_attrs a))) (truth (is_deprecated (m_attrs b))) r8 /\
     shows_table h 2 (r1 ++ r2 ++ r3 ++ r4 ++ r5 ++ r6 ++ r7 ++ r8)).
Proof.
  intros HC HH KL KR. unfold method_change in HC. cbv zeta in HC. apply check_super in HC as (HR & kids & HF & HK & _).
  unfold method_html in HH. rewrite HK in HH. cbn [rbind] in HH.
  destruct (get_code lp a) as [lc|] eqn:EL; [|discriminate HR]. destruct (get_code rp b) as [rc|] eqn:ER; [|discriminate HR]. cbn [rbind] in HF.
  split_parts HF. names. find_part HH.
  destruct (known_texts _ _ _ _ _ _ _ KL) as (L1 & L2 & L3 & L4 & L5 & L6). destruct (known_texts _ _ _ _ _ _ _ KR) as (R1 & R2 & R3 & R4 & R5 & _).
  rewrite L6, L3, L4, L5, R3, R4, R5, (km_sig _ _ _ _ _ _ _ KL), (km_sig _ _ _ _ _ _ _ KR), (im_name _ _ _ _ _ (km_method _ _ _ _ _ _ _ KL)), (im_name _ _ _ _ _ (km_method _ _ _ _ _ _ _ KR)) in HH. cbn [rbind esc_v] in HH.
  rewrite !escape_is in HH. steps HH.
  rewrite (im_name _ _ _ _ _ (km_method _ _ _ _ _ _ _ KL)), (im_name _ _ _ _ _ (km_method _ _ _ _ _ _ _ KR)) in C. rewrite L1, R1 in C0. rewrite (km_sig _ _ _ _ _ _ _ KL), (km_sig _ _ _ _ _ _ _ KR) in C1.
  rewrite L2, R2 in C4. rewrite (km_ex _ _ _ _ _ _ _ KL), (km_ex _ _ _ _ _ _ _ KR) in C6.
  exists lc, rc. split; [reflexivity|]. split; [reflexivity|]. apply within_change_div in HH. split.
  - eapply heading_within; [exact HH|]. apply within_l. exists [], []. reflexivity.
  - unfold leaf_of in *. match type of C with check ?x = _ => assert (Q1 : quiet x <-> n = n') end.
    1: (leaf_tac; rewrite agree_ok; unfold pyeq; cbn [py_eq]; apply seqb_iff).
    match type of C0 with check ?x = _ => assert (Q2 : quiet x <-> ret = ret') by (leaf_tac; rewrite agree_ok; apply ret_desc_inj) end.
    match type of C4 with check ?x = _ => assert (Q3 : quiet x <-> args = args') by (leaf_tac; rewrite agree_ok; apply descs_inj) end.
    match type of C5 with check ?x = _ => assert (Q4 : quiet x <-> m_flags a = m_flags b) by (leaf_tac; rewrite agree_ok; reflexivity) end.
    match type of C1 with check ?x = _ => assert (Q5 : quiet x <-> sig = sig') by (leaf_tac; rewrite agree_ok; apply opt_pyeq) end.
    match type of C6 with check ?x = _ => assert (Q6 : quiet x <-> ex = ex') by (leaf_tac; rewrite agree_ok; apply list_pyeq) end.
    match type of C7 with check ?x = _ => assert (Q7 : quiet x <-> no_code lc = no_code rc) by (leaf_tac; rewrite agree_ok; reflexivity) end.
    match type of C8 with check ?x = _ => assert (Q8 : quiet x <-> is_deprecated (m_attrs a) = is_deprecated (m_attrs b)) by (leaf_tac; rewrite agree_ok; reflexivity) end.
    destruct (open_block "Method Name" (is_change k) (n = n') (esc n) (esc n') false (changed_iff _ _ _ C Q1) (quiet_dec _ _ _ C Q1)) as (r1 & V1 & B1).
    destruct (open_block "Return Type" (is_change k0) (ret = ret') (ret_name ret) (ret_name ret') false (changed_iff _ _ _ C0 Q2) (quiet_dec _ _ _ C0 Q2)) as (r2 & V2 & B2).
    destruct (always_block "Argument Types" (is_change k4) (args = args') (parens (map type_name args)) (parens (map type_name args')) false (changed_iff _ _ _ C4 Q3) (quiet_dec _ _ _ C4 Q3)) as (r3 & V3 & B3).
    destruct (always_block "Method Flags" (is_change k5) (m_flags a = m_flags b) (flags_shown Print_Spec.method_table (m_flags a)) (flags_shown Print_Spec.method_table (m_flags b)) true (changed_iff _ _ _ C5 Q4) (quiet_dec _ _ _ C5 Q4)) as (r4 & V4 & B4).
    destruct (sig_block (is_change k1) sig sig' _ (changed_iff _ _ _ C1 Q5) E) as (r5 & V5 & B5).
    destruct (value_block "Exceptions" (is_change k6) (ex = ex') (ex <> []) (match map dotted ex with [] => false | _ => true end) (parens (map dotted ex)) (parens (map dotted ex')) true (changed_iff _ _ _ C6 Q6)) as (r6 & V6 & B6);
      [destruct ex; cbn; split; congruence|exact (quiet_dec _ _ _ C6 Q6)|].
    destruct (value_block "Abstract" (is_change k7) (no_code lc = no_code rc) (no_code lc = true) (no_code lc) (truth (no_code lc)) (truth (no_code rc)) true (changed_iff _ _ _ C7 Q7)) as (r7 & V7 & B7); [reflexivity|exact (quiet_dec _ _ _ C7 Q7)|].
    destruct (value_block "Deprecated" (is_change k8) (is_deprecated (m_attrs a) = is_deprecated (m_attrs b)) (is_deprecated (m_attrs a) = true) (is_deprecated (m_attrs a)) (truth (is_deprecated (m_attrs a))) (truth (is_deprecated (m_attrs b))) true (changed_iff _ _ _ C8 Q8)) as (r8 & V8 & B8); [reflexivity|exact (quiet_dec _ _ _ C8 Q8)|].
    exists r1, r2, r3, r4, r5, r6, r7, r8. do 8 (split; [assumption|]).
    eapply shows_within; [eapply within_trans; [|exact HH]; apply within_r, within_l, within_details|]. apply block_table.
    rewrite (flags_is Print_Spec.method_table _ _ (method_words a _ eq_refl (im_method _ _ _ _ _ (km_method _ _ _ _ _ _ _ KL)) (km_bits _ _ _ _ _ _ _ KL))).
    rewrite (flags_is Print_Spec.method_table _ _ (method_words b _ eq_refl (im_method _ _ _ _ _ (km_method _ _ _ _ _ _ _ KR)) (km_bits _ _ _ _ _ _ _ KR))).
    repeat (apply block_app; [assumption|]). assumption.
Qed.

(** The code of a pair of methods *)
Lemma method_page_code o c lp rp a b h : check (method_change fmt reprs lp rp a b) = Ok c -> method_html fmt o c lp rp a b = Ok h ->
  exists lc rc mc ch, get_code lp a = Ok lc /\ get_code rp b = Ok rc /\ check (method_code fmt reprs lp rp lc rc) = Ok mc /\ method_code_html o mc lc rc = Ok ch /\ within ch h.
Proof.
  intros HC HH. unfold method_change in HC. cbv zeta in HC. apply check_super in HC as (HR & kids & HF & HK & _).
  unfold method_html in HH. rewrite HK in HH. cbn [rbind] in HH.
  destruct (get_code lp a) as [lc|] eqn:EL; [|discriminate HR]. destruct (get_code rp b) as [rc|] eqn:ER; [|discriminate HR]. cbn [rbind] in HF.
  split_parts HF. names. find_part HH. steps HH. exists lc, rc, k9, v15. do 2 (split; [reflexivity|]). split; [exact C9|]. split; [exact E15|].
  apply within_change_div in HH. eapply within_trans; [|exact HH]. apply within_r, within_r, within_el, within_r, within_r, within_refl.
Qed.

(** A method added or removed *)
Lemma ok_inj {A} (x y : A) : Ok x = Ok y -> x = y.
Proof. intro H. now injection H. Qed.
Lemma plain_block label (worth : Prop) w v : (w = true <-> worth) -> exists rows, value_rows label True worth v v rows /\ block 2 (if w then row_same label v else []) rows.
Proof. intro W. apply (value_block label false True worth w v v false); [split; [discriminate|intro X; exfalso; now apply X]|exact W|now left]. Qed.
Lemma block_cons l v b g : block 2 b g -> block 2 (row_same l v ++ b) ([lit l; v] :: g).
Proof. intro H. apply (block_app 2 _ _ [[lit l; v]]); [apply block_same|exact H]. Qed.
Definition alone_rows (p : pool) (m : member) (n : str) (args : list jtype) (ret : option jtype) (sig : option str) (ex : list str) (grid : list (list str)) : Prop :=
  exists c r1 r2 r3 r4, get_code p m = Ok c /\
     value_rows "Generics Signature" True (has_text sig) (sig_shown sig) (sig_shown sig) r1 /\
     value_rows "Exceptions" True (ex <> []) (esc (commas_sp (map dotted ex))) (esc (commas_sp (map dotted ex))) r2 /\
     value_rows "Abstract" True (c = None) (lit "True") (lit "True") r3 /\
     value_rows "Deprecated" True (is_deprecated (m_attrs m) = true) (lit "True") (lit "True") r4 /\
     grid = [[lit "Method Name"; esc n]; [lit "Return Type"; esc (ret_name ret)]; [lit "Argument Types"; esc (parens (map type_name args))];
             [lit "Method Flags"; esc (flags_shown Print_Spec.method_table (m_flags m))]] ++ r1 ++ r2 ++ r3 ++ r4.
Lemma alone_table p m n args ret sig ex t : known_method p m n args ret sig ex -> method_table fmt p m = Ok t ->
  exists grid, alone_rows p m n args ret sig ex grid /\ shows_table t 2 grid.
Proof.
  intros K H. destruct (known_texts _ _ _ _ _ _ _ K) as (_ & _ & T3 & T4 & T5 & _). unfold method_table in H.
  rewrite (im_name _ _ _ _ _ (km_method _ _ _ _ _ _ _ K)), T3, T4, T5, (km_sig _ _ _ _ _ _ _ K) in H. cbn [rbind esc_v] in H.
  assert (T : forall s, esc_or_none (option_map PStr s) = Ok (sig_shown s)) by (intros [[|? ?]|]; cbn [option_map esc_or_none esc_v sig_shown py_true]; rewrite ?escape_is; reflexivity).
  rewrite T in H. cbn [rbind] in H.
  assert (W : py_true (option_map PStr sig) = true <-> has_text sig).
  { destruct sig as [[|x s]|]; unfold has_text; split; intro H0; try discriminate; try reflexivity; try (destruct H0 as (? & ? & ?); discriminate). now exists x, s. }
  replace (if py_true (option_map PStr sig) then Ok (row_same "Generics Signature" (sig_shown sig)) else Ok []) with (Ok (if py_true (option_map PStr sig) then row_same "Generics Signature" (sig_shown sig) else [])) in H by (destruct (py_true _); reflexivity).
  cbn [rbind] in H. destruct (get_code p m) as [c|] eqn:EC; [|discriminate]. cbn [rbind] in H. apply ok_inj in H. subst t.
  destruct (plain_block "Generics Signature" (has_text sig) _ (sig_shown sig) W) as (r1 & V1 & B1).
  destruct (plain_block "Exceptions" (ex <> []) (match map dotted ex with [] => false | _ => true end) (esc (commas_sp (map dotted ex)))) as (r2 & V2 & B2); [destruct ex; cbn; split; congruence|].
  destruct (plain_block "Abstract" (c = None) (no_code c) (lit "True")) as (r3 & V3 & B3); [destruct c; cbn; split; congruence|].
  destruct (plain_block "Deprecated" (is_deprecated (m_attrs m) = true) (is_deprecated (m_attrs m)) (lit "True")) as (r4 & V4 & B4); [reflexivity|].
  eexists. split; [exists c, r1, r2, r3, r4; repeat (split; [eassumption|]); reflexivity|]. apply block_table.
  rewrite (flags_is Print_Spec.method_table _ _ (method_words m _ eq_refl (im_method _ _ _ _ _ (km_method _ _ _ _ _ _ _ K)) (km_bits _ _ _ _ _ _ _ K))).
  unfold method_row. rewrite !escape_is. fold (commas_sp (map dotted ex)). change (in_parens (map type_name args)) with (parens (map type_name args)).
  match goal with |- block 2 ?t ?g => let g' := eval cbn [app] in g in change (block 2 t g') end. apply block_cons. apply block_cons. apply block_cons. apply block_cons.
  apply block_app; [exact B1|]. apply block_app; [|apply block_app; [|exact B4]].
  - revert B2. destruct (map dotted ex); intro B2; exact B2.
  - destruct c; exact B3.
Qed.
Lemma added_page o c p m h n args ret sig ex : method_added_html fmt o c p m = Ok h -> known_method p m n args ret sig ex ->
  within [Open (lit "h3") []; Chars (esc (method_shown n args ret)); Close (lit "h3"); Open (lit "div") (class_is "description"); Chars (lit "Method Added")] h /\
  exists grid, alone_rows p m n args ret sig ex grid /\ shows_table h 2 grid.
Proof.
  intros H K. destruct (known_texts _ _ _ _ _ _ _ K) as (_ & _ & _ & _ & _ & T6). unfold method_added_html in H. rewrite T6 in H. cbn [rbind] in H. destruct (method_table fmt p m) as [t|] eqn:ET; [|discriminate]. cbn [rbind] in H.
  apply within_change_div in H. split.
  - eapply within_trans; [|exact H]. exists [], (Cut (lit "div") :: details_div t). reflexivity.
  - destruct (alone_table _ _ _ _ _ _ _ _ K ET) as (grid & G1 & G2). exists grid. split; [exact G1|]. eapply shows_within; [|exact G2]. eapply within_trans; [|exact H]. apply within_r, within_r, within_details.
Qed.
Lemma removed_page o c p m h n args ret sig ex : method_removed_html fmt o c p m = Ok h -> known_method p m n args ret sig ex ->
  within [Open (lit "h3") []; Chars (esc (method_shown n args ret)); Close (lit "h3"); Open (lit "div") (class_is "description"); Chars (lit "Method Removed")] h /\
  exists grid, alone_rows p m n args ret sig ex grid /\ shows_table h 2 grid.
Proof.
  intros H K. destruct (known_texts _ _ _ _ _ _ _ K) as (_ & _ & _ & _ & _ & T6). unfold method_removed_html in H. rewrite T6 in H. cbn [rbind] in H. destruct (method_table fmt p m) as [t|] eqn:ET; [|discriminate]. cbn [rbind] in H.
  apply within_change_div in H. split.
  - eapply within_trans; [|exact H]. exists [], (Close (lit "div") :: details_div t). reflexivity.
  - destruct (alone_table _ _ _ _ _ _ _ _ K ET) as (grid & G1 & G2). exists grid. split; [exact G1|]. eapply shows_within; [|exact G2]. eapply within_trans; [|exact H]. apply within_r, within_r, within_details.
Qed.
End Values.

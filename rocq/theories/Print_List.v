(** Listings: members, code and constants, as the model prints them. *)
From Verif Require Import Base Pack_Model Pack_Spec ConstPool_Model ConstPool_Spec ConstPool_Proofs ConstPool_Deref ClassFile_Model ClassFile_Spec ClassFile_Proofs
  Descr_Spec Opcodes_Model Opcodes_Spec Opcodes_Proofs Anno_Model Classdiff_Model Classdiff_Code Info_Model Info_Spec Info_Class
  Print_Model Print_Spec Print_Decl Print_Code.

(** ** Constants *)
Ltac flat := repeat (rewrite <- !app_assoc; cbn [app]); rewrite ?app_nil_r; reflexivity.
Definition expand (k : jconst) : list const := shown_const k :: (if jwidth k =? 2 then [KNone] else []).
Lemma jwidth_12 k : jwidth k = 1 \/ jwidth k = 2.
Proof. destruct k; cbn; auto. Qed.
Lemma jat_from_low l : forall base i, i < base -> jat_from l base i = None.
Proof.
  induction l as [|k l IH]; intros base i H; [reflexivity|]. cbn [jat_from]. replace (i =? base) with false by lia.
  apply IH. destruct (jwidth_12 k); lia.
Qed.
Lemma jslots_nonneg l : 0 <= jslots l.
Proof. induction l as [|k l IH]; [cbn; lia|]. cbn [jslots]. destruct (jwidth_12 k); lia. Qed.
Lemma expand_nth l : forall base (n : nat), nth_error (concat (map expand l)) n =
  match jat_from l base (base + Z.of_nat n) with
  | Some c => Some (shown_const c)
  | None => if Z.of_nat n <? jslots l then Some KNone else None
  end.
Proof.
  induction l as [|k l IH]; intros base n.
  - cbn [map concat jat_from jslots]. replace (Z.of_nat n <? 0) with false by lia. now destruct n.
  - cbn [map concat jat_from jslots]. pose proof (jslots_nonneg l) as HN.
    destruct n as [|n]; [rewrite Z.add_0_r, Z.eqb_refl; reflexivity|].
    replace (base + Z.of_nat (S n) =? base) with false by lia. unfold expand at 1.
    destruct (jwidth_12 k) as [W|W]; rewrite W.
    + change (1 =? 2) with false. cbn [app nth_error]. rewrite (IH (base + 1) n).
      replace (base + 1 + Z.of_nat n) with (base + Z.of_nat (S n)) by lia. replace (Z.of_nat (S n) <? 1 + jslots l) with (Z.of_nat n <? jslots l) by lia. reflexivity.
    + change (2 =? 2) with true. cbn [app nth_error]. destruct n as [|n]; cbn [nth_error].
      * rewrite jat_from_low by lia. now replace (Z.of_nat 1 <? 2 + jslots l) with true by lia.
      * rewrite (IH (base + 2) n). replace (base + 2 + Z.of_nat n) with (base + Z.of_nat (S (S n))) by lia.
        replace (Z.of_nat (S (S n)) <? 2 + jslots l) with (Z.of_nat n <? jslots l) by lia. reflexivity.
Qed.
Lemma pool_list l p : pool_shows l p -> tl p = concat (map expand l).
Proof.
  intros [HL HG]. destruct p as [|k0 p]; [cbn [length] in HL; pose proof (jslots_nonneg l); lia|]. cbn [tl].
  assert (EX : forall n, nth_error p n = nth_error (concat (map expand l)) n).
  { intro n. specialize (HG (Z.of_nat (S n)) ltac:(lia)). unfold get_const, py_index in HG.
    replace (0 <=? Z.of_nat (S n)) with true in HG by lia. rewrite Nat2Z.id in HG. cbn [nth_error] in HG.
    rewrite (expand_nth l 1 n). unfold jat in HG. replace (1 + Z.of_nat n) with (Z.of_nat (S n)) by lia.
    destruct (jat_from l 1 (Z.of_nat (S n))).
    - destruct (nth_error p n); congruence.
    - replace (Z.of_nat n <? jslots l) with (Z.of_nat (S n) <? 1 + jslots l) by lia.
      destruct (Z.of_nat (S n) <? 1 + jslots l), (nth_error p n); congruence. }
  clear HL HG. revert EX. generalize (concat (map expand l)). induction p as [|x p IH]; intros q EX.
  - specialize (EX O). now destruct q.
  - destruct q as [|y q]; [specialize (EX O); discriminate|]. pose proof (EX O) as E0. cbn in E0. injection E0 as ->. f_equal. apply IH. intro n. exact (EX (S n)).
Qed.

Section Consts.
Variable reprs : str -> str.
Variable ffmt : pyval -> str.
Notation ct := (const_text reprs (fun b => ffmt (PF32 b)) (fun b => ffmt (PF64 b))).
Definition dynamic (k : jconst) : bool := match k with JDynamic _ _ => true | _ => false end.
Lemma pretty_entry_ok k : dynamic k = false -> exists v, pretty_entry reprs ffmt (shown_const k) = Ok (Some (fst (ct k), v)) /\ str_pretty v = snd (ct k).
Proof. destruct k; intro H; try discriminate; eexists; split; try reflexivity; cbn; reflexivity. Qed.
Lemma pretty_entry_dyn k : dynamic k = true -> pretty_entry reprs ffmt (shown_const k) = Err UnknownConstantPoolTag.
Proof. destruct k; intro H; try discriminate; reflexivity. Qed.
Lemma const_lines_ok l : forall i, forallb (fun k => negb (dynamic k)) l = true ->
  const_lines reprs ffmt (concat (map expand l)) i = Ok (const_listing reprs (fun b => ffmt (PF32 b)) (fun b => ffmt (PF64 b)) i l).
Proof.
  induction l as [|k l IH]; intros i H; [reflexivity|]. cbn [forallb] in H. apply andb_prop in H as [H1 H2]. apply negb_true_iff in H1.
  destruct (pretty_entry_ok k H1) as (v & E & EV). cbn [map concat const_listing]. unfold expand at 1. cbn [app const_lines].
  rewrite E. cbn [rbind]. unfold line, nl, tab. rewrite EV.
  assert (HW : const_width k = jwidth k) by (destruct k; reflexivity). rewrite HW. destruct (jwidth_12 k) as [W|W]; rewrite W.
  - change (1 =? 2) with false. cbn [app]. rewrite IH by exact H2. cbn [rbind]. f_equal. flat.
  - change (2 =? 2) with true. cbn [app const_lines pretty_entry rbind]. replace (i + 1 + 1) with (i + 2) by lia. rewrite IH by exact H2. cbn [rbind]. f_equal. flat.
Qed.
Lemma const_lines_dyn l : forall i, existsb dynamic l = true -> const_lines reprs ffmt (concat (map expand l)) i = Err UnknownConstantPoolTag.
Proof.
  induction l as [|k l IH]; intros i H; [discriminate|]. cbn [existsb] in H. cbn [map concat]. unfold expand at 1. cbn [app const_lines].
  destruct (dynamic k) eqn:D; [now rewrite pretty_entry_dyn|]. cbn [orb] in H.
  destruct (pretty_entry_ok k D) as (v & E & _). rewrite E. cbn [rbind]. destruct (jwidth k =? 2); cbn [app const_lines pretty_entry rbind]; now rewrite IH.
Qed.
Lemma constpool_ok l p : pool_shows l p -> forallb (fun k => negb (dynamic k)) l = true ->
  constpool_text reprs ffmt p = Ok (lit "  Constants pool:" ++ nl ++ const_listing reprs (fun b => ffmt (PF32 b)) (fun b => ffmt (PF64 b)) 1 l ++ nl).
Proof. intros HP H. unfold constpool_text. rewrite (pool_list _ _ HP), const_lines_ok by exact H. cbn [rbind]. unfold line, nl. now rewrite <- !app_assoc. Qed.
Lemma constpool_dyn l p : pool_shows l p -> existsb dynamic l = true -> constpool_text reprs ffmt p = Err UnknownConstantPoolTag.
Proof. intros HP H. unfold constpool_text. now rewrite (pool_list _ _ HP), const_lines_dyn by exact H. Qed.
End Consts.

(** ** Code *)
Lemma fmt4_column z : 0 <= z -> fmt4 z = column z.
Proof.
  intro H. unfold fmt4, column. replace (z <? 0) with false by lia. change (lit " " ++ dec z) with (32 :: dec z). cbn [length].
  destruct (length (dec z)) as [|[|[|[|n]]]] eqn:E; reflexivity.
Qed.
Lemma handler_ok_line l p h e t : pool_shows l p -> handler_ok h = true -> (ex_start e, ex_end e, ex_handler e, ex_type_ref e) = h ->
  caught l (snd h) t -> handler_line p e = Ok (handler_text h t).
Proof.
  intros HP HO <- HC. unfold handler_line, handler_text, handler_ok in *. cbn [snd] in HC.
  assert (HT : pretty_catch_type p e = Ok t).
  { unfold pretty_catch_type, get_catch_type. inversion HC as [E0 E1|i n Hi HJ Hn E0 E1]; subst.
    - reflexivity.
    - replace (ex_type_ref e =? 0) with false by lia. rewrite (jclass_deref _ _ _ _ HP HJ). cbn [rbind]. destruct n; [discriminate|]. reflexivity. }
  rewrite HT. cbn [rbind]. repeat rewrite andb_true_iff in HO. unfold u2, field_ok in HO.
  rewrite !fmt4_column by lia. unfold line, tab, nl. now rewrite <- !app_assoc.
Qed.
Lemma handlers_ok_text l p hs : pool_shows l p -> forall es ts, forallb handler_ok hs = true ->
  map (fun e => (ex_start e, ex_end e, ex_handler e, ex_type_ref e)) es = hs -> Forall2 (fun h => caught l (snd h)) hs ts ->
  mapM (handler_line p) es = Ok (map (fun ht => handler_text (fst ht) (snd ht)) (combine hs ts)).
Proof.
  intros HP es ts HO HE HF. revert es HE. induction HF as [|h t hs ts H HF IH]; intros [|e es] HE; try discriminate; [reflexivity|].
  cbn [map] in HE. injection HE as HE1 HE2. cbn [forallb] in HO. apply andb_prop in HO as [HO1 HO2].
  cbn [mapM combine map fst snd]. rewrite (handler_ok_line l p h e t HP HO1 HE1 H). cbn [rbind]. rewrite (IH HO2 es HE2). reflexivity.
Qed.
Lemma jcode_handlers l k : jcode_ok l k = true -> forallb handler_ok (jk_handlers k) = true.
Proof. unfold jcode_ok. intro H. repeat (apply andb_prop in H as [H ?]). assumption. Qed.

Lemma prun_u2u2 a b rest : u2 a = true -> u2 b = true -> prun (p_unpack2 cH cH) (e2 a ++ e2 b ++ rest) = Ok ((a, b), rest).
Proof. intros H1 H2. rewrite <- prun_bind_ret. unfold e2. now rewrite prun_unpack2. Qed.
Lemma jclass_pos l i n : jclass_at l i = Some n -> 0 < i.
Proof. unfold jclass_at. destruct (jat l i) eqn:E; [|discriminate]. intros _. exact (jat_pos _ _ _ E). Qed.
Lemma jnt_pos l i n : jnt_at l i = Some n -> 0 < i.
Proof. unfold jnt_at. destruct (jat l i) eqn:E; [|discriminate]. intros _. exact (jat_pos _ _ _ E). Qed.

Lemma enclosing_ok fmt c r e : class_shows c r -> enclosing c e -> get_enclosingmethod fmt r = Ok (option_map PStr e).
Proof.
  intros (_ & HP & _ & _ & _ & _ & _ & _ & HA) HE. unfold get_enclosingmethod. destruct HA as [HA _]. rewrite HA.
  destruct HE as [HN|i n Hi HN HJ|i j n m d Hi Hj HN HJ HT]; rewrite HN; [reflexivity| |].
  - rewrite (parse_ok _ _ (i, 0)) by (rewrite <- (app_nil_r (e2 i ++ e2 0)), <- app_assoc; now apply prun_u2u2). cbn [rbind].
    assert (i <> 0) by (intro; subst; pose proof (jclass_pos _ _ _ HJ); lia). replace (i =? 0) with false by lia. cbn [negb andb Z.eqb].
    rewrite (jclass_deref _ _ _ _ HP HJ). reflexivity.
  - rewrite (parse_ok _ _ (i, j)) by (rewrite <- (app_nil_r (e2 i ++ e2 j)), <- app_assoc; now apply prun_u2u2). cbn [rbind].
    assert (i <> 0) by (intro; subst; pose proof (jclass_pos _ _ _ HJ); lia). assert (j <> 0) by (intro; subst; pose proof (jnt_pos _ _ _ HT); lia).
    replace (i =? 0) with false by lia. replace (j =? 0) with false by lia. cbn [negb andb].
    rewrite (jclass_deref _ _ _ _ HP HJ). cbn [rbind]. rewrite (jnt_deref _ _ _ _ _ HP HT). cbn [rbind unpair fst snd pct_s]. reflexivity.
Qed.

Section Print.
Variable fmt : pyval -> str.
Variable repr : pyval -> str.
Variable reprs : str -> str.
Variable ffmt : pyval -> str.
Variable order : list str -> list str.

Lemma code_ok_text o l p m jk k is ts : o_verbose o = false -> pool_shows l p -> code_shows l jk k -> jcode_ok l jk = true ->
  jk_code jk = assemble 0 is -> forallb jinsn_ok is = true -> no_monitorenter is = true ->
  Forall2 (fun h => caught l (snd h)) (jk_handlers jk) ts ->
  code_text fmt o p m k = Ok (lit "  Code:" ++ nl ++ jcode_lines 0 is ++ handlers_text (jk_handlers jk) ts).
Proof.
  intros HV HP (_ & _ & HC & HE & _) HK HA HI HN HF. unfold code_text. rewrite HV. cbn [rbind].
  rewrite HC, HA, (proj2 (disassemble_all_iff _ _) (disassemble_assemble is HI)). cbn [rbind].
  destruct (insn_lines_ok is 0 HI HN) as (ls & E & EC). rewrite E. cbn [rbind].
  rewrite (handlers_ok_text l p _ HP _ ts (jcode_handlers _ _ HK) HE HF). cbn [rbind]. unfold line, nl. rewrite EC.
  unfold handlers_text, tab. destruct HF as [|h t hs ts Hh HF].
  - cbn [combine map app]. now rewrite <- !app_assoc.
  - cbn [combine map concat]. now rewrite <- !app_assoc.
Qed.

(** ** Listing *)
Lemma show_visible l show b jm m : In show [1; 3; 7] -> member_shows l b jm m -> should_show show m = visible show jm.
Proof.
  intros HS (HF & _). unfold should_show, visible. rewrite HF.
  assert (P : flag ACC_PUBLIC (jm_flags jm) = Z.testbit (jm_flags jm) 0) by exact (flag_bit 0 (jm_flags jm) ltac:(lia)).
  assert (Q : flag ACC_PROTECTED (jm_flags jm) = Z.testbit (jm_flags jm) 2) by exact (flag_bit 2 (jm_flags jm) ltac:(lia)).
  destruct HS as [<-|[<-|[<-|[]]]]; cbn [Z.eqb]; unfold SHOW_PUBLIC, SHOW_PACKAGE, SHOW_PRIVATE.
  - change (1 =? 1) with true. change (1 =? 7) with false. change (1 =? 3) with false. rewrite P. cbn [orb andb]. now rewrite orb_false_r.
  - change (3 =? 1) with false. change (3 =? 3) with true. change (3 =? 7) with false. rewrite P, Q. reflexivity.
  - reflexivity.
Qed.
Lemma filter_shown l show b jms ms : In show [1; 3; 7] -> Forall2 (member_shows l b) jms ms ->
  Forall2 (member_shows l b) (filter (visible show) jms) (filter (should_show show) ms).
Proof.
  intros HS HF. induction HF as [|jm m jms ms H HF IH]; [constructor|]. cbn [filter]. rewrite (show_visible l show b jm m HS H).
  destruct (visible show jm); [now constructor|exact IH].
Qed.
Definition plain (o : popts) : Prop :=
  o_verbose o = false /\ o_sigs o = false /\ o_lines o = false /\ o_locals o = false /\
  o_provides o = false /\ o_requires o = false.
Lemma no_anno l p al d : attrs_show l al d -> last_named l al (lit "RuntimeVisibleAnnotations") = None -> annotations_of p d A_vis = Ok [].
Proof. intros [HA _] HN. unfold annotations_of. rewrite HA. unfold A_vis. now rewrite HN. Qed.
Lemma source_ok c r s : class_shows c r -> source_file c s -> get_sourcefile r = Ok (option_map PStr s).
Proof.
  intros HC HS. destruct HC as (_ & HP & _ & _ & _ & _ & _ & _ & HA). unfold get_sourcefile, source_file in *.
  destruct s as [s|].
  - destruct HS as (i & Hu & HN & HJ). unfold u2_attribute_deref. rewrite (u2_attr _ _ _ _ _ HA Hu HN). cbn [rbind]. rewrite (jutf8_deref _ _ _ _ HP HJ). reflexivity.
  - now destruct (absent_attr _ _ _ _ (c_pool r) HA HS) as [_ ->].
Qed.
Lemma code_present c p jm (m : member) k : pool_shows (jc_pool c) p -> attrs_show (jc_pool c) (jm_attrs jm) (m_attrs m) -> has_code c jm k ->
  match k with None => get_code p m = Ok None | Some jk => exists x, get_code p m = Ok (Some x) /\ code_shows (jc_pool c) jk x end.
Proof.
  intros HP HA HK. destruct k as [jk|]; cbn in HK.
  - destruct HK as [HN HK]. eapply get_code_roundtrip; eauto.
  - eapply no_code; eauto.
Qed.
Lemma member_shows_attrs l b jm m : member_shows l b jm m -> attrs_show l (jm_attrs jm) (m_attrs m).
Proof. intros (_ & _ & _ & _ & H). exact H. Qed.

Lemma field_block o c r dis jm m t : plain o -> o_disassemble o = dis -> class_shows c r -> member_shows (jc_pool c) false jm m ->
  (exists n ty, declares c jm n (SField ty)) -> described c jm t ->
  print_field fmt reprs ffmt (cli_options o) (c_pool r) m = Ok (decl_line dis t).
Proof.
  intros (V & S & L & LO & PR & RQ) HD HC HM (n & ty & Hdc) HT. unfold print_field, cli_options. rewrite V, S, L, HD. cbn [o_sigs o_verbose o_indent orb].
  rewrite (member_text fmt c r false jm m n (SField ty) t HC HM Hdc eq_refl HT). cbn [rbind]. unfold decl_line, line, nl, when.
  rewrite !orb_false_r. destruct dis; cbn [negb app]; rewrite ?app_nil_r, <- ?app_assoc; reflexivity.
Qed.
Lemma method_block o c r dis jm m t : plain o -> o_disassemble o = dis -> class_shows c r -> member_shows (jc_pool c) true jm m ->
  (exists n a ret, declares c jm n (SMethod a ret)) -> no_annotations c jm -> block c dis jm t ->
  print_method fmt (cli_options o) (c_pool r) m = Ok t.
Proof.
  intros (V & S & L & LO & PR & RQ) HD HC HM (n & a & ret & Hdc) HN HBl. destruct HBl as [jm' t' s HT HB].
  pose proof HC as HC'. destruct HC' as (_ & HP & _).
  unfold print_method. rewrite (member_text fmt c r true jm' m n (SMethod a ret) t' HC HM Hdc eq_refl HT). cbn [rbind].
  rewrite (no_anno _ (c_pool r) _ _ (member_shows_attrs _ _ _ _ HM) HN).
  assert (HO : cli_options o = mkpopts false (o_show o) false false false dis (o_constpool o) (negb dis) false false (o_api_ignore o)).
  { unfold cli_options. rewrite V, S, L, LO, PR, RQ, HD. cbn [orb]. now rewrite !orb_false_r. }
  rewrite HO. cbn [o_sigs o_verbose o_indent o_lines o_locals o_disassemble rbind anno_lines when].
  assert (G : exists code, get_code (c_pool r) m = Ok code /\
     match code with
     | Some k => if dis then code_text fmt (mkpopts false (o_show o) false false false dis (o_constpool o) (negb dis) false false (o_api_ignore o)) (c_pool r) m k else Ok []
     | None => Ok [] end = Ok s).
  { destruct HB as [HK|k Hd HK|k is ts Hd HK HA HI HM' HF].
    - exists None. split; [exact (code_present c (c_pool r) jm' m None HP (member_shows_attrs _ _ _ _ HM) HK)|reflexivity].
    - destruct (code_present c (c_pool r) jm' m (Some k) HP (member_shows_attrs _ _ _ _ HM) HK) as (x & E & HX). exists (Some x). rewrite Hd. auto.
    - destruct (code_present c (c_pool r) jm' m (Some k) HP (member_shows_attrs _ _ _ _ HM) HK) as (x & E & HX). exists (Some x). split; [exact E|]. rewrite Hd.
      destruct HK as [_ HK]. eapply code_ok_text; eauto. }
  destruct G as (code & E1 & E2). rewrite E1. cbn [rbind]. rewrite E2. cbn [rbind].
  destruct code; cbn [rbind]; unfold decl_line, line, nl, when; destruct dis; cbn [negb app]; rewrite ?app_nil_r, <- ?app_assoc; reflexivity.
Qed.

Lemma Forall2_mapped {A B C} (R : A -> B -> Prop) (f : B -> C) l m : Forall2 R l m -> Forall2 (fun x z => exists y, z = f y /\ R x y) l (map f m).
Proof. induction 1; constructor; eauto. Qed.
Lemma mapM_Forall2 {A B} (f : A -> res B) l l' : Forall2 (fun x y => f x = Ok y) l l' -> mapM f l = Ok l'.
Proof. induction 1 as [|x y l l' H HF IH]; [reflexivity|]. cbn [mapM]. now rewrite H, IH. Qed.
Lemma Forall2_meet {A B C} (P : A -> B -> Prop) (Q : A -> C -> Prop) (R : B -> C -> Prop) l m n :
  (forall x y z, In x l -> P x y -> Q x z -> R y z) -> Forall2 P l m -> Forall2 Q l n -> Forall2 R m n.
Proof.
  intros H HP. revert n. induction HP as [|x y l m Hx HP IH]; intros n HQ; inversion HQ; subst; constructor.
  - eapply H; [now left|exact Hx|assumption].
  - apply IH; [|assumption]. intros x' y' z' HI. apply H. now right.
Qed.

Theorem listing_text o c r dis this super ifs src fs ms :
  class_ok c -> class_shows c r -> plain o -> o_disassemble o = dis -> In (o_show o) [1; 3; 7] ->
  (Z.testbit (jc_flags c) 9 = true -> Z.testbit (jc_flags c) 14 = false) ->
  jclass_at (jc_pool c) (jc_this c) = Some this -> jclass_at (jc_pool c) (jc_super c) = Some super ->
  Forall2 (fun i n => jclass_at (jc_pool c) i = Some n) (jc_interfaces c) ifs -> forallb class_name ifs = true ->
  source_file c src -> (o_constpool o = true -> no_dynamic (jc_pool c) = true) ->
  (forall m, In m (jc_methods c) -> visible (o_show o) m = true -> no_annotations c m) ->
  Forall2 (described c) (filter (visible (o_show o)) (jc_fields c)) fs ->
  Forall2 (block c dis) (filter (visible (o_show o)) (jc_methods c)) ms ->
  cli_print fmt repr reprs ffmt order o r =
    Ok (listing src (class_lead (jc_flags c) ++ class_decl (jc_flags c) this super ifs)
          (if o_constpool o then const_block reprs (fun b => ffmt (PF32 b)) (fun b => ffmt (PF64 b)) (jc_pool c) else []) (map (decl_line dis) fs ++ ms)).
Proof.
  intros [_ HA] HC HO HD HS Hle HT HSu HI Hifs HSrc HCP HN HF HM. pose proof HO as (V & S & L & LO & PR & RQ).
  destruct HA as [HW _ HAf HAm _ _ _]. pose proof HC as (_ & _ & _ & _ & _ & _ & HCf & HCm & _).
  unfold cli_print, print_classinfo.
  change (o_show (cli_options o)) with (o_show o).
  assert (E1 : o_provides (cli_options o) || o_requires (cli_options o) = false) by (cbn; now rewrite PR, RQ).
  assert (E2 : o_verbose (cli_options o) = false) by exact V.
  assert (E3 : o_constpool (cli_options o) = o_constpool o) by (cbn; now rewrite V, orb_false_r).
  assert (E4 : (o_show o =? SHOW_HEADER) = false) by (unfold SHOW_HEADER; destruct HS as [<-|[<-|[<-|[]]]]; reflexivity).
  rewrite E1, E2, E3, E4. cbn [orb].
  rewrite (source_ok c r src HC HSrc). cbn [rbind].
  rewrite (class_text c r this super ifs HW HC Hle HT HSu HI Hifs). cbn [rbind].
  assert (EC : (if o_constpool o then constpool_text reprs ffmt (c_pool r) else Ok []) =
    Ok (if o_constpool o then const_block reprs (fun b => ffmt (PF32 b)) (fun b => ffmt (PF64 b)) (jc_pool c) else [])).
  { destruct (o_constpool o); [|reflexivity]. unfold const_block. rewrite (constpool_ok reprs ffmt (jc_pool c)); [reflexivity|apply HC|].
    specialize (HCP eq_refl). unfold no_dynamic in HCP. rewrite forallb_forall in *. intros k Hk. specialize (HCP k Hk). now destruct k. }
  rewrite EC. cbn [rbind].
  rewrite (mapM_Forall2 (print_field fmt reprs ffmt (cli_options o) (c_pool r)) _ (map (decl_line dis) fs)).
  - cbn [rbind]. rewrite (mapM_Forall2 (print_method fmt (cli_options o) (c_pool r)) _ ms).
    + cbn [rbind]. unfold listing, line, nl, when. f_equal. rewrite concat_app.
      destruct src as [[|x s]|]; cbn [option_map py_true str_opt pct_s seqb negb]; flat.
    + refine (Forall2_meet _ _ _ _ _ _ _ (filter_shown _ _ _ _ _ HS HCm) HM). intros jm m t HI' H1 H2. apply filter_In in HI' as [HI1 HI2].
      eapply method_block; eauto.
  - refine (Forall2_meet _ _ _ _ _ _ _ (filter_shown _ _ _ _ _ HS HCf) (Forall2_mapped _ (decl_line dis) _ _ HF)). 
    intros jm m t HI' H1 (t0 & -> & H2). apply filter_In in HI' as [HI1 HI2]. eapply field_block; eauto.
Qed.
End Print.

(** The full listing of a class, as the model prints it. *)
From Verif Require Import Base Pack_Model Pack_Spec ConstPool_Model ConstPool_Spec ConstPool_Proofs ConstPool_Deref ClassFile_Model ClassFile_Spec ClassFile_Proofs
  Descr_Model Descr_Spec Descr_Proofs Opcodes_Model Opcodes_Spec Opcodes_Proofs Anno_Model Anno_Spec Anno_Proofs Classdiff_Model Classdiff_Code Info_Model Info_Spec Info_Class Info_Lookup
  Print_Model Print_Spec Print_Decl Print_Code Print_List Verbose_Spec.

(** ** Annotations *)
Section Anno.
Variable fmt : pyval -> str.
Variable l : list jconst.
Variable p : pool.
Hypothesis HP : pool_shows l p.

Lemma name_of i n : jutf8_at l i = Some n -> Anno_Spec.elem_name l i = n.
Proof. unfold Anno_Spec.elem_name. now intros ->. Qed.
Definition loop_elems : list (pyval * aval) -> res (list str) :=
  fix loop (es : list (pyval * aval)) : res (list str) :=
    match es with
    | [] => Ok []
    | (k, v) :: es' => s <- pretty_aval fmt p v ;; r <- loop es' ;; Ok ((pct_s fmt k ++ lit "=" ++ s) :: r)
    end.
Definition loop_vals : list aval -> res (list str) :=
  fix loop (vs : list aval) : res (list str) :=
    match vs with
    | [] => Ok []
    | v :: vs' => s <- pretty_aval fmt p v ;; r <- loop vs' ;; Ok (s :: r)
    end.
Lemma type_v t ty : jutf8_at l t = Some (desc ty) -> (tv <- deref_const p t ;; pretty_type_v tv) = Ok (type_name ty).
Proof. intro H. rewrite (jutf8_deref _ _ _ _ HP H). cbn [rbind pretty_type_v]. apply pretty_desc. Qed.
Lemma pretty_anno_eq t es : pretty_aval fmt p (AAnno t es) =
  (tv <- deref_const p t ;; tn <- pretty_type_v tv ;; l <- loop_elems es ;; Ok (lit "@" ++ tn ++ lit "(" ++ concat_with (lit ", ") l ++ lit ")")).
Proof. reflexivity. Qed.
Lemma pretty_arr_eq vs : pretty_aval fmt p (AArr vs) = (l <- loop_vals vs ;; Ok (lit "[" ++ concat_with (lit ", ") l ++ lit "]")).
Proof. reflexivity. Qed.
Definition shown_elem (e : Z * jval) : pyval * aval := (PStr (Anno_Spec.elem_name l (fst e)), shown_val l (snd e)).
Lemma elems_ok es ss : Forall (fun e => forall s, val_text l (snd e) s -> pretty_aval fmt p (shown_val l (snd e)) = Ok s) es ->
  Forall2 (elem_text l) es ss -> loop_elems (map shown_elem es) = Ok ss.
Proof.
  intros H HF. revert H. induction HF as [|e s es ss He HF IH]; intro H; [reflexivity|]. inversion H as [|? ? H1 H2]; subst.
  destruct He as [i n v s Hn Hv]. cbn [map shown_elem fst snd loop_elems] in *. rewrite (H1 s Hv). cbn [rbind].
  change ((fix loop (es : list (pyval * aval)) : res (list str) := match es with [] => Ok [] | (k, v) :: es' => s <- pretty_aval fmt p v ;; r <- loop es' ;; Ok ((pct_s fmt k ++ lit "=" ++ s) :: r) end) (map shown_elem es)) with (loop_elems (map shown_elem es)).
  rewrite (IH H2). cbn [rbind pct_s]. now rewrite (name_of _ _ Hn).
Qed.
Lemma val_ok v : forall s, val_text l v s -> pretty_aval fmt p (shown_val l v) = Ok s.
Proof.
  induction v as [t i|t n|i|t es IH|vs IH] using jval_ind'; intros s H; inversion H; subst.
  - reflexivity.
  - reflexivity.
  - reflexivity.
  - change (shown_val l (VAnno t es)) with (AAnno t (map shown_elem es)). rewrite pretty_anno_eq.
    match goal with H1 : jutf8_at l t = Some (desc ?ty) |- _ => pose proof (type_v _ _ H1) as E end. destruct (deref_const p t) as [tv|]; [|discriminate E]. cbn [rbind] in *. rewrite E. cbn [rbind].
    match goal with HF : Forall2 (elem_text l) es ?ss |- _ => rewrite (elems_ok es ss IH HF) end. reflexivity.
  - change (shown_val l (VArr vs)) with (AArr (map (shown_val l) vs)). rewrite pretty_arr_eq.
    match goal with H1 : Forall2 (val_text l) vs ?ss |- _ => assert (E : loop_vals (map (shown_val l) vs) = Ok ss) end.
    { clear H. match goal with H1 : Forall2 _ _ _ |- _ => revert IH; induction H1 as [|v s vs ss Hv HF IHf]; intro IH end; [reflexivity|].
      inversion IH as [|? ? H1 H2]; subst. cbn [map loop_vals]. rewrite (H1 s Hv). cbn [rbind].
      match goal with |- (r <- ?x ;; _) = _ => change x with (loop_vals (map (shown_val l) vs)) end. now rewrite (IHf H2). }
    now rewrite E.
Qed.
Lemma anno_ok a t : anno_text l a t -> pretty_annotation fmt p (shown_anno l a) = Ok t.
Proof.
  intros [t0 es ty ss HT HF]. unfold pretty_annotation. 
  rewrite (val_ok (VAnno t0 es) (lit "@" ++ type_name ty ++ lit "(" ++ concat_with (lit ", ") ss ++ lit ")") (vt_anno l t0 es ty ss HT HF) : pretty_aval fmt p (AAnno (fst (shown_anno l (t0, es))) (snd (shown_anno l (t0, es)))) = _).
  reflexivity.
Qed.
Lemma annotated_ok al d ts : attrs_show l al d -> annotated l al ts ->
  exists annos, annotations_of p d A_vis = Ok annos /\ anno_lines fmt p annos = Ok (annos_text ts).
Proof.
  intros HA [[HN ->]|(annos & HN & HS & HO & HF)].
  - exists []. split; [eapply no_anno; eauto|reflexivity].
  - exists (map (shown_anno l) annos). split; [exact (annotations_decode l p HP d annos al A_vis HA HO HS HN)|].
    unfold anno_lines.
    assert (E : mapM (pretty_annotation fmt p) (map (shown_anno l) annos) = Ok ts).
    { apply mapM_Forall2. clear - HF HP. induction HF as [|a t annos ts Ha HF IH]; constructor; [now apply anno_ok|exact IH]. }
    rewrite E. destruct HF as [|a t annos ts Ha HF]; [reflexivity|]. cbn [map rbind annos_text]. unfold line, nl.
    rewrite (map_ext (fun s => (lit "  0: " ++ s) ++ [10]) (fun s => lit "  0: " ++ s ++ [10])) by (intro; now rewrite <- app_assoc).
    f_equal; rewrite ?app_nil_r, <- ?app_assoc; reflexivity.
Qed.
End Anno.

(** ** Attributes that hold one index *)
Lemma sig_ok_text l p al d sg : pool_shows l p -> attrs_show l al d -> names_text l al "Signature" sg -> get_signature p d = Ok (option_map PStr sg).
Proof.
  intros HP HA HS. unfold get_signature, names_text in *. destruct sg as [s|].
  - destruct HS as (i & Hu & HN & HJ). unfold u2_attribute_deref. rewrite (u2_attr _ _ _ _ _ HA Hu HN). cbn [rbind]. rewrite (jutf8_deref _ _ _ _ HP HJ). reflexivity.
  - now destruct (absent_attr _ _ _ _ p HA HS) as [_ ->].
Qed.
Lemma filled_ok l al d name : attrs_show l al d -> truthy_buf (get_attribute d (lit name)) = filled l al name.
Proof. intros [HA _]. unfold filled. rewrite HA. destruct (last_named l al (lit name)) as [[|]|]; reflexivity. Qed.

Section Print.
Variable fmt : pyval -> str.
Variable repr : pyval -> str.
Variable reprs : str -> str.
Variable ffmt : pyval -> str.
Variable order : list str -> list str.
Notation f32 := (fun b => ffmt (PF32 b)).
Notation f64 := (fun b => ffmt (PF64 b)).

Lemma lines_ok l jk k t : code_shows l jk k -> line_table l jk t -> lines_text k = Ok (line_table_text t).
Proof. clear fmt repr reprs ffmt order.
  intros HK HT. unfold lines_text. assert (E : get_linenumbertable k = Ok t).
  { destruct HT as [[HN ->]|(HN & H1 & H2)]; [|eapply linenumbers_attr; eauto]. destruct HK as (_ & _ & _ & _ & HA & _). unfold get_linenumbertable. now rewrite HA, HN. }
  rewrite E. cbn [rbind]. f_equal. destruct t as [|x t]; [reflexivity|]. unfold line_table_text, line, nl.
  rewrite (map_ext (fun ol : Z * Z => (lit "   line " ++ dec (snd ol) ++ lit ": " ++ dec (fst ol)) ++ [10]) (fun e => lit "   line " ++ dec (snd e) ++ lit ": " ++ dec (fst e) ++ [10])) by (intro; now rewrite <- !app_assoc).
  rewrite <- ?app_assoc; reflexivity.
Qed.
Lemma vars_ok l p jk k name title last ts : pool_shows l p -> code_shows l jk k -> var_rows l jk name ts ->
  (rows <- var_table k (lit name) ;; locals_table p title (lit "   Start  Length  Slot" ++ tab ++ lit "Name" ++ tab ++ lit last) rows) = Ok (vars_text title last ts).
Proof. clear fmt repr reprs ffmt order.
  intros HP HK [[HN ->]|(t & HN & H1 & H2 & HF)].
  - destruct HK as (_ & _ & _ & _ & HA & _). unfold var_table. now rewrite HA, HN.
  - rewrite (var_table_attr l jk k (lit name) t HK H1 H2 HN). cbn [rbind]. unfold locals_table.
    assert (E : mapM (local_line p) t = Ok ts).
    { apply mapM_Forall2. clear - HF HP. induction HF as [|r s t ts Hr HF IH]; constructor; [|exact IH]. destruct Hr as [start len n d slot name type Hn Hd].
      unfold local_line. rewrite (jutf8_deref _ _ _ _ HP Hn), (jutf8_deref _ _ _ _ HP Hd). cbn [rbind join_str concat_with]. unfold line, tab, nl. f_equal; rewrite ?app_nil_r, <- ?app_assoc; reflexivity. }
    rewrite E. destruct HF as [|r s t ts Hr HF]; [reflexivity|]. cbn [rbind vars_text]. unfold line, tab, nl. f_equal; rewrite ?app_nil_r, <- ?app_assoc; reflexivity.
Qed.
Lemma locals_ok l p jk k vs gs : pool_shows l p -> code_shows l jk k -> var_rows l jk "LocalVariableTable" vs -> var_rows l jk "LocalVariableTypeTable" gs ->
  locals_text p k = Ok (vars_text "  LocalVariableTable:" "Descriptor" vs ++ vars_text "  LocalVariableTypeTable:" "Signature" gs).
Proof. clear fmt repr reprs ffmt order.
  intros HP HK HV HG. pose proof (vars_ok l p jk k _ "  LocalVariableTable:" "Descriptor" vs HP HK HV) as E1. pose proof (vars_ok l p jk k _ "  LocalVariableTypeTable:" "Signature" gs HP HK HG) as E2.
  unfold locals_text, get_localvariabletable, get_localvariabletypetable. destruct (var_table k (lit "LocalVariableTable")); [|discriminate E1]. destruct (var_table k (lit "LocalVariableTypeTable")); [|discriminate E2].
  cbn [rbind] in *. rewrite E1. cbn [rbind]. rewrite E2. reflexivity.
Qed.

(** ** Members *)
Definition opts (w : view) (o : popts) : Prop :=
  o_verbose o = w_all w /\ o_sigs o = w_sigs w /\ o_lines o = w_lines w /\ o_locals o = w_locals w /\ o_disassemble o = w_code w /\
  o_constpool o = w_pool w /\ o_indent o = negb (flush w).
Lemma asked_opts o : opts (asked o) (cli_options o).
Proof. clear fmt repr reprs ffmt order.
  unfold opts, asked, cli_options, flush. cbn. repeat split; try (apply orb_comm). f_equal.
  destruct (o_verbose o), (o_lines o), (o_disassemble o), (o_sigs o); reflexivity.
Qed.
Lemma decl_ok_line w t : when (negb (flush w)) (lit "   ") ++ line (t ++ lit ";") = decl_line (flush w) t.
Proof. clear fmt repr reprs ffmt order. unfold decl_line, line, nl, when. destruct (flush w); cbn [negb]; rewrite <- ?app_assoc; reflexivity. Qed.

Lemma field_full w o c r jm m t : opts w o -> class_shows c r -> member_shows (jc_pool c) false jm m ->
  (exists n ty, declares c jm n (SField ty)) -> field_text reprs f32 f64 c w jm t ->
  print_field fmt reprs ffmt o (c_pool r) m = Ok t.
Proof. clear repr order.
  intros (OV & OS & OL & OO & OD & OP & OI) HC HM (n & ty & Hdc) [t0 sg ts cv HT HS HA HV]. pose proof HC as (_ & HP & _). pose proof (member_shows_attrs _ _ _ _ HM) as HMA.
  unfold print_field. rewrite (member_text fmt c r false jm m n (SField ty) t0 HC HM Hdc eq_refl HT), OV, OS, OI. cbn [rbind].
  assert (E1 : (if w_sigs w then s <- get_signature (c_pool r) (m_attrs m) ;; Ok (line (lit "  Signature: " ++ str_opt fmt s)) else Ok []) = Ok (given (w_sigs w) (sig_line sg))).
  { destruct (w_sigs w); [|reflexivity]. rewrite (sig_ok_text _ _ _ _ _ HP HMA (HS eq_refl)). cbn [rbind given]. unfold sig_line, line, nl. destruct sg; cbn [option_map str_opt pct_s]; now rewrite <- app_assoc. }
  rewrite E1. cbn [rbind]. rewrite <- decl_ok_line.
  destruct (w_all w); [|cbn [rbind given]; f_equal; now rewrite <- !app_assoc].
  destruct (annotated_ok fmt _ _ HP _ _ _ HMA (HA eq_refl)) as (annos & -> & EA). cbn [rbind]. rewrite EA. cbn [rbind].
  destruct (HV eq_refl) as [HN|i k Hu HN HJ HD].
  - unfold get_constantvalue. destruct (absent_attr _ _ _ _ (c_pool r) HMA HN) as [-> _]. cbn [rbind given]. unfold line, nl. f_equal; flat.
  - unfold get_constantvalue. rewrite (u2_attr _ _ _ _ _ HMA Hu HN). cbn [rbind]. unfold pretty_const. rewrite (proj2 HP) by (pose proof (jat_pos _ _ _ HJ); lia). rewrite HJ. cbn [rbind].
    assert (HD' : dynamic k = false) by (destruct k; try reflexivity; discriminate HD).
    destruct (pretty_entry_ok reprs ffmt k HD') as (v & E & EV). rewrite E. cbn [rbind given]. rewrite EV. unfold line, nl. f_equal; flat.
Qed.

Lemma code_full w o c r jm m jk k t : opts w o -> class_shows c r -> member_shows (jc_pool c) true jm m -> code_shows (jc_pool c) jk k -> jcode_ok (jc_pool c) jk = true ->
  insns_text c w jm jk t -> code_text fmt o (c_pool r) m k = Ok t.
Proof. clear repr reprs ffmt order.
  intros (OV & _) HC HM HK HKO [n a ret is ts Hdc HA HI HN HF]. pose proof HC as (_ & HP & _). pose proof HK as (K1 & K2 & K3 & K4 & _).
  unfold code_text. rewrite OV.
  match goal with |- rbind ?x _ = _ => assert (ES : x    = Ok (given (w_all w) (stack_line jk (args_size jm a)))) end.
  { destruct (w_all w); [|reflexivity]. rewrite (arg_types fmt c r HC jm m n a ret Hdc HM). cbn [rbind given]. cbv zeta. unfold stack_line, args_size. rewrite map_length, K1, K2.
    destruct HM as (HF' & _). rewrite HF'. replace (flag ACC_STATIC (jm_flags jm)) with (Z.testbit (jm_flags jm) 3) by (symmetry; exact (flag_bit 3 _ ltac:(lia))).
    unfold line, nl. f_equal; rewrite ?app_nil_r, <- ?app_assoc; reflexivity. }
  rewrite ES. cbn [rbind]. rewrite K3, HA, (proj2 (disassemble_all_iff _ _) (disassemble_assemble is HI)). cbn [rbind].
  destruct (insn_lines_ok is 0 HI HN) as (ls & E & EC). rewrite E. cbn [rbind].
  rewrite (handlers_ok_text _ _ _ HP _ ts (jcode_handlers _ _ HKO) K4 HF). cbn [rbind]. rewrite EC. unfold handlers_text, tab.
  destruct HF as [|h th hs ths Hh HF]; cbn [combine map concat]; unfold line, nl; f_equal; rewrite <- ?app_assoc; reflexivity.
Qed.

Lemma when_given b s : when b s = given b s.
Proof. reflexivity. Qed.
Lemma marks_ok l b jm m : member_shows l b jm m ->
  when (is_deprecated (m_attrs m)) (line (lit "  Deprecated: true")) ++
  when (is_synthetic m) (line (lit "  Synthetic: true")) ++
  when (flag ACC_BRIDGE (m_flags m)) (line (lit "  Bridge: true")) ++
  when (flag ACC_VARARGS (m_flags m)) (line (lit "  Varargs: true")) =
  given (filled l (jm_attrs jm) "Deprecated") (lit "  Deprecated: true" ++ nl) ++
  given (Z.testbit (jm_flags jm) 12 || filled l (jm_attrs jm) "Synthetic") (lit "  Synthetic: true" ++ nl) ++
  given (Z.testbit (jm_flags jm) 6) (lit "  Bridge: true" ++ nl) ++
  given (Z.testbit (jm_flags jm) 7) (lit "  Varargs: true" ++ nl).
Proof. clear fmt repr reprs ffmt order.
  intros (HF & _ & _ & _ & HA). unfold is_deprecated, is_synthetic. rewrite HF, !(filled_ok _ _ _ _ HA), !when_given.
  replace (flag ACC_SYNTHETIC (jm_flags jm)) with (Z.testbit (jm_flags jm) 12) by (symmetry; exact (flag_bit 12 _ ltac:(lia))).
  replace (flag ACC_BRIDGE (jm_flags jm)) with (Z.testbit (jm_flags jm) 6) by (symmetry; exact (flag_bit 6 _ ltac:(lia))).
  replace (flag ACC_VARARGS (jm_flags jm)) with (Z.testbit (jm_flags jm) 7) by (symmetry; exact (flag_bit 7 _ ltac:(lia))). reflexivity.
Qed.

Lemma method_full w o c r jm m t : opts w o -> class_shows c r -> member_shows (jc_pool c) true jm m ->
  (exists n a ret, declares c jm n (SMethod a ret)) -> method_text c w jm t ->
  print_method fmt o (c_pool r) m = Ok t.
Proof. clear repr reprs ffmt order.
  intros HO HC HM (n & a0 & ret & Hdc) [t0 sg ts a b ex HT HS HA HB HE]. pose proof HO as (OV & OS & OL & OO & OD & OP & OI).
  pose proof HC as (_ & HP & _). pose proof (member_shows_attrs _ _ _ _ HM) as HMA.
  unfold print_method. rewrite (member_text fmt c r true jm m n (SMethod a0 ret) t0 HC HM Hdc eq_refl HT), OV, OS, OL, OO, OD, OI. cbn [rbind].
  assert (E1 : (if w_sigs w then s <- get_signature (c_pool r) (m_attrs m) ;; Ok (line (lit "  Signature: " ++ str_opt fmt s)) else Ok []) = Ok (given (w_sigs w) (sig_line sg))).
  { destruct (w_sigs w); [|reflexivity]. rewrite (sig_ok_text _ _ _ _ _ HP HMA (HS eq_refl)). cbn [rbind given]. unfold sig_line, line, nl. destruct sg; cbn [option_map str_opt pct_s]; now rewrite <- app_assoc. }
  rewrite E1. cbn [rbind]. clear E1.
  destruct (annotated_ok fmt _ _ HP _ _ _ HMA HA) as (annos & -> & EA). cbn [rbind]. rewrite EA. cbn [rbind]. clear EA.
  assert (G : exists code, get_code (c_pool r) m = Ok code /\
     match code with Some k => if w_code w then code_text fmt o (c_pool r) m k else Ok [] | None => Ok [] end = Ok a /\
     exists lt vt, match code with Some k => if w_lines w then lines_text k else Ok [] | None => Ok [] end = Ok lt /\
       match code with Some k => if w_locals w then locals_text (c_pool r) k else Ok [] | None => Ok [] end = Ok vt /\ b = lt ++ vt).
  { destruct HB as [HK|k ct lt vs gs HK HI HL HV HG].
    - exists None. split; [exact (code_present c (c_pool r) jm m None HP HMA HK)|]. split; [reflexivity|]. exists [], []. auto.
    - destruct (code_present c (c_pool r) jm m (Some k) HP HMA HK) as (x & E & HX). exists (Some x). split; [exact E|]. destruct HK as [_ HK]. split.
      + destruct (w_code w); [|reflexivity]. exact (code_full w o c r jm m k x ct HO HC HM HX HK (HI eq_refl)).
      + exists (given (w_lines w) (line_table_text lt)), (given (w_locals w) (vars_text "  LocalVariableTable:" "Descriptor" vs ++ vars_text "  LocalVariableTypeTable:" "Signature" gs)).
        split; [|split; [|reflexivity]].
        * destruct (w_lines w); [|reflexivity]. exact (lines_ok _ _ _ _ HX (HL eq_refl)).
        * destruct (w_locals w); [|reflexivity]. exact (locals_ok _ _ _ _ _ _ HP HX (HV eq_refl) (HG eq_refl)). }
  destruct G as (code & E1 & E2 & lt & vt & E3 & E4 & ->). rewrite E1. cbn [rbind]. rewrite E2. cbn [rbind]. cbv zeta. rewrite (marks_ok _ _ _ _ HM), E3. cbn [rbind]. rewrite E4. cbn [rbind].
  rewrite <- decl_ok_line, when_given. unfold marks_text. destruct (w_all w); cbn [given when].
  - destruct (throws_pretty c (c_pool r) jm m ex HP HMA HE) as [-> _]. cbn [rbind]. unfold throws_text. rewrite map_map. unfold line, nl.
    rewrite (map_ext (fun x => (lit "   throws " ++ dotted x) ++ [10]) (fun n0 => lit "   throws " ++ dotted n0 ++ [10])) by (intro; now rewrite <- app_assoc). f_equal; flat.
  - cbn [rbind]. f_equal; flat.
Qed.

(** ** The header *)
Lemma header_ok c r src sg ts em : class_shows c r -> 0 <= jc_minor c < 65536 -> source_file c src -> names_text (jc_pool c) (jc_attrs c) "Signature" sg ->
  annotated (jc_pool c) (jc_attrs c) ts -> enclosing c em -> header_text fmt r = Ok (header_block c src sg ts em).
Proof. clear repr reprs ffmt order.
  intros HC HV HS HG HA HE. pose proof HC as (EV & HP & _ & _ & _ & _ & _ & _ & HCA). unfold header_text.
  rewrite (source_ok c r src HC HS). cbn [rbind]. rewrite (sig_ok_text _ _ _ _ _ HP HCA HG). cbn [rbind].
  destruct (annotated_ok fmt _ _ HP _ _ _ HCA HA) as (annos & -> & EA). cbn [rbind]. rewrite EA. cbn [rbind]. rewrite (enclosing_ok fmt c r em HC HE). cbn [rbind].
  unfold version_lines. rewrite EV. cbn [fst snd map concat].
  assert (EP : match platform_from_version (jc_major c) (jc_minor c) with Some ((_ :: _) as s) => s | _ => lit "unknown" end = platform_text (jc_major c) (jc_minor c)).
  { rewrite platform_spec. unfold platform_text. replace ((0 <=? jc_minor c) && (jc_minor c <? 65536)) with true by lia.
    destruct (jc_major c =? 45); [destruct (jc_minor c <? 4); reflexivity|]. destruct ((46 <=? jc_major c) && (jc_major c <=? 52)) eqn:E; [|reflexivity].
    assert (HM : jc_major c = 46 \/ jc_major c = 47 \/ jc_major c = 48 \/ jc_major c = 49 \/ jc_major c = 50 \/ jc_major c = 51 \/ jc_major c = 52) by lia.
    repeat destruct HM as [HM|HM]; rewrite HM; reflexivity. }
  rewrite EP. unfold header_block, line, nl, when. f_equal.
  destruct src as [[|? ?]|], sg as [[|? ?]|], em as [[|? ?]|]; cbn [option_map py_true str_opt pct_s seqb negb quoted titled]; flat.
Qed.
End Print.

(** ** The whole listing *)
Section Whole.
Variable fmt : pyval -> str.
Variable repr : pyval -> str.
Variable reprs : str -> str.
Variable ffmt : pyval -> str.
Variable order : list str -> list str.
Notation f32 := (fun b => ffmt (PF32 b)).
Notation f64 := (fun b => ffmt (PF64 b)).

Theorem full_text o c r this super ifs src sg ts em fs ms :
  class_ok c -> class_shows c r -> o_provides o = false -> o_requires o = false -> In (o_show o) [0; 1; 3; 7] ->
  (Z.testbit (jc_flags c) 9 = true -> Z.testbit (jc_flags c) 14 = false) ->
  jclass_at (jc_pool c) (jc_this c) = Some this -> jclass_at (jc_pool c) (jc_super c) = Some super ->
  Forall2 (fun i n => jclass_at (jc_pool c) i = Some n) (jc_interfaces c) ifs -> forallb class_name ifs = true ->
  source_file c src -> (w_pool (asked o) = true -> no_dynamic (jc_pool c) = true) ->
  (w_all (asked o) = true \/ o_show o = 0 -> names_text (jc_pool c) (jc_attrs c) "Signature" sg /\ annotated (jc_pool c) (jc_attrs c) ts /\ enclosing c em) ->
  (o_show o <> 0 -> Forall2 (field_text reprs f32 f64 c (asked o)) (filter (visible (o_show o)) (jc_fields c)) fs /\
                    Forall2 (method_text c (asked o)) (filter (visible (o_show o)) (jc_methods c)) ms) ->
  cli_print fmt repr reprs ffmt order o r =
    Ok (full_listing src (class_lead (jc_flags c) ++ class_decl (jc_flags c) this super ifs)
          (given (w_all (asked o) || (o_show o =? 0)) (header_block c src sg ts em))
          (given (w_pool (asked o)) (const_block reprs f32 f64 (jc_pool c)))
          (if o_show o =? 0 then None else Some (fs ++ ms))).
Proof.
  intros [HJ HA] HC PR RQ HS Hle HT HSu HI Hifs HSrc HCP HH HB. destruct HA as [HW _ HAf HAm _ _ _]. pose proof HC as (_ & _ & _ & _ & _ & _ & HCf & HCm & _).
  pose proof (asked_opts o) as HO. pose proof HO as (OV & _ & _ & _ & _ & OP & _).
  assert (HMin : 0 <= jc_minor c < 65536).
  { unfold jclassfile_ok in HJ. repeat (apply andb_prop in HJ as [HJ ?]). unfold u2, field_ok in *. lia. }
  unfold cli_print, print_classinfo. change (o_show (cli_options o)) with (o_show o). change SHOW_HEADER with 0.
  assert (E1 : o_provides (cli_options o) || o_requires (cli_options o) = false) by (cbn; now rewrite PR, RQ). rewrite E1, OV, OP.
  rewrite (source_ok c r src HC HSrc). cbn [rbind].
  rewrite (class_text c r this super ifs HW HC Hle HT HSu HI Hifs). cbn [rbind].
  assert (EH : (if w_all (asked o) || (o_show o =? 0) then header_text fmt r else Ok []) = Ok (given (w_all (asked o) || (o_show o =? 0)) (header_block c src sg ts em))).
  { destruct (w_all (asked o) || (o_show o =? 0)) eqn:E; [|reflexivity]. destruct HH as (H1 & H2 & H3).
    - apply orb_prop in E as [E|E]; [now left|right; lia].
    - exact (header_ok fmt c r src sg ts em HC HMin HSrc H1 H2 H3). }
  rewrite EH. cbn [rbind].
  assert (EC : (if w_pool (asked o) then constpool_text reprs ffmt (c_pool r) else Ok []) = Ok (given (w_pool (asked o)) (const_block reprs f32 f64 (jc_pool c)))).
  { destruct (w_pool (asked o)); [|reflexivity]. unfold const_block. rewrite (constpool_ok reprs ffmt (jc_pool c)); [reflexivity|apply HC|].
    specialize (HCP eq_refl). unfold no_dynamic in HCP. rewrite forallb_forall in *. intros k Hk. specialize (HCP k Hk). now destruct k. }
  rewrite EC. cbn [rbind].
  assert (EQ : forall s, when (py_true (option_map PStr src)) (line (lit "Compiled from """ ++ str_opt fmt (option_map PStr src) ++ lit """")) ++ s = quoted "Compiled from " src ++ s).
  { intro s. unfold quoted, when, line, nl. destruct src as [[|x n]|]; cbn [option_map py_true str_opt pct_s seqb negb]; flat. }
  destruct (o_show o =? 0) eqn:EZ.
  - cbn [rbind]. rewrite EQ. unfold full_listing. f_equal. 
  - destruct HB as [HF HM]; [lia|]. assert (HS' : In (o_show o) [1; 3; 7]) by (destruct HS as [E|HS]; [lia|exact HS]).
    rewrite (mapM_Forall2 (print_field fmt reprs ffmt (cli_options o) (c_pool r)) _ fs).
    + cbn [rbind]. rewrite (mapM_Forall2 (print_method fmt (cli_options o) (c_pool r)) _ ms).
      * cbn [rbind]. rewrite EQ. unfold full_listing, line, nl. f_equal. rewrite concat_app. flat.
      * refine (Forall2_meet _ _ _ _ _ _ _ (filter_shown _ _ _ _ _ HS' HCm) HM). intros jm m t HI' H1 H2. apply filter_In in HI' as [HI1 HI2].
        exact (method_full fmt (asked o) _ c r jm m t HO HC H1 (HAm jm HI1) H2).
    + refine (Forall2_meet _ _ _ _ _ _ _ (filter_shown _ _ _ _ _ HS' HCf) HF). intros jm m t HI' H1 H2. apply filter_In in HI' as [HI1 HI2].
      exact (field_full fmt reprs ffmt (asked o) _ c r jm m t HO HC H1 (HAf jm HI1) H2).
Qed.
End Whole.

(** ** Symbols *)
From Verif Require Import Jinfo_Spec Jinfo_Proofs.
From Verif Require Zip_Model.
From Coq Require Import Permutation.
Lemma symbols_ok (word title : String.string) this l : lit title = lit " " ++ lit word ++ lit ":" ->
  symbols_text title (Ok (dotted this)) (Ok l) = Ok (class_symbols this word (Zip_Model.sort_names l)).
Proof.
  intro HT. unfold symbols_text, class_symbols, symbol_list, lines. cbn [rbind]. rewrite HT. cbn [map concat]. rewrite map_app, concat_app, map_map. cbn [map concat].
  unfold line. rewrite app_nil_r. f_equal; rewrite <- ?app_assoc; reflexivity.
Qed.
Lemma lists_sorted P l : NoDup l -> (forall s, In s l <-> P s) -> lists P (Zip_Model.sort_names l).
Proof. intros HN HI. split; [now apply sort_names_sorted|]. intro s. now rewrite sort_names_In. Qed.
Theorem symbols_text_ok {deep} fmt repr reprs ffmt order o c r this : (forall l, Permutation (order l) l) -> api_wf c -> class_shows c r ->
  jclass_at (jc_pool c) (jc_this c) = Some this -> o_provides o || o_requires o = true -> (o_requires o = true -> flat_arrays deep c) ->
  exists ps rs, lists (fun s => provided c false s /\ ~ ignored_by (o_api_ignore o) s) ps /\
    (o_requires o = true -> lists (fun s => required deep c s /\ ~ ignored_by (o_api_ignore o) s) rs) /\
    cli_print fmt repr reprs ffmt order o r =
      Ok (given (o_provides o) (class_symbols this "provides" ps) ++ given (o_requires o) (class_symbols this "requires" rs)).
Proof.
  intros HO HW HC HT HPR HF. destruct (class_provides fmt order HO c r (o_api_ignore o) false HW HC) as (l & El & Nl & Il).
  assert (G : exists l', (o_requires o = true -> get_requires fmt repr order r (o_api_ignore o) = Ok l' /\ NoDup l' /\ forall s, In s l' <-> required deep c s /\ ~ ignored_by (o_api_ignore o) s)).
  { destruct (o_requires o); [|exists []; discriminate]. destruct (class_requires fmt repr order HO c r (o_api_ignore o) HW (HF eq_refl) HC) as (l' & H). exists l'. auto. }
  destruct G as (l' & G). exists (Zip_Model.sort_names l), (Zip_Model.sort_names l'). split; [now apply lists_sorted|]. split; [intro R; destruct (G R) as (_ & N & I'); now apply lists_sorted|].
  unfold cli_print, print_classinfo. change (o_provides (cli_options o)) with (o_provides o). change (o_requires (cli_options o)) with (o_requires o). rewrite HPR.
  unfold print_provides, print_requires. change (o_api_ignore (cli_options o)) with (o_api_ignore o). rewrite (this_name c r HC this HT), El.
  rewrite (symbols_ok "provides" " provides:" this l eq_refl).
  destruct (o_provides o), (o_requires o); cbn [rbind given]; try (destruct (G eq_refl) as (-> & _); rewrite (symbols_ok "requires" " requires:" this l' eq_refl)); cbn [rbind]; rewrite ?app_nil_r; reflexivity.
Qed.

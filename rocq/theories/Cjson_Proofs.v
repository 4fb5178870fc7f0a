(** The documents of classinfo --json are those of Cjson_Spec. *)
From Verif Require Import Base Pack_Model Pack_Spec ConstPool_Model ConstPool_Spec ConstPool_Proofs ConstPool_Deref ClassFile_Model ClassFile_Spec ClassFile_Proofs
  Descr_Model Descr_Spec Descr_Proofs Classdiff_Model Classdiff_Code Info_Model Info_Spec Info_Class Info_Lookup Print_Model Print_Spec Print_Decl Print_List
  Jinfo_Model Jinfo_Spec Verbose_Spec Verbose_Proofs Cjson_Model Cjson_Spec.
From Verif Require ClassFile_Names.
From Coq Require Import Permutation.

Section Cjson.
Variable fmt : pyval -> str.
Variable repr : pyval -> str.
Variable reprs : str -> str.
Variable ffmt : pyval -> str.
Variable order : list str -> list str.
Notation f32 := (fun b => ffmt (PF32 b)).
Notation f64 := (fun b => ffmt (PF64 b)).

(** ** Constants *)
Lemma pretty_data k : dynamic k = false -> exists v, pretty_entry reprs ffmt (shown_const k) = Ok (Some (fst (const_text reprs f32 f64 k), v)) /\
  of_pretty v = const_value reprs f32 f64 k.
Proof. destruct k; intro H; try discriminate; eexists; split; reflexivity. Qed.
Lemma pool_ok l : forall i, no_dynamic l = true -> numbered_constants reprs ffmt i (concat (map expand l)) = Ok (pool_data reprs f32 f64 i l).
Proof. clear fmt repr order.
  induction l as [|k l IH]; intros i H; [reflexivity|]. cbn [no_dynamic forallb] in H. apply andb_prop in H as [H1 H2].
  assert (H1' : dynamic k = false) by (destruct k; try reflexivity; discriminate H1).
  destruct (pretty_data k H1') as (v & E & EV). cbn [map concat pool_data]. unfold expand at 1. cbn [app numbered_constants].
  rewrite E. cbn [rbind]. rewrite EV.
  assert (HW : const_width k = jwidth k) by (destruct k; reflexivity). rewrite HW. destruct (jwidth_12 k) as [W|W]; rewrite W.
  - change (1 =? 2) with false. cbn [app]. rewrite IH by exact H2. reflexivity.
  - change (2 =? 2) with true. cbn [app numbered_constants pretty_entry rbind]. replace (i + 1 + 1) with (i + 2) by lia. rewrite IH by exact H2. reflexivity.
Qed.

(** ** Members *)
Lemma sig_entry d sg : ifonly d "signature" (py_true (option_map PStr sg)) (of_opt (option_map PStr sg)) =
  match sg with Some ((_ :: _) as s) => dset d (lit "signature") (DText s) | _ => d end.
Proof. clear. destruct sg as [[|? ?]|]; reflexivity. Qed.

Lemma field_ok_data c r jm m d : class_shows c r -> member_shows (jc_pool c) false jm m -> field_data reprs f32 f64 c jm d ->
  simplify_field fmt reprs ffmt (Member (c_pool r) m) = Ok d.
Proof. clear repr order.
  intros HC HM [n t sg cv HD HB HS HV]. pose proof HC as (_ & HP & _). pose proof (member_shows_attrs _ _ _ _ HM) as HA.
  destruct HM as (HF & HN & HDs & HI & _). inversion HD as [? ? ? Hin En Ed Ok1 | ]; subst. clear HD.
  unfold simplify_field. unfold m_name, m_pretty_type, m_type, m_desc_str, m_descriptor. rewrite HN, HDs.
  rewrite (jutf8_deref _ _ _ _ HP En), (jutf8_deref _ _ _ _ HP Ed). cbn [rbind pct_s]. destruct (field_split t Ok1) as [_ ->]. cbn [rbind]. rewrite pretty_desc. cbn [rbind].
  rewrite (sig_ok_text _ _ _ _ _ HP HA HS). cbn [rbind]. rewrite (field_words m (jm_flags jm) HF HI HB).
  rewrite sig_entry. unfold is_deprecated. rewrite (filled_ok _ _ _ "Deprecated" HA). unfold with_constant, get_constantvalue.
  destruct HV as [HV|i k Hu HV HJ HDy].
  - destruct (absent_attr _ _ _ _ (c_pool r) HA HV) as [-> _]. cbn [rbind]. rewrite app_nil_r. f_equal.
    destruct sg as [[|? ?]|], (filled (jc_pool c) (jm_attrs jm) "Deprecated"); reflexivity.
  - rewrite (u2_attr _ _ _ _ _ HA Hu HV). cbn [rbind]. unfold pretty_const. rewrite (proj2 HP) by (pose proof (jat_pos _ _ _ HJ); lia). rewrite HJ. cbn [rbind].
    assert (HD' : dynamic k = false) by (destruct k; try reflexivity; discriminate HDy).
    destruct (pretty_data k HD') as (v & E & EV). rewrite E. cbn [rbind]. rewrite EV. f_equal.
    destruct sg as [[|? ?]|], (filled (jc_pool c) (jm_attrs jm) "Deprecated"); reflexivity.
Qed.
Lemma method_ok_data c r jm m d : class_shows c r -> member_shows (jc_pool c) true jm m -> method_data c jm d ->
  simplify_method fmt (Member (c_pool r) m) = Ok d.
Proof. clear repr reprs ffmt order.
  intros HC HM [n a t sg HD HB HS]. pose proof HC as (_ & HP & _). pose proof (member_shows_attrs _ _ _ _ HM) as HA.
  destruct HM as (HF & HN & HDs & HI & _). inversion HD as [|? ? ? ? Hin En Ed Ok1]; subst. clear HD.
  cbn [sig_ok] in Ok1. apply andb_true_iff in Ok1 as [Ok1 O3]. apply andb_true_iff in Ok1 as [O1 O2].
  unfold simplify_method. unfold m_name, m_pretty_type, m_type, m_pretty_arg_types, m_arg_types, m_desc_str, m_descriptor. rewrite HI, HN, HDs.
  rewrite (jutf8_deref _ _ _ _ HP En), (jutf8_deref _ _ _ _ HP Ed). cbn [rbind pct_s].
  destruct (method_split a t O1 O2 O3) as [-> ->]. cbn [rbind]. rewrite pretty_ret, mapM_pretty. cbn [rbind].
  rewrite (sig_ok_text _ _ _ _ _ HP HA HS). cbn [rbind]. rewrite (method_words m (jm_flags jm) HF HI HB).
  rewrite sig_entry. unfold is_deprecated. rewrite (filled_ok _ _ _ "Deprecated" HA). f_equal.
  destruct sg as [[|? ?]|], (filled (jc_pool c) (jm_attrs jm) "Deprecated"); reflexivity.
Qed.

(** ** Members shown *)
Lemma should_header m : should_show 0 m = false. Proof. reflexivity. Qed.
Lemma filter_none show l b jms ms : In show [0; 1; 3; 7] -> Forall2 (member_shows l b) jms ms ->
  filter (should_show show) ms = [] <-> show = 0 \/ forallb (fun m => negb (visible show m)) jms = true.
Proof. clear.
  intros HS HF. destruct (Z.eq_dec show 0) as [->|HZ].
  - split; [now left|]. intros _. clear HF. induction ms as [|m ms IH]; [reflexivity|]. cbn [filter]. now rewrite should_header.
  - assert (HS' : In show [1; 3; 7]) by (destruct HS as [<-|HS]; [now elim HZ|exact HS]).
    transitivity (forallb (fun m => negb (visible show m)) jms = true); [|tauto].
    induction HF as [|jm m jms ms H HF IH]; [cbn; tauto|]. cbn [filter forallb]. rewrite (show_visible l show b jm m HS' H).
    destruct (visible show jm); cbn [negb andb]; [split; discriminate|exact IH].
Qed.
Lemma nothing_shown o c r : class_shows c r -> In (o_show o) [0; 1; 3; 7] -> no_member (o_show o) c = true ->
  simplify_fields fmt reprs ffmt o r = Ok [] /\ simplify_methods fmt o r = Ok [].
Proof. clear repr order.
  intros (_ & _ & _ & _ & _ & _ & HF & HM & _) HS HN. unfold no_member in HN. rewrite forallb_app in HN. unfold simplify_fields, simplify_methods.
  assert (G : (o_show o = 0 \/ forallb (fun m => negb (visible (o_show o) m)) (jc_fields c) = true) /\
              (o_show o = 0 \/ forallb (fun m => negb (visible (o_show o) m)) (jc_methods c) = true)).
  { apply orb_prop in HN as [H|H]; [split; left; lia|]. apply andb_prop in H as [H1 H2]. split; now right. }
  destruct G as [G1 G2]. rewrite (proj2 (filter_none _ _ _ _ _ HS HF) G1), (proj2 (filter_none _ _ _ _ _ HS HM) G2). split; reflexivity.
Qed.
Lemma some_shown o c r : class_shows c r -> In (o_show o) [0; 1; 3; 7] -> no_member (o_show o) c = false ->
  (fs <- simplify_fields fmt reprs ffmt o r ;; ms <- simplify_methods fmt o r ;; Ok (fs, ms)) = Err AttributeError.
Proof. clear repr order.
  intros (_ & _ & _ & _ & _ & _ & HF & HM & _) HS HN. unfold no_member in HN. rewrite forallb_app in HN. unfold simplify_fields, simplify_methods.
  apply orb_false_iff in HN as [HZ HN]. pose proof (filter_none _ _ _ _ _ HS HF) as G1. pose proof (filter_none _ _ _ _ _ HS HM) as G2.
  destruct (filter (should_show (o_show o)) (c_fields r)) as [|m ms]; [|reflexivity].
  destruct (filter (should_show (o_show o)) (c_methods r)) as [|m ms]; [|reflexivity]. exfalso.
  destruct (proj1 G1 eq_refl) as [H|H1]; [lia|]. destruct (proj1 G2 eq_refl) as [H|H2]; [lia|]. rewrite H1, H2 in HN. discriminate HN.
Qed.

(** ** The document *)
Lemma platform_ok major minor : 0 <= minor < 65536 ->
  match platform_from_version major minor with Some s => DText s | None => DNull end = platform_data major minor.
Proof. clear.
  intro HV. rewrite platform_spec. unfold platform_data, platform_text. replace ((0 <=? minor) && (minor <? 65536)) with true by lia.
  destruct (major =? 45); cbn [orb]; [destruct (minor <? 4); reflexivity|]. destruct ((46 <=? major) && (major <=? 52)) eqn:E; [|reflexivity].
  assert (HM : major = 46 \/ major = 47 \/ major = 48 \/ major = 49 \/ major = 50 \/ major = 51 \/ major = 52) by lia.
  repeat destruct HM as [HM|HM]; rewrite HM; reflexivity.
Qed.
Lemma super_ok c r s : jpool_wf (jc_pool c) = true -> class_shows c r -> extends c s -> pretty_super r = Ok (dotted s).
Proof. clear.
  intros HW HC HE. destruct (ClassFile_Names.class_names c r HW HC) as (_ & _ & N3 & _). unfold pretty_super. destruct HE as [[H0 ->]|HE].
  - unfold get_super. destruct HC as (_ & _ & _ & _ & Es & _). rewrite Es, H0. reflexivity.
  - now rewrite (N3 _ HE).
Qed.
(** The items set, in the order of their keys *)
Lemma sorted_document (p r cp : bool) (sg em : option str) (ps rs this super ifs src version platform consts fs ms : data) :
  dumped (dset (dset
    ((fun d => if cp then dset d (lit "constants_pool") consts else d)
    (dset (dset
    (ifonly (ifonly
    (dset (dset (dset (dset
      ((fun d => if r then dset d (lit "class_requires") rs else d) (if p then dset [] (lit "class_provides") ps else []))
      (lit "name") this) (lit "extends") super) (lit "implements") ifs) (lit "source_file") src)
      "signature" (py_true (option_map PStr sg)) (of_opt (option_map PStr sg)))
      "enclosing_method" (py_true (option_map PStr em)) (of_opt (option_map PStr em)))
      (lit "version") version) (lit "platform") platform))
      (lit "fields") fs) (lit "methods") ms) =
  entry_if p "class_provides" ps ++ entry_if r "class_requires" rs ++ entry_if cp "constants_pool" consts ++ maybe_text "enclosing_method" em ++
  [(lit "extends", super); (lit "fields", fs); (lit "implements", ifs); (lit "methods", ms); (lit "name", this); (lit "platform", platform)] ++
  maybe_text "signature" sg ++ [(lit "source_file", src); (lit "version", version)].
Proof. clear.
  destruct p, r, cp, sg as [[|? ?]|], em as [[|? ?]|]; vm_compute; reflexivity.
Qed.

Definition readable_names (c : jclassfile) (this super : str) (ifs : list str) (src sg em : option str) : Prop :=
  jclass_at (jc_pool c) (jc_this c) = Some this /\ extends c super /\
  Forall2 (fun i n => jclass_at (jc_pool c) i = Some n) (jc_interfaces c) ifs /\
  source_file c src /\ names_text (jc_pool c) (jc_attrs c) "Signature" sg /\ enclosing c em.

Theorem document_ok {deep} o c r this super ifs src sg em : (forall l, Permutation (order l) l) -> class_ok c -> class_shows c r ->
  In (o_show o) [0; 1; 3; 7] -> (o_requires o = true -> flat_arrays deep c) -> (w_pool (asked o) = true -> no_dynamic (jc_pool c) = true) ->
  readable_names c this super ifs src sg em ->
  exists ps rs, lists_some_way (fun s => provided c false s /\ ~ ignored_by (o_api_ignore o) s) ps /\
    (o_requires o = true -> lists_some_way (fun s => required deep c s /\ ~ ignored_by (o_api_ignore o) s) rs) /\
    (d <- simplify_classinfo fmt repr reprs ffmt order (cli_options o) r ;; Ok (dumped d)) =
    if no_member (o_show o) c
    then Ok (class_document reprs f32 f64 (asked o) (o_provides o) (o_requires o) c this super ifs src sg em ps rs [] [])
    else Err AttributeError.
Proof.
  intros HO [HJ HA] HC HS HF HD (HT & HSu & HI & HSrc & HSg & HE). pose proof HC as (EV & HP & _ & _ & _ & _ & _ & _ & HCA).
  assert (HW : jpool_wf (jc_pool c) = true) by (destruct HA; assumption).
  assert (HMin : 0 <= jc_minor c < 65536).
  { unfold jclassfile_ok in HJ. repeat (apply andb_prop in HJ as [HJ ?]). unfold u2, field_ok in *. lia. }
  destruct (ClassFile_Names.class_names c r HW HC) as (_ & _ & _ & N4 & _).
  destruct (class_provides fmt order HO c r (o_api_ignore o) false HA HC) as (ps & Eps & Nps & Ips).
  assert (G : exists rs, (o_requires o = true -> get_requires fmt repr order r (o_api_ignore o) = Ok rs /\ NoDup rs /\ forall s, In s rs <-> required deep c s /\ ~ ignored_by (o_api_ignore o) s)).
  { destruct (o_requires o); [|exists []; discriminate]. destruct (class_requires fmt repr order HO c r (o_api_ignore o) HA (HF eq_refl) HC) as (l' & H). exists l'. auto. }
  destruct G as (rs & Ers). exists ps, rs. split; [now split|]. split; [intro R; split; apply (Ers R)|].
  unfold simplify_classinfo.
  change (o_provides (cli_options o)) with (o_provides o). change (o_requires (cli_options o)) with (o_requires o).
  change (o_api_ignore (cli_options o)) with (o_api_ignore o). destruct (asked_opts o) as (_ & _ & _ & _ & _ & OP & _). rewrite OP.
  assert (E1 : (if o_provides o then l <- get_provides fmt order r (o_api_ignore o) false ;; Ok (dset [] (lit "class_provides") (texts l)) else Ok []) =
     Ok (if o_provides o then dset [] (lit "class_provides") (texts ps) else [])) by (destruct (o_provides o); [rewrite Eps|]; reflexivity).
  rewrite E1. cbn [rbind].
  assert (E2 : forall d, (if o_requires o then l <- get_requires fmt repr order r (o_api_ignore o) ;; Ok (dset d (lit "class_requires") (texts l)) else Ok d) =
     Ok (if o_requires o then dset d (lit "class_requires") (texts rs) else d)) by (intro d; destruct (o_requires o); [destruct (Ers eq_refl) as (-> & _)|]; reflexivity).
  rewrite E2. cbn [rbind]. rewrite (this_name c r HC _ HT). cbn [rbind]. rewrite (super_ok c r super HW HC HSu). cbn [rbind].
  unfold pretty_interfaces. rewrite (N4 _ HI). cbn [rbind]. rewrite mapM_class. cbn [rbind]. rewrite (source_ok c r src HC HSrc). cbn [rbind].
  rewrite (sig_ok_text _ _ _ _ _ HP HCA HSg). cbn [rbind]. rewrite (enclosing_ok fmt c r em HC HE). cbn [rbind].
  assert (E3 : forall d, (if w_pool (asked o) then l <- numbered_constants reprs ffmt 1 (tl (c_pool r)) ;; Ok (dset d (lit "constants_pool") (DSeq l)) else Ok d) =
     Ok (if w_pool (asked o) then dset d (lit "constants_pool") (DSeq (pool_data reprs f32 f64 1 (jc_pool c))) else d)).
  { intro d. destruct (w_pool (asked o)); [|reflexivity]. rewrite (pool_list _ _ HP), pool_ok by (now apply HD). reflexivity. }
  rewrite E3. cbn [rbind]. rewrite EV. cbn [fst snd]. rewrite platform_ok by exact HMin.
  change (o_show (cli_options o)) with (o_show o) in *. assert (HS' : In (o_show (cli_options o)) [0; 1; 3; 7]) by exact HS.
  destruct (no_member (o_show o) c) eqn:EN.
  - destruct (nothing_shown (cli_options o) c r HC HS' EN) as [-> ->]. cbn [rbind]. f_equal.
    assert (ESrc : of_opt (option_map PStr src) = text_or_null src) by (destruct src; reflexivity). rewrite ESrc.
    exact (sorted_document (o_provides o) (o_requires o) (w_pool (asked o)) sg em (texts ps) (texts rs) (DText (dotted this)) (DText (dotted super)) (texts (map dotted ifs))
      (text_or_null src) (DSeq [DNumber (jc_major c); DNumber (jc_minor c)]) (platform_data (jc_major c) (jc_minor c)) (DSeq (pool_data reprs f32 f64 1 (jc_pool c))) (DSeq []) (DSeq [])).
  - pose proof (some_shown (cli_options o) c r HC HS' EN) as HX.
    destruct (simplify_fields fmt reprs ffmt (cli_options o) r) as [fs|e]; cbn [rbind] in *; [|exact (f_equal _ (f_equal (fun x => match x with Err e => e | _ => e end) HX))].
    destruct (simplify_methods fmt (cli_options o) r) as [ms|e]; cbn [rbind] in *; [discriminate HX|exact (f_equal _ (f_equal (fun x => match x with Err e => e | _ => e end) HX))].
Qed.
End Cjson.

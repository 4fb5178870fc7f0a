(** Declarations printed by classinfo are those of the specification, and
    determine what they declare. *)
From Verif Require Import Base Pack_Model Pack_Spec ConstPool_Model ConstPool_Spec ConstPool_Deref ClassFile_Model ClassFile_Spec ClassFile_Proofs
  Descr_Model Descr_Spec Descr_Proofs Opcodes_Model Anno_Model Classdiff_Model Info_Model Info_Spec Info_Class Print_Model Print_Spec.
From Verif Require ClassFile_Names.

(** ** Joining *)
Lemma join_cons sep x l : l <> [] -> concat_with sep (x :: l) = x ++ sep ++ concat_with sep l.
Proof. destruct l; [now intros []|reflexivity]. Qed.
Lemma join_app sep a b : a <> [] -> b <> [] -> concat_with sep (a ++ b) = concat_with sep a ++ sep ++ concat_with sep b.
Proof.
  intros Ha Hb. induction a as [|x a IH]; [now elim Ha|]. destruct a as [|y a].
  - cbn [app]. now rewrite join_cons.
  - cbn [app] in *. rewrite (join_cons sep x (y :: a ++ b)) by discriminate. rewrite IH by discriminate.
    rewrite (join_cons sep x (y :: a)) by discriminate. now rewrite <- !app_assoc.
Qed.
Lemma join_nonempty sep l : l <> [] -> Forall (fun x => x <> []) l -> concat_with sep l <> [].
Proof.
  intros Hl HF. destruct l as [|x l]; [now elim Hl|]. inversion HF; subst. destruct l as [|y l]; [exact H1|].
  rewrite join_cons by discriminate. destruct x; [now elim H1|discriminate].
Qed.
Lemma join_inj c l : forall l', Forall (fun x => ~ In c x) l -> Forall (fun x => ~ In c x) l' -> l <> [] -> l' <> [] ->
  concat_with [c] l = concat_with [c] l' -> l = l'.
Proof.
  assert (split : forall a b r s : str, ~ In c a -> ~ In c b -> a ++ c :: r = b ++ c :: s -> a = b /\ r = s).
  { induction a as [|x a IH]; intros [|y b] r s Ha Hb E; cbn [app] in E.
    - injection E as E. auto.
    - injection E as E1 E2. subst. exfalso. apply Hb. now left.
    - injection E as E1 E2. subst. exfalso. apply Ha. now left.
    - injection E as -> E2. destruct (IH b r s) as [-> ->]; auto; intro HI; [apply Ha|apply Hb]; now right. }
  assert (nosplit : forall a b s : str, ~ In c a -> a <> b ++ c :: s).
  { intros a b s Ha ->. apply Ha. apply in_or_app. right. now left. }
  induction l as [|x l IH]; intros [|y l'] H1 H2 N1 N2 E; try (now elim N1); try (now elim N2).
  inversion H1; subst. inversion H2; subst. destruct l as [|x2 l]; destruct l' as [|y2 l'].
  - cbn in E. now subst.
  - rewrite (join_cons [c] y) in E by discriminate. cbn [concat_with app] in E. now apply nosplit in E.
  - rewrite (join_cons [c] x) in E by discriminate. cbn [concat_with app] in E. symmetry in E. now apply nosplit in E.
  - rewrite (join_cons [c] y), (join_cons [c] x) in E by discriminate. cbn [app] in E.
    apply split in E as [-> E]; [|assumption|assumption]. f_equal. apply IH; auto; discriminate.
Qed.
Lemma join_no' c sep l : ~ In c sep -> Forall (fun x => ~ In c x) l -> ~ In c (concat_with sep l).
Proof.
  intros Hs HF. induction HF as [|x l H HF IH]; [intros []|]. destruct l as [|y l]; [exact H|].
  rewrite join_cons by discriminate. intro HI. apply in_app_or in HI as [HI|HI]; [auto|]. apply in_app_or in HI as [HI|HI]; auto.
Qed.
Lemma filter_nonempty (l : list str) : Forall (fun z => z <> []) l -> filter (fun z => negb (seqb z [])) l = l.
Proof. induction 1 as [|x l H _ IH]; [reflexivity|]. cbn [filter]. destruct x; [now elim H|]. cbn. now rewrite IH. Qed.

(** ** Flags *)
Lemma flag_is k f m : 0 <= k -> m = 2 ^ k -> flag m f = Z.testbit f k.
Proof. intros H ->. now apply flag_bit. Qed.
Ltac flags f :=
  rewrite ?(flag_is 0 f ACC_PUBLIC), ?(flag_is 1 f ACC_PRIVATE), ?(flag_is 2 f ACC_PROTECTED), ?(flag_is 3 f ACC_STATIC),
    ?(flag_is 4 f ACC_FINAL), ?(flag_is 5 f ACC_SYNCHRONIZED), ?(flag_is 6 f ACC_VOLATILE), ?(flag_is 7 f ACC_TRANSIENT),
    ?(flag_is 8 f ACC_NATIVE), ?(flag_is 9 f ACC_INTERFACE), ?(flag_is 10 f ACC_ABSTRACT), ?(flag_is 11 f ACC_STRICT),
    ?(flag_is 13 f ACC_ANNOTATION), ?(flag_is 14 f ACC_ENUM), ?(flag_is 15 f ACC_MODULE) by (try lia; reflexivity).
Lemma keywords_cons b w t f : keywords ((b, w) :: t) f = word_if (Z.testbit f b) w ++ keywords t f.
Proof. unfold keywords, word_if. cbn [filter fst]. now destruct (Z.testbit f b). Qed.
Lemma bit_off bits f b : only_bits bits f -> 0 <= b -> ~ In b bits -> Z.testbit f b = false.
Proof. intros H Hb Hn. destruct (Z.testbit f b) eqn:E; [|reflexivity]. exfalso. apply Hn. now apply H. Qed.

Lemma field_words m f : m_flags m = f -> m_is_method m = false -> only_bits field_bits f ->
  member_access_flags false m = keywords field_table f.
Proof.
  intros Ef Em H. unfold member_access_flags, field_table, common_table. rewrite Ef, Em. flags f. cbn [app]. rewrite !keywords_cons.
  assert (N : forall b, 0 <= b -> existsb (Z.eqb b) field_bits = false -> Z.testbit f b = false).
  { intros b Hb Hn. apply (bit_off field_bits); [assumption|assumption|]. intro HI.
    assert (existsb (Z.eqb b) field_bits = true) by (apply existsb_exists; exists b; split; [assumption|apply Z.eqb_refl]). congruence. }
  rewrite (N 8), (N 10), (N 11), (N 15) by (try lia; reflexivity). unfold word_if at 6 7 8 10 11. cbn [andb app].
  cbn [keywords map filter]. now rewrite app_nil_r.
Qed.
Lemma method_words m f : m_flags m = f -> m_is_method m = true -> only_bits method_bits f ->
  member_access_flags false m = keywords method_table f.
Proof.
  intros Ef Em H. unfold member_access_flags, method_table, common_table. rewrite Ef, Em. flags f. cbn [app]. rewrite !keywords_cons.
  assert (N : forall b, 0 <= b -> existsb (Z.eqb b) method_bits = false -> Z.testbit f b = false).
  { intros b Hb Hn. apply (bit_off method_bits); [assumption|assumption|]. intro HI.
    assert (existsb (Z.eqb b) method_bits = true) by (apply existsb_exists; exists b; split; [assumption|apply Z.eqb_refl]). congruence. }
  rewrite (N 14), (N 15) by (try lia; reflexivity). unfold word_if at 9 10 11 13 14. cbn [andb app].
  cbn [keywords map filter]. reflexivity.
Qed.

(** ** Members *)
Section Fmt.
Variable fmt : pyval -> str.

Lemma dotted_eq n : pretty_class n = dotted n.
Proof. reflexivity. Qed.
Lemma mapM_class ns : mapM pretty_class_v (map PStr ns) = Ok (map dotted ns).
Proof. induction ns as [|n ns IH]; [reflexivity|]. cbn [map mapM]. rewrite IH. reflexivity. Qed.

Lemma throws_pretty c p jm (m : member) ex : pool_shows (jc_pool c) p -> attrs_show (jc_pool c) (jm_attrs jm) (m_attrs m) ->
  throws c jm ex -> pretty_exceptions p m = Ok (map dotted ex) /\ forallb class_name ex = true.
Proof.
  intros HP HA [[HN ->]|(is & HN & H1 & H2 & H3 & H4)]; unfold pretty_exceptions.
  - unfold get_exceptions. destruct HA as [HA _]. rewrite HA, HN. now split.
  - rewrite (exceptions_attr _ _ _ _ _ _ HP HA H1 H2 H3 HN). cbn [rbind]. now rewrite mapM_class.
Qed.

Lemma type_name_nonempty t : jtype_ok t = true -> type_name t <> [].
Proof.
  intros H. unfold type_name. rewrite <- elem_ok in H. pose proof (elem_is_elem t) as He.
  destruct (elem t) as [[]|n|]; try (intro E; discriminate E); [|now elim He].
  cbn [elem_name]. destruct n; [discriminate|]. discriminate.
Qed.
Lemma ret_name_nonempty r : ret_ok r = true -> ret_name r <> [].
Proof. destruct r; [apply type_name_nonempty|discriminate]. Qed.
Lemma keywords_nonempty t f : forallb (fun e => negb (seqb (lit (snd e)) [])) t = true -> Forall (fun x => x <> []) (keywords t f).
Proof.
  unfold keywords. induction t as [|e t IH]; [constructor|]. cbn [forallb filter]. intros H. apply andb_prop in H as [H1 H2].
  destruct (Z.testbit f (fst e)); [|auto]. cbn [map]. constructor; [|auto]. intro E. rewrite E in H1. discriminate.
Qed.

(** the parts of a declaration, joined *)
Lemma parts_join ws ty n t : Forall (fun x : str => x <> []) ws -> n <> [] ->
  concat_with (lit " ") (filter (fun z => negb (seqb z [])) [concat_with (lit " ") ws; ty; n; t]) =
  concat_with (lit " ") (ws ++ (if seqb ty [] then [] else [ty]) ++ [n] ++ (if seqb t [] then [] else [t])).
Proof.
  intros Hw Hn. set (rest := (if seqb ty [] then [] else [ty]) ++ [n] ++ (if seqb t [] then [] else [t])).
  assert (Hr : filter (fun z => negb (seqb z [])) [ty; n; t] = rest).
  { unfold rest. cbn [filter]. destruct n; [now elim Hn|]. destruct ty, t; reflexivity. }
  assert (Hr0 : rest <> []) by (unfold rest; destruct ty; discriminate).
  change [concat_with (lit " ") ws; ty; n; t] with ([concat_with (lit " ") ws] ++ [ty; n; t]). rewrite filter_app.
  unfold str in *. rewrite Hr.
  destruct ws as [|w ws]; [reflexivity|]. rewrite filter_nonempty.
  - rewrite (join_app _ [_] rest) by (auto; discriminate). rewrite (join_app _ (w :: ws) rest) by (auto; discriminate). reflexivity.
  - constructor; [|constructor]. apply join_nonempty; [discriminate|assumption].
Qed.

Lemma commas_nonempty ex : ex <> [] -> forallb class_name ex = true -> commas (map dotted ex) <> [].
Proof.
  intros H HF. unfold commas. apply join_nonempty; [destruct ex; [now elim H|discriminate]|].
  rewrite forallb_forall in HF. apply Forall_forall. intros x Hx. apply in_map_iff in Hx as (y & <- & Hy).
  apply dotted_nonempty. now apply HF.
Qed.
Lemma throws_words ex : forallb class_name ex = true ->
  concat_with (lit " ") (let t := commas (map dotted ex) in
     (if seqb (match t with [] => [] | _ => lit "throws " ++ t end) [] then [] else [match t with [] => [] | _ => lit "throws " ++ t end])) =
  concat_with (lit " ") (match ex with [] => [] | _ => [lit "throws"; commas (map dotted ex)] end) /\
  ((let t := commas (map dotted ex) in
     (if seqb (match t with [] => [] | _ => lit "throws " ++ t end) [] then [] else [match t with [] => [] | _ => lit "throws " ++ t end])) = [] <-> ex = []).
Proof.
  intro HF. destruct ex as [|e ex]; [split; [reflexivity|split; auto]|].
  pose proof (commas_nonempty (e :: ex) ltac:(discriminate) HF) as Hc. cbv zeta.
  destruct (commas (map dotted (e :: ex))) as [|z zs] eqn:E; [now elim Hc|].
  split; [reflexivity|]. split; intro X; discriminate X.
Qed.
Lemma join_tail sep a b b' : a <> [] -> concat_with sep b = concat_with sep b' -> (b = [] <-> b' = []) ->
  concat_with sep (a ++ b) = concat_with sep (a ++ b').
Proof.
  intros Ha E Hb. destruct b as [|x b]; destruct b' as [|y b'].
  - reflexivity.
  - exfalso. destruct Hb as [Hb _]. discriminate (Hb eq_refl).
  - exfalso. destruct Hb as [_ Hb]. discriminate (Hb eq_refl).
  - rewrite !join_app by (auto; discriminate). now rewrite E.
Qed.

Lemma decl_text ws ty n ex : Forall (fun x : str => x <> []) ws -> n <> [] -> forallb class_name ex = true ->
  let t := commas (map dotted ex) in
  let t := match t with [] => [] | _ => lit "throws " ++ t end in
  concat_with (lit " ") (filter (fun z => negb (seqb z [])) [concat_with (lit " ") ws; ty; n; t]) =
  concat_with (lit " ") (ws ++ ((if seqb ty [] then [] else [ty]) ++ [n]) ++
                         match ex with [] => [] | _ => [lit "throws"; commas (map dotted ex)] end).
Proof.
  intros Hw Hn Hex t0 t. rewrite parts_join by assumption. destruct (throws_words ex Hex) as [T1 T2].
  rewrite !app_assoc. apply join_tail.
  - destruct ws; [destruct ty|]; discriminate.
  - exact T1.
  - etransitivity; [exact T2|]. destruct ex; split; intro; try discriminate; reflexivity.
Qed.

(** a member is of one kind *)
Lemma desc_kind t a r : desc t <> method_desc a r.
Proof. destruct t as [[]| |]; discriminate. Qed.
Lemma declares_kind c jm n s n' s' : declares c jm n s -> declares c jm n' s' ->
  match s, s' with SField _, SField _ | SMethod _ _, SMethod _ _ => True | _, _ => False end.
Proof.
  intros H1 H2. destruct H1 as [jm n t _ _ E _|jm n a ret _ _ E _]; inversion H2 as [? ? ? ? ? E2 ? |? ? ? ? ? ? E2 ?]; subst; auto;
    rewrite E in E2; injection E2 as E2; [|symmetry in E2]; now apply desc_kind in E2.
Qed.

Lemma member_text c r b jm m n s t : class_shows c r -> member_shows (jc_pool c) b jm m -> declares c jm n s ->
  b = match s with SField _ => false | _ => true end -> described c jm t ->
  member_descriptor fmt (c_pool r) m = Ok t.
Proof.
  intros HC HM HD0 Hb HD. destruct HD as [jm n' s' ex HD [Hn Hi] Hbits HT].
  pose proof (declares_kind _ _ _ _ _ _ HD0 HD) as Hk.
  assert (Hb' : b = match s' with SField _ => false | _ => true end) by (destruct s, s'; (contradiction || exact Hb)).
  clear HD0 Hb Hk n s. destruct HC as (_ & HP & _). destruct HM as (HF & HN & HDs & HI & HA).
  destruct (throws_pretty c _ jm m ex HP HA HT) as [Hex Hcn].
  unfold member_descriptor. destruct HD as [jm n ty Hin En Ed Ok1|jm n a ret Hin En Ed Ok1]; rewrite Hb' in HI; cbn [sig_bits] in Hbits;
    unfold m_name, m_pretty_type, m_type, m_pretty_arg_types, m_arg_types, m_desc_str, m_descriptor; rewrite HI, HN, HDs;
    rewrite (jutf8_deref _ _ _ _ HP En), (jutf8_deref _ _ _ _ HP Ed); cbn [rbind pct_s].
  - destruct (field_split ty Ok1) as [_ ->]. cbn [rbind]. rewrite pretty_desc. cbn [rbind]. rewrite Hex. cbn [rbind].
    f_equal. rewrite (field_words m (jm_flags jm)) by assumption.
    change (py_eq (PStr n) (PStr (lit "<init>"))) with (seqb n (lit "<init>")).
    destruct (seqb_spec n (lit "<init>")) as [->|_]; [now elim Hi|].
    etransitivity; [exact (decl_text _ _ _ _ (keywords_nonempty field_table (jm_flags jm) eq_refl) Hn Hcn)|].
    unfold member_decl, member_words. cbn [sig_table].
    pose proof (type_name_nonempty ty Ok1) as Hty. destruct (type_name ty); [now elim Hty|]. reflexivity.
  - cbn [sig_ok] in Ok1. apply andb_true_iff in Ok1 as [Ok1 O3]. apply andb_true_iff in Ok1 as [O1 O2].
    destruct (method_split a ret O1 O2 O3) as [-> ->]. cbn [rbind]. rewrite pretty_ret, mapM_pretty. cbn [rbind]. rewrite Hex. cbn [rbind].
    f_equal. rewrite (method_words m (jm_flags jm)) by assumption.
    change (py_eq (PStr n) (PStr (lit "<init>"))) with (seqb n (lit "<init>")).
    etransitivity; [refine (decl_text _ _ _ _ (keywords_nonempty method_table (jm_flags jm) eq_refl) _ Hcn); destruct n; discriminate|].
    unfold member_decl, member_words. cbn [sig_table].
    pose proof (ret_name_nonempty ret O3) as Hty. destruct (seqb n (lit "<init>")); [reflexivity|]. destruct (ret_name ret); [now elim Hty|]. reflexivity.
Qed.
End Fmt.

(** ** Classes *)
Lemma class_text c r this super ifs : jpool_wf (jc_pool c) = true -> class_shows c r ->
  (Z.testbit (jc_flags c) 9 = true -> Z.testbit (jc_flags c) 14 = false) ->
  jclass_at (jc_pool c) (jc_this c) = Some this -> jclass_at (jc_pool c) (jc_super c) = Some super ->
  Forall2 (fun i n => jclass_at (jc_pool c) i = Some n) (jc_interfaces c) ifs -> forallb class_name ifs = true ->
  class_descriptor r = Ok (class_lead (jc_flags c) ++ class_decl (jc_flags c) this super ifs).
Proof.
  intros HW HC Hle HT HS HI Hifs. destruct (ClassFile_Names.class_names c r HW HC) as (N1 & _ & N3 & N4 & _ & _).
  unfold class_descriptor. rewrite (this_name c r HC _ HT). cbn [rbind].
  unfold pretty_super. rewrite (N3 _ HS). cbn [rbind pretty_class_v].
  unfold pretty_interfaces. rewrite (N4 _ HI). cbn [rbind]. rewrite mapM_class. cbn [rbind]. f_equal.
  destruct HC as (_ & _ & Ef & _). rewrite Ef. set (f := jc_flags c) in *. unfold class_access_flags. flags f.
  unfold class_decl, class_lead, class_kind. unfold class_table. rewrite !keywords_cons.
  change (keywords [] f) with (@nil str). rewrite app_nil_r.
  set (ws := word_if (Z.testbit f 0) "public" ++ word_if (Z.testbit f 4) "final" ++ word_if (Z.testbit f 10) "abstract").
  assert (Hws : forall X, word_if (Z.testbit f 0) "public" ++ word_if (Z.testbit f 4) "final" ++ word_if (Z.testbit f 10) "abstract" ++ X = ws ++ X)
    by (intro X; unfold ws; now rewrite <- !app_assoc).
  rewrite !Hws.
  change (concat_with (lit ",") (map dotted ifs)) with (commas (map dotted ifs)). change (pretty_class super) with (dotted super).
  set (tailw := match ifs with [] => [] | _ => [lit "implements"; commas (map dotted ifs)] end).
  assert (Htail : forall F, (match commas (map dotted ifs) with
      | [] => F ++ lit " " ++ dotted this ++ lit " extends " ++ dotted super
      | _ => F ++ lit " " ++ dotted this ++ lit " extends " ++ dotted super ++ lit " implements " ++ commas (map dotted ifs) end) =
      F ++ lit " " ++ concat_with (lit " ") ([dotted this; lit "extends"; dotted super] ++ tailw)).
  { intro F. unfold tailw. destruct ifs as [|i ifs']; [reflexivity|].
    pose proof (commas_nonempty (i :: ifs') ltac:(discriminate) Hifs) as Hc.
    destruct (commas (map dotted (i :: ifs'))) eqn:E; [now elim Hc|]. cbn [app concat_with]. rewrite <- ?app_assoc. reflexivity. }
  rewrite Htail. destruct (Z.testbit f 9) eqn:E9.
  - rewrite (Hle eq_refl). change (word_if false "enum") with (@nil str). rewrite !app_nil_r. cbn [app].
    set (k := if Z.testbit f 13 then lit "@interface" else lit "interface").
    replace (if Z.testbit f 13 then [lit "@interface"] else [lit "interface"]) with [k] by (unfold k; destruct (Z.testbit f 13); reflexivity).
    transitivity (concat_with (lit " ") ((ws ++ [k]) ++ [dotted this; lit "extends"; dotted super] ++ tailw)).
    + rewrite (join_app _ (ws ++ [k])); [reflexivity| |discriminate]. destruct ws; discriminate.
    + rewrite <- app_assoc. reflexivity.
  - cbn [app].
    set (kw := ws ++ word_if (Z.testbit f 14) "enum").
    transitivity ((match kw with [] => lit " " | _ => [] end) ++
      concat_with (lit " ") (kw ++ [lit "class"] ++ [dotted this; lit "extends"; dotted super] ++ tailw)); [|reflexivity].
    destruct kw as [|k0 kws].
    + reflexivity.
    + rewrite (join_app _ (k0 :: kws)) by discriminate. rewrite (join_app _ [lit "class"]) by discriminate.
      rewrite <- !app_assoc. reflexivity.
Qed.

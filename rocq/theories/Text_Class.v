(** The text of the report of two classes. *)
From Verif Require Import Base Pack_Model ConstPool_Model ClassFile_Model Descr_Model Descr_Spec Descr_Proofs Opcodes_Model Opcodes_Spec Opcodes_Proofs Anno_Model
  Change_Model Change_Spec Change_Proofs Change_Report Classdiff_Model Classdiff_Spec Classdiff_Members Classdiff_Code Classdiff_Class Classdiff_Merge Classdiff_Passes
  Info_Model Info_Spec Print_Spec Print_Decl Html_Spec Html_Page Html_Values Html_Class Text_Spec Text_Proofs.
From Coq Require Import Permutation.

Section Report.
Variable fmt : pyval -> str.
Variable reprs : str -> str.
Variable ffmt : pyval -> str.

(** ** Values *)
Lemma quoted_is s : quoted reprs s = quote reprs s.
Proof. unfold quoted, quote. destruct (_ && _); reflexivity. Qed.
Lemma strs_shown l : map (repr_o reprs) (strs l) = map (quote reprs) l.
Proof. unfold strs. rewrite map_map. apply map_ext. intro s. apply quoted_is. Qed.
Lemma list_is l : pct reprs (Ok (OList (strs l))) = Ok (list_shown (map (quote reprs) l)).
Proof. unfold pct. cbn [rbind str_o repr_o]. now rewrite strs_shown. Qed.
Lemma tuple_repr l : repr_o reprs (OTuple l) = tuple_shown (map (repr_o reprs) l).
Proof. destruct l as [|x [|y l]]; reflexivity. Qed.
Lemma tuple_is l : pct reprs (Ok (OTuple (strs l))) = Ok (tuple_shown (map (quote reprs) l)).
Proof. unfold pct. cbn [rbind]. unfold str_o. now rewrite tuple_repr, strs_shown. Qed.
Lemma two_is x : repr_o reprs (OTuple [OInt (fst x); OInt (snd x)]) = two x.
Proof. rewrite tuple_repr. unfold tuple_shown, two, commas_sp. cbn [map repr_o concat_with]. now rewrite <- !app_assoc. Qed.
Lemma lines_are t : pct reprs (Ok (obj_lines t)) = Ok (tuple_shown (map two t)).
Proof. unfold pct, obj_lines. cbn [rbind]. unfold str_o. rewrite tuple_repr, map_map. do 2 f_equal. apply map_ext. intro x. apply two_is. Qed.
Lemma constant_is v : match v with Some (PPair _ _) => False | _ => True end -> repr_o reprs (obj_opt fmt v) = constant_shown fmt reprs v.
Proof. destruct v as [[]|]; intro H; try reflexivity; [apply quoted_is|contradiction]. Qed.
Lemma sig_is s : pct reprs (Ok (obj_opt fmt (option_map PStr s))) = Ok (or_nothing s).
Proof. destruct s; reflexivity. Qed.

(** ** Lists of entries *)
Lemma tells_nil o n : exists ts, Forall2 (entry o n) [] ts /\ Forall2 (tells o n) [] ts.
Proof. exists []. split; constructor. Qed.
Lemma tells_cons o n e es c cs : (exists t, entry o n e t /\ tells o n c t) -> (exists ts, Forall2 (entry o n) es ts /\ Forall2 (tells o n) cs ts) ->
  exists ts, Forall2 (entry o n) (e :: es) ts /\ Forall2 (tells o n) (c :: cs) ts.
Proof. intros (t & H1 & H2) (ts & H3 & H4). exists (t :: ts). split; constructor; assumption. Qed.

Lemma annos_tell o dep n lb attr lp rp la ra c old new : check (annos_leaf fmt reprs n lb attr lp rp la ra) = Ok c ->
  annos_shown fmt lp la attr old -> annos_shown fmt rp ra attr new ->
  exists t, entry o dep (annos_say reprs lb lp rp la ra attr old new) t /\ tells o dep c t.
Proof.
  intros HC (l & L1 & L2) (r & R1 & R2). unfold annos_say, moves. eapply leaf_tells; [exact HC| | | |apply never_hidden].
  - unfold pct. rewrite L1. cbn [rbind]. rewrite L2. apply list_is.
  - unfold pct. rewrite R1. cbn [rbind]. rewrite R2. apply list_is.
  - apply quiet_annos.
Qed.

(** ** Declarations *)
Lemma field_descr p m F : field_is fmt p m F -> member_descriptor fmt p m = Ok (field_decl m F).
Proof.
  intros [K _ [Hn Hi] HX _ _]. unfold member_descriptor, m_pretty_type, m_type, m_desc_str, pretty_exceptions.
  rewrite (kf_desc _ _ _ _ _ _ K), (kf_name _ _ _ _ _ _ K), HX, (kf_field _ _ _ _ _ _ K). cbn [rbind pct_s mapM].
  rewrite (proj2 (field_split _ (kf_ok _ _ _ _ _ _ K))). cbn [rbind]. rewrite pretty_desc. cbn [rbind]. f_equal.
  rewrite (field_words m (m_flags m) eq_refl (kf_field _ _ _ _ _ _ K) (kf_bits _ _ _ _ _ _ K)).
  change (py_eq (PStr (fd_name F)) (PStr (lit "<init>"))) with (seqb (fd_name F) (lit "<init>")).
  destruct (seqb_spec (fd_name F) (lit "<init>")) as [E|_]; [now elim Hi|].
  etransitivity; [exact (decl_text _ _ _ [] (keywords_nonempty field_table (m_flags m) eq_refl) Hn eq_refl)|].
  unfold field_decl, member_decl, member_words. cbn [sig_table].
  pose proof (type_name_nonempty _ (kf_ok _ _ _ _ _ _ K)) as Hty. destruct (type_name (fd_type F)); [now elim Hty|]. reflexivity.
Qed.
Lemma method_descr p m M : method_is fmt p m M -> member_descriptor fmt p m = Ok (method_decl m M).
Proof.
  intros [K Hcn _ _ _ _]. destruct (known_texts fmt _ _ _ _ _ _ _ K) as (_ & _ & T3 & T4 & T5 & _). pose proof (km_method _ _ _ _ _ _ _ K) as KM.
  unfold member_descriptor. rewrite T3, T4, T5, (im_name _ _ _ _ _ KM), (im_method _ _ _ _ _ KM). cbn [rbind pct_s]. f_equal.
  rewrite (method_words m (m_flags m) eq_refl (im_method _ _ _ _ _ KM) (km_bits _ _ _ _ _ _ _ K)).
  change (py_eq (PStr (md_name M)) (PStr (lit "<init>"))) with (seqb (md_name M) (lit "<init>")).
  etransitivity; [refine (decl_text _ _ _ _ (keywords_nonempty method_table (m_flags m) eq_refl) _ Hcn); destruct (md_name M); discriminate|].
  unfold method_decl, member_decl, member_words. cbn [sig_table].
  pose proof (ret_name_nonempty _ (im_ret _ _ _ _ _ KM)) as Hty. destruct (seqb (md_name M) (lit "<init>")); [reflexivity|]. destruct (ret_name (md_ret M)); [now elim Hty|]. reflexivity.
Qed.

(** ** Fields *)
Lemma field_tells o d lp rp a b c F G : check (field_change fmt reprs lp rp a b) = Ok c -> field_is fmt lp a F -> field_is fmt rp b G ->
  exists t, field_block fmt reprs o d lp rp a b t /\ tells o (S (S d)) c t.
Proof.
  intros HC KF KG. unfold field_change in HC. cbv zeta in HC.
  destruct (super_tells o (S (S d)) _ _ _ _ _ _ (lit "Field: " ++ field_decl a F) (lit "Field: " ++ field_decl a F) HC) as (kids & HF & HT); [split; [reflexivity|]; intros _; now rewrite (field_descr _ _ _ KF)|].
  pose proof KF as [K KC KN KX KV KI]. pose proof KG as [H HCo HN HX HV HI].
  assert (TL : m_pretty_type fmt lp a = Ok (type_name (fd_type F))) by (unfold m_pretty_type, m_type, m_desc_str; rewrite (kf_desc _ _ _ _ _ _ K); cbn [rbind pct_s]; rewrite (proj2 (field_split _ (kf_ok _ _ _ _ _ _ K))); apply pretty_desc).
  assert (TR : m_pretty_type fmt rp b = Ok (type_name (fd_type G))) by (unfold m_pretty_type, m_type, m_desc_str; rewrite (kf_desc _ _ _ _ _ _ H); cbn [rbind pct_s]; rewrite (proj2 (field_split _ (kf_ok _ _ _ _ _ _ H))); apply pretty_desc).
  split_parts HF. inversion HF; subst; clear HF.
  assert (X : exists ts, Forall2 (entry o (S (S (S d)))) (field_says fmt reprs o lp rp a b F G) ts /\ Forall2 (tells o (S (S (S d)))) [k; k0; k1; k2; k3; k4; k5; k6] ts).
  { unfold field_says. cbv zeta. repeat apply tells_cons; [..|apply tells_nil].
    - eapply leaf_tells; [exact C|..]; [rewrite (kf_name _ _ _ _ _ _ K)|rewrite (kf_name _ _ _ _ _ _ H)| |apply never_hidden]; [reflexivity..|].
      unfold leaf_of; leaf_tac. rewrite (kf_name _ _ _ _ _ _ K), (kf_name _ _ _ _ _ _ H), agree_ok. unfold pyeq; cbn [py_eq]; apply seqb_iff.
    - eapply leaf_tells; [exact C0|rewrite TL; reflexivity|rewrite TR; reflexivity| |apply never_hidden].
      unfold leaf_of; leaf_tac. rewrite (kf_desc _ _ _ _ _ _ K), (kf_desc _ _ _ _ _ _ H), agree_ok. unfold pyeq; cbn [py_eq]; rewrite seqb_iff; split; [apply desc_inj|now intros ->].
    - eapply leaf_tells; [exact C1|unfold obj_signature; rewrite (kf_sig _ _ _ _ _ _ K); apply sig_is|unfold obj_signature; rewrite (kf_sig _ _ _ _ _ _ H); apply sig_is| |apply never_hidden].
      unfold leaf_of; leaf_tac. rewrite (kf_sig _ _ _ _ _ _ K), (kf_sig _ _ _ _ _ _ H), agree_ok. apply opt_pyeq.
    - eapply annos_tell; [exact C2|exact KV|exact HV].
    - eapply annos_tell; [exact C3|exact KI|exact HI].
    - eapply leaf_tells; [exact C4|rewrite (field_words a _ eq_refl (kf_field _ _ _ _ _ _ K) (kf_bits _ _ _ _ _ _ K)); reflexivity|rewrite (field_words b _ eq_refl (kf_field _ _ _ _ _ _ H) (kf_bits _ _ _ _ _ _ H)); reflexivity| |apply never_hidden].
      leaf_tac. now rewrite agree_ok.
    - eapply leaf_tells; [exact C5|rewrite (kf_const _ _ _ _ _ _ K); unfold pct; cbn [rbind str_o]; rewrite (constant_is _ KC); reflexivity|rewrite (kf_const _ _ _ _ _ _ H); unfold pct; cbn [rbind str_o]; rewrite (constant_is _ HCo); reflexivity| |apply never_hidden].
      unfold leaf_of; leaf_tac. rewrite (kf_const _ _ _ _ _ _ K), (kf_const _ _ _ _ _ _ H), agree_ok. reflexivity.
    - eapply leaf_tells; [exact C6|reflexivity|reflexivity| |reflexivity]. unfold leaf_of; leaf_tac. now rewrite agree_ok. }
  destruct X as (ts & X1 & X2). exists (block_text o (S (S d)) (lit "Field: " ++ field_decl a F) (lit "Field: " ++ field_decl a F) ts). split; [|apply HT; exact X2].
  exists F, G, ts. auto.
Qed.

(** ** Code *)
Lemma same_ops_iff l : forall r, body_loop l r = false <-> same_ops l r.
Proof.
  induction l as [|x l IH]; intros [|y r]; cbn [body_loop].
  - split; [intros _ [|i] ? ? H; discriminate|reflexivity].
  - split; [intros _ [|i] ? ? H; discriminate|reflexivity].
  - split; [intros _ [|i] ? ? _ H; discriminate|reflexivity].
  - destruct (Nat.eqb_spec (i_off x) (i_off y)) as [E1|E1], (Z.eqb_spec (i_code x) (i_code y)) as [E2|E2]; cbn [andb negb];
      try (split; [discriminate|]; intro H; destruct (H 0%nat x y eq_refl eq_refl); contradiction).
    rewrite IH. split; [|intros H i u v Hu Hv; apply (H (S i) u v Hu Hv)]. intros H [|i] u v Hu Hv; [|exact (H i u v Hu Hv)]. cbn in Hu, Hv. injection Hu as <-. injection Hv as <-. now split.
Qed.
Lemma catch_is p e t : catch_shown p e t -> pretty_catch_type p e = Ok t.
Proof.
  unfold pretty_catch_type, get_catch_type. intros [E|x n E HD].
  - rewrite E. reflexivity.
  - destruct (Z.eqb_spec (ex_type_ref e) 0); [contradiction|]. rewrite HD. reflexivity.
Qed.
Lemma handlers_are p K : code_is p K -> pct reprs (obj_handlers reprs p (Some (cd_code K))) = Ok (handlers_shown reprs K).
Proof.
  intros [_ HC]. unfold obj_handlers, handlers_shown. cbn [on_code rbind].
  assert (X : mapM (fun e => t <- pretty_catch_type p e ;; Ok (OTuple [OInt (ex_start e); OInt (ex_end e); OInt (ex_handler e); OStr t])) (k_exceptions (cd_code K)) =
     Ok (map (fun et => OTuple [OInt (ex_start (fst et)); OInt (ex_end (fst et)); OInt (ex_handler (fst et)); OStr (snd et)]) (combine (k_exceptions (cd_code K)) (cd_catch K)))).
  { clear -HC. induction HC as [|e t es ts H HC IH]; [reflexivity|]. cbn [mapM]. rewrite (catch_is _ _ _ H). cbn [rbind]. rewrite IH. reflexivity. }
  rewrite X. cbn [rbind pct str_o repr_o]. unfold list_shown. rewrite map_map. do 4 f_equal. unfold commas_sp. f_equal. apply map_ext. intros [e t]. rewrite tuple_repr. cbn [map fst snd repr_o]. rewrite quoted_is. reflexivity.
Qed.
Lemma body_tells o n l r c : check (leaf "CodeBodyChange" "Code body" never (code_body_check (Some l) (Some r)) (body_obj (Some l)) (body_obj (Some r))) = Ok c ->
  exists t, body_entry o n (k_code l) (k_code r) t /\ tells o n c t.
Proof.
  intros HC. unfold leaf in HC. cbn [check k_check] in HC. unfold code_body_check in HC. destruct (Nat.eqb_spec (length (k_code l)) (length (k_code r))) as [E|E]; cbn [negb] in HC.
  - destruct (disassemble_all (k_code l)) as [dl|] eqn:E1; [|discriminate HC]. destruct (disassemble_all (k_code r)) as [dr|] eqn:E2; [|discriminate HC]. cbn [rbind] in HC. apply ok_inj in HC. subst c.
    apply disassemble_all_iff in E1, E2. destruct (body_loop dl dr) eqn:EB.
    + exists (written o n Told (lit "Code body changed") [] []). split; [apply (body_ops o n _ _ dl dr); [exact E|exact E1|exact E2|intro X; apply same_ops_iff in X; congruence]|].
      refine (plain_tells o n _ false (lit "Code body changed") [] _ _ _); reflexivity.
    + exists (written o n Same [] (stays "Code body") []). split; [apply (body_same o n _ _ dl dr E E1 E2); now apply same_ops_iff|].
      refine (plain_tells o n _ false [] (stays "Code body") _ _ _); reflexivity.
  - cbn [rbind] in HC. apply ok_inj in HC. subst c. exists (written o n Told (lit "Code length changed from " ++ dec (Z.of_nat (length (k_code l))) ++ lit " to " ++ dec (Z.of_nat (length (k_code r)))) [] []).
    split; [now apply body_length|]. refine (plain_tells o n _ false _ [] _ _ _); reflexivity.
Qed.
Lemma constants_tell o n lp rp l r c : check (leaf "CodeConstantsChange" "Code constants" never (code_constants_check lp rp (Some l) (Some r))
    (constants_obj fmt reprs (code_offsets lp rp (Some l) (Some r)) lp (Some l)) (constants_obj fmt reprs (code_offsets lp rp (Some l) (Some r)) rp (Some r))) = Ok c ->
  exists t, entry o n (mksays (lit "Code constants changed") (stays "Code constants") (same_body tool_resolved lp rp (k_code l) (k_code r)) False) t /\ tells o n c t.
Proof.
  intros HC. pose proof HC as HC0. unfold leaf in HC. cbn [check k_check] in HC. unfold code_constants_check in HC. destruct (code_offsets _ _ _ _) as [x|]; [|discriminate HC]. cbn [rbind] in HC. apply ok_inj in HC. subst c.
  refine (says_tells o n _ false _ _ _ _ _ HC0 _ _ _ _ _).
  - rewrite quiet_leaf. apply code_constants_iff.
  - reflexivity.
  - split; [discriminate|contradiction].
  - cbn [get_description k_text k_label is_change k_always orb]. unfold stays. now destruct (match x with None => true | Some [] => false | Some _ => true end).
  - reflexivity.
Qed.
Lemma pairs_eq l r : Forall2 eq l r <-> l = r :> list (Z * Z).
Proof. apply Forall2_eq. Qed.

Lemma one_code o d lp rp k h c : check (method_code fmt reprs lp rp k h) = Ok c -> match k, h with Some _, None | None, Some _ => True | _, _ => False end ->
  tells o (S (S (S d))) c (written o (S (S (S d))) Aside (lit "Method Code changed") [] (code_parts_still o d)).
Proof.
  intros HC HK.
  assert (HC' : c = Node (k_of (method_code fmt reprs lp rp k h)) true None [] (code_parts fmt reprs lp rp k h)) by (destruct k, h; try contradiction; cbn [method_code check k_check] in HC; apply ok_inj in HC; now subst c). clear HC. subst c.
  assert (HS : Forall2 (tells o (S (S (S (S d))))) (code_parts fmt reprs lp rp k h) (map (fun label => written o (S (S (S (S d)))) Same [] (stays label) [])
    ["Absolute line numbers"; "Relative line numbers"; "Stack size"; "Locals"; "Exception table"; "Code constants"; "Code body"]%string)).
  { unfold code_parts. cbn [map]. constructor; [|constructor; [|repeat (constructor; [refine (plain_tells o (S (S (S (S d)))) _ false [] _ _ _ _); reflexivity|]); constructor]].
    - refine (plain_tells o (S (S (S (S d)))) _ (ignore_absolute_lines o) [] _ _ _ _); try reflexivity. unfold leaf_of, leaf_text, leaf. rewrite is_ignored_eq. cbn [k_own k_parts]. now destruct (ignore_absolute_lines o).
    - refine (plain_tells o (S (S (S (S d)))) _ (ignore_relative_lines o) [] _ _ _ _); try reflexivity. unfold leaf_of, leaf_text, leaf. rewrite is_ignored_eq. cbn [k_own k_parts]. now destruct (ignore_relative_lines o). }
  change (code_parts_still o d) with (concat (map snd (map (fun label => written o (S (S (S (S d)))) Same [] (stays label) [])
    ["Absolute line numbers"; "Relative line numbers"; "Stack size"; "Locals"; "Exception table"; "Code constants"; "Code body"]%string))).
  refine (node_tells o (S (S (S d))) _ true _ [] _ _ _ _ _ HS); reflexivity.
Qed.
Lemma code_tells o d lp rp K H c : check (method_code fmt reprs lp rp (option_map cd_code K) (option_map cd_code H)) = Ok c ->
  match K with Some K => code_is lp K | None => True end -> match H with Some H => code_is rp H | None => True end ->
  exists t, code_block reprs o d lp rp K H t /\ tells o (S (S (S d))) c t.
Proof.
  intros HC KK KH. destruct K as [K|], H as [H|]; cbn [option_map] in HC.
  - assert (HC' : check (super "MethodCodeChange" "Method Code" None None (code_parts fmt reprs lp rp (Some (cd_code K)) (Some (cd_code H)))) = Ok c) by exact HC. clear HC.
    destruct (super_tells o (S (S (S d))) _ _ _ _ _ _ (lit "Method Code changed") (stays "Method Code") HC' (conj eq_refl eq_refl)) as (kids & HF & HT). unfold code_parts in HF. split_parts HF. inversion HF; subst; clear HF.
    assert (X : exists ts, Forall2 (entry o (S (S (S (S d))))) (code_says reprs o lp rp K H) ts /\ Forall2 (tells o (S (S (S (S d))))) [k; k0; k1; k2; k3; k4] ts).
    { unfold code_says. cbv zeta. repeat apply tells_cons; [..|apply tells_nil]; cbn [on_code] in *.
      - eapply leaf_tells; [exact C|rewrite (ci_lines _ _ KK); apply lines_are|rewrite (ci_lines _ _ KH); apply lines_are| |reflexivity].
        unfold leaf_of; leaf_tac. rewrite (ci_lines _ _ KK), (ci_lines _ _ KH), agree_ok. apply pairs_eq.
      - eapply leaf_tells; [exact C0|rewrite (ci_lines _ _ KK); cbn [rbind]; rewrite relative_lines_spec; apply lines_are|rewrite (ci_lines _ _ KH); cbn [rbind]; rewrite relative_lines_spec; apply lines_are| |reflexivity].
        unfold leaf_of; leaf_tac. rewrite (ci_lines _ _ KK), (ci_lines _ _ KH). cbn [rbind]. rewrite agree_ok, !relative_lines_spec. apply pairs_eq.
      - eapply leaf_tells; [exact C1|reflexivity|reflexivity| |apply never_hidden]. unfold leaf_of; leaf_tac. rewrite agree_ok. reflexivity.
      - eapply leaf_tells; [exact C2|reflexivity|reflexivity| |apply never_hidden]. unfold leaf_of; leaf_tac. rewrite agree_ok. reflexivity.
      - eapply leaf_tells; [exact C3|exact (handlers_are _ _ KK)|exact (handlers_are _ _ KH)| |apply never_hidden]. unfold leaf_of; leaf_tac. rewrite agree_ok. reflexivity.
      - exact (constants_tell o (S (S (S (S d)))) _ _ _ _ _ C4). }
    destruct X as (ts & X1 & X2). destruct (body_tells o (S (S (S (S d)))) _ _ _ C5) as (t & B1 & B2).
    exists (block_text o (S (S (S d))) (lit "Method Code changed") (stays "Method Code") (ts ++ [t])). split; [now apply code_both|]. apply HT.
    exact (Forall2_app X2 (Forall2_cons _ _ B2 (Forall2_nil _))).
  - eexists. split; [constructor|]. now apply (one_code o d lp rp (Some (cd_code K)) None).
  - eexists. split; [constructor|]. now apply (one_code o d lp rp None (Some (cd_code H))).
  - eexists. split; [constructor|]. cbn [method_code check k_check] in HC. apply ok_inj in HC. subst c. refine (plain_tells o (S (S (S d))) _ false [] (stays "Method Code") _ _ _); reflexivity.
Qed.

(** ** Methods *)
Lemma map_pyeq l : forall l', Forall2 pyeq (map PStr l) (map PStr l') <-> l = l'.
Proof.
  induction l as [|x l IH]; intros [|y l']; cbn [map]; (split; [intro H; inversion H as [|? ? ? ? H1 H2]; subst|intro E; try discriminate E]); try reflexivity; try constructor.
  - unfold pyeq in H1. cbn [py_eq] in H1. apply seqb_eq in H1. apply IH in H2. congruence.
  - injection E as -> _. apply seqb_refl.
  - injection E as _ ->. now apply IH.
Qed.
Lemma map_desc l : forall l', map desc l = map desc l' <-> l = l'.
Proof. induction l as [|x l IH]; intros [|y l']; cbn [map]; split; intro H; try discriminate H; try reflexivity; injection H as H1 H2; [apply desc_inj in H1; apply IH in H2; congruence|congruence]. Qed.
Lemma method_tells o d lp rp a b c M N : check (method_change fmt reprs lp rp a b) = Ok c -> method_is fmt lp a M -> method_is fmt rp b N ->
  exists t, method_block fmt reprs o d lp rp a b t /\ tells o (S (S d)) c t.
Proof.
  intros HC KM KN. unfold method_change in HC. cbv zeta in HC. rewrite (mi_code _ _ _ _ KM), (mi_code _ _ _ _ KN) in HC. cbn [rbind] in HC.
  destruct (super_tells o (S (S d)) _ _ _ _ _ _ (lit "Method: " ++ method_decl a M) (lit "Method: " ++ method_decl a M) HC) as (kids & HF & HT); [split; [reflexivity|]; intros _; now rewrite (method_descr _ _ _ KM)|].
  pose proof KM as [K KX KV KI KC KD]. pose proof KN as [H HX HV HI HCo HD].
  destruct (known_texts fmt _ _ _ _ _ _ _ K) as (K1 & K2 & K3 & K4 & K5 & _). destruct (known_texts fmt _ _ _ _ _ _ _ H) as (H1 & H2 & H3 & H4 & H5 & _).
  pose proof (km_method _ _ _ _ _ _ _ K) as MK. pose proof (km_method _ _ _ _ _ _ _ H) as MH.
  split_parts HF. inversion HF; subst; clear HF.
  assert (X : exists ts, Forall2 (entry o (S (S (S d)))) (method_says reprs o lp rp a b M N) ts /\ Forall2 (tells o (S (S (S d)))) [k; k0; k1; k2; k3; k4; k5; k6; k7; k8] ts).
  { unfold method_says. cbv zeta. repeat apply tells_cons; [..|apply tells_nil].
    - eapply leaf_tells; [exact C|rewrite (im_name _ _ _ _ _ MK); reflexivity|rewrite (im_name _ _ _ _ _ MH); reflexivity| |apply never_hidden].
      unfold leaf_of; leaf_tac. rewrite (im_name _ _ _ _ _ MK), (im_name _ _ _ _ _ MH), agree_ok. unfold pyeq; cbn [py_eq]; apply seqb_iff.
    - eapply leaf_tells; [exact C0|rewrite K3; reflexivity|rewrite H3; reflexivity| |apply never_hidden].
      unfold leaf_of; leaf_tac. rewrite K1, H1, agree_ok. apply ret_desc_inj.
    - eapply leaf_tells; [exact C1|unfold obj_signature; rewrite (km_sig _ _ _ _ _ _ _ K); apply sig_is|unfold obj_signature; rewrite (km_sig _ _ _ _ _ _ _ H); apply sig_is| |apply never_hidden].
      unfold leaf_of; leaf_tac. rewrite (km_sig _ _ _ _ _ _ _ K), (km_sig _ _ _ _ _ _ _ H), agree_ok. apply opt_pyeq.
    - eapply annos_tell; [exact C2|exact KV|exact HV].
    - eapply annos_tell; [exact C3|exact KI|exact HI].
    - eapply leaf_tells; [exact C4|rewrite K4; apply tuple_is|rewrite H4; apply tuple_is| |apply never_hidden].
      unfold leaf_of; leaf_tac. rewrite K2, H2, agree_ok, Forall2_eq. apply map_desc.
    - eapply leaf_tells; [exact C5|rewrite (method_words a _ eq_refl (im_method _ _ _ _ _ MK) (km_bits _ _ _ _ _ _ _ K)); apply tuple_is|rewrite (method_words b _ eq_refl (im_method _ _ _ _ _ MH) (km_bits _ _ _ _ _ _ _ H)); apply tuple_is| |apply never_hidden].
      unfold leaf_of; leaf_tac. rewrite agree_ok. reflexivity.
    - eapply leaf_tells; [exact C6|rewrite K5; apply tuple_is|rewrite H5; apply tuple_is| |apply never_hidden].
      unfold leaf_of; leaf_tac. rewrite (km_ex _ _ _ _ _ _ _ K), (km_ex _ _ _ _ _ _ _ H), agree_ok. apply map_pyeq.
    - eapply leaf_tells; [exact C7|destruct (md_code M); reflexivity|destruct (md_code N); reflexivity| |apply never_hidden].
      leaf_tac. rewrite agree_ok. destruct (md_code M), (md_code N); cbn [option_map]; split; intros; try split; congruence || (intros; congruence) || tauto || idtac.
      all: try (match goal with X : _ <-> _ |- _ => destruct X as [X1 X2]; first [discriminate (X1 eq_refl)|discriminate (X2 eq_refl)] end).
    - eapply leaf_tells; [exact C8|reflexivity|reflexivity| |reflexivity]. unfold leaf_of; leaf_tac. rewrite agree_ok. reflexivity. }
  destruct X as (ts & X1 & X2). destruct (code_tells o d _ _ _ _ _ C9 KD HD) as (t & B1 & B2).
  exists (block_text o (S (S d)) (lit "Method: " ++ method_decl a M) (lit "Method: " ++ method_decl a M) (ts ++ [t])). split; [|apply HT; exact (Forall2_app X2 (Forall2_cons _ _ B2 (Forall2_nil _)))].
  exists M, N, ts, t. auto.
Qed.

(** ** Members *)
Lemma added_tells o d n lb p m tx c : member_descriptor fmt p m = Ok tx -> check (member_added fmt n lb p m) = Ok c -> tells o (S (S d)) c (written o (S (S d)) Told (lit lb ++ lit ": " ++ tx) [] []).
Proof.
  intros HD HC. unfold member_added in HC. cbn [check k_check] in HC. apply ok_inj in HC. subst c.
  refine (plain_tells o (S (S d)) _ false _ [] _ _ _); try reflexivity. unfold get_description. cbn [k_text]. rewrite HD. reflexivity.
Qed.
Lemma removed_tells o d n lb p m tx c : member_descriptor fmt p m = Ok tx -> check (member_removed fmt n lb p m) = Ok c -> tells o (S (S d)) c (written o (S (S d)) Told (lit lb ++ lit ": " ++ tx) [] []).
Proof.
  intros HD HC. unfold member_removed in HC. cbn [check k_check] in HC. apply ok_inj in HC. subst c.
  refine (plain_tells o (S (S d)) _ false _ [] _ _ _); try reflexivity. unfold get_description. cbn [k_text]. rewrite HD. reflexivity.
Qed.
Lemma field_same_iff lp rp a b F G : field_is fmt lp a F -> field_is fmt rp b G -> (same_identity fmt lp rp a b <-> same_name lp rp a b).
Proof.
  intros [K _ _ _ _ _] [H _ _ _ _ _]. unfold same_identity, get_identifier, same_name. rewrite (kf_field _ _ _ _ _ _ K), (kf_field _ _ _ _ _ _ H), (kf_name _ _ _ _ _ _ K), (kf_name _ _ _ _ _ _ H).
  cbn [rbind]. rewrite agree_ok. unfold pyeq. cbn [py_eq]. rewrite seqb_iff. split; [intros ->; now exists (fd_name G)|intros (n & E1 & E2)]. injection E1 as ->. now injection E2 as ->.
Qed.
Lemma method_same_iff lp rp a b M N : method_is fmt lp a M -> method_is fmt rp b N -> (same_identity fmt lp rp a b <-> overrides lp rp a b).
Proof.
  intros [K _ _ _ _ _] [H _ _ _ _ _]. pose proof (km_method _ _ _ _ _ _ _ K) as MK. pose proof (km_method _ _ _ _ _ _ _ H) as MH.
  assert (FB : forall m, flag ACC_BRIDGE (m_flags m) = Z.testbit (m_flags m) 6) by (intro m; apply flag_is; [lia|reflexivity]). split.
  - intro S. apply (method_identity fmt _ _ _ _ _ _ _ _ _ _ MK MH) in S as (S1 & S2 & S3 & S4). rewrite !FB in *. exists (md_name M), (md_args M), (md_ret M), (md_ret N).
    split; [exact MK|]. split; [rewrite S1, S2; exact MH|]. now split.
  - intros (n & args & ret & ret' & I1 & I2 & S3 & S4). apply (method_identity fmt _ _ _ _ _ _ _ _ _ _ I1 I2). rewrite !FB. auto.
Qed.
Lemma in_known {A} (P : A -> Prop) l x : Forall P l -> In x l -> P x.
Proof. rewrite Forall_forall. auto. Qed.

Lemma fields_tell o d l r c L R : check (fields_change fmt reprs l r) = Ok c -> class_is fmt l L -> class_is fmt r R ->
  exists t, members_block o d "Fields" (same_name (c_pool l) (c_pool r)) (field_line fmt o d (c_pool r) "Field added") (field_line fmt o d (c_pool l) "Field removed")
      (field_block fmt reprs o d (c_pool l) (c_pool r)) (c_fields l) (c_fields r) t /\ tells o (S d) c t.
Proof.
  intros HC [_ _ _ FL _ DL _] [_ _ _ FR _ DR _]. unfold fields_change in HC. cbv zeta in HC. destruct (collect_members fmt _ _ (c_fields l) (c_fields r)) as [ev|] eqn:E; [|apply check_super in HC as [X _]; discriminate X].
  refine (members_tell fmt o d _ _ _ _ _ _ ev (field_node fmt reprs (c_pool l) (c_pool r)) _ _ _ c _ _ _ _ HC E DL DR _ _ _ _ _ _ _ _ _ _); try reflexivity; try (intro X; discriminate X).
  - intros a b Ha Hb. destruct (in_known _ _ _ FL Ha) as (F & HF), (in_known _ _ _ FR Hb) as (G & HG). exact (field_same_iff _ _ _ _ _ _ HF HG).
  - intros b d0 Hb HD. destruct (in_known _ _ _ FR Hb) as (G & HG). eexists. split; [exists G; split; [exact HG|reflexivity]|]. exact (added_tells o d _ _ _ _ _ _ (field_descr _ _ _ HG) HD).
  - intros a d0 Ha HD. destruct (in_known _ _ _ FL Ha) as (G & HG). eexists. split; [exists G; split; [exact HG|reflexivity]|]. exact (removed_tells o d _ _ _ _ _ _ (field_descr _ _ _ HG) HD).
  - intros a b d0 Ha Hb HD. destruct (in_known _ _ _ FL Ha) as (F & HF), (in_known _ _ _ FR Hb) as (G & HG). exact (field_tells o d _ _ _ _ _ _ _ HD HF HG).
Qed.
Lemma methods_tell o d l r c L R : check (methods_change fmt reprs l r) = Ok c -> class_is fmt l L -> class_is fmt r R ->
  exists t, members_block o d "Methods" (overrides (c_pool l) (c_pool r)) (method_line fmt o d (c_pool r) "Method added") (method_line fmt o d (c_pool l) "Method removed")
      (method_block fmt reprs o d (c_pool l) (c_pool r)) (c_methods l) (c_methods r) t /\ tells o (S d) c t.
Proof.
  intros HC [_ _ _ _ FL _ DL] [_ _ _ _ FR _ DR]. unfold methods_change in HC. cbv zeta in HC. destruct (collect_members fmt _ _ (c_methods l) (c_methods r)) as [ev|] eqn:E; [|apply check_super in HC as [X _]; discriminate X].
  refine (members_tell fmt o d _ _ _ _ _ _ ev (method_node fmt reprs (c_pool l) (c_pool r)) _ _ _ c _ _ _ _ HC E DL DR _ _ _ _ _ _ _ _ _ _); try reflexivity; try (intro X; discriminate X).
  - intros a b Ha Hb. destruct (in_known _ _ _ FL Ha) as (F & HF), (in_known _ _ _ FR Hb) as (G & HG). exact (method_same_iff _ _ _ _ _ _ HF HG).
  - intros b d0 Hb HD. destruct (in_known _ _ _ FR Hb) as (G & HG). eexists. split; [exists G; split; [exact HG|reflexivity]|]. exact (added_tells o d _ _ _ _ _ _ (method_descr _ _ _ HG) HD).
  - intros a d0 Ha HD. destruct (in_known _ _ _ FL Ha) as (G & HG). eexists. split; [exists G; split; [exact HG|reflexivity]|]. exact (removed_tells o d _ _ _ _ _ _ (method_descr _ _ _ HG) HD).
  - intros a b d0 Ha Hb HD. destruct (in_known _ _ _ FL Ha) as (F & HF), (in_known _ _ _ FR Hb) as (G & HG). exact (method_tells o d _ _ _ _ _ _ _ HD HF HG).
Qed.

(** ** Classes *)
Lemma ver_lt_iff v w : ver_lt v w = true <-> older v w.
Proof. unfold ver_lt, older. rewrite orb_true_iff, andb_true_iff, !Z.ltb_lt, Z.eqb_eq. reflexivity. Qed.
Lemma version_hidden o l r : version_own l r o = true <-> older_hidden o (c_version l) (c_version r).
Proof. unfold version_own, older_hidden. rewrite orb_true_iff, !andb_true_iff, !ver_lt_iff. reflexivity. Qed.
Lemma class_words_is f : class_access_flags f = class_words f.
Proof.
  unfold class_words, class_access_flags, class_kind. flags f. rewrite !keywords_cons. change (keywords [] f) with (@nil str). rewrite !app_nil_r, <- !app_assoc. do 3 f_equal.
  destruct (Z.testbit f 9); [|reflexivity]. destruct (Z.testbit f 13); reflexivity.
Qed.
Lemma platform_is c : pct reprs (Ok (obj_platform c)) = Ok (or_nothing (platform_from_version (fst (c_version c)) (snd (c_version c)))).
Proof. unfold obj_platform. now destruct (platform_from_version _ _). Qed.
Lemma opt_same {A} (a b : option A) : opt_rel eq a b <-> a = b.
Proof. split; [intro H; inversion H; subst; reflexivity|intros ->; destruct b; constructor; reflexivity]. Qed.
Lemma header_tells o d l r c L R : check (class_info fmt reprs l r) = Ok c -> class_is fmt l L -> class_is fmt r R ->
  exists ts, Forall2 (entry o (S (S d))) (header_says reprs o l r L R) ts /\ tells o (S d) c (block_text o (S d) (lit "Class information changed") (stays "Class information") ts).
Proof.
  intros HC [K _ _ _ _ _ _] [H _ _ _ _ _ _]. unfold class_info in HC.
  destruct (super_tells o (S d) _ _ _ _ _ _ (lit "Class information changed") (stays "Class information") HC (conj eq_refl eq_refl)) as (kids & HF & HT). split_parts HF. inversion HF; subst; clear HF.
  assert (X : exists ts, Forall2 (entry o (S (S d))) (header_says reprs o l r L R) ts /\ Forall2 (tells o (S (S d))) [k; k0; k1; k2; k3; k4; k5; k6] ts).
  { unfold header_says. cbv zeta. repeat apply tells_cons; [..|apply tells_nil].
    - eapply leaf_tells; [exact C|unfold pretty_this; rewrite (kc_this _ _ _ _ _ K); reflexivity|unfold pretty_this; rewrite (kc_this _ _ _ _ _ H); reflexivity| |apply never_hidden].
      unfold leaf_of; leaf_tac. rewrite (kc_this _ _ _ _ _ K), (kc_this _ _ _ _ _ H), agree_ok. unfold pyeq; cbn [py_eq]; apply seqb_iff.
    - eapply leaf_tells; [exact C0|unfold pct, obj_version; cbn [rbind]; unfold str_o; rewrite two_is; reflexivity|unfold pct, obj_version; cbn [rbind]; unfold str_o; rewrite two_is; reflexivity| |apply version_hidden].
      unfold leaf_of; leaf_tac. rewrite agree_ok. reflexivity.
    - eapply leaf_tells; [exact C1|apply platform_is|apply platform_is| |apply version_hidden].
      unfold leaf_of; leaf_tac. rewrite agree_ok. apply opt_same.
    - eapply leaf_tells; [exact C2|unfold pretty_super; rewrite (kc_super _ _ _ _ _ K); reflexivity|unfold pretty_super; rewrite (kc_super _ _ _ _ _ H); reflexivity| |apply never_hidden].
      unfold leaf_of; leaf_tac. rewrite (kc_super _ _ _ _ _ K), (kc_super _ _ _ _ _ H), agree_ok. unfold pyeq; cbn [py_eq]; apply seqb_iff.
    - eapply leaf_tells; [exact C3|unfold pretty_interfaces; rewrite (kc_ifs _ _ _ _ _ K); cbn [rbind]; rewrite mapM_class; apply tuple_is|unfold pretty_interfaces; rewrite (kc_ifs _ _ _ _ _ H); cbn [rbind]; rewrite mapM_class; apply tuple_is| |apply never_hidden].
      unfold leaf_of; leaf_tac. rewrite (kc_ifs _ _ _ _ _ K), (kc_ifs _ _ _ _ _ H), agree_ok. apply set_same.
    - eapply leaf_tells; [exact C4|rewrite class_words_is; apply tuple_is|rewrite class_words_is; apply tuple_is| |apply never_hidden]. unfold leaf_of; leaf_tac. rewrite agree_ok. reflexivity.
    - eapply leaf_tells; [exact C5|reflexivity|reflexivity| |reflexivity]. unfold leaf_of; leaf_tac. rewrite agree_ok. reflexivity.
    - eapply leaf_tells; [exact C6|unfold obj_signature; rewrite (kc_sig _ _ _ _ _ K); apply sig_is|unfold obj_signature; rewrite (kc_sig _ _ _ _ _ H); apply sig_is| |apply never_hidden].
      unfold leaf_of; leaf_tac. rewrite (kc_sig _ _ _ _ _ K), (kc_sig _ _ _ _ _ H), agree_ok. apply opt_pyeq. }
  destruct X as (ts & X1 & X2). exists ts. split; [exact X1|]. now apply HT.
Qed.
Lemma pool_tells o d l r c : check (pool_change reprs ffmt l r) = Ok c ->
  exists t, entry o (S d) (mksays (lit "Constant pool altered") (lit "Constant pool unaltered") (same_pool (c_pool l) (c_pool r)) (ignore_pool o = true)) t /\ tells o (S d) c t.
Proof.
  intros HC. pose proof HC as HC0. unfold pool_change in HC. cbn [check k_check] in HC. destruct (generic_check _ _ _ _ _ _) as [[b d0]|]; [|discriminate HC]. cbn [rbind] in HC. apply ok_inj in HC. subst c.
  refine (says_tells o (S d) _ (ignore_pool o) _ _ _ _ _ HC0 (quiet_pool _ _ _ _) _ _ _ _).
  - rewrite is_ignored_eq. cbn [k_own k_parts]. now destruct (ignore_pool o).
  - reflexivity.
  - cbn [get_description k_text is_change k_always orb]. now destruct b.
  - reflexivity.
Qed.

Theorem report_text o d l r c L R : class_is fmt l L -> class_is fmt r R -> check (class_change fmt reprs ffmt l r) = Ok c ->
  exists t, class_block fmt reprs o d l r t /\ tells o d c t.
Proof.
  intros KL KR HC. unfold class_change in HC.
  destruct (super_tells o d _ _ _ _ _ _ (lit "Java Class " ++ dotted (cl_this L)) (lit "Java Class " ++ dotted (cl_this L)) HC) as (kids & HF & HT); [split; [reflexivity|]; intros _; unfold pretty_this; now rewrite (kc_this _ _ _ _ _ (cs_known _ _ _ KL))|].
  split_parts HF. inversion HF; subst; clear HF.
  destruct (header_tells o d l r _ _ _ C KL KR) as (th & A1 & B1).
  destruct (annos_tell o (S d) _ _ _ _ _ _ _ _ _ _ C0 (cs_vis _ _ _ KL) (cs_vis _ _ _ KR)) as (ta & A2 & B2).
  destruct (annos_tell o (S d) _ _ _ _ _ _ _ _ _ _ C1 (cs_invis _ _ _ KL) (cs_invis _ _ _ KR)) as (ti & A3 & B3).
  destruct (pool_tells o d l r _ C2) as (tp & A4 & B4).
  destruct (fields_tell o d l r _ _ _ C3 KL KR) as (tf & A5 & B5). destruct (methods_tell o d l r _ _ _ C4 KL KR) as (tm & A6 & B6).
  assert (HX := HT [block_text o (S d) (lit "Class information changed") (stays "Class information") th; ta; ti; tp; tf; tm] ltac:(repeat (constructor; [assumption|]); constructor)).
  eexists. split; [|exact HX]. exists L, R, th, ta, ti, tp, tf, tm. repeat (split; [assumption|]). reflexivity.
Qed.
End Report.

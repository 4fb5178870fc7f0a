(** The JSON document of two classes. *)
From Verif Require Import Base Pack_Model ConstPool_Model ConstPool_Spec ClassFile_Model Descr_Model Descr_Spec Descr_Proofs Opcodes_Model Opcodes_Spec Opcodes_Proofs Anno_Model
  Change_Model Change_Spec Change_Proofs Change_Report Classdiff_Model Classdiff_Spec Classdiff_Members Classdiff_Code Classdiff_Class Classdiff_Merge Classdiff_Passes
  Info_Model Info_Spec Print_Spec Print_Decl Html_Spec Html_Page Html_Values Html_Class Text_Spec Text_Proofs Text_Class Doc_Spec Doc_Proofs Doc_Code.

(** ** Data *)
Definition given (x : pyobj) : option pyobj := match x with ONone => None | _ => Some x end.
Lemma data_is lp rp u v x' y' : lp = Ok u -> rp = Ok v -> given u = x' -> given v = y' -> forall x y, not_none lp = Ok x -> not_none rp = Ok y -> x = x' /\ y = y'.
Proof. intros -> -> <- <- x y HX HY. apply ok_inj in HX, HY. now subst x y. Qed.
Lemma items_nil o : exists ts, items [] [] ts /\ Forall2 (shows o) [] ts.
Proof. exists []. split; [split; [reflexivity|constructor]|constructor]. Qed.
Lemma items_cons o q qs e es c cs : (exists t, item q e t /\ shows o c t) -> (exists ts, items qs es ts /\ Forall2 (shows o) cs ts) -> exists ts, items (q :: qs) (e :: es) ts /\ Forall2 (shows o) (c :: cs) ts.
Proof. intros (t & H1 & H2) (ts & [H3 H4] & H5). exists (t :: ts). split; [split; [cbn [length]; now f_equal|constructor; assumption]|constructor; assumption]. Qed.

Section Document.
Variable fmt : pyval -> str.
Variable reprs : str -> str.
Variable ffmt : pyval -> str.

Lemma sig_given s : given (obj_opt fmt (option_map PStr s)) = option_map OStr s.
Proof. destruct s; reflexivity. Qed.
Lemma platform_given c : given (obj_platform c) = option_map OStr (platform_from_version (fst (c_version c)) (snd (c_version c))).
Proof. unfold obj_platform. destruct (platform_from_version _ _); reflexivity. Qed.
Lemma annos_show o n lb attr lp rp la ra c old new : check (annos_leaf fmt reprs n lb attr lp rp la ra) = Ok c ->
  annos_shown fmt lp la attr old -> annos_shown fmt rp ra attr new ->
  exists t, item (annos_data n lb old new) (annos_say reprs lb lp rp la ra attr old new) t /\ shows o c t.
Proof.
  intros HC (l & L1 & L2) (r & R1 & R2). unfold annos_say, moves, annos_data. eapply leaf_shows; [exact HC| | | | |apply never_hidden].
  - unfold pct. rewrite L1. cbn [rbind]. rewrite L2. apply list_is.
  - unfold pct. rewrite R1. cbn [rbind]. rewrite R2. apply list_is.
  - eapply data_is; [rewrite L1; cbn [rbind]; rewrite L2; reflexivity|rewrite R1; cbn [rbind]; rewrite R2; reflexivity|reflexivity|reflexivity].
  - apply quiet_annos.
Qed.

(** ** Fields *)
Lemma field_shows o lp rp a b c F G : check (field_change fmt reprs lp rp a b) = Ok c -> field_is fmt lp a F -> field_is fmt rp b G ->
  exists t, field_doc fmt reprs o lp rp a b t /\ shows o c t.
Proof.
  intros HC KF KG. unfold field_change in HC. cbv zeta in HC.
  destruct (super_shows o _ _ _ _ _ _ (lit "Field: " ++ field_decl a F) (lit "Field: " ++ field_decl a F) HC) as (kids & HF & HT); [split; [reflexivity|]; intros _; now rewrite (field_descr fmt _ _ _ KF)|].
  pose proof KF as [K KC KN KX KV KI]. pose proof KG as [H HCo HN HX HV HI].
  assert (TL : m_pretty_type fmt lp a = Ok (type_name (fd_type F))) by (unfold m_pretty_type, m_type, m_desc_str; rewrite (kf_desc _ _ _ _ _ _ K); cbn [rbind pct_s]; rewrite (proj2 (field_split _ (kf_ok _ _ _ _ _ _ K))); apply pretty_desc).
  assert (TR : m_pretty_type fmt rp b = Ok (type_name (fd_type G))) by (unfold m_pretty_type, m_type, m_desc_str; rewrite (kf_desc _ _ _ _ _ _ H); cbn [rbind pct_s]; rewrite (proj2 (field_split _ (kf_ok _ _ _ _ _ _ H))); apply pretty_desc).
  split_parts HF. inversion HF; subst; clear HF.
  assert (X : exists ts, items (fields_data fmt reprs a b F G) (field_says fmt reprs o lp rp a b F G) ts /\ Forall2 (shows o) [k; k0; k1; k2; k3; k4; k5; k6] ts).
  { unfold field_says, fields_data. cbv zeta. repeat apply items_cons; [..|apply items_nil].
    - eapply leaf_shows; [exact C|rewrite (kf_name _ _ _ _ _ _ K); reflexivity|rewrite (kf_name _ _ _ _ _ _ H); reflexivity|eapply data_is; [rewrite (kf_name _ _ _ _ _ _ K); reflexivity|rewrite (kf_name _ _ _ _ _ _ H); reflexivity|reflexivity|reflexivity]| |apply never_hidden].
      unfold leaf_of; leaf_tac. rewrite (kf_name _ _ _ _ _ _ K), (kf_name _ _ _ _ _ _ H), agree_ok. unfold pyeq; cbn [py_eq]; apply seqb_iff.
    - eapply leaf_shows; [exact C0|rewrite TL; reflexivity|rewrite TR; reflexivity|eapply data_is; [rewrite TL; reflexivity|rewrite TR; reflexivity|reflexivity|reflexivity]| |apply never_hidden].
      unfold leaf_of; leaf_tac. rewrite (kf_desc _ _ _ _ _ _ K), (kf_desc _ _ _ _ _ _ H), agree_ok. unfold pyeq; cbn [py_eq]; rewrite seqb_iff; split; [apply desc_inj|now intros ->].
    - eapply leaf_shows; [exact C1|unfold obj_signature; rewrite (kf_sig _ _ _ _ _ _ K); apply sig_is|unfold obj_signature; rewrite (kf_sig _ _ _ _ _ _ H); apply sig_is|eapply data_is; [unfold obj_signature; rewrite (kf_sig _ _ _ _ _ _ K); reflexivity|unfold obj_signature; rewrite (kf_sig _ _ _ _ _ _ H); reflexivity|apply sig_given|apply sig_given]| |apply never_hidden].
      unfold leaf_of; leaf_tac. rewrite (kf_sig _ _ _ _ _ _ K), (kf_sig _ _ _ _ _ _ H), agree_ok. apply opt_pyeq.
    - eapply annos_show; [exact C2|exact KV|exact HV].
    - eapply annos_show; [exact C3|exact KI|exact HI].
    - eapply leaf_shows; [exact C4|rewrite (field_words a _ eq_refl (kf_field _ _ _ _ _ _ K) (kf_bits _ _ _ _ _ _ K)); reflexivity|rewrite (field_words b _ eq_refl (kf_field _ _ _ _ _ _ H) (kf_bits _ _ _ _ _ _ H)); reflexivity|eapply data_is; [rewrite (field_words a _ eq_refl (kf_field _ _ _ _ _ _ K) (kf_bits _ _ _ _ _ _ K)); reflexivity|rewrite (field_words b _ eq_refl (kf_field _ _ _ _ _ _ H) (kf_bits _ _ _ _ _ _ H)); reflexivity|reflexivity|reflexivity]| |apply never_hidden].
      leaf_tac. now rewrite agree_ok.
    - eapply leaf_shows; [exact C5|rewrite (kf_const _ _ _ _ _ _ K); unfold pct; cbn [rbind str_o]; rewrite (constant_is _ _ _ KC); reflexivity|rewrite (kf_const _ _ _ _ _ _ H); unfold pct; cbn [rbind str_o]; rewrite (constant_is _ _ _ HCo); reflexivity|eapply data_is; [rewrite (kf_const _ _ _ _ _ _ K); cbn [rbind]; rewrite (constant_is _ _ _ KC); reflexivity|rewrite (kf_const _ _ _ _ _ _ H); cbn [rbind]; rewrite (constant_is _ _ _ HCo); reflexivity|reflexivity|reflexivity]| |apply never_hidden].
      unfold leaf_of; leaf_tac. rewrite (kf_const _ _ _ _ _ _ K), (kf_const _ _ _ _ _ _ H), agree_ok. reflexivity.
    - eapply leaf_shows; [exact C6|reflexivity|reflexivity|eapply data_is; [reflexivity|reflexivity|reflexivity|reflexivity]| |reflexivity]. unfold leaf_of; leaf_tac. now rewrite agree_ok. }
  destruct X as (ts & X1 & X2). exists (group o "FieldChange" "Field" (lit "Field: " ++ field_decl a F) (lit "Field: " ++ field_decl a F) ts). split; [|apply HT; exact X2].
  exists F, G, ts. auto.
Qed.

(** ** Code *)
Lemma lines_value t : obj_lines t = OTuple (map numbers t).
Proof. reflexivity. Qed.
Lemma handlers_value p K : code_is p K -> obj_handlers reprs p (Some (cd_code K)) = Ok (OStr (handlers_shown reprs K)).
Proof.
  intro HK. pose proof (handlers_are reprs p K HK) as H. unfold obj_handlers in *. cbn [on_code rbind] in *. destruct (mapM _ _) as [es|]; [|discriminate H]. cbn [rbind] in *. unfold pct in H. cbn [rbind str_o] in H. apply ok_inj in H. now rewrite H.
Qed.
Lemma bodies_are k h x y : not_none (body_obj k) = Ok x -> not_none (body_obj h) = Ok y ->
  exists u v, match k with Some k => body_shown (k_code k) u | None => u = OList [] end /\ match h with Some h => body_shown (k_code h) v | None => v = OList [] end /\ x = Some u /\ y = Some v.
Proof.
  intros HX HY. destruct (body_obj k) as [u|] eqn:EU; [|discriminate HX]. destruct (body_obj h) as [v|] eqn:EV; [|discriminate HY]. cbn [not_none rbind] in HX, HY. apply ok_inj in HX, HY. exists u, v.
  assert (NU : forall k u, body_obj k = Ok u -> exists l, u = OList l).
  { clear. intros [k|] u H; unfold body_obj in H; [|apply ok_inj in H; subst u; now exists []]. destruct (disassemble_all _) as [ds|]; [|discriminate H]. cbn [rbind] in H. destruct (mapM _ ds) as [rows|]; [|discriminate H]. cbn [rbind] in H. apply ok_inj in H. subst u. now exists rows. }
  split; [destruct k; [now apply body_is|apply ok_inj in EU; now subst u]|]. split; [destruct h; [now apply body_is|apply ok_inj in EV; now subst v]|].
  destruct (NU _ _ EU) as (l & ->). destruct (NU _ _ EV) as (l' & ->). now subst x y.
Qed.
Lemma body_shows o K H c : check (leaf "CodeBodyChange" "Code body" never (code_body_check (Some (cd_code K)) (Some (cd_code H))) (body_obj (Some (cd_code K))) (body_obj (Some (cd_code H)))) = Ok c ->
  exists t, body_item K H t /\ shows o c t.
Proof.
  intros HC. unfold leaf in HC. cbn [check k_check] in HC. unfold code_body_check in HC.
  assert (HD : forall x y, not_none (body_obj (Some (cd_code K))) = Ok x -> not_none (body_obj (Some (cd_code H))) = Ok y -> q_data (body_data (Some K) (Some H)) x y) by (intros x y; apply bodies_are).
  assert (SH : forall ch d, let c := Node (mkcls (lit "CodeBodyChange") (lit "Code body") false false false None never false (CheckOwn (code_body_check (Some (cd_code K)) (Some (cd_code H)))) false false false None None None [] (not_none (body_obj (Some (cd_code K)))) (not_none (body_obj (Some (cd_code H))))) ch d [] [] in
    forall s, get_description c = Ok s -> shows o c (standing_of ch false, single (body_data (Some K) (Some H)) ch false s)).
  { intros ch d0 c0 s HS. split; [exists false; split; reflexivity|]. intros j HJ. exact (single_shows o c0 "CodeBodyChange" "Code body" (q_data (body_data (Some K) (Some H))) false s j ltac:(repeat split; reflexivity) HD eq_refl HS HJ). }
  destruct (Nat.eqb_spec (length (k_code (cd_code K))) (length (k_code (cd_code H)))) as [E|E]; cbn [negb] in HC.
  - destruct (disassemble_all (k_code (cd_code K))) as [dl|] eqn:E1; [|discriminate HC]. destruct (disassemble_all (k_code (cd_code H))) as [dr|] eqn:E2; [|discriminate HC]. cbn [rbind] in HC. apply ok_inj in HC. subst c.
    apply disassemble_all_iff in E1, E2. destruct (body_loop dl dr) eqn:EB.
    + eexists. split; [apply (bitem_ops K H dl dr E E1 E2); intro X; apply same_ops_iff in X; congruence|]. exact (SH true None _ eq_refl).
    + eexists. split; [apply (bitem_same K H dl dr E E1 E2); now apply same_ops_iff|]. exact (SH false None _ eq_refl).
  - cbn [rbind] in HC. apply ok_inj in HC. subst c. eexists. split; [now apply bitem_length|]. match goal with |- shows _ (Node _ _ (Some ?t) _ _) _ => exact (SH true (Some t) t eq_refl) end.
Qed.
Lemma constants_show o lp rp l r c : check (leaf "CodeConstantsChange" "Code constants" never (code_constants_check lp rp (Some l) (Some r))
    (constants_obj fmt reprs (code_offsets lp rp (Some l) (Some r)) lp (Some l)) (constants_obj fmt reprs (code_offsets lp rp (Some l) (Some r)) rp (Some r))) = Ok c ->
  exists t, item (mkdatum "CodeConstantsChange" "Code constants" (constants_data fmt reprs lp rp (k_code l) (k_code r)))
    (mksays (lit "Code constants changed") (stays "Code constants") (same_body tool_resolved lp rp (k_code l) (k_code r)) False) t /\ shows o c t.
Proof.
  intros HC. pose proof HC as HC0. unfold leaf in HC. cbn [check k_check] in HC. unfold code_constants_check in HC. destruct (code_offsets _ _ _ _) as [x|] eqn:EO; [|discriminate HC]. cbn [rbind] in HC. apply ok_inj in HC. subst c.
  refine (item_shows o _ _ _ _ false _ _ _ _ _ HC0 _ _ _ _ _ _).
  - rewrite quiet_leaf. apply code_constants_iff.
  - reflexivity.
  - split; [discriminate|contradiction].
  - cbn [get_description k_text k_label is_change k_always orb]. unfold stays. now destruct (match x with None => true | Some [] => false | Some _ => true end).
  - repeat split; reflexivity.
  - intros u v. apply constants_are. exact EO.
Qed.
Lemma still_shows o cl lb own chk lp rp (D : option pyobj -> option pyobj -> Prop) : (forall x y, not_none lp = Ok x -> not_none rp = Ok y -> D x y) ->
  shows o (leaf cl lb own chk lp rp) (still_item (mkdatum cl lb D) (own o)).
Proof.
  intro HD. unfold still_item. cbn [q_label]. split; [exists (own o); split; [|reflexivity]; unfold leaf; rewrite is_ignored_eq; cbn [k_own k_parts]; now destruct (own o)|].
  intros j HJ. refine (single_shows o (leaf cl lb own chk lp rp) cl lb D (own o) (stays lb) j _ HD _ _ HJ); [repeat split; reflexivity| |reflexivity]. unfold leaf. rewrite is_ignored_eq. cbn [k_own k_parts]. now destruct (own o).
Qed.
Definition side_is (p : pool) (K : option code_data) : Prop := match K with Some K => code_is p K | None => True end.
Lemma side_lines p K : side_is p K -> on_code (option_map cd_code K) [] get_linenumbertable = Ok (lines_data K).
Proof. destruct K as [K|]; [|reflexivity]. intro H. exact (ci_lines _ _ H). Qed.
Lemma side_relative p K : side_is p K -> on_code (option_map cd_code K) [] (fun k => t <- get_linenumbertable k ;; Ok (relative_lines t)) = Ok (relative (lines_data K)).
Proof. destruct K as [K|]; [|reflexivity]. intro H. cbn [option_map on_code lines_data]. rewrite (ci_lines _ _ H). cbn [rbind]. now rewrite relative_lines_spec. Qed.
Lemma side_handlers p K : side_is p K -> obj_handlers reprs p (option_map cd_code K) = Ok (OStr (handlers_data reprs K)).
Proof. destruct K as [K|]; [|reflexivity]. intro H. exact (handlers_value _ _ H). Qed.
Lemma side_size f K : on_code (option_map cd_code K) 0 (fun k => Ok (f k)) = Ok (size_data f K).
Proof. destruct K; reflexivity. Qed.
Lemma one_shows o lp rp K H c : check (method_code fmt reprs lp rp (option_map cd_code K) (option_map cd_code H)) = Ok c -> side_is lp K -> side_is rp H ->
  match K, H with Some _, None | None, Some _ => True | _, _ => False end ->
  shows o c (code_group o Aside (still_items fmt reprs o lp rp K H)).
Proof.
  intros HC IK IH HK.
  assert (HC' : c = Node (k_of (method_code fmt reprs lp rp (option_map cd_code K) (option_map cd_code H))) true None [] (code_parts fmt reprs lp rp (option_map cd_code K) (option_map cd_code H)))
    by (destruct K, H; try contradiction; cbn [option_map method_code check k_check] in HC; apply ok_inj in HC; now subst c). clear HC. subst c.
  assert (HS : Forall2 (shows o) (code_parts fmt reprs lp rp (option_map cd_code K) (option_map cd_code H)) (still_items fmt reprs o lp rp K H)).
  { unfold code_parts, still_items, code_data_of. cbv zeta. cbn [app combine map fst snd]. repeat apply Forall2_cons; [..|apply Forall2_nil].
    - refine (still_shows o _ _ ignore_absolute_lines _ _ _ _ _). eapply data_is; [rewrite (side_lines _ _ IK); reflexivity|rewrite (side_lines _ _ IH); reflexivity|reflexivity|reflexivity].
    - refine (still_shows o _ _ ignore_relative_lines _ _ _ _ _). eapply data_is; [rewrite (side_relative _ _ IK); reflexivity|rewrite (side_relative _ _ IH); reflexivity|reflexivity|reflexivity].
    - refine (still_shows o _ _ never _ _ _ _ _). eapply data_is; [rewrite side_size; reflexivity|rewrite side_size; reflexivity|reflexivity|reflexivity].
    - refine (still_shows o _ _ never _ _ _ _ _). eapply data_is; [rewrite side_size; reflexivity|rewrite side_size; reflexivity|reflexivity|reflexivity].
    - refine (still_shows o _ _ never _ _ _ _ _). eapply data_is; [rewrite (side_handlers _ _ IK); reflexivity|rewrite (side_handlers _ _ IH); reflexivity|reflexivity|reflexivity].
    - refine (still_shows o _ _ never _ _ _ _ _). destruct K, H; try contradiction; intros x y HX HY; apply ok_inj in HX, HY; now subst x y.
    - refine (still_shows o _ _ never _ _ _ _ _). intros x y HX HY. destruct (bodies_are _ _ _ _ HX HY) as (u & v & U & V & -> & ->). exists u, v. destruct K, H; try contradiction; cbn [option_map code_shown] in *; auto. }
  unfold code_group. refine (node_shows o _ true _ _ _ _ _ _ _ _ _ _ _ _ _ _ _ _ _ _ _ HS); try reflexivity; try discriminate; destruct K, H; try contradiction; reflexivity.
Qed.
Lemma code_shows o lp rp K H c : check (method_code fmt reprs lp rp (option_map cd_code K) (option_map cd_code H)) = Ok c ->
  side_is lp K -> side_is rp H ->
  exists t, code_doc fmt reprs o lp rp K H t /\ shows o c t.
Proof.
  intros HC KK KH. destruct K as [K|], H as [H|]; cbn [option_map] in HC.
  - assert (HC' : check (super "MethodCodeChange" "Method Code" None None (code_parts fmt reprs lp rp (Some (cd_code K)) (Some (cd_code H)))) = Ok c) by exact HC. clear HC.
    destruct (super_shows o _ _ _ _ _ _ (lit "Method Code changed") (stays "Method Code") HC' (conj eq_refl eq_refl)) as (kids & HF & HT). unfold code_parts in HF. split_parts HF. inversion HF; subst; clear HF.
    assert (X : exists ts, items (code_data_of fmt reprs lp rp (Some K) (Some H)) (code_says reprs o lp rp K H) ts /\ Forall2 (shows o) [k; k0; k1; k2; k3; k4] ts).
    { unfold code_says, code_data_of. cbv zeta. repeat apply items_cons; [..|apply items_nil]; cbn [on_code] in *.
      - eapply leaf_shows; [exact C|rewrite (ci_lines _ _ KK); apply lines_are|rewrite (ci_lines _ _ KH); apply lines_are|eapply data_is; [rewrite (ci_lines _ _ KK); reflexivity|rewrite (ci_lines _ _ KH); reflexivity|reflexivity|reflexivity]| |reflexivity].
        unfold leaf_of; leaf_tac. rewrite (ci_lines _ _ KK), (ci_lines _ _ KH), agree_ok. apply pairs_eq.
      - eapply leaf_shows; [exact C0|rewrite (ci_lines _ _ KK); cbn [rbind]; rewrite relative_lines_spec; apply lines_are|rewrite (ci_lines _ _ KH); cbn [rbind]; rewrite relative_lines_spec; apply lines_are|eapply data_is; [rewrite (ci_lines _ _ KK); cbn [rbind]; rewrite relative_lines_spec; reflexivity|rewrite (ci_lines _ _ KH); cbn [rbind]; rewrite relative_lines_spec; reflexivity|reflexivity|reflexivity]| |reflexivity].
        unfold leaf_of; leaf_tac. rewrite (ci_lines _ _ KK), (ci_lines _ _ KH). cbn [rbind]. rewrite agree_ok, !relative_lines_spec. apply pairs_eq.
      - eapply leaf_shows; [exact C1|reflexivity|reflexivity|eapply data_is; [reflexivity|reflexivity|reflexivity|reflexivity]| |apply never_hidden]. unfold leaf_of; leaf_tac. rewrite agree_ok. reflexivity.
      - eapply leaf_shows; [exact C2|reflexivity|reflexivity|eapply data_is; [reflexivity|reflexivity|reflexivity|reflexivity]| |apply never_hidden]. unfold leaf_of; leaf_tac. rewrite agree_ok. reflexivity.
      - eapply leaf_shows; [exact C3|exact (handlers_are reprs _ _ KK)|exact (handlers_are reprs _ _ KH)|eapply data_is; [exact (handlers_value _ _ KK)|exact (handlers_value _ _ KH)|reflexivity|reflexivity]| |apply never_hidden]. unfold leaf_of; leaf_tac. rewrite agree_ok. reflexivity.
      - exact (constants_show o _ _ _ _ _ C4). }
    destruct X as (ts & X1 & X2). destruct (body_shows o _ _ _ C5) as (t & B1 & B2).
    eexists. split; [exact (cdoc_both fmt reprs o lp rp K H ts t X1 B1)|]. apply HT.
    exact (Forall2_app X2 (Forall2_cons _ _ B2 (Forall2_nil _))).
  - eexists. split; [constructor|]. now apply (one_shows o lp rp (Some K) None).
  - eexists. split; [constructor|]. now apply (one_shows o lp rp None (Some H)).
  - eexists. split; [constructor|]. cbn [method_code check k_check] in HC. apply ok_inj in HC. subst c. unfold code_group. refine (node_shows o _ false _ _ _ _ _ _ _ _ _ _ _ _ _ _ _ _ _ _ _ (Forall2_nil _)); reflexivity.
Qed.

(** ** Methods *)
Lemma method_shows o lp rp a b c M N : check (method_change fmt reprs lp rp a b) = Ok c -> method_is fmt lp a M -> method_is fmt rp b N ->
  exists t, method_doc fmt reprs o lp rp a b t /\ shows o c t.
Proof.
  intros HC KM KN. unfold method_change in HC. cbv zeta in HC. rewrite (mi_code _ _ _ _ KM), (mi_code _ _ _ _ KN) in HC. cbn [rbind] in HC.
  destruct (super_shows o _ _ _ _ _ _ (lit "Method: " ++ method_decl a M) (lit "Method: " ++ method_decl a M) HC) as (kids & HF & HT); [split; [reflexivity|]; intros _; now rewrite (method_descr fmt _ _ _ KM)|].
  pose proof KM as [K KX KV KI KC KD]. pose proof KN as [H HX HV HI HCo HD].
  destruct (known_texts fmt _ _ _ _ _ _ _ K) as (K1 & K2 & K3 & K4 & K5 & _). destruct (known_texts fmt _ _ _ _ _ _ _ H) as (H1 & H2 & H3 & H4 & H5 & _).
  pose proof (km_method _ _ _ _ _ _ _ K) as MK. pose proof (km_method _ _ _ _ _ _ _ H) as MH.
  split_parts HF. inversion HF; subst; clear HF.
  assert (X : exists ts, items (methods_data a b M N) (method_says reprs o lp rp a b M N) ts /\ Forall2 (shows o) [k; k0; k1; k2; k3; k4; k5; k6; k7; k8] ts).
  { unfold method_says, methods_data. cbv zeta. repeat apply items_cons; [..|apply items_nil].
    - eapply leaf_shows; [exact C|rewrite (im_name _ _ _ _ _ MK); reflexivity|rewrite (im_name _ _ _ _ _ MH); reflexivity|eapply data_is; [rewrite (im_name _ _ _ _ _ MK); reflexivity|rewrite (im_name _ _ _ _ _ MH); reflexivity|reflexivity|reflexivity]| |apply never_hidden].
      unfold leaf_of; leaf_tac. rewrite (im_name _ _ _ _ _ MK), (im_name _ _ _ _ _ MH), agree_ok. unfold pyeq; cbn [py_eq]; apply seqb_iff.
    - eapply leaf_shows; [exact C0|rewrite K3; reflexivity|rewrite H3; reflexivity|eapply data_is; [rewrite K3; reflexivity|rewrite H3; reflexivity|reflexivity|reflexivity]| |apply never_hidden].
      unfold leaf_of; leaf_tac. rewrite K1, H1, agree_ok. apply ret_desc_inj.
    - eapply leaf_shows; [exact C1|unfold obj_signature; rewrite (km_sig _ _ _ _ _ _ _ K); apply sig_is|unfold obj_signature; rewrite (km_sig _ _ _ _ _ _ _ H); apply sig_is|eapply data_is; [unfold obj_signature; rewrite (km_sig _ _ _ _ _ _ _ K); reflexivity|unfold obj_signature; rewrite (km_sig _ _ _ _ _ _ _ H); reflexivity|apply sig_given|apply sig_given]| |apply never_hidden].
      unfold leaf_of; leaf_tac. rewrite (km_sig _ _ _ _ _ _ _ K), (km_sig _ _ _ _ _ _ _ H), agree_ok. apply opt_pyeq.
    - eapply annos_show; [exact C2|exact KV|exact HV].
    - eapply annos_show; [exact C3|exact KI|exact HI].
    - eapply leaf_shows; [exact C4|rewrite K4; apply tuple_is|rewrite H4; apply tuple_is|eapply data_is; [rewrite K4; reflexivity|rewrite H4; reflexivity|reflexivity|reflexivity]| |apply never_hidden].
      unfold leaf_of; leaf_tac. rewrite K2, H2, agree_ok, Forall2_eq. apply map_desc.
    - eapply leaf_shows; [exact C5|rewrite (method_words a _ eq_refl (im_method _ _ _ _ _ MK) (km_bits _ _ _ _ _ _ _ K)); apply tuple_is|rewrite (method_words b _ eq_refl (im_method _ _ _ _ _ MH) (km_bits _ _ _ _ _ _ _ H)); apply tuple_is|eapply data_is; [rewrite (method_words a _ eq_refl (im_method _ _ _ _ _ MK) (km_bits _ _ _ _ _ _ _ K)); reflexivity|rewrite (method_words b _ eq_refl (im_method _ _ _ _ _ MH) (km_bits _ _ _ _ _ _ _ H)); reflexivity|reflexivity|reflexivity]| |apply never_hidden].
      unfold leaf_of; leaf_tac. rewrite agree_ok. reflexivity.
    - eapply leaf_shows; [exact C6|rewrite K5; apply tuple_is|rewrite H5; apply tuple_is|eapply data_is; [rewrite K5; reflexivity|rewrite H5; reflexivity|reflexivity|reflexivity]| |apply never_hidden].
      unfold leaf_of; leaf_tac. rewrite (km_ex _ _ _ _ _ _ _ K), (km_ex _ _ _ _ _ _ _ H), agree_ok. apply map_pyeq.
    - eapply leaf_shows; [exact C7|destruct (md_code M); reflexivity|destruct (md_code N); reflexivity|eapply data_is; [reflexivity|reflexivity|destruct (md_code M), (md_code N); reflexivity|destruct (md_code M), (md_code N); reflexivity]| |apply never_hidden].
      leaf_tac. rewrite agree_ok. destruct (md_code M), (md_code N); cbn [option_map]; split; intros; try split; congruence || (intros; congruence) || tauto || idtac.
      all: try (match goal with X : _ <-> _ |- _ => destruct X as [X1 X2]; first [discriminate (X1 eq_refl)|discriminate (X2 eq_refl)] end).
    - eapply leaf_shows; [exact C8|reflexivity|reflexivity|eapply data_is; [reflexivity|reflexivity|reflexivity|reflexivity]| |reflexivity]. unfold leaf_of; leaf_tac. rewrite agree_ok. reflexivity. }
  destruct X as (ts & X1 & X2). destruct (code_shows o _ _ _ _ _ C9 KD HD) as (t & B1 & B2).
  exists (group o "MethodChange" "Method" (lit "Method: " ++ method_decl a M) (lit "Method: " ++ method_decl a M) (ts ++ [t])). split; [|apply HT; exact (Forall2_app X2 (Forall2_cons _ _ B2 (Forall2_nil _)))].
  exists M, N, ts, t. auto.
Qed.

(** ** Members *)
Lemma added_shows o n lb p m tx c : member_descriptor fmt p m = Ok tx -> check (member_added fmt n lb p m) = Ok c -> shows o c (alone n lb true (lit lb ++ lit ": " ++ tx)).
Proof.
  intros HD HC. unfold member_added in HC. cbn [check k_check] in HC. apply ok_inj in HC. subst c. split; [exists false; split; reflexivity|]. intros j HJ. rewrite json_of_eq in HJ. cbv zeta in HJ.
  unfold get_description in HJ. cbn [k_text] in HJ. rewrite HD in HJ. apply ok_inj in HJ. now subst j.
Qed.
Lemma removed_shows o n lb p m tx c : member_descriptor fmt p m = Ok tx -> check (member_removed fmt n lb p m) = Ok c -> shows o c (alone n lb false (lit lb ++ lit ": " ++ tx)).
Proof.
  intros HD HC. unfold member_removed in HC. cbn [check k_check] in HC. apply ok_inj in HC. subst c. split; [exists false; split; reflexivity|]. intros j HJ. rewrite json_of_eq in HJ. cbv zeta in HJ.
  unfold get_description in HJ. cbn [k_text] in HJ. rewrite HD in HJ. apply ok_inj in HJ. now subst j.
Qed.
Lemma fields_show o l r c L R : check (fields_change fmt reprs l r) = Ok c -> class_is fmt l L -> class_is fmt r R ->
  exists t, members_doc o "ClassFieldsChange" "Fields" (same_name (c_pool l) (c_pool r)) (field_alone fmt (c_pool r) "FieldAdded" "Field added" true) (field_alone fmt (c_pool l) "FieldRemoved" "Field removed" false)
      (field_doc fmt reprs o (c_pool l) (c_pool r)) (c_fields l) (c_fields r) t /\ shows o c t.
Proof.
  intros HC [_ _ _ FL _ DL _] [_ _ _ FR _ DR _]. unfold fields_change in HC. cbv zeta in HC. destruct (collect_members fmt _ _ (c_fields l) (c_fields r)) as [ev|] eqn:E; [|apply check_super in HC as [X _]; discriminate X].
  refine (members_show fmt o _ _ _ _ _ _ ev (field_node fmt reprs (c_pool l) (c_pool r)) _ _ _ c _ _ _ _ HC E DL DR _ _ _ _ _ _ _ _ _ _); try reflexivity; try (intro X; discriminate X).
  - intros a b Ha Hb. destruct (in_known _ _ _ FL Ha) as (F & HF), (in_known _ _ _ FR Hb) as (G & HG). exact (field_same_iff fmt _ _ _ _ _ _ HF HG).
  - intros b d0 Hb HD. destruct (in_known _ _ _ FR Hb) as (G & HG). eexists. split; [exists G; split; [exact HG|reflexivity]|]. exact (added_shows o _ _ _ _ _ _ (field_descr fmt _ _ _ HG) HD).
  - intros a d0 Ha HD. destruct (in_known _ _ _ FL Ha) as (G & HG). eexists. split; [exists G; split; [exact HG|reflexivity]|]. exact (removed_shows o _ _ _ _ _ _ (field_descr fmt _ _ _ HG) HD).
  - intros a b d0 Ha Hb HD. destruct (in_known _ _ _ FL Ha) as (F & HF), (in_known _ _ _ FR Hb) as (G & HG). exact (field_shows o _ _ _ _ _ _ _ HD HF HG).
Qed.
Lemma methods_show o l r c L R : check (methods_change fmt reprs l r) = Ok c -> class_is fmt l L -> class_is fmt r R ->
  exists t, members_doc o "ClassMethodsChange" "Methods" (overrides (c_pool l) (c_pool r)) (method_alone fmt (c_pool r) "MethodAdded" "Method added" true) (method_alone fmt (c_pool l) "MethodRemoved" "Method removed" false)
      (method_doc fmt reprs o (c_pool l) (c_pool r)) (c_methods l) (c_methods r) t /\ shows o c t.
Proof.
  intros HC [_ _ _ _ FL _ DL] [_ _ _ _ FR _ DR]. unfold methods_change in HC. cbv zeta in HC. destruct (collect_members fmt _ _ (c_methods l) (c_methods r)) as [ev|] eqn:E; [|apply check_super in HC as [X _]; discriminate X].
  refine (members_show fmt o _ _ _ _ _ _ ev (method_node fmt reprs (c_pool l) (c_pool r)) _ _ _ c _ _ _ _ HC E DL DR _ _ _ _ _ _ _ _ _ _); try reflexivity; try (intro X; discriminate X).
  - intros a b Ha Hb. destruct (in_known _ _ _ FL Ha) as (F & HF), (in_known _ _ _ FR Hb) as (G & HG). exact (method_same_iff fmt _ _ _ _ _ _ HF HG).
  - intros b d0 Hb HD. destruct (in_known _ _ _ FR Hb) as (G & HG). eexists. split; [exists G; split; [exact HG|reflexivity]|]. exact (added_shows o _ _ _ _ _ _ (method_descr fmt _ _ _ HG) HD).
  - intros a d0 Ha HD. destruct (in_known _ _ _ FL Ha) as (G & HG). eexists. split; [exists G; split; [exact HG|reflexivity]|]. exact (removed_shows o _ _ _ _ _ _ (method_descr fmt _ _ _ HG) HD).
  - intros a b d0 Ha Hb HD. destruct (in_known _ _ _ FL Ha) as (F & HF), (in_known _ _ _ FR Hb) as (G & HG). exact (method_shows o _ _ _ _ _ _ _ HD HF HG).
Qed.

(** ** Classes *)
Lemma header_shows o l r c L R : check (class_info fmt reprs l r) = Ok c -> class_is fmt l L -> class_is fmt r R ->
  exists ts, items (header_data l r L R) (header_says reprs o l r L R) ts /\ shows o c (plain_group o "ClassInfoChange" "Class information" ts).
Proof.
  intros HC [K _ _ _ _ _ _] [H _ _ _ _ _ _]. unfold class_info in HC.
  destruct (super_shows o _ _ _ _ _ _ (lit "Class information changed") (stays "Class information") HC (conj eq_refl eq_refl)) as (kids & HF & HT). split_parts HF. inversion HF; subst; clear HF.
  assert (X : exists ts, items (header_data l r L R) (header_says reprs o l r L R) ts /\ Forall2 (shows o) [k; k0; k1; k2; k3; k4; k5; k6] ts).
  { unfold header_says, header_data. cbv zeta. repeat apply items_cons; [..|apply items_nil].
    - eapply leaf_shows; [exact C|unfold pretty_this; rewrite (kc_this _ _ _ _ _ K); reflexivity|unfold pretty_this; rewrite (kc_this _ _ _ _ _ H); reflexivity|eapply data_is; [unfold pretty_this; rewrite (kc_this _ _ _ _ _ K); reflexivity|unfold pretty_this; rewrite (kc_this _ _ _ _ _ H); reflexivity|reflexivity|reflexivity]| |apply never_hidden].
      unfold leaf_of; leaf_tac. rewrite (kc_this _ _ _ _ _ K), (kc_this _ _ _ _ _ H), agree_ok. unfold pyeq; cbn [py_eq]; apply seqb_iff.
    - eapply leaf_shows; [exact C0|unfold pct, obj_version; cbn [rbind]; unfold str_o; rewrite two_is; reflexivity|unfold pct, obj_version; cbn [rbind]; unfold str_o; rewrite two_is; reflexivity|eapply data_is; [reflexivity|reflexivity|reflexivity|reflexivity]| |apply version_hidden].
      unfold leaf_of; leaf_tac. rewrite agree_ok. reflexivity.
    - eapply leaf_shows; [exact C1|apply platform_is|apply platform_is|eapply data_is; [reflexivity|reflexivity|apply platform_given|apply platform_given]| |apply version_hidden].
      unfold leaf_of; leaf_tac. rewrite agree_ok. apply opt_same.
    - eapply leaf_shows; [exact C2|unfold pretty_super; rewrite (kc_super _ _ _ _ _ K); reflexivity|unfold pretty_super; rewrite (kc_super _ _ _ _ _ H); reflexivity|eapply data_is; [unfold pretty_super; rewrite (kc_super _ _ _ _ _ K); reflexivity|unfold pretty_super; rewrite (kc_super _ _ _ _ _ H); reflexivity|reflexivity|reflexivity]| |apply never_hidden].
      unfold leaf_of; leaf_tac. rewrite (kc_super _ _ _ _ _ K), (kc_super _ _ _ _ _ H), agree_ok. unfold pyeq; cbn [py_eq]; apply seqb_iff.
    - eapply leaf_shows; [exact C3|unfold pretty_interfaces; rewrite (kc_ifs _ _ _ _ _ K); cbn [rbind]; rewrite mapM_class; apply tuple_is|unfold pretty_interfaces; rewrite (kc_ifs _ _ _ _ _ H); cbn [rbind]; rewrite mapM_class; apply tuple_is|eapply data_is; [unfold pretty_interfaces; rewrite (kc_ifs _ _ _ _ _ K); cbn [rbind]; rewrite mapM_class; reflexivity|unfold pretty_interfaces; rewrite (kc_ifs _ _ _ _ _ H); cbn [rbind]; rewrite mapM_class; reflexivity|reflexivity|reflexivity]| |apply never_hidden].
      unfold leaf_of; leaf_tac. rewrite (kc_ifs _ _ _ _ _ K), (kc_ifs _ _ _ _ _ H), agree_ok. apply set_same.
    - eapply leaf_shows; [exact C4|rewrite class_words_is; apply tuple_is|rewrite class_words_is; apply tuple_is|eapply data_is; [rewrite class_words_is; reflexivity|rewrite class_words_is; reflexivity|reflexivity|reflexivity]| |apply never_hidden]. unfold leaf_of; leaf_tac. rewrite agree_ok. reflexivity.
    - eapply leaf_shows; [exact C5|reflexivity|reflexivity|eapply data_is; [reflexivity|reflexivity|reflexivity|reflexivity]| |reflexivity]. unfold leaf_of; leaf_tac. rewrite agree_ok. reflexivity.
    - eapply leaf_shows; [exact C6|unfold obj_signature; rewrite (kc_sig _ _ _ _ _ K); apply sig_is|unfold obj_signature; rewrite (kc_sig _ _ _ _ _ H); apply sig_is|eapply data_is; [unfold obj_signature; rewrite (kc_sig _ _ _ _ _ K); reflexivity|unfold obj_signature; rewrite (kc_sig _ _ _ _ _ H); reflexivity|apply sig_given|apply sig_given]| |apply never_hidden].
      unfold leaf_of; leaf_tac. rewrite (kc_sig _ _ _ _ _ K), (kc_sig _ _ _ _ _ H), agree_ok. apply opt_pyeq. }
  destruct X as (ts & X1 & X2). exists ts. split; [exact X1|]. exact (HT ts X2).
Qed.
Lemma pool_shows_it o l r c : check (pool_change reprs ffmt l r) = Ok c ->
  exists t, item (pool_data reprs ffmt l r) (mksays (lit "Constant pool altered") (lit "Constant pool unaltered") (same_pool (c_pool l) (c_pool r)) (ignore_pool o = true)) t /\ shows o c t.
Proof.
  intros HC. pose proof HC as HC0. unfold pool_change in HC. cbn [check k_check] in HC. destruct (generic_check _ _ _ _ _ _) as [[b d0]|]; [|discriminate HC]. cbn [rbind] in HC. apply ok_inj in HC. subst c.
  refine (item_shows o _ _ _ _ (ignore_pool o) _ _ _ _ _ HC0 (quiet_pool _ _ _ _) _ _ _ _ _).
  - rewrite is_ignored_eq. cbn [k_own k_parts]. now destruct (ignore_pool o).
  - reflexivity.
  - cbn [get_description k_text is_change k_always orb]. now destruct b.
  - repeat split; reflexivity.
  - intros x y HX HY. split; apply pool_is; assumption.
Qed.

Theorem document_of o l r c L R : class_is fmt l L -> class_is fmt r R -> check (class_change fmt reprs ffmt l r) = Ok c ->
  exists t, class_piece fmt reprs ffmt o l r t /\ shows o c t.
Proof.
  intros KL KR HC. unfold class_change in HC.
  destruct (super_shows o _ _ _ _ _ _ (lit "Java Class " ++ dotted (cl_this L)) (lit "Java Class " ++ dotted (cl_this L)) HC) as (kids & HF & HT); [split; [reflexivity|]; intros _; unfold pretty_this; now rewrite (kc_this _ _ _ _ _ (cs_known _ _ _ KL))|].
  split_parts HF. inversion HF; subst; clear HF.
  destruct (header_shows o l r _ _ _ C KL KR) as (th & A1 & B1).
  destruct (annos_show o _ _ _ _ _ _ _ _ _ _ C0 (cs_vis _ _ _ KL) (cs_vis _ _ _ KR)) as (ta & A2 & B2).
  destruct (annos_show o _ _ _ _ _ _ _ _ _ _ C1 (cs_invis _ _ _ KL) (cs_invis _ _ _ KR)) as (ti & A3 & B3).
  destruct (pool_shows_it o l r _ C2) as (tp & A4 & B4).
  destruct (fields_show o l r _ _ _ C3 KL KR) as (tf & A5 & B5). destruct (methods_show o l r _ _ _ C4 KL KR) as (tm & A6 & B6).
  assert (HX := HT [plain_group o "ClassInfoChange" "Class information" th; ta; ti; tp; tf; tm] ltac:(repeat (constructor; [assumption|]); constructor)).
  eexists. split; [|exact HX]. exists L, R, th, ta, ti, tp, tf, tm. repeat (split; [assumption|]). reflexivity.
Qed.
End Document.

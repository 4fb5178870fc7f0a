(** From members and classes to the page. *)
From Verif Require Import Base Pack_Model ConstPool_Model ConstPool_Spec ClassFile_Model Descr_Model Descr_Spec Descr_Proofs Opcodes_Model Opcodes_Spec Anno_Model
  Change_Model Change_Spec Change_Proofs Change_Report Classdiff_Model Classdiff_Spec Classdiff_Members Classdiff_Code Classdiff_Class Classdiff_Merge Info_Model Info_Spec Print_Model Print_Spec Print_Code Print_Decl Report_Model
  Html_Model Html_Spec Html_Table Html_Page Html_Members Html_Values Html_Class Html_Pool Html_Heads Html_Wf.
From Coq Require Import Permutation Sorting.Sorted.

(** ** Every instruction has a row *)
Definition relative_lines (ll : list (Z * Z * list insn)) : list Z := map (fun g => snd (fst g)) ll.
Lemma group_of (i : insn) (ll : list (Z * Z * list insn)) dl : concat (map snd ll) = dl -> In i dl -> exists line rel is, In (line, rel, is) ll /\ In i is.
Proof. intros <- HI. apply in_concat in HI as (is & H1 & H2). apply in_map_iff in H1 as ([[line rel] is'] & E & H1). cbn [snd] in E. subst is'. now exists line, rel, is. Qed.
Lemma left_row ll rl d i : merges ll rl d -> NoDup (relative_lines ll) -> In i (concat (map snd ll)) ->
  exists rel line right, In (dec rel :: (dec line :: op_row i) ++ right) (flat_map line_grid d) /\ length right = 4%nat.
Proof.
  intros [_ HD] ND HI. destruct (group_of _ _ _ eq_refl HI) as (line & rel & is & H1 & H2). pose proof (last_group_distinct _ _ _ _ ND H1) as EL. apply In_nth_error in H2 as (k & HK).
  exists rel, line, (side_row (last_group rel rl) k). split.
  - apply in_flat_map. exists (rel, (Some (line, is), last_group rel rl)). split; [apply HD; rewrite EL; repeat split; left; discriminate|]. unfold line_grid. apply in_map_iff. exists k. split.
    + unfold side_row at 1. rewrite HK. destruct is; [destruct k; discriminate|]. reflexivity.
    + apply in_seq. split; [lia|]. cbn [side_size]. assert (k < length is)%nat by (apply nth_error_Some; congruence). lia.
  - unfold side_row. destruct (last_group rel rl) as [[l0 [|x is0]]|]; [reflexivity| |reflexivity]. destruct (nth_error (x :: is0) k); reflexivity.
Qed.
Lemma right_row ll rl d i : merges ll rl d -> NoDup (relative_lines rl) -> In i (concat (map snd rl)) ->
  exists rel line left, In (dec rel :: left ++ dec line :: op_row i) (flat_map line_grid d) /\ length left = 4%nat.
Proof.
  intros [_ HD] ND HI. destruct (group_of _ _ _ eq_refl HI) as (line & rel & is & H1 & H2). pose proof (last_group_distinct _ _ _ _ ND H1) as EL. apply In_nth_error in H2 as (k & HK).
  exists rel, line, (side_row (last_group rel ll) k). split.
  - apply in_flat_map. exists (rel, (last_group rel ll, Some (line, is))). split; [apply HD; rewrite EL; repeat split; right; discriminate|]. unfold line_grid. apply in_map_iff. exists k. split.
    + f_equal. f_equal. unfold side_row. rewrite HK. destruct is; [destruct k; discriminate|]. reflexivity.
    + apply in_seq. split; [lia|]. cbn [side_size]. assert (k < length is)%nat by (apply nth_error_Some; congruence). lia.
  - unfold side_row. destruct (last_group rel ll) as [[l0 [|x is0]]|]; [reflexivity| |reflexivity]. destruct (nth_error (x :: is0) k); reflexivity.
Qed.

Section Pages.
Variable fmt : pyval -> str.
Variable repr : pyval -> str.
Variable reprs : str -> str.
Variable ffmt : pyval -> str.
Lemma heading_of p m n args ret : is_method_of p m n args ret -> method_heading fmt p m = Ok (esc (method_shown n args ret)).
Proof.
  intros [H1 H2 H3 H4 H5 H6 _]. destruct (method_split args ret H4 H5 H6) as [S1 S2].
  assert (T1 : m_type fmt p m = Ok (ret_desc ret)) by (unfold m_type, m_desc_str; rewrite H3; exact S2).
  assert (T2 : m_arg_types fmt p m = Ok (map desc args)) by (unfold m_arg_types, m_desc_str; rewrite H1, H3; exact S1).
  assert (T3 : m_pretty_type fmt p m = Ok (ret_name ret)) by (unfold m_pretty_type; rewrite T1; apply pretty_ret).
  assert (T4 : m_pretty_arg_types fmt p m = Ok (map type_name args)) by (unfold m_pretty_arg_types; rewrite T2; apply mapM_pretty).
  unfold method_heading. rewrite H2, T3, T4. cbn [rbind pct_s]. rewrite escape_is. reflexivity.
Qed.
Lemma pair_page e o l r page a b : class_html fmt repr reprs ffmt e o l r = Ok page -> distinct_ids fmt (c_pool l) (c_methods l) -> distinct_ids fmt (c_pool r) (c_methods r) ->
  In a (c_methods l) -> In b (c_methods r) -> same_identity fmt (c_pool l) (c_pool r) a b ->
  exists c h, check (method_change fmt reprs (c_pool l) (c_pool r) a b) = Ok c /\ method_html fmt o c (c_pool l) (c_pool r) a b = Ok h /\ within h page.
Proof.
  intros H DL DR Ha Hb S. destruct (page_method _ _ _ _ _ _ _ _ _ H) as (evs & E & G). destruct (G _ (pair_event _ _ _ _ _ _ _ _ E DL DR Ha Hb S)) as (c & h & G1 & G2 & G3). now exists c, h.
Qed.
Lemma field_pair_page e o l r page a b : class_html fmt repr reprs ffmt e o l r = Ok page -> distinct_ids fmt (c_pool l) (c_fields l) -> distinct_ids fmt (c_pool r) (c_fields r) ->
  In a (c_fields l) -> In b (c_fields r) -> same_identity fmt (c_pool l) (c_pool r) a b ->
  exists c h, check (field_change fmt reprs (c_pool l) (c_pool r) a b) = Ok c /\ field_html fmt repr o c (c_pool l) (c_pool r) a b = Ok h /\ within h page.
Proof.
  intros H DL DR Ha Hb S. destruct (page_field _ _ _ _ _ _ _ _ _ H) as (evs & E & G). destruct (G _ (pair_event _ _ _ _ _ _ _ _ E DL DR Ha Hb S)) as (c & h & G1 & G2 & G3). now exists c, h.
Qed.
Definition differ (lp rp : pool) (lc rc : option code) : Prop :=
  ~ opt_rel (same_code tool_resolved lp rp) lc rc \/ option_map k_code lc <> option_map k_code rc.
Lemma code_page e o l r page a b n args ret lc rc : class_html fmt repr reprs ffmt e o l r = Ok page -> distinct_ids fmt (c_pool l) (c_methods l) -> distinct_ids fmt (c_pool r) (c_methods r) ->
  In a (c_methods l) -> In b (c_methods r) -> same_identity fmt (c_pool l) (c_pool r) a b -> is_method_of (c_pool l) a n args ret ->
  get_code (c_pool l) a = Ok lc -> get_code (c_pool r) b = Ok rc -> usual_codes lc -> usual_codes rc -> differ (c_pool l) (c_pool r) lc rc ->
  exists h ll rl d, within h page /\ section h (esc (method_shown n args ret)) /\ code_lines lc = Ok ll /\ code_lines rc = Ok rl /\ merges ll rl d /\
    shows_table h 9 (dual_grid_head ++ flat_map line_grid d).
Proof.
  intros H DL DR Ha Hb S M GL GR UL UR D. destruct (pair_page _ _ _ _ _ _ _ H DL DR Ha Hb S) as (c & h & C & HH & W). destruct (method_page_code _ _ _ _ _ _ _ _ _ C HH) as (lc' & rc' & mc & ch & E1 & E2 & CM & HM & W').
  rewrite GL in E1. rewrite GR in E2. apply ok_inj in E1. apply ok_inj in E2. subst lc' rc'.
  assert (D' : is_change mc = true \/ code_bytes lc <> code_bytes rc).
  { pose proof (changed_iff _ _ _ CM (quiet_method_code _ _ _ _ lc rc)) as Q. destruct D as [D|D]; [left; now apply Q|]. destruct lc as [kl|], rc as [kr|]; cbn [option_map code_bytes] in *; try (left; apply Q; intro X; inversion X; fail); [right; congruence|congruence]. }
  destruct (code_dual _ _ _ _ _ HM D' UL UR) as (ll & rl & d & L1 & L2 & L3 & L4). exists h, ll, rl, d. split; [exact W|]. split; [eapply method_section; [exact HH|exact (heading_of _ _ _ _ _ M)]|]. repeat (split; [assumption|]). eapply shows_within; eassumption.
Qed.
Lemma code_page_same e o l r page a b n args ret k k' ll : class_html fmt repr reprs ffmt e o l r = Ok page -> distinct_ids fmt (c_pool l) (c_methods l) -> distinct_ids fmt (c_pool r) (c_methods r) ->
  In a (c_methods l) -> In b (c_methods r) -> same_identity fmt (c_pool l) (c_pool r) a b -> is_method_of (c_pool l) a n args ret ->
  get_code (c_pool l) a = Ok (Some k) -> get_code (c_pool r) b = Ok (Some k') -> usual_codes (Some k) -> same_code tool_resolved (c_pool l) (c_pool r) k k' -> k_code k = k_code k' -> code_lines (Some k) = Ok ll ->
  exists h, within h page /\ section h (esc (method_shown n args ret)) /\ shows_table h 5 (single_grid_head ++ flat_map single_grid ll).
Proof.
  intros H DL DR Ha Hb S M GL GR UL SC EB EL. destruct (pair_page _ _ _ _ _ _ _ H DL DR Ha Hb S) as (c & h & C & HH & W). destruct (method_page_code _ _ _ _ _ _ _ _ _ C HH) as (lc' & rc' & mc & ch & E1 & E2 & CM & HM & W').
  rewrite GL in E1. rewrite GR in E2. apply ok_inj in E1. apply ok_inj in E2. subst lc' rc'.
  assert (Q : is_change mc = false). { destruct (is_change mc) eqn:Q; [|reflexivity]. exfalso. apply (proj1 (changed_iff _ _ _ CM (quiet_method_code _ _ _ _ _ _)) Q). now constructor. }
  exists h. split; [exact W|]. split; [eapply method_section; [exact HH|exact (heading_of _ _ _ _ _ M)]|]. eapply shows_within; [exact W'|]. eapply code_single; eassumption.
Qed.
End Pages.

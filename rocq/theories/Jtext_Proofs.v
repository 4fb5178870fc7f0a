(** The text report of jardiff. *)
From Verif Require Import Base Pack_Model ConstPool_Model ClassFile_Model Manifest_Model Manifest_Parse Change_Model Change_Spec Change_Proofs Change_Report Classdiff_Model Classdiff_Class Html_Values
  Jardiff_Model Jardiff_Spec Jardiff_Proofs Jardiff_Jar Text_Spec Text_Proofs Text_Class Jtext_Spec.
From Verif Require Zip_Model Sign_Model.
From Verif Require Import Zip_Spec.
From Coq Require Import Permutation.

(** ** Headings *)
Lemma over_tells o n c own kids ts h u hidden counts : collect c = Ok kids -> is_change c = existsb is_change kids ->
  k_own (k_of c) o = own -> (own = true <-> hidden) -> (k_parts (k_of c) = false <-> counts) ->
  get_description c = Ok (if is_change c then h else u) -> Forall2 (tells o (S n)) kids ts ->
  exists t, over o n h u hidden counts ts t /\ tells o n c t.
Proof.
  intros HK HX HO HH HP HD HS. destruct (together_is o (S n) kids ts HS) as [HB HG]. destruct (all_ignored_spec o kids HB) as (b & Hb & _). rewrite Hb, <- HX in HG.
  assert (HI : is_ignored o c = Ok (if own then true else if k_parts (k_of c) then if is_change c then b else false else false)).
  { destruct c as [k ch d cs im]. cbn [k_of] in *. rewrite is_ignored_eq, HO. destruct own; [reflexivity|]. destruct (k_parts k); [|reflexivity]. cbn [negb]. destruct (is_change _) eqn:E; [|reflexivity].
    cbn [negb]. rewrite HK. cbn [rbind]. destruct kids as [|k0 kids]; [discriminate HX|exact Hb]. }
  eexists. split; [|exact (node_tells o n c _ h u kids ts HI HD HK HS)]. clear HI HD HK HB Hb HX HO HS. unfold standing_of in *. destruct (is_change c).
  - destruct own.
    + apply over_hidden; [rewrite HG; destruct b; discriminate|now apply HH].
    + assert (NH : ~ hidden) by (intro X; apply HH in X; discriminate X). destruct (k_parts (k_of c)).
      * assert (NC : ~ counts) by (intro X; apply HP in X; discriminate X). destruct b; [now apply over_aside|apply over_told; [now left|exact NH]].
      * apply over_told; [|exact NH]. rewrite HG. destruct b; [right; split; [reflexivity|now apply HP]|now left].
  - now apply over_same.
Qed.
Lemma silent_tells o n c h u : is_change c = false -> show_unchanged o = false -> (exists b, is_ignored o c = Ok b) -> (exists s, get_description c = Ok s) -> forall below,
  tells o n c (written o n Same h u below).
Proof.
  intros HC HS (b & HI) (s & HD) below. split; [|exists b; split; [exact HI|now rewrite HC]]. destruct c as [k ch d cs im]. rewrite indent_change_eq. cbv zeta. rewrite HD, HC, HS. cbn [rbind written snd]. now rewrite HS.
Qed.

(** ** Manifests *)
Definition well_named (m : manifest) : Prop := NoDup (dkeys (m_subs m)) /\ forall n s, dget (m_subs m) n = Some s -> dget s K_Name = Some n.
Lemma load_named l : forall subs subs', load_subs subs l = Ok subs' -> NoDup (dkeys subs) -> (forall n s, dget subs n = Some s -> dget s K_Name = Some n) ->
  NoDup (dkeys subs') /\ forall n s, dget subs' n = Some s -> dget s K_Name = Some n.
Proof.
  induction l as [|it l IH]; intros subs subs' H HN HS; cbn [load_subs] in H; [apply ok_inj in H; subst; now split|].
  destruct (sec_load _ it) as [s|]; [|discriminate H]. cbn [rbind] in H. destruct (dget s K_Name) as [n0|] eqn:E; [|discriminate H]. apply (IH _ _ H).
  - now apply NoDup_dset.
  - intros n s' Hs. rewrite dget_dset in Hs. destruct (seqb_spec n n0) as [->|]; [injection Hs as <-; exact E|now apply HS].
Qed.
Lemma parsed_named x m : parses x m -> well_named m.
Proof.
  unfold parses, man_parse. destruct (parse_sections _) as [secs e]. destruct secs as [|main subs]; [discriminate|]. destruct (sec_load _ main) as [mn|]; [|discriminate]. cbn [rbind].
  destruct (load_subs _ subs) as [sb|] eqn:E; [|discriminate]. cbn [rbind]. destruct e; [discriminate|]. intro H. apply ok_inj in H. subst m. unfold well_named. cbn [m_subs].
  apply (load_named _ _ _ E); [constructor|]. intros n s H. discriminate H.
Qed.
Lemma section_tells o n nm lb al ad re txt own same old new c P H s u : check (section_node nm lb al ad re txt own same old new) = Ok c ->
  (al = false /\ same = true <-> P) -> (own o = true <-> H) -> txt true = s -> (al = false -> txt false = u) ->
  exists t, entry o n (mksays s u P H) t /\ tells o n c t.
Proof.
  intros HC HP HO Hs Hu. pose proof HC as HC0. unfold section_node in HC. cbn [check k_check rbind] in HC.
  refine (says_tells o n c (own o) s u P H _ HC0 _ _ HO _ _); [rewrite section_quiet; exact HP|..];
  destruct same; cbn [rbind] in HC; apply ok_inj in HC; subst c; rewrite ?is_ignored_eq; cbn [k_own k_parts negb get_description k_text is_change k_always collect pick k_super];
    try reflexivity; try (destruct (own o); reflexivity); destruct al; cbn [orb]; rewrite ?Hs, ?Hu; reflexivity.
Qed.
Section Manifests.
Variable order : list str -> list str.
Hypothesis order_perm : forall s, Permutation (order s) s.
Lemma order_names (f : str -> bool) (d : list str) : NoDup d -> NoDup (order (filter f d)) /\ forall s, In s (order (filter f d)) <-> In s d /\ f s = true.
Proof.
  intro HN. split.
  - eapply Permutation_NoDup; [apply Permutation_sym, order_perm|]. now apply NoDup_filter.
  - intro s. rewrite <- filter_In. split; apply Permutation_in; [apply order_perm|apply Permutation_sym, order_perm].
Qed.
Lemma key_in_iff {V} (d : dict V) s : In s (dkeys d) <-> dget d s <> None.
Proof. rewrite dkeys_get. split; [intros (v & ->); discriminate|]. destruct (dget d s); [eauto|congruence]. Qed.
Lemma key_mem_iff {V} (d : dict V) s : smem s (dkeys d) = true <-> dget d s <> None.
Proof. pose proof (dkeys_get_none d s) as H. destruct (smem s (dkeys d)); [|destruct H as [H _]; rewrite (H eq_refl); split; [discriminate|congruence]]. split; [|reflexivity]. intros _ X. apply H in X. discriminate X. Qed.
Lemma key_not_iff {V} (d : dict V) s : negb (smem s (dkeys d)) = true <-> dget d s = None.
Proof. rewrite negb_true_iff. apply dkeys_get_none. Qed.

Lemma manifest_tells o n nm lb own hidden l r c : well_named l -> well_named r -> (own o = true <-> hidden) ->
  check (Node (mkcls nm (lit lb) false false false None own true CheckParts true false false None None None [] no_data no_data) false None [] (manifest_parts order l r)) = Ok c ->
  exists t, manifest_block o n lb hidden l r t /\ tells o n c t.
Proof.
  intros [NL ML] [NR MR] HO HC. apply check_parts in HC as (ks & ks' & HK & HF & ->); [|reflexivity]. cbn [collect_in pick k_super negb k_incheck andb k_gate k_raises] in HK. apply ok_inj in HK. subst ks.
  unfold manifest_parts in HF. cbv zeta in HF.
  destruct (order_names (fun s => smem s (dkeys (m_subs r))) _ NL) as [B1 B2]. destruct (order_names (fun s => negb (smem s (dkeys (m_subs r)))) _ NL) as [G1 G2]. destruct (order_names (fun s => negb (smem s (dkeys (m_subs l)))) _ NR) as [W1 W2].
  set (both := order (filter (fun s => smem s (dkeys (m_subs r))) _)) in *. set (gone := order (filter (fun s => negb (smem s (dkeys (m_subs r)))) _)) in *. set (new := order (filter (fun s => negb (smem s (dkeys (m_subs l)))) _)) in *.
  inversion HF as [|? cm ? ks1 HM HF1]; subst. apply Forall2_app_inv_l in HF1 as (kb & ks2 & HB & HF2 & ->). apply Forall2_app_inv_l in HF2 as (kg & kn & HG & HN & ->).
  destruct (section_tells o (S n) _ _ _ _ _ _ _ _ _ _ cm (m_main l = m_main r) (only_ignored_keys o (m_main l) (m_main r)) (lit "Manifest Main Section has changed") (lit "Manifest Main Section is unchanged") HM) as (tm & M1 & M2);
    [rewrite section_eqb_iff; tauto|apply keys_own_iff|reflexivity|reflexivity|].
  destruct (Forall2_tells o (S n) _ (fun s p => exists a b, dget (m_subs l) s = Some a /\ dget (m_subs r) s = Some b /\ entry o (S n) (both_says o s a b) p) both kb HB) as (tb & TB1 & TB2).
  { intros s c0 Hs HC. apply B2 in Hs as [S1 S2]. apply key_in_iff in S1. apply key_mem_iff in S2. destruct (dget (m_subs l) s) as [a|] eqn:EA; [|congruence]. destruct (dget (m_subs r) s) as [b|] eqn:EB; [|congruence].
    rewrite (sub_of_get _ _ _ EA), (sub_of_get _ _ _ EB) in HC.
    destruct (section_tells o (S n) _ _ _ _ _ _ _ _ _ _ c0 (a = b) (ignore_manifest_subsections o = true \/ only_ignored_keys o a b) (lit "Manifest Subsection Changed: " ++ s) (lit "Manifest Subsection Unchanged: " ++ s) HC) as (t & T1 & T2).
    - rewrite section_eqb_iff. tauto.
    - rewrite orb_true_iff, keys_own_iff. tauto.
    - unfold sec_name. rewrite (ML _ _ EA). reflexivity.
    - intros _. unfold sec_name. rewrite (ML _ _ EA). reflexivity.
    - exists t. split; [|exact T2]. exists a, b. split; [reflexivity|]. split; [reflexivity|exact T1]. }
  destruct (Forall2_tells o (S n) _ (fun s => entry o (S n) (one_says o "Removed" s)) gone kg HG) as (tg & TG1 & TG2).
  { intros s c0 Hs HC. apply G2 in Hs as [S1 S2]. apply key_in_iff in S1. destruct (dget (m_subs l) s) as [a|] eqn:EA; [|congruence]. rewrite (sub_of_get _ _ _ EA) in HC. unfold section_removed, section_added in HC.
    destruct (section_tells o (S n) _ _ _ _ _ _ _ _ _ _ c0 False (ignore_manifest_subsections o = true) (lit "Manifest Subsection " ++ lit "Removed" ++ lit ": " ++ s) [] HC) as (t & T1 & T2);
      [split; [intros [X _]; discriminate X|contradiction]|tauto|unfold sec_name; rewrite (ML _ _ EA); reflexivity|intro X; discriminate X|exists t; split; [exact T1|exact T2]]. }
  destruct (Forall2_tells o (S n) _ (fun s => entry o (S n) (one_says o "Added" s)) new kn HN) as (tn & TN1 & TN2).
  { intros s c0 Hs HC. apply W2 in Hs as [S1 S2]. apply key_in_iff in S1. destruct (dget (m_subs r) s) as [a|] eqn:EA; [|congruence]. rewrite (sub_of_get _ _ _ EA) in HC. unfold section_removed, section_added in HC.
    destruct (section_tells o (S n) _ _ _ _ _ _ _ _ _ _ c0 False (ignore_manifest_subsections o = true) (lit "Manifest Subsection " ++ lit "Added" ++ lit ": " ++ s) [] HC) as (t & T1 & T2);
      [split; [intros [X _]; discriminate X|contradiction]|tauto|unfold sec_name; rewrite (MR _ _ EA); reflexivity|intro X; discriminate X|exists t; split; [exact T1|exact T2]]. }
  set (kids := cm :: kb ++ kg ++ kn) in *.
  edestruct (over_tells o n (Node (mkcls nm (lit lb) false false false None own true CheckParts true false false None None None [] no_data no_data) (existsb is_change kids) None kids (manifest_parts order l r)) (own o) kids (tm :: tb ++ tg ++ tn)
    (lit lb ++ lit " changed") (stays lb) hidden False) as (t & T1 & T2).
  - reflexivity.
  - cbn [is_change k_always orb]. reflexivity.
  - reflexivity.
  - exact HO.
  - cbn [k_of k_parts]. split; [discriminate|contradiction].
  - unfold get_description. cbn [k_text k_label]. destruct (is_change _); reflexivity.
  - apply Forall2_cons; [exact M2|]. apply Forall2_app; [exact TB2|]. now apply Forall2_app.
  - exists t. split; [|exact T2]. exists both, gone, new, tm, tb, tg, tn.
    split; [exact B1|]. split; [intro s; rewrite B2, key_in_iff, key_mem_iff; tauto|]. split; [exact G1|]. split; [intro s; rewrite G2, key_in_iff, key_not_iff; tauto|].
    split; [exact W1|]. split; [intro s; rewrite W2, key_in_iff, key_not_iff; tauto|]. split; [exact M1|]. split; [exact TB1|]. split; [exact TG1|]. split; [exact TN1|exact T1].
Qed.
End Manifests.

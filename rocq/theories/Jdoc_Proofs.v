(** The JSON document of jardiff: objects with children, manifests. *)
From Verif Require Import Base Pack_Model ConstPool_Model ClassFile_Model Manifest_Model Manifest_Parse Change_Model Change_Spec Change_Proofs Change_Report Classdiff_Model Classdiff_Class Html_Values
  Jardiff_Model Jardiff_Spec Jardiff_Proofs Jardiff_Jar Text_Spec Text_Proofs Text_Class Jtext_Spec Jtext_Proofs Doc_Spec Doc_Proofs Jdoc_Spec.
From Coq Require Import Permutation.

(** ** Objects with children *)
Lemma together_shows o kids ps : Forall2 (shows o) kids ps -> Forall (fun kid => exists b, is_ignored o kid = Ok b) kids /\
  together (map fst ps) = standing_of (existsb is_change kids) (match all_ignored (map (fun kid => (is_change kid, is_ignored o kid)) kids) with Ok b => b | Err _ => false end).
Proof.
  induction 1 as [|a t l ts ((b & Hb & HT) & _) HS [IH1 IH2]]; [split; [constructor|reflexivity]|]. split; [constructor; [now exists b|exact IH1]|].
  cbn [map together fold_right existsb all_ignored]. change (fold_right worse Same (map fst ts)) with (together (map fst ts)). rewrite HT, IH2, Hb. clear HT IH2 Hb.
  destruct (all_ignored_spec o l IH1) as (x & -> & HX). unfold standing_of. destruct (is_change a); cbn [orb rbind]; [destruct b|].
  - destruct (existsb is_change l) eqn:E; [now destruct x|]. assert (x = true) as ->; [|reflexivity]. apply HX. apply Forall_forall. intros k Hk Ek.
    assert (existsb is_change l = true) by (apply existsb_exists; now exists k). congruence.
  - destruct (existsb is_change l), x; reflexivity.
  - destruct (existsb is_change l), x; reflexivity.
Qed.
Definition plain_super (c : change) (cl lb : String.string) (e : option str) : Prop :=
  k_super (k_of c) = true /\ k_name (k_of c) = lit cl /\ k_label (k_of c) = lit lb /\ k_addition (k_of c) = false /\ k_removal (k_of c) = false /\
  (match k_entry (k_of c) with Some (x :: s) => Some (x :: s) | _ => None end) = e /\ k_orig (k_of c) = None /\ k_old (k_of c) = no_data /\ k_new (k_of c) = no_data.
Lemma parent_shows o c ig s cl lb e kids ps j : plain_super c cl lb e -> is_ignored o c = Ok ig -> get_description c = Ok s -> collect c = Ok kids ->
  Forall2 (shows o) kids ps -> json_of o c = Ok j -> parent o cl lb s (is_change c) ig e ps j.
Proof.
  intros (KS & KN & KL & KA & KR & KE & KO & K1 & K2) HI HD HC HF HJ. destruct (kept_shows o kids ps HF) as (marks & M1 & M2).
  destruct c as [k ch d cs im]. cbn [k_of] in *. rewrite json_of_eq in HJ. cbv zeta in HJ. rewrite HD, HI in HJ. cbn [rbind] in HJ. rewrite K1, K2 in HJ. unfold no_data in HJ. cbn [rbind] in HJ. rewrite KS, HC in HJ. cbn [rbind] in HJ. rewrite M1 in HJ. cbn [rbind] in HJ.
  destruct (mapM (json_of o) _) as [js|] eqn:EM; [|discriminate HJ]. cbn [rbind] in HJ. apply ok_inj in HJ. subst j. exists js. split; [exact (M2 js eq_refl)|]. rewrite KN, KL, KA, KR, KO, <- KE. reflexivity.
Qed.
Lemma over_shows o c own kids ps cl lb e h u hidden counts : collect c = Ok kids -> is_change c = existsb is_change kids ->
  k_own (k_of c) o = own -> (own = true <-> hidden) -> (k_parts (k_of c) = false <-> counts) ->
  get_description c = Ok (if is_change c then h else u) -> plain_super c cl lb e -> Forall2 (shows o) kids ps ->
  exists t, over_doc o cl lb h u e hidden counts ps t /\ shows o c t.
Proof.
  intros HK HX HO HH HP HD HA HS. destruct (together_shows o kids ps HS) as [HB HG]. destruct (all_ignored_spec o kids HB) as (b & Hb & _). rewrite Hb, <- HX in HG.
  assert (HI : is_ignored o c = Ok (if own then true else if k_parts (k_of c) then if is_change c then b else false else false)).
  { destruct c as [k ch d cs im]. cbn [k_of] in *. rewrite is_ignored_eq, HO. destruct own; [reflexivity|]. destruct (k_parts k); [|reflexivity]. cbn [negb]. destruct (is_change _) eqn:E; [|reflexivity].
    cbn [negb]. rewrite HK. cbn [rbind]. destruct kids as [|k0 kids]; [discriminate HX|exact Hb]. }
  set (ig := if own then true else if k_parts (k_of c) then if is_change c then b else false else false) in *.
  exists (standing_of (is_change c) ig, parent o cl lb (if is_change c then h else u) (is_change c) ig e ps). split.
  2:{ split; [exists ig; split; [exact HI|reflexivity]|]. intros j HJ. exact (parent_shows o c ig _ cl lb e kids ps j HA HI HD HK HS HJ). }
  subst ig. clear HI HD HK HB Hb HX HO HS HA. unfold standing_of in *. destruct (is_change c).
  - destruct own.
    + apply odoc_hidden; [rewrite HG; destruct b; discriminate|now apply HH].
    + assert (NH : ~ hidden) by (intro X; apply HH in X; discriminate X). destruct (k_parts (k_of c)).
      * assert (NC : ~ counts) by (intro X; apply HP in X; discriminate X). destruct b; [now apply odoc_aside|apply odoc_told; [now left|exact NH]].
      * apply odoc_told; [|exact NH]. rewrite HG. destruct b; [right; split; [reflexivity|now apply HP]|now left].
  - apply odoc_same; [exact HG|]. destruct own; [exact HH|]. destruct (k_parts (k_of c)); exact HH.
Qed.

(** ** Manifests *)
Lemma section_shows o nm lb txt own same a b c P H s u : check (section_node (lit nm) (lit lb) false false false txt own same (Some a) (Some b)) = Ok c ->
  (same = true <-> P) -> (own o = true <-> H) -> txt true = s -> txt false = u ->
  exists t, item (value nm lb (section_shown a) (section_shown b)) (mksays s u P H) t /\ shows o c t.
Proof.
  intros HC HP HO Hs Hu. pose proof HC as HC0. unfold section_node in HC. cbn [check k_check rbind] in HC. unfold value.
  destruct same; cbn [rbind] in HC; apply ok_inj in HC; subst c;
    (refine (item_shows o _ nm lb (fun x y => x = Some (section_shown a) /\ y = Some (section_shown b)) (own o) s u P H _ HC0 _ _ HO _ _ _);
     [rewrite section_quiet; tauto|..]; rewrite ?is_ignored_eq; cbn [k_of k_old k_new k_own k_parts negb get_description k_text is_change k_always collect pick k_super orb];
     rewrite ?Hs, ?Hu; try reflexivity; try (destruct (own o); reflexivity); try (repeat split; reflexivity)).
  all: intros x y Hx Hy; apply ok_inj in Hx; apply ok_inj in Hy; subst x y; now split.
Qed.
Lemma lone_section o nm lb (added : bool) txt own old new c H s : check (section_node (lit nm) (lit lb) true added (negb added) txt own false old new) = Ok c ->
  (own o = true <-> H) -> txt true = s ->
  exists t, lone nm lb added s None H (option_map section_shown old) (option_map section_shown new) None t /\ shows o c t.
Proof.
  intros HC HO Hs. unfold section_node in HC. cbn [check k_check rbind] in HC. apply ok_inj in HC. subst c. match goal with |- context[shows o ?x _] => set (c := x) end.
  assert (HI : is_ignored o c = Ok (own o)) by (unfold c; rewrite is_ignored_eq; cbn [k_own k_parts negb]; destruct (own o); reflexivity).
  assert (HD : get_description c = Ok s) by (unfold c; cbn [get_description k_text is_change k_always orb]; now rewrite Hs).
  exists (standing_of true (own o), fun j => j = J (lit nm) true s (lit lb) (own o) added (negb added) None None (option_map section_shown old) (option_map section_shown new) None). split.
  - unfold standing_of. destruct (own o); [apply lone_aside; now apply HO|apply lone_told; intro X; apply HO in X; discriminate X].
  - split; [exists (own o); split; [exact HI|reflexivity]|]. intros j HJ. unfold c in HJ. rewrite json_of_eq in HJ. fold c in HJ. cbv zeta in HJ. rewrite HI, HD in HJ. cbn [rbind k_old k_new k_super] in HJ. apply ok_inj in HJ. subst j. reflexivity.
Qed.
Section Manifests.
Variable order : list str -> list str.
Hypothesis order_perm : forall s, Permutation (order s) s.
Lemma manifest_shows o nm lb own hidden l r c : well_named l -> well_named r -> (own o = true <-> hidden) ->
  check (Node (mkcls (lit nm) (lit lb) false false false None own true CheckParts true false false None None None [] no_data no_data) false None [] (manifest_parts order l r)) = Ok c ->
  exists t, manifest_doc o nm lb hidden l r t /\ shows o c t.
Proof.
  intros [NL ML] [NR MR] HO HC. apply check_parts in HC as (ks & ks' & HK & HF & ->); [|reflexivity]. cbn [collect_in pick k_super negb k_incheck andb k_gate k_raises] in HK. apply ok_inj in HK. subst ks.
  unfold manifest_parts in HF. cbv zeta in HF.
  destruct (order_names order order_perm (fun s => smem s (dkeys (m_subs r))) _ NL) as [B1 B2]. destruct (order_names order order_perm (fun s => negb (smem s (dkeys (m_subs r)))) _ NL) as [G1 G2]. destruct (order_names order order_perm (fun s => negb (smem s (dkeys (m_subs l)))) _ NR) as [W1 W2].
  set (both := order (filter (fun s => smem s (dkeys (m_subs r))) _)) in *. set (gone := order (filter (fun s => negb (smem s (dkeys (m_subs r)))) _)) in *. set (new := order (filter (fun s => negb (smem s (dkeys (m_subs l)))) _)) in *.
  inversion HF as [|? cm ? ks1 HM HF1]; subst. apply Forall2_app_inv_l in HF1 as (kb & ks2 & HB & HF2 & ->). apply Forall2_app_inv_l in HF2 as (kg & kn & HG & HN & ->).
  destruct (section_shows o "ManifestMainChange" "Manifest Main Section" _ _ _ _ _ cm (m_main l = m_main r) (only_ignored_keys o (m_main l) (m_main r)) (lit "Manifest Main Section has changed") (lit "Manifest Main Section is unchanged") HM) as (tm & M1 & M2);
    [apply section_eqb_iff|apply keys_own_iff|reflexivity|reflexivity|].
  destruct (Forall2_shows o _ (fun s p => exists a b, dget (m_subs l) s = Some a /\ dget (m_subs r) s = Some b /\ item (value "ManifestSectionChange" "Manifest Subsection" (section_shown a) (section_shown b)) (both_says o s a b) p) both kb HB) as (tb & TB1 & TB2).
  { intros s c0 Hs HC. apply B2 in Hs as [S1 S2]. apply key_in_iff in S1. apply key_mem_iff in S2. destruct (dget (m_subs l) s) as [a|] eqn:EA; [|congruence]. destruct (dget (m_subs r) s) as [b|] eqn:EB; [|congruence].
    rewrite (sub_of_get _ _ _ EA), (sub_of_get _ _ _ EB) in HC.
    destruct (section_shows o "ManifestSectionChange" "Manifest Subsection" _ _ _ _ _ c0 (a = b) (ignore_manifest_subsections o = true \/ only_ignored_keys o a b) (lit "Manifest Subsection Changed: " ++ s) (lit "Manifest Subsection Unchanged: " ++ s) HC) as (t & T1 & T2).
    - apply section_eqb_iff.
    - rewrite orb_true_iff, keys_own_iff. tauto.
    - unfold sec_name. rewrite (ML _ _ EA). reflexivity.
    - unfold sec_name. rewrite (ML _ _ EA). reflexivity.
    - exists t. split; [|exact T2]. exists a, b. split; [reflexivity|]. split; [reflexivity|exact T1]. }
  destruct (Forall2_shows o _ (fun s p => exists a, dget (m_subs l) s = Some a /\
      lone "ManifestSectionRemoved" "Manifest Subsection Removed" false (lit "Manifest Subsection Removed: " ++ s) None (ignore_manifest_subsections o = true) (Some (section_shown a)) None None p) gone kg HG) as (tg & TG1 & TG2).
  { intros s c0 Hs HC. apply G2 in Hs as [S1 S2]. apply key_in_iff in S1. destruct (dget (m_subs l) s) as [a|] eqn:EA; [|congruence]. rewrite (sub_of_get _ _ _ EA) in HC. unfold section_removed in HC.
    destruct (lone_section o "ManifestSectionRemoved" "Manifest Subsection Removed" false _ _ (Some a) None c0 (ignore_manifest_subsections o = true) (lit "Manifest Subsection Removed: " ++ s) HC) as (t & T1 & T2);
      [tauto|unfold sec_name; rewrite (ML _ _ EA); reflexivity|exists t; split; [|exact T2]; exists a; split; [reflexivity|exact T1]]. }
  destruct (Forall2_shows o _ (fun s p => exists b, dget (m_subs r) s = Some b /\
      lone "ManifestSectionAdded" "Manifest Subsection Added" true (lit "Manifest Subsection Added: " ++ s) None (ignore_manifest_subsections o = true) None (Some (section_shown b)) None p) new kn HN) as (tn & TN1 & TN2).
  { intros s c0 Hs HC. apply W2 in Hs as [S1 S2]. apply key_in_iff in S1. destruct (dget (m_subs r) s) as [a|] eqn:EA; [|congruence]. rewrite (sub_of_get _ _ _ EA) in HC. unfold section_added in HC.
    destruct (lone_section o "ManifestSectionAdded" "Manifest Subsection Added" true _ _ None (Some a) c0 (ignore_manifest_subsections o = true) (lit "Manifest Subsection Added: " ++ s) HC) as (t & T1 & T2);
      [tauto|unfold sec_name; rewrite (MR _ _ EA); reflexivity|exists t; split; [|exact T2]; exists a; split; [reflexivity|exact T1]]. }
  set (kids := cm :: kb ++ kg ++ kn) in *.
  edestruct (over_shows o (Node (mkcls (lit nm) (lit lb) false false false None own true CheckParts true false false None None None [] no_data no_data) (existsb is_change kids) None kids (manifest_parts order l r)) (own o) kids (tm :: tb ++ tg ++ tn)
    nm lb None (lit lb ++ lit " changed") (stays lb) hidden False) as (t & T1 & T2).
  - reflexivity.
  - cbn [is_change k_always orb]. reflexivity.
  - reflexivity.
  - exact HO.
  - cbn [k_of k_parts]. split; [discriminate|contradiction].
  - unfold get_description. cbn [k_text k_label]. destruct (is_change _); reflexivity.
  - repeat split; reflexivity.
  - apply Forall2_cons; [exact M2|]. apply Forall2_app; [exact TB2|]. now apply Forall2_app.
  - exists t. split; [|exact T2]. exists both, gone, new, tm, tb, tg, tn.
    split; [exact B1|]. split; [intro s; rewrite B2, key_in_iff, key_mem_iff; tauto|]. split; [exact G1|]. split; [intro s; rewrite G2, key_in_iff, key_not_iff; tauto|].
    split; [exact W1|]. split; [intro s; rewrite W2, key_in_iff, key_not_iff; tauto|]. split; [exact M1|]. split; [exact TB1|]. split; [exact TG1|]. split; [exact TN1|exact T1].
Qed.
End Manifests.

(** The JSON document of jardiff: entries and the whole. *)
From Verif Require Import Base Pack_Model ConstPool_Model ClassFile_Model Manifest_Model Change_Model Change_Spec Change_Proofs Change_Report Classdiff_Model Classdiff_Class Html_Values
  Jardiff_Model Jardiff_Spec Jardiff_Proofs Jardiff_Jar Text_Spec Text_Proofs Text_Class Jtext_Spec Jtext_Proofs Jtext_Jar Doc_Spec Doc_Proofs Doc_Class Jdoc_Spec Jdoc_Proofs.
From Verif Require Zip_Model Sign_Model.
From Verif Require Import Zip_Spec.
From Coq Require Import Permutation.

(** ** Entries *)
Lemma lone_shows o cl lb (added : bool) own parts e c hidden : check (jar_node (lit cl) (lit lb) true added (negb added) own parts true None e) = Ok c -> (own o = true <-> hidden) ->
  exists t, lone cl lb added (lit lb ++ lit ": " ++ e) (entry_name e) hidden None None (Some []) t /\ shows o c t.
Proof.
  intros HC HO. unfold jar_node in HC. apply check_parts in HC as (ks & ks' & HK & HF & ->); [|reflexivity]. cbn [collect_in pick k_super negb k_incheck andb k_gate k_always orb k_raises] in HK. apply ok_inj in HK. subst ks. inversion HF; subst.
  cbn [existsb]. match goal with |- context[shows o ?x _] => set (c := x) end.
  assert (HI : is_ignored o c = Ok (own o)) by (unfold c; rewrite is_ignored_eq; cbn [k_own]; destruct (own o); [reflexivity|]; cbn [k_parts]; destruct parts; reflexivity).
  assert (HD : get_description c = Ok (lit lb ++ lit ": " ++ e)) by reflexivity.
  exists (standing_of true (own o), fun j => j = J (lit cl) true (lit lb ++ lit ": " ++ e) (lit lb) (own o) added (negb added) (entry_name e) None None None (Some [])). split.
  - unfold standing_of. destruct (own o); [apply lone_aside; now apply HO|apply lone_told; intro X; apply HO in X; discriminate X].
  - split; [exists (own o); split; [exact HI|reflexivity]|]. intros j HJ. unfold c in HJ. rewrite json_of_eq in HJ. fold c in HJ. cbv zeta in HJ. rewrite HI, HD in HJ. cbn [rbind k_old k_new k_super no_data] in HJ.
    unfold no_data in HJ. cbn [rbind] in HJ. assert (HK : collect c = Ok []) by reflexivity. rewrite HK in HJ. cbn [rbind mapM combine filter map] in HJ. apply ok_inj in HJ. subst j. unfold c. cbn [k_name k_label k_addition k_removal k_entry k_orig is_change k_always orb]. destruct e; reflexivity.
Qed.
Lemma same_shows o cl lb own parts sub e c hidden : check (jar_node (lit cl) (lit lb) false false false own parts false sub e) = Ok c -> (own o = true <-> hidden) ->
  exists ign, (ign = true <-> hidden) /\ shows o c (Same, parent o cl lb (lit lb ++ lit " is unchanged: " ++ e) false ign (entry_name e) []).
Proof.
  intros HC HO. unfold jar_node in HC. apply check_parts in HC as (ks & ks' & HK & HF & ->); [|reflexivity]. cbn [collect_in pick k_super negb k_incheck andb k_gate k_always orb] in HK. apply ok_inj in HK. subst ks. inversion HF; subst.
  cbn [existsb]. match goal with |- context[shows o ?x _] => set (c := x) end.
  assert (HI : is_ignored o c = Ok (own o)) by (unfold c; rewrite is_ignored_eq; cbn [k_own]; destruct (own o); [reflexivity|]; cbn [k_parts]; destruct parts; reflexivity).
  exists (own o). split; [exact HO|]. split; [exists (own o); split; [exact HI|reflexivity]|]. intros j HJ.
  refine (parent_shows o c (own o) (lit lb ++ lit " is unchanged: " ++ e) cl lb (entry_name e) [] [] j _ HI eq_refl eq_refl (Forall2_nil _) HJ). unfold plain_super. repeat split. now destruct e.
Qed.
Lemma diff_shows o cl lb own parts sub e c hidden counts : check (jar_node (lit cl) (lit lb) false false false own parts true (Some sub) e) = Ok c -> (own o = true <-> hidden) -> (parts = false <-> counts) ->
  exists s c', sub = Ok s /\ check s = Ok c' /\ forall p, shows o c' p ->
    exists t, over_doc o cl lb (lit lb ++ lit " has changed: " ++ e) (lit lb ++ lit " is unchanged: " ++ e) (entry_name e) hidden counts [p] t /\ shows o c t.
Proof.
  intros HC HO HP. destruct (proj1 (differs_completes _ _ _ _ own parts e sub) (ex_intro _ c HC)) as (s & -> & c' & Hc'). exists s, c'. split; [reflexivity|]. split; [exact Hc'|]. intros p Hp.
  rewrite (differs_check _ _ _ _ own parts e s c' Hc') in HC. unfold jar_node in HC. cbv iota in HC. apply ok_inj in HC. subst c.
  eapply (over_shows o _ (own o) [c'] [p] cl lb (entry_name e) _ _ hidden counts); [reflexivity| |reflexivity|exact HO|exact HP| | |apply Forall2_cons; [exact Hp|constructor]].
  - cbn [is_change k_always orb existsb]. now rewrite orb_false_r.
  - unfold get_description. cbn [k_text]. cbv beta. destruct (is_change _); reflexivity.
  - unfold plain_super. repeat split. cbn [k_of k_entry]. now destruct e.
Qed.
Lemma data_shows o cl lb tx sh a b c : a <> b -> check (data_node (lit cl) (lit lb) (lit tx) (lit sh) (Zip_Model.PBytes a) (Zip_Model.PBytes b)) = Ok c -> shows o c (opaque cl lb sh tx).
Proof.
  intros HN HC. unfold data_node in HC. cbn [check k_check Zip_Model.peqb] in HC. destruct (seqb_spec a b); [contradiction|]. cbn [rbind] in HC. apply ok_inj in HC. subst c.
  match goal with |- shows o ?x _ => set (c := x) end. split; [exists false; split; reflexivity|]. intros j HJ.
  refine (single_shows o c cl lb (fun x y => x = Some (OStr (lit sh)) /\ y = Some (OStr (lit sh))) false (lit tx) j _ _ eq_refl eq_refl HJ); [repeat split; reflexivity|].
  intros x y Hx Hy. apply ok_inj in Hx. apply ok_inj in Hy. subst x y. now split.
Qed.

Section Jars.
Variable fmt : pyval -> str.
Variable reprs : str -> str.
Variable ffmt : pyval -> str.
Variable text : bytes -> res str.
Variable order : list str -> list str.
Variable up : Z -> str.
Hypothesis order_perm : forall s, Permutation (order s) s.
Variables l r : Zip_Model.archive.
Hypothesis Kl : Zip_Model.a_kind l = Zip_Model.Zip.
Hypothesis Kr : Zip_Model.a_kind r = Zip_Model.Zip.
Hypothesis Ol : Zip_Model.a_open l = true.
Hypothesis Or : Zip_Model.a_open r = true.
Hypothesis Sl : Forall sound (Zip_Model.a_entries l).
Hypothesis Sr : Forall sound (Zip_Model.a_entries r).
Notation event := (jar_event fmt reprs ffmt text order up l r).

Ltac names_of n := destruct (is_sigfile up n) eqn:Ef; [|destruct (is_sigblock up n) eqn:Eb; [|destruct (is_classfile n) eqn:Ec]].
Variable o : options.
Hypothesis HK : classes_known fmt up l r.
Lemma entry_shows evs x e c : classified evs l r -> In (x, e) evs -> check (event (x, e)) = Ok c -> exists t, entry_doc fmt reprs ffmt up o l r x e t /\ shows o c t.
Proof.
  intros [_ HC] Hin HX. destruct (HC e) as (_ & _ & _ & C4). clear HC.
  assert (HF := is_sigfile_iff up e). assert (HB := is_sigblock_iff up e). assert (HC := is_classfile_iff e). assert (HM := manifest_is_sigfree e). assert (HE := entry_own_iff o e).
  assert (NF := not_true _ _ HF). assert (NB := not_true _ _ HB). assert (NC := not_true _ _ HC). assert (NM := not_true _ _ HM).
  destruct x; cbn [jar_event] in HX.
  - names_of e.
    + destruct (lone_shows o (kind_class KSigRemoved) (kind_label KSigRemoved) false _ _ _ _ (entry_hidden o KSigRemoved e) HX) as (t & T1 & T2); [unfold entry_hidden, of_signature; tauto|]. exists t. split; [|exact T2]. apply (edoc_removed fmt reprs ffmt up o l r _ _ KSigRemoved); [reflexivity|unfold is_kind; tauto|exact T1].
    + destruct (lone_shows o (kind_class KBlockRemoved) (kind_label KBlockRemoved) false _ _ _ _ (entry_hidden o KBlockRemoved e) HX) as (t & T1 & T2); [unfold entry_hidden, of_signature; tauto|]. exists t. split; [|exact T2]. apply (edoc_removed fmt reprs ffmt up o l r _ _ KBlockRemoved); [reflexivity|unfold is_kind; tauto|exact T1].
    + destruct (lone_shows o (kind_class KClassRemoved) (kind_label KClassRemoved) false _ _ _ _ (entry_hidden o KClassRemoved e) HX) as (t & T1 & T2); [unfold entry_hidden, of_signature; tauto|]. exists t. split; [|exact T2]. apply (edoc_removed fmt reprs ffmt up o l r _ _ KClassRemoved); [reflexivity|unfold is_kind, signature; tauto|exact T1].
    + destruct (lone_shows o (kind_class KRemoved) (kind_label KRemoved) false _ _ _ _ (entry_hidden o KRemoved e) HX) as (t & T1 & T2); [unfold entry_hidden, of_signature; tauto|]. exists t. split; [|exact T2]. apply (edoc_removed fmt reprs ffmt up o l r _ _ KRemoved); [reflexivity|unfold is_kind, other, signature; tauto|exact T1].
  - names_of e.
    + destruct (lone_shows o (kind_class KSigAdded) (kind_label KSigAdded) true _ _ _ _ (entry_hidden o KSigAdded e) HX) as (t & T1 & T2); [unfold entry_hidden, of_signature; tauto|]. exists t. split; [|exact T2]. apply (edoc_added fmt reprs ffmt up o l r _ _ KSigAdded); [reflexivity|unfold is_kind; tauto|exact T1].
    + destruct (lone_shows o (kind_class KBlockAdded) (kind_label KBlockAdded) true _ _ _ _ (entry_hidden o KBlockAdded e) HX) as (t & T1 & T2); [unfold entry_hidden, of_signature; tauto|]. exists t. split; [|exact T2]. apply (edoc_added fmt reprs ffmt up o l r _ _ KBlockAdded); [reflexivity|unfold is_kind; tauto|exact T1].
    + destruct (lone_shows o (kind_class KClassAdded) (kind_label KClassAdded) true _ _ _ _ (entry_hidden o KClassAdded e) HX) as (t & T1 & T2); [unfold entry_hidden, of_signature; tauto|]. exists t. split; [|exact T2]. apply (edoc_added fmt reprs ffmt up o l r _ _ KClassAdded); [reflexivity|unfold is_kind, signature; tauto|exact T1].
    + destruct (lone_shows o (kind_class KAdded) (kind_label KAdded) true _ _ _ _ (entry_hidden o KAdded e) HX) as (t & T1 & T2); [unfold entry_hidden, of_signature; tauto|]. exists t. split; [|exact T2]. apply (edoc_added fmt reprs ffmt up o l r _ _ KAdded); [reflexivity|unfold is_kind, other, signature; tauto|exact T1].
  - apply C4 in Hin as (D0 & a & b & Ca & Cb & Hab). assert (Ra := read_content text l e a Kl Ol Ca). assert (Rb := read_content text r e b Kr Or Cb). specialize (HK e a b D0 Ca Cb Hab).
    destruct (seqb e Sign_Model.MANIFEST_NAME) eqn:Em; [|names_of e].
    + edestruct (diff_shows o (kind_class KManifest) (kind_label KManifest) _ _ _ _ _ (entry_hidden o KManifest e) (of_signature KManifest) HX) as (s & c' & ES & EC & HT); [unfold entry_hidden, of_signature; tauto|cbn; split; [discriminate|contradiction]|].
      apply (manifest_sub_iff text l r e a b Ra Rb) in ES as (ma & mb & Pa & Pb & ->).
      destruct (manifest_shows order order_perm o "ManifestChange" "Manifest" _ (ignore_manifest o = true) ma mb c' (parsed_named _ _ Pa) (parsed_named _ _ Pb) (iff_refl _) EC) as (p & P1 & P2).
      destruct (HT p P2) as (t & T1 & T2). exists t. split; [|exact T2]. apply (edoc_both fmt reprs ffmt up o l r _ _ KManifest a b p); [reflexivity|unfold is_kind; tauto|exact Ca|exact Cb|exact (idoc_manifest _ _ _ _ _ _ _ _ _ Pa Pb P1)|exact T1].
    + edestruct (diff_shows o (kind_class KSigFile) (kind_label KSigFile) _ _ _ _ _ (entry_hidden o KSigFile e) (of_signature KSigFile) HX) as (s & c' & ES & EC & HT); [unfold entry_hidden, of_signature; tauto|cbn; tauto|].
      apply (manifest_sub_iff text l r e a b Ra Rb) in ES as (ma & mb & Pa & Pb & ->).
      destruct (manifest_shows order order_perm o "SignatureManifestChange" "Signature File" _ (ignore_jar_signature o = true) ma mb c' (parsed_named _ _ Pa) (parsed_named _ _ Pb) (iff_refl _) EC) as (p & P1 & P2).
      destruct (HT p P2) as (t & T1 & T2). exists t. split; [|exact T2]. apply (edoc_both fmt reprs ffmt up o l r _ _ KSigFile a b p); [reflexivity|unfold is_kind; tauto|exact Ca|exact Cb|exact (idoc_sigfile _ _ _ _ _ _ _ _ _ Pa Pb P1)|exact T1].
    + edestruct (diff_shows o (kind_class KBlock) (kind_label KBlock) _ _ _ _ _ (entry_hidden o KBlock e) (of_signature KBlock) HX) as (s & c' & ES & EC & HT); [unfold entry_hidden, of_signature; tauto|cbn; tauto|].
      rewrite (data_sub_eq text l r e a b Ra Rb) in ES. apply ok_inj in ES. subst s. destruct (HT _ (data_shows o "SignatureBlockFileChange" "Signature Block File" "[binary data change]" "[binary data]" a b c' Hab EC)) as (t & T1 & T2). exists t. split; [|exact T2].
      eapply (edoc_both fmt reprs ffmt up o l r _ _ KBlock a b); [reflexivity|unfold is_kind; tauto|exact Ca|exact Cb|apply idoc_block|exact T1].
    + edestruct (diff_shows o (kind_class KClass) (kind_label KClass) _ _ _ _ _ (entry_hidden o KClass e) (of_signature KClass) HX) as (s & c' & ES & EC & HT); [unfold entry_hidden, of_signature; tauto|cbn; split; [discriminate|contradiction]|].
      apply (class_sub_iff fmt reprs ffmt text l r e a b Ra Rb) in ES as (ca & cb & Ua & Ub & ->).
      destruct (HK ltac:(tauto) ltac:(unfold signature; tauto) ltac:(tauto) ca cb Ua Ub) as [[A HA] [B HB']].
      destruct (document_of fmt reprs ffmt o ca cb c' A B HA HB' EC) as (p & P1 & P2).
      destruct (HT p P2) as (t & T1 & T2). exists t. split; [|exact T2]. apply (edoc_both fmt reprs ffmt up o l r _ _ KClass a b p); [reflexivity|unfold is_kind, signature; tauto|exact Ca|exact Cb|exact (idoc_class _ _ _ _ _ _ _ _ _ Ua Ub P1)|exact T1].
    + edestruct (diff_shows o (kind_class KData) (kind_label KData) _ _ _ _ _ (entry_hidden o KData e) (of_signature KData) HX) as (s & c' & ES & EC & HT); [unfold entry_hidden, of_signature; tauto|cbn; split; [discriminate|contradiction]|].
      rewrite (data_sub_eq text l r e a b Ra Rb) in ES. apply ok_inj in ES. subst s. destruct (HT _ (data_shows o "GenericFileChange" "Generic File" "[generic file change]" "[data]" a b c' Hab EC)) as (t & T1 & T2). exists t. split; [|exact T2].
      eapply (edoc_both fmt reprs ffmt up o l r _ _ KData a b); [reflexivity|unfold is_kind, other, signature; tauto|exact Ca|exact Cb|apply idoc_data|exact T1].
  - destruct (seqb e Sign_Model.MANIFEST_NAME) eqn:Em; [|names_of e].
    + destruct (same_shows o (kind_class KManifest) (kind_label KManifest) _ _ _ _ _ (entry_hidden o KManifest e) HX) as (ign & I1 & I2); [unfold entry_hidden, of_signature; tauto|]. eexists. split; [|exact I2].
      apply (edoc_same fmt reprs ffmt up o l r _ _ KManifest); [reflexivity|unfold is_kind, other, signature; tauto|exact I1].
    + destruct (same_shows o (kind_class KSigFile) (kind_label KSigFile) _ _ _ _ _ (entry_hidden o KSigFile e) HX) as (ign & I1 & I2); [unfold entry_hidden, of_signature; tauto|]. eexists. split; [|exact I2].
      apply (edoc_same fmt reprs ffmt up o l r _ _ KSigFile); [reflexivity|unfold is_kind, other, signature; tauto|exact I1].
    + destruct (same_shows o (kind_class KBlock) (kind_label KBlock) _ _ _ _ _ (entry_hidden o KBlock e) HX) as (ign & I1 & I2); [unfold entry_hidden, of_signature; tauto|]. eexists. split; [|exact I2].
      apply (edoc_same fmt reprs ffmt up o l r _ _ KBlock); [reflexivity|unfold is_kind, other, signature; tauto|exact I1].
    + destruct (same_shows o (kind_class KClass) (kind_label KClass) _ _ _ _ _ (entry_hidden o KClass e) HX) as (ign & I1 & I2); [unfold entry_hidden, of_signature; tauto|]. eexists. split; [|exact I2].
      apply (edoc_same fmt reprs ffmt up o l r _ _ KClass); [reflexivity|unfold is_kind, other, signature; tauto|exact I1].
    + destruct (same_shows o (kind_class KContent) (kind_label KContent) _ _ _ _ _ (entry_hidden o KContent e) HX) as (ign & I1 & I2); [unfold entry_hidden, of_signature; tauto|]. eexists. split; [|exact I2].
      apply (edoc_same fmt reprs ffmt up o l r _ _ KContent); [reflexivity|unfold is_kind, other, signature; tauto|exact I1].
Qed.

(** ** The whole *)
Theorem jar_document c : check (jar_change fmt reprs ffmt text order up (Ok l) (Ok r)) = Ok c ->
  exists t, jar_piece fmt reprs ffmt up o l r t /\ shows o c t.
Proof.
  intros HC. unfold jar_change in HC. destruct (super_shows o _ _ _ _ _ _ (lit "JAR changed") (stays "JAR") HC (conj eq_refl eq_refl)) as (kids & HF & HT).
  inversion HF as [|? ct ? kids1 HTY HF1]; subst. inversion HF1 as [|? cc ? kids2 HCO HF2]; subst. inversion HF2; subst. clear HF HF1 HF2.
  assert (T1 : shows o ct type_piece).
  { destruct (leaf_shows o "JarTypeChange" "Jar type" _ _ _ _ _ _ _ _ ct (jar_type_name (Ok l)) (jar_type_name (Ok r)) True False (fun x y => x = Some (OStr (lit "zipped JAR file")) /\ y = Some (OStr (lit "zipped JAR file"))) HTY eq_refl eq_refl) as (t & E & T).
    - intros x y Hx Hy. unfold jar_type_name, is_exploded in Hx, Hy. rewrite Kl in Hx. rewrite Kr in Hy. apply ok_inj in Hx. apply ok_inj in Hy. subst x y. now split.
    - fold (jar_type (Ok l) (Ok r)). split; [auto|intros _]. eexists. split; [exact HTY|]. revert HTY. unfold jar_type, leaf_text, leaf, generic_check, pure2. cbn [check k_check rbind].
      rewrite (type_same l r Kl Kr). rewrite Bool.eqb_reflx. intro H. apply ok_inj in H. subst ct. reflexivity.
    - apply never_hidden.
    - inversion E as [N|N|ign N I0]; subst; try (exfalso; exact (N I)). destruct ign; [destruct (proj1 I0 eq_refl)|]. exact T. }
  destruct (events_ok text order order_perm l r Kl Kr Ol Or Sl Sr) as (evs & EV & CL).
  unfold jar_contents in HCO. apply check_parts in HCO as (ks & ks' & HK' & HF & ->); [|reflexivity].
  cbn [collect_in pick contents_cls k_super negb k_incheck andb k_gate k_raises] in HK'. rewrite EV in HK'. apply ok_inj in HK'. subst ks. unfold jar_entries in HF. rewrite EV in HF.
  destruct (entries_grouped fmt reprs ffmt text order up l r evs CL) as (groups & G1 & G2 & G3). rewrite G3 in HF.
  destruct (Forall2_shows o _ (fun xe => entry_doc fmt reprs ffmt up o l r (fst xe) (snd xe)) _ _ HF) as (ts & S1 & S2); [intros [x e] c0 Hx HX; exact (entry_shows _ x e c0 G2 Hx HX)|].
  match type of HT with forall ts, Forall2 _ [_; ?x] ts -> _ => set (cc := x) in * end.
  assert (T2 : shows o cc (plain_group o "JarContentsChange" "JAR Contents" ts)).
  { destruct (together_shows o ks' ts S2) as [HB HG]. destruct (all_ignored_spec o ks' HB) as (b & Hb & _). rewrite Hb in HG. unfold plain_group, group. rewrite HG. destruct ks' as [|k0 ks'].
    - split; [exists false; split; reflexivity|]. intros j HJ. exfalso. unfold cc in HJ. rewrite json_of_eq in HJ. fold cc in HJ. cbv zeta in HJ. assert (E1 : get_description cc = Ok (stays "JAR Contents")) by reflexivity. assert (E2 : is_ignored o cc = Ok false) by reflexivity.
      assert (E3 : collect cc = Err AssertionError) by reflexivity. rewrite E1, E2, E3 in HJ. discriminate HJ.
    - set (kk := k0 :: ks') in *. assert (HCC : collect cc = Ok kk) by reflexivity.
      assert (HCH : is_change cc = existsb is_change kk) by reflexivity.
      assert (HI : is_ignored o cc = Ok (if existsb is_change kk then b else false)).
      { unfold cc. rewrite is_ignored_eq. fold cc. rewrite HCC, HCH. cbn [contents_cls k_own never k_parts negb]. destruct (existsb is_change kk); [|reflexivity]. cbn [negb rbind]. exact Hb. }
      assert (HD : get_description cc = Ok (if is_change cc then lit "JAR Contents changed" else stays "JAR Contents")) by (unfold cc, get_description; cbn [contents_cls k_text k_label]; destruct (is_change _); reflexivity).
      assert (HG' : standing_of (existsb is_change kk) b = standing_of (is_change cc) (if existsb is_change kk then b else false)) by (rewrite HCH; destruct (existsb is_change kk); reflexivity). rewrite HG'.
      refine (node_shows o cc _ "JarContentsChange" "JAR Contents" _ _ kk ts HI _ HD HCC _ _ _ _ _ _ _ _ _ S2); try reflexivity. rewrite HCH. intros ->. reflexivity. }
  specialize (HT _ (Forall2_cons _ _ T1 (Forall2_cons _ _ T2 (Forall2_nil _)))). eexists. split; [|exact HT]. exists groups, ts. split; [exact G1|]. split; [exact G2|]. split; [exact S1|reflexivity].
Qed.
End Jars.

(** The JSON document of distdiff. *)
From Verif Require Import Base Pack_Model ConstPool_Model ClassFile_Model Manifest_Model Change_Model Change_Spec Change_Proofs Change_Report Classdiff_Model Classdiff_Class Html_Values Html_Page
  Jardiff_Model Jardiff_Spec Jardiff_Proofs Jardiff_Jar Zip_Spec Text_Spec Text_Proofs Text_Class Jtext_Spec Jtext_Proofs Jtext_Jar
  Dir_Spec Distdiff_Model Distdiff_Spec Distdiff_Proofs Distdiff_Dist Dtext_Model Dtext_Spec Dtext_Proofs Doc_Spec Doc_Proofs Doc_Class Jdoc_Spec Jdoc_Proofs Jdoc_Jar Ddoc_Model Ddoc_Spec.
From Verif Require Zip_Model Dir_Model Dir_Proofs.
From Coq Require Import Permutation.
Import Zip_Model (node, event, LEFT, RIGHT, SAME, DIFF, slashes).

(** ** The whole, whatever its description *)
Lemma described_shows o nm lb f rs kids c h u : check (super nm lb (Some f) rs kids) = Ok c -> (forall b : bool, f b = Ok (if b then h else u)) ->
  exists kids', Forall2 (fun a b => check a = Ok b) kids kids' /\
  forall ps, Forall2 (shows o) kids' ps -> shows o c (group o nm lb h u ps).
Proof.
  intros HC HT. pose proof HC as HC0. apply check_super in HC as (_ & kids' & HF & HK & HO & HX). exists kids'. split; [exact HF|]. intros ps HS.
  destruct (together_shows o kids' ps HS) as [HB HG]. unfold group. rewrite HG, <- HX. destruct (all_ignored_spec o kids' HB) as (b & Hb & _). rewrite Hb.
  destruct c as [k ch d cs im]. cbn [k_of] in HO.
  assert (HD : d = None) by (apply check_parts in HC0; [|reflexivity]; destruct HC0 as (? & ? & _ & _ & E); now injection E). subst d.
  assert (KO : k_own k o = false) by (rewrite HO; reflexivity). assert (KP : k_parts k = true) by (rewrite HO; reflexivity).
  assert (GD : get_description (Node k ch None cs im) = Ok (if is_change (Node k ch None cs im) then h else u)).
  { unfold get_description. generalize (is_change (Node k ch None cs im)). intro ic. rewrite HO. cbn [super k_of k_text k_label]. apply HT. }
  assert (HI : exists ig, is_ignored o (Node k ch None cs im) = Ok ig /\ (is_change (Node k ch None cs im) = false -> ig = false) /\ standing_of (is_change (Node k ch None cs im)) b = standing_of (is_change (Node k ch None cs im)) ig).
  { rewrite is_ignored_eq, KO, KP. cbn [negb]. destruct (is_change (Node k ch None cs im)) eqn:E; cbn [negb]; [|exists false; repeat split].
    rewrite HK. cbn [rbind]. destruct kids' as [|k0 kids']; [discriminate HX|]. exists b. split; [exact Hb|]. split; [discriminate|reflexivity]. }
  destruct HI as (ig & HI & HN & ->). eapply node_shows; [exact HI|exact HN|exact GD|exact HK|..|exact HS]; cbn [k_of]; rewrite HO; reflexivity.
Qed.
(** A file of no special kind with two contents *)
Lemma other_shows o cl lb own parts e c hidden : check (jar_node (lit cl) (lit lb) false false false own parts true None e) = Ok c -> (own o = true <-> hidden) ->
  exists ign, (ign = true <-> hidden) /\ shows o c (Same, parent o cl lb (lit lb ++ lit " is unchanged: " ++ e) false ign (entry_name e) []).
Proof.
  intros HC HO. unfold jar_node in HC. apply check_parts in HC as (ks & ks' & HK & HF & ->); [|reflexivity]. cbn [collect_in pick k_super negb k_incheck andb k_gate k_always orb k_raises] in HK. apply ok_inj in HK. subst ks. inversion HF; subst.
  cbn [existsb]. match goal with |- context[shows o ?x _] => set (c := x) end.
  assert (HI : is_ignored o c = Ok (own o)) by (unfold c; rewrite is_ignored_eq; cbn [k_own]; destruct (own o); [reflexivity|]; cbn [k_parts]; destruct parts; reflexivity).
  exists (own o). split; [exact HO|]. split; [exists (own o); split; [exact HI|reflexivity]|]. intros j HJ.
  refine (parent_shows o c (own o) (lit lb ++ lit " is unchanged: " ++ e) cl lb (entry_name e) [] [] j _ HI eq_refl eq_refl (Forall2_nil _) HJ). unfold plain_super. repeat split. now destruct e.
Qed.

Section Dist.
Variable fmt : pyval -> str.
Variable reprs : str -> str.
Variable ffmt : pyval -> str.
Variable text : bytes -> res str.
Variable order : list str -> list str.
Variable up : Z -> str.
Variable unzip : bytes -> jar.
Hypothesis order_perm : forall s, Permutation (order s) s.
Variables l r : node.
Variable o : options.
Notation event sh := (dist_event fmt reprs ffmt text order up unzip l r sh).

Definition told_text (a b : str) : piece := (Told, single (value "GenericChange" "Generic Change" (OStr a) (OStr b)) true false (turns "Generic Change" a b)).
Lemma text_shows e d d' ch c : read_file l e = Ok d -> read_file r e = Ok d' -> check (dist_text text l r ch e) = Ok c ->
  exists a b, text d = Ok a /\ text d' = Ok b /\
  forall ps, ps = (if seqb a b then [] else [told_text a b]) ->
  exists t, over_doc o "DistTextChange" "Distributed Text" (lit "Distributed Text" ++ lit " has changed: " ++ e) (lit "Distributed Text" ++ lit " is unchanged: " ++ e) (entry_name e) (dhidden text o DText e d d') False ps t /\ shows o c t.
Proof.
  intros Hl Hr HC. destruct (proj1 (text_completes text l r e d d' Hl Hr ch) (ex_intro _ c HC)) as (a & b & Ea & Eb). exists a, b. split; [exact Ea|]. split; [exact Eb|]. intros ps ->.
  assert (ET := proj2 (texts_iff text l r e d d' Hl Hr a b) (conj Ea Eb)). unfold dist_text in HC. cbv zeta in HC. rewrite ET in HC. cbv beta iota in HC.
  apply check_parts in HC as (ks & ks' & HK & HF & ->); [|reflexivity]. cbn [collect_in pick k_super negb k_incheck andb k_gate k_raises] in HK. apply ok_inj in HK. subst ks.
  assert (HT : Forall2 (shows o) ks' (if seqb a b then [] else [told_text a b])).
  { destruct (seqb a b) eqn:E; inversion HF as [|? k ? ? HX HY]; subst; [constructor|]. inversion HY; subst. constructor; [|constructor].
    destruct (leaf_shows o "GenericChange" "Generic Change" _ _ _ _ _ _ _ _ k a b False False (fun x y => x = Some (OStr a) /\ y = Some (OStr b)) HX eq_refl eq_refl) as (t & T & U).
    - intros x y Hx Hy. apply ok_inj in Hx. apply ok_inj in Hy. subst x y. now split.
    - split; [|contradiction]. intros (k' & Hk' & N). unfold text_change in HX. rewrite Hk' in HX. apply ok_inj in HX. subst k'. unfold leaf_text, leaf, generic_check, pure2 in Hk'. cbn [check k_check rbind] in Hk'. rewrite E in Hk'. cbn [rbind] in Hk'. apply ok_inj in Hk'. subst k. discriminate N.
    - apply never_hidden.
    - inversion T as [N H|N H|ig N H]; subst; cbn [may_move s_same s_hidden] in *; first [exact U|exfalso; tauto]. }
  eapply (over_shows o _ _ ks' _ _ _ (entry_name e) _ _ (dhidden text o DText e d d') False); [|reflexivity|reflexivity| | | | |exact HT].
  - cbn [collect pick k_super negb k_incheck andb k_gate k_raises k_always orb]. destruct ks'; [|reflexivity]. inversion HF as [H|]. destruct (seqb a b); [reflexivity|discriminate].
  - cbn [k_of k_own]. unfold dhidden. rewrite orb_true_iff, andb_true_iff, own_iff, trailing_iff. split.
    + intros [H|[H1 H2]]; [now left|right; split; [reflexivity|]; split; [exact H2|]; now exists a, b].
    + intros [H|(_ & H1 & a' & b' & X & Y & H2)]; [now left|right]. rewrite Ea in X. rewrite Eb in Y. injection X as <-. injection Y as <-. auto.
  - cbn [k_of k_parts]. split; [discriminate|contradiction].
  - unfold get_description. cbn [k_text]. cbv beta. destruct (is_change _); reflexivity.
  - unfold plain_super. repeat split. cbn [k_of k_entry]. now destruct e.
Qed.

Variable sh : bool.
Hypothesis Pl : plain l.
Hypothesis Pr : plain r.
Hypothesis Nl : names_ok l.
Hypothesis Nr : names_ok r.
Hypothesis HC : Dir_Spec.comparable l r.
Hypothesis HK : files_readable fmt up unzip sh l r.

Lemma first_root p d : data_at l p d -> p <> [].
Proof. intros H ->. destruct H as (x & m & H). apply Dir_Proofs.comparable_dir in HC as [H1 _]. inversion H; subst. discriminate. Qed.
Lemma second_root p d : data_at r p d -> p <> [].
Proof. intros H ->. destruct H as (x & m & H). apply Dir_Proofs.comparable_dir in HC as [_ H1]. inversion H; subst. discriminate. Qed.
Lemma file_shows x p c : dclass l r x p -> check (event sh (Dir_Spec.written (x, p))) = Ok c ->
  exists t, file_doc fmt reprs ffmt text up unzip o sh l r x p t /\ shows o c t.
Proof.
  intros HD HX. destruct x.
  - assert (E : Dir_Spec.written (LEFT, p) = (LEFT, slashes p)) by (unfold Dir_Spec.written; cbn [fst snd]; now destruct p as [|? [|? ?]]). rewrite E in HX. clear E.
    assert (HO := own_iff o (slashes p)).
    destruct sh eqn:Esh; [|unfold dist_event in HX; cbn [negb andb] in HX; destruct (ends_dec reprs text unzip (slashes p)) as [[[E H]|(E & E' & H)]|(E & E' & H1 & H2)]; rewrite ?E, ?E' in HX].
    + destruct (lone_shows o (dkind_class DRemoved) (dkind_label DRemoved) false _ _ _ c (fmatched o (slashes p)) HX HO) as (t & T & U). exists t. split; [|exact U]. apply (fdoc_removed _ _ _ _ _ _ _ _ _ _ _ _ DRemoved); [reflexivity| |exact T]. cbn [is_dkind]. split; [reflexivity|]. split; intros [X _]; discriminate X.
    + destruct (lone_shows o (dkind_class DJarRemoved) (dkind_label DJarRemoved) false _ _ _ c (fmatched o (slashes p)) HX HO) as (t & T & U). exists t. split; [|exact U]. apply (fdoc_removed _ _ _ _ _ _ _ _ _ _ _ _ DJarRemoved); [reflexivity|cbn [is_dkind]; tauto|exact T].
    + destruct (lone_shows o (dkind_class DClassRemoved) (dkind_label DClassRemoved) false _ _ _ c (fmatched o (slashes p)) HX HO) as (t & T & U). exists t. split; [|exact U]. apply (fdoc_removed _ _ _ _ _ _ _ _ _ _ _ _ DClassRemoved); [reflexivity|cbn [is_dkind]; tauto|exact T].
    + destruct (lone_shows o (dkind_class DRemoved) (dkind_label DRemoved) false _ _ _ c (fmatched o (slashes p)) HX HO) as (t & T & U). exists t. split; [|exact U]. apply (fdoc_removed _ _ _ _ _ _ _ _ _ _ _ _ DRemoved); [reflexivity|cbn [is_dkind]; tauto|exact T].
  - assert (E : Dir_Spec.written (RIGHT, p) = (RIGHT, slashes p)) by (unfold Dir_Spec.written; cbn [fst snd]; now destruct p as [|? [|? ?]]). rewrite E in HX. clear E.
    assert (HO := own_iff o (slashes p)).
    destruct sh eqn:Esh; [|unfold dist_event in HX; cbn [negb andb] in HX; destruct (ends_dec reprs text unzip (slashes p)) as [[[E H]|(E & E' & H)]|(E & E' & H1 & H2)]; rewrite ?E, ?E' in HX].
    + destruct (lone_shows o (dkind_class DAdded) (dkind_label DAdded) true _ _ _ c (fmatched o (slashes p)) HX HO) as (t & T & U). exists t. split; [|exact U]. apply (fdoc_added _ _ _ _ _ _ _ _ _ _ _ _ DAdded); [reflexivity| |exact T]. cbn [is_dkind]. split; [reflexivity|]. split; intros [X _]; discriminate X.
    + destruct (lone_shows o (dkind_class DJarAdded) (dkind_label DJarAdded) true _ _ _ c (fmatched o (slashes p)) HX HO) as (t & T & U). exists t. split; [|exact U]. apply (fdoc_added _ _ _ _ _ _ _ _ _ _ _ _ DJarAdded); [reflexivity|cbn [is_dkind]; tauto|exact T].
    + destruct (lone_shows o (dkind_class DClassAdded) (dkind_label DClassAdded) true _ _ _ c (fmatched o (slashes p)) HX HO) as (t & T & U). exists t. split; [|exact U]. apply (fdoc_added _ _ _ _ _ _ _ _ _ _ _ _ DClassAdded); [reflexivity|cbn [is_dkind]; tauto|exact T].
    + destruct (lone_shows o (dkind_class DAdded) (dkind_label DAdded) true _ _ _ c (fmatched o (slashes p)) HX HO) as (t & T & U). exists t. split; [|exact U]. apply (fdoc_added _ _ _ _ _ _ _ _ _ _ _ _ DAdded); [reflexivity|cbn [is_dkind]; tauto|exact T].
  - destruct HD as (d & d' & D1 & D2 & DN). assert (E : Dir_Spec.written (DIFF, p) = (DIFF, name_of p)) by (unfold Dir_Spec.written; cbn [fst snd]; now destruct p as [|? [|? ?]]). rewrite E in HX. clear E.
    set (e := name_of p) in *. assert (HO := own_iff o e).
    assert (R1 : read_file l e = Ok d) by (apply read_data; [exact Pl|exact Nl|exact (first_root p d D1)|exact D1]).
    assert (R2 : read_file r e = Ok d') by (apply read_data; [exact Pr|exact Nr|exact (second_root p d' D2)|exact D2]).
    destruct sh eqn:Esh.
    + destruct (other_shows o (dkind_class DContent) (dkind_label DContent) _ _ _ c (dhidden text o DContent e d d') HX) as (ign & I1 & I2); [rewrite HO; unfold dhidden; split; [intro X; now left|intros [X|(X & _)]; [exact X|discriminate X]]|]. eexists. split; [|exact I2]. apply (fdoc_same _ _ _ _ _ _ _ _ _ _ _ _ DContent d d'); [now right| |exact (conj D1 D2)|exact I1]. split; [now right|]. intros j [X _]. discriminate X.
    + specialize (HK p d d' D1 D2 DN eq_refl) as [HKC HKJ]. fold e in HKC, HKJ. revert HX.
      assert (HH : forall k, k <> DText -> (dist_own e o = true <-> dhidden text o k e d d')) by (intros k Hk; rewrite HO; unfold dhidden; tauto).
      apply (by_kind fmt reprs ffmt text order up unzip l r e (fun ch => check ch = Ok c -> exists t, file_doc fmt reprs ffmt text up unzip o false l r DIFF p t /\ shows o c t) DIFF true (or_intror eq_refl)); intros HE HX.
      * edestruct (diff_shows o (dkind_class DJar) (dkind_label DJar) _ _ _ _ _ (dhidden text o DJar e d d') False HX) as (s & c' & ES & EC & HT); [apply HH; discriminate|split; [discriminate|contradiction]|].
        unfold dist_jar_sub in ES. rewrite (both_eq l r e d d' R1 R2) in ES. cbn [rbind] in ES. apply ok_inj in ES. subst s.
        destruct (unzip d) as [za|ee] eqn:Ua; [|exfalso; revert EC; unfold jar_change; intro EC; apply check_super in EC as (_ & kids & KF & _); inversion KF as [|? ? ? ? K1 K2]; subst; inversion K2 as [|? ? ? ? K3 K4]; subst; unfold jar_contents in K3; apply check_parts in K3 as (? & ? & K5 & _); [|reflexivity]; discriminate K5].
        destruct (unzip d') as [zb|ee] eqn:Ub; [|exfalso; revert EC; unfold jar_change; intro EC; apply check_super in EC as (_ & kids & KF & _); inversion KF as [|? ? ? ? K1 K2]; subst; inversion K2 as [|? ? ? ? K3 K4]; subst; unfold jar_contents in K3; apply check_parts in K3 as (? & ? & K5 & _); [|reflexivity]; discriminate K5].
        destruct (HKJ HE za zb eq_refl eq_refl) as [(A1 & A2 & A3) (B1 & B2 & B3) JC].
        destruct (jar_document fmt reprs ffmt text order up order_perm za zb A1 B1 A2 B2 A3 B3 o JC c' EC) as (pc & P1 & P2).
        destruct (HT pc P2) as (t & T1 & T2). exists t. split; [|exact T2]. apply (fdoc_both _ _ _ _ _ _ _ _ _ _ _ _ DJar d d' [pc]); [reflexivity|cbn [is_dkind]; tauto|exact (conj D1 D2)|exact (ddoc_jar _ _ _ _ _ _ _ _ _ _ _ _ Ua Ub P1)|exact T1].
      * edestruct (diff_shows o (dkind_class DClass) (dkind_label DClass) _ _ _ _ _ (dhidden text o DClass e d d') False HX) as (s & c' & ES & EC & HT); [apply HH; discriminate|split; [discriminate|contradiction]|].
        apply (class_sub_eq fmt reprs ffmt l r e d d' R1 R2) in ES as (ca & cb & Ua & Ub & ->). destruct (HKC HE ca cb Ua Ub) as [[A HA] [B HB]].
        destruct (document_of fmt reprs ffmt o ca cb c' A B HA HB EC) as (pc & P1 & P2).
        destruct (HT pc P2) as (t & T1 & T2). exists t. split; [|exact T2]. apply (fdoc_both _ _ _ _ _ _ _ _ _ _ _ _ DClass d d' [pc]); [reflexivity|cbn [is_dkind]; tauto|exact (conj D1 D2)|exact (ddoc_class _ _ _ _ _ _ _ _ _ _ _ _ Ua Ub P1)|exact T1].
      * destruct (text_shows e d d' true c R1 R2 HX) as (a & b & Ea & Eb & HT). destruct (HT _ eq_refl) as (t & T1 & T2). exists t. split; [|exact T2].
        eapply (fdoc_both _ _ _ _ _ _ _ _ _ _ _ _ DText d d'); [reflexivity|cbn [is_dkind]; tauto|exact (conj D1 D2)| |exact T1]. destruct (seqb_spec a b) as [Eab|Nab]; [subst b; now apply ddoc_equal with (l := a)|now apply ddoc_text].
      * edestruct (diff_shows o (dkind_class DManifest) (dkind_label DManifest) _ _ _ _ _ (dhidden text o DManifest e d d') False HX) as (s & c' & ES & EC & HT); [apply HH; discriminate|split; [discriminate|contradiction]|].
        apply (manifest_sub_eq order l r e d d' R1 R2) in ES as (ma & mb & Pa & Pb & ->).
        destruct (manifest_shows order order_perm o "ManifestChange" "Manifest" _ (ignore_manifest o = true) ma mb c' (parsed_named _ _ Pa) (parsed_named _ _ Pb) (iff_refl _) EC) as (pc & P1 & P2).
        destruct (HT pc P2) as (t & T1 & T2). exists t. split; [|exact T2]. apply (fdoc_both _ _ _ _ _ _ _ _ _ _ _ _ DManifest d d' [pc]); [reflexivity|cbn [is_dkind]; tauto|exact (conj D1 D2)|exact (ddoc_manifest _ _ _ _ _ _ _ _ _ _ _ _ Pa Pb P1)|exact T1].
      * destruct (other_shows o (dkind_class DContent) (dkind_label DContent) _ _ _ c (dhidden text o DContent e d d') HX) as (ign & I1 & I2); [apply HH; discriminate|]. eexists. split; [|exact I2]. apply (fdoc_same _ _ _ _ _ _ _ _ _ _ _ _ DContent d d'); [now right| |exact (conj D1 D2)|exact I1]. split; [now right|]. intros j [_ X]. exact (HE j X).
  - destruct HD as (d & D1 & D2). assert (E : Dir_Spec.written (SAME, p) = (SAME, name_of p)) by (unfold Dir_Spec.written; cbn [fst snd]; now destruct p as [|? [|? ?]]). rewrite E in HX. clear E.
    set (e := name_of p) in *. assert (HO := own_iff o e).
    assert (HH : forall k, k <> DText -> (dist_own e o = true <-> dhidden text o k e d d)) by (intros k Hk; rewrite HO; unfold dhidden; tauto).
    assert (R1 : read_file l e = Ok d) by (apply read_data; [exact Pl|exact Nl|exact (first_root p d D1)|exact D1]).
    assert (R2 : read_file r e = Ok d) by (apply read_data; [exact Pr|exact Nr|exact (second_root p d D2)|exact D2]).
    destruct sh eqn:Esh.
    + destruct (same_shows o (dkind_class DContent) (dkind_label DContent) (dist_own e) true None e c (dhidden text o DContent e d d) HX) as (ign & I1 & I2); [apply HH; discriminate|]. eexists. split; [|exact I2]. apply (fdoc_same _ _ _ _ _ _ _ _ _ _ _ _ DContent d d); [now left| |exact (conj D1 D2)|exact I1]. split; [now left|]. intros j [X _]. discriminate X.
    + revert HX. apply (by_kind fmt reprs ffmt text order up unzip l r e (fun ch => check ch = Ok c -> exists t, file_doc fmt reprs ffmt text up unzip o false l r SAME p t /\ shows o c t) SAME false (or_introl eq_refl)); intros HE HX.
      3: { destruct (text_shows e d d false c R1 R2 HX) as (a & b & Ea & Eb & HT). rewrite Ea in Eb. injection Eb as <-. destruct (HT [] ltac:(now rewrite seqb_refl)) as (t & T1 & T2). exists t. split; [|exact T2].
           inversion T1 as [ign X Y|X|X|X]; subst; [|exfalso; now apply X|discriminate X|exfalso; destruct X as [X|[X _]]; discriminate X].
           apply (fdoc_same _ _ _ _ _ _ _ _ _ _ _ _ DText d d ign); [now left|cbn [is_dkind]; tauto|exact (conj D1 D2)|exact Y]. }
      * unfold dist_node in HX. destruct (same_shows o (dkind_class DJar) (dkind_label DJar) _ _ _ _ c (dhidden text o DJar e d d) HX) as (ign & I1 & I2); [apply HH; discriminate|]. eexists. split; [|exact I2]. apply (fdoc_same _ _ _ _ _ _ _ _ _ _ _ _ DJar d d); [now left|cbn [is_dkind]; tauto|exact (conj D1 D2)|exact I1].
      * unfold dist_node in HX. destruct (same_shows o (dkind_class DClass) (dkind_label DClass) _ _ _ _ c (dhidden text o DClass e d d) HX) as (ign & I1 & I2); [apply HH; discriminate|]. eexists. split; [|exact I2]. apply (fdoc_same _ _ _ _ _ _ _ _ _ _ _ _ DClass d d); [now left|cbn [is_dkind]; tauto|exact (conj D1 D2)|exact I1].
      * unfold dist_node in HX. destruct (same_shows o (dkind_class DManifest) (dkind_label DManifest) _ _ _ _ c (dhidden text o DManifest e d d) HX) as (ign & I1 & I2); [apply HH; discriminate|]. eexists. split; [|exact I2]. apply (fdoc_same _ _ _ _ _ _ _ _ _ _ _ _ DManifest d d); [now left|cbn [is_dkind]; tauto|exact (conj D1 D2)|exact I1].
      * unfold dist_node in HX. destruct (same_shows o (dkind_class DContent) (dkind_label DContent) _ _ _ _ c (dhidden text o DContent e d d) HX) as (ign & I1 & I2); [apply HH; discriminate|]. eexists. split; [|exact I2]. apply (fdoc_same _ _ _ _ _ _ _ _ _ _ _ _ DContent d d); [now left|split; [now left|]; intros j [_ X]; exact (HE j X)|exact (conj D1 D2)|exact I1].
Qed.

(** ** The whole *)
Theorem dist_document lname rname j s : distdiff_json fmt reprs ffmt text order up unzip lname rname l r o sh = Ok (j, s) ->
  dist_doc fmt reprs ffmt text up unzip o sh lname rname l r j.
Proof.
  intro HS. unfold distdiff_json in HS. destruct (check _) as [c|] eqn:HX; [|discriminate HS]. cbn [rbind] in HS. destruct (json_of o c) as [j0|] eqn:HJ; [|discriminate HS]. cbn [rbind] in HS. destruct (exit_status o c) as [s0|]; [|discriminate HS]. apply ok_inj in HS. injection HS as -> ->.
  unfold dist_change_at in HX. cbv zeta in HX.
  destruct (described_shows o _ _ _ _ _ _ (lit "Distribution changed from " ++ lname ++ lit " to " ++ rname) (lit "Distribution unchanged from " ++ lname ++ lit " to " ++ rname) HX) as (kids & HF & HT); [intros []; reflexivity|].
  destruct (Dir_Proofs.gen_spec l Pl [] r Pr HC) as (K & EK & NK & HKK & _).
  set (ty := fun ev => k_name (k_of (event sh ev))).
  assert (HL : Forall (fun xp => In (ty (Dir_Spec.written xp)) dist_types) K).
  { apply Forall_forall. intros xp _. unfold ty. destruct (Dir_Spec.written xp) as [x e]. destruct (event_dkind fmt reprs ffmt text order up unzip l r sh x e) as (k & _ & ->). rewrite dist_types_are. apply in_map, all_dkinds. }
  assert (EV : dist_events fmt reprs ffmt text order up unzip l r sh = Ok (map Dir_Spec.written (concat (map (fun t => of_type (fun xp => ty (Dir_Spec.written xp)) t K) dist_types)))).
  { unfold dist_events, Dir_Model.dir_compare. rewrite EK. f_equal. exact (iterate_grouped Dir_Spec.written ty K dist_types dist_types_distinct HL). }
  rewrite EV in HF. set (groups := map (fun t => of_type (fun xp => ty (Dir_Spec.written xp)) t K) dist_types) in *. rewrite map_map in HF.
  assert (GP : Permutation (concat groups) K) by (apply groups_perm; [exact dist_types_distinct|exact HL]).
  assert (GI : forall x p, In (x, p) (concat groups) <-> dclass l r x p) by (intros x p; rewrite <- HKK; split; apply Permutation_in; [exact GP|now apply Permutation_sym]).
  destruct (Forall2_shows o _ (fun xp => file_doc fmt reprs ffmt text up unzip o sh l r (fst xp) (snd xp)) _ _ HF) as (ts & S1 & S2).
  { intros [x p] c0 Hx Hc. apply GI in Hx. exact (file_shows x p c0 Hx Hc). }
  destruct (HT ts S2) as [_ T1].
  exists groups, ts. split; [|split; [|split; [exact GI|split; [exact S1|exact (T1 j HJ)]]]].
  - unfold groups. rewrite dist_types_are, map_map. generalize dkinds. intro ks. induction ks as [|k ks IH]; [constructor|]. cbn [map]. constructor; [|exact IH]. apply Forall_forall. intros xp Hx. unfold of_type in Hx. apply filter_In in Hx as [_ Hx].
    destruct (seqb_spec (ty (Dir_Spec.written xp)) (dkind_type k)) as [E|]; [|discriminate Hx]. unfold ty in E. assert (EF : fst (Dir_Spec.written xp) = fst xp) by reflexivity. destruct (Dir_Spec.written xp) as [x e]. cbn [fst snd] in *. subst x. destruct (event_dkind fmt reprs ffmt text order up unzip l r sh (fst xp) e) as (k' & HK' & E'). rewrite E' in E. apply dkind_type_inj in E. subst k'. exact HK'.
  - eapply Permutation_NoDup; [apply Permutation_map, Permutation_sym, GP|exact NK].
Qed.
End Dist.

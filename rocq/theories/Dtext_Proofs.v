(** The text report of distdiff. *)
From Verif Require Import Base Pack_Model ConstPool_Model ClassFile_Model Manifest_Model Change_Model Change_Spec Change_Proofs Change_Report Classdiff_Model Classdiff_Class Html_Values Html_Page
  Jardiff_Model Jardiff_Spec Jardiff_Proofs Jardiff_Jar Zip_Spec Text_Spec Text_Proofs Text_Class Jtext_Spec Jtext_Proofs Jtext_Jar
  Dir_Spec Distdiff_Model Distdiff_Spec Distdiff_Proofs Distdiff_Dist Dtext_Model Dtext_Spec.
From Verif Require Zip_Model Dir_Model Dir_Proofs.
From Coq Require Import Permutation.
Import Zip_Model (node, event, LEFT, RIGHT, SAME, DIFF, slashes).

(** ** The whole, whatever its description *)
Lemma described_tells o n nm lb f rs kids c h u : check (super nm lb (Some f) rs kids) = Ok c -> (forall b : bool, f b = Ok (if b then h else u)) ->
  exists kids', Forall2 (fun a b => check a = Ok b) kids kids' /\
  forall ts, Forall2 (tells o (S n)) kids' ts -> tells o n c (block_text o n h u ts).
Proof.
  intros HC HT. pose proof HC as HC0. apply check_super in HC as (_ & kids' & HF & HK & HO & HX). exists kids'. split; [exact HF|]. intros ts HS.
  destruct (together_is o (S n) kids' ts HS) as [HB HG]. unfold block_text. rewrite HG, <- HX. destruct (all_ignored_spec o kids' HB) as (b & Hb & _). rewrite Hb.
  destruct c as [k ch d cs im]. cbn [k_of] in HO.
  assert (HD : d = None) by (apply check_parts in HC0; [|reflexivity]; destruct HC0 as (? & ? & _ & _ & E); now injection E). subst d.
  assert (KO : k_own k o = false) by (rewrite HO; reflexivity). assert (KP : k_parts k = true) by (rewrite HO; reflexivity).
  assert (GD : get_description (Node k ch None cs im) = Ok (if is_change (Node k ch None cs im) then h else u)).
  { unfold get_description. generalize (is_change (Node k ch None cs im)). intro ic. rewrite HO. cbn [super k_of k_text k_label]. apply HT. }
  assert (HI : exists ig, is_ignored o (Node k ch None cs im) = Ok ig /\ standing_of (is_change (Node k ch None cs im)) b = standing_of (is_change (Node k ch None cs im)) ig).
  { rewrite is_ignored_eq, KO, KP. cbn [negb]. destruct (is_change (Node k ch None cs im)) eqn:E; cbn [negb]; [|exists false; split; reflexivity].
    rewrite HK. cbn [rbind]. destruct kids' as [|k0 kids']; [discriminate HX|]. exists b. split; [exact Hb|reflexivity]. }
  destruct HI as (ig & HI & ->). exact (node_tells o n _ ig h u kids' ts HI GD HK HS).
Qed.
(** The status does not depend on the description *)
Lemma status_described o nm lb tx tx' rs kids s : (c <- check (super nm lb tx rs kids) ;; exit_status o c) = Ok s ->
  exists c, check (super nm lb tx' rs kids) = Ok c /\ exit_status o c = Ok s.
Proof.
  intro H. destruct (check (super nm lb tx rs kids)) as [c|] eqn:E; [|discriminate H]. cbn [rbind] in H. unfold super in E. apply check_parts in E as (ks & ks' & E1 & E2 & ->); [|reflexivity].
  eexists. split; [unfold super; apply check_parts; [reflexivity|]; exists ks, ks'; split; [exact E1|]; split; [exact E2|reflexivity]|].
  revert H. unfold exit_status. rewrite !is_ignored_eq. cbn [is_change k_always orb k_own k_parts]. intro H. exact H.
Qed.

(** ** Grouping *)
Lemma iterate_grouped {A B} (f : A -> B) (ty : B -> str) xs types : NoDup types -> Forall (fun x => In (ty (f x)) types) xs ->
  iterate_by_type ty (map f xs) types = map f (concat (map (fun t => of_type (fun x => ty (f x)) t xs) types)).
Proof.
  intros HN HL. destruct (iterate_spec ty (map f xs) types) as (P & T & O & _). set (es := iterate_by_type ty (map f xs) types) in *.
  rewrite (sorted_groups ty types HN es (ordered_sorted ty _ _ O)).
  - rewrite (map_ext _ _ T), concat_map, map_map. f_equal. apply map_ext. intro k. unfold of_type. clear. induction xs as [|e evs IH]; [reflexivity|]. cbn [map filter]. destruct (seqb (ty (f e)) k); cbn [map]; [f_equal|]; exact IH.
  - eapply Permutation_Forall; [apply Permutation_sym; exact P|]. apply Forall_map. exact HL.
Qed.
Definition dkind_type (k : dkind) : str :=
  match k with
  | DClassAdded => lit "DistClassAdded" | DClassRemoved => lit "DistClassRemoved" | DClass => lit "DistClassChange"
  | DJarAdded => lit "DistJarAdded" | DJarRemoved => lit "DistJarRemoved" | DJar => lit "DistJarChange"
  | DText => lit "DistTextChange" | DManifest => lit "DistManifestChange"
  | DAdded => lit "DistContentAdded" | DRemoved => lit "DistContentRemoved" | DContent => lit "DistContentChange"
  end.
Lemma dist_types_are : dist_types = map dkind_type dkinds.
Proof. reflexivity. Qed.
Lemma dist_types_distinct : NoDup dist_types.
Proof. unfold dist_types. repeat (apply NoDup_cons; [intro H; repeat (destruct H as [H|H]; [discriminate H|]); destruct H|]). constructor. Qed.
Lemma dkind_type_inj j k : dkind_type j = dkind_type k -> j = k.
Proof. destruct j, k; intro H; reflexivity || discriminate H. Qed.
Lemma all_dkinds k : In k dkinds.
Proof. destruct k; vm_compute; tauto. Qed.

(** ** Entries *)
Lemma data_diff_tells o n nm lb ad re own parts e c : check (jar_node nm lb false ad re own parts true None e) = Ok c ->
  tells o n c (Text_Spec.written o n Same [] (lb ++ lit " is unchanged: " ++ e) []).
Proof.
  intros HC. unfold jar_node in HC. apply check_parts in HC as (ks & ks' & HK & HF & ->); [|reflexivity]. cbn [collect_in pick k_super negb k_incheck andb k_gate k_always orb k_raises] in HK. apply ok_inj in HK. subst ks. inversion HF; subst.
  cbn [existsb]. match goal with |- tells o n ?x _ => set (c := x) end.
  assert (HI : is_ignored o c = Ok (own o)) by (unfold c; rewrite is_ignored_eq; cbn [k_own]; destruct (own o); [reflexivity|]; cbn [k_parts]; destruct parts; reflexivity).
  exact (plain_tells o n c (own o) [] (lb ++ lit " is unchanged: " ++ e) HI eq_refl eq_refl).
Qed.

Section Dist.
Variable fmt : pyval -> str.
Variable reprs : str -> str.
Variable ffmt : pyval -> str.
Variable text : bytes -> res str.
Variable order : list str -> list str.
Variable up : Z -> str.
Variable unzip : bytes -> jar.
Hypothesis order_perm : forall s, Permutation (order s) s.
Variables l r : node.
Variable o : options.
Notation event sh := (dist_event fmt reprs ffmt text order up unzip l r sh).

Lemma text_tells n e d d' ch c : read_file l e = Ok d -> read_file r e = Ok d' -> check (dist_text text l r ch e) = Ok c ->
  exists a b, text d = Ok a /\ text d' = Ok b /\
  forall ps, ps = (if seqb a b then [] else [Text_Spec.written o (S n) Told (turns "Generic Change" a b) [] []]) ->
  exists t, over o n (lit "Distributed Text" ++ lit " has changed: " ++ e) (lit "Distributed Text" ++ lit " is unchanged: " ++ e) (dhidden text o DText e d d') False ps t /\ tells o n c t.
Proof.
  intros Hl Hr HC. destruct (proj1 (text_completes text l r e d d' Hl Hr ch) (ex_intro _ c HC)) as (a & b & Ea & Eb). exists a, b. split; [exact Ea|]. split; [exact Eb|]. intros ps ->.
  assert (ET := proj2 (texts_iff text l r e d d' Hl Hr a b) (conj Ea Eb)). unfold dist_text in HC. cbv zeta in HC. rewrite ET in HC. cbv beta iota in HC.
  apply check_parts in HC as (ks & ks' & HK & HF & ->); [|reflexivity]. cbn [collect_in pick k_super negb k_incheck andb k_gate k_raises] in HK. apply ok_inj in HK. subst ks.
  assert (HT : Forall2 (tells o (S n)) ks' (if seqb a b then [] else [Text_Spec.written o (S n) Told (turns "Generic Change" a b) [] []])).
  { destruct (seqb a b) eqn:E; inversion HF as [|? k ? ? HX HY]; subst; [constructor|]. inversion HY; subst. constructor; [|constructor].
    destruct (leaf_tells o (S n) _ "Generic Change" _ _ _ _ _ _ _ _ k a b False False HX eq_refl eq_refl) as (t & T & U).
    - split; [|contradiction]. intros (k' & Hk' & N). unfold text_change in HX. rewrite Hk' in HX. apply ok_inj in HX. subst k'. unfold leaf_text, leaf, generic_check, pure2 in Hk'. cbn [check k_check rbind] in Hk'. rewrite E in Hk'. cbn [rbind] in Hk'. apply ok_inj in Hk'. subst k. discriminate N.
    - apply never_hidden.
    - inversion T as [N|N H|N H]; subst; cbn [may_move s_same s_hidden] in *; first [exact U|exfalso; tauto]. }
  eapply (over_tells o n _ _ ks' _ _ _ (dhidden text o DText e d d') False); [|reflexivity|reflexivity| | | |exact HT].
  - cbn [collect pick k_super negb k_incheck andb k_gate k_raises k_always orb]. destruct ks'; [|reflexivity]. inversion HF as [H|]. destruct (seqb a b); [reflexivity|discriminate].
  - cbn [k_of k_own]. unfold dhidden. rewrite orb_true_iff, andb_true_iff, own_iff, trailing_iff. split.
    + intros [H|[H1 H2]]; [now left|right; split; [reflexivity|]; split; [exact H2|]; now exists a, b].
    + intros [H|(_ & H1 & a' & b' & X & Y & H2)]; [now left|right]. rewrite Ea in X. rewrite Eb in Y. injection X as <-. injection Y as <-. auto.
  - cbn [k_of k_parts]. split; [discriminate|contradiction].
  - unfold get_description. cbn [k_text]. cbv beta. destruct (is_change _); reflexivity.
Qed.

Variable sh : bool.
Lemma ends_dec e : {fnmatches e JAR_PATTERNS = true /\ ends_in e KJar} + {fnmatches e JAR_PATTERNS = false /\ fnmatches e [lit "*.class"] = true /\ ends_in e KClass} +
  {fnmatches e JAR_PATTERNS = false /\ fnmatches e [lit "*.class"] = false /\ ~ ends_in e KJar /\ ~ ends_in e KClass}.
Proof.
  assert (HJ := is_jar_iff e). assert (HC := is_class_iff e). destruct (fnmatches e JAR_PATTERNS); [left; left; split; tauto|]. destruct (fnmatches e [lit "*.class"]); [left; right; repeat split; tauto|].
  right. repeat split; intro X; [apply HJ in X|apply HC in X]; discriminate X.
Qed.
Lemma common_kind x e : x = SAME \/ x = DIFF -> exists k, is_dkind sh x e k /\ k_name (k_of (event sh (x, e))) = dkind_type k.
Proof.
  intro HX. destruct sh.
  - exists DContent. split; [split; [exact HX|intros j [H _]; discriminate H]|]. destruct HX as [-> | ->]; reflexivity.
  - assert (H : exists b, (x, b) = (SAME, false) \/ (x, b) = (DIFF, true)) by (destruct HX as [-> | ->]; [exists false|exists true]; auto). destruct H as [b Hb].
    apply (by_kind fmt reprs ffmt text order up unzip l r e (fun c => exists k, is_dkind false x e k /\ k_name (k_of c) = dkind_type k) x b Hb); intro HK;
      [exists DJar|exists DClass|exists DText|exists DManifest|exists DContent]; (split; [|reflexivity]); cbn [is_dkind]; (split; [exact HX|]); try (split; [reflexivity|exact HK]).
    intros j [_ H]. exact (HK j H).
Qed.
Lemma event_dkind x e : exists k, is_dkind sh x e k /\ k_name (k_of (event sh (x, e))) = dkind_type k.
Proof.
  destruct x; [| |apply common_kind; auto|apply common_kind; auto].
  - destruct sh; [exists DRemoved; split; [|reflexivity]; cbn [is_dkind]; repeat split; intros [H _]; discriminate H|].
    unfold dist_event. cbn [negb andb]. destruct (ends_dec e) as [[[-> H]|(-> & -> & H)]|(-> & -> & H1 & H2)]; [exists DJarRemoved|exists DClassRemoved|exists DRemoved]; (split; [|reflexivity]); cbn [is_dkind]; tauto.
  - destruct sh; [exists DAdded; split; [|reflexivity]; cbn [is_dkind]; repeat split; intros [H _]; discriminate H|].
    unfold dist_event. cbn [negb andb]. destruct (ends_dec e) as [[[-> H]|(-> & -> & H)]|(-> & -> & H1 & H2)]; [exists DJarAdded|exists DClassAdded|exists DAdded]; (split; [|reflexivity]); cbn [is_dkind]; tauto.
Qed.

Hypothesis Pl : plain l.
Hypothesis Pr : plain r.
Hypothesis Nl : names_ok l.
Hypothesis Nr : names_ok r.
Hypothesis HC : Dir_Spec.comparable l r.
Hypothesis HK : files_known fmt up unzip o sh l r.

Lemma left_root p d : data_at l p d -> p <> [].
Proof. intros H ->. destruct H as (x & m & H). apply Dir_Proofs.comparable_dir in HC as [H1 _]. inversion H; subst. discriminate. Qed.
Lemma right_root p d : data_at r p d -> p <> [].
Proof. intros H ->. destruct H as (x & m & H). apply Dir_Proofs.comparable_dir in HC as [_ H1]. inversion H; subst. discriminate. Qed.
Lemma file_tells n x p c : dclass l r x p -> check (event sh (Dir_Spec.written (x, p))) = Ok c ->
  exists t, file_block fmt reprs text up unzip o sh n l r x p t /\ tells o n c t.
Proof.
  intros HD HX. destruct x.
  - assert (E : Dir_Spec.written (LEFT, p) = (LEFT, slashes p)) by (unfold Dir_Spec.written; cbn [fst snd]; now destruct p as [|? [|? ?]]). rewrite E in HX. clear E.
    assert (HO := own_iff o (slashes p)).
    destruct sh eqn:Esh; [|unfold dist_event in HX; cbn [negb andb] in HX; destruct (ends_dec (slashes p)) as [[[E H]|(E & E' & H)]|(E & E' & H1 & H2)]; rewrite ?E, ?E' in HX].
    + destruct (one_tells o n _ _ _ _ _ _ _ c (fmatched o (slashes p)) HX HO) as (t & T & U). exists t. split; [|exact U]. apply (file_one _ _ _ _ _ _ _ _ _ _ _ _ DRemoved); [now left| |exact T]. cbn [is_dkind]. split; [reflexivity|]. split; intros [X _]; discriminate X.
    + destruct (one_tells o n _ _ _ _ _ _ _ c (fmatched o (slashes p)) HX HO) as (t & T & U). exists t. split; [|exact U]. apply (file_one _ _ _ _ _ _ _ _ _ _ _ _ DJarRemoved); [now left|cbn [is_dkind]; tauto|exact T].
    + destruct (one_tells o n _ _ _ _ _ _ _ c (fmatched o (slashes p)) HX HO) as (t & T & U). exists t. split; [|exact U]. apply (file_one _ _ _ _ _ _ _ _ _ _ _ _ DClassRemoved); [now left|cbn [is_dkind]; tauto|exact T].
    + destruct (one_tells o n _ _ _ _ _ _ _ c (fmatched o (slashes p)) HX HO) as (t & T & U). exists t. split; [|exact U]. apply (file_one _ _ _ _ _ _ _ _ _ _ _ _ DRemoved); [now left|cbn [is_dkind]; tauto|exact T].
  - assert (E : Dir_Spec.written (RIGHT, p) = (RIGHT, slashes p)) by (unfold Dir_Spec.written; cbn [fst snd]; now destruct p as [|? [|? ?]]). rewrite E in HX. clear E.
    assert (HO := own_iff o (slashes p)).
    destruct sh eqn:Esh; [|unfold dist_event in HX; cbn [negb andb] in HX; destruct (ends_dec (slashes p)) as [[[E H]|(E & E' & H)]|(E & E' & H1 & H2)]; rewrite ?E, ?E' in HX].
    + destruct (one_tells o n _ _ _ _ _ _ _ c (fmatched o (slashes p)) HX HO) as (t & T & U). exists t. split; [|exact U]. apply (file_one _ _ _ _ _ _ _ _ _ _ _ _ DAdded); [now right| |exact T]. cbn [is_dkind]. split; [reflexivity|]. split; intros [X _]; discriminate X.
    + destruct (one_tells o n _ _ _ _ _ _ _ c (fmatched o (slashes p)) HX HO) as (t & T & U). exists t. split; [|exact U]. apply (file_one _ _ _ _ _ _ _ _ _ _ _ _ DJarAdded); [now right|cbn [is_dkind]; tauto|exact T].
    + destruct (one_tells o n _ _ _ _ _ _ _ c (fmatched o (slashes p)) HX HO) as (t & T & U). exists t. split; [|exact U]. apply (file_one _ _ _ _ _ _ _ _ _ _ _ _ DClassAdded); [now right|cbn [is_dkind]; tauto|exact T].
    + destruct (one_tells o n _ _ _ _ _ _ _ c (fmatched o (slashes p)) HX HO) as (t & T & U). exists t. split; [|exact U]. apply (file_one _ _ _ _ _ _ _ _ _ _ _ _ DAdded); [now right|cbn [is_dkind]; tauto|exact T].
  - destruct HD as (d & d' & D1 & D2 & DN). assert (E : Dir_Spec.written (DIFF, p) = (DIFF, name_of p)) by (unfold Dir_Spec.written; cbn [fst snd]; now destruct p as [|? [|? ?]]). rewrite E in HX. clear E.
    set (e := name_of p) in *. assert (HO := own_iff o e).
    assert (R1 : read_file l e = Ok d) by (apply read_data; [exact Pl|exact Nl|exact (left_root p d D1)|exact D1]).
    assert (R2 : read_file r e = Ok d') by (apply read_data; [exact Pr|exact Nr|exact (right_root p d' D2)|exact D2]).
    destruct sh eqn:Esh.
    + apply (data_diff_tells o n) in HX. eexists. split; [|exact HX]. apply (file_same _ _ _ _ _ _ _ _ _ _ _ _ DContent); [now right|]. split; [now right|]. intros j [X _]. discriminate X.
    + specialize (HK p d d' D1 D2 DN eq_refl) as [HKC HKJ]. fold e in HKC, HKJ. revert HX.
      assert (HH : forall k, k <> DText -> (dist_own e o = true <-> dhidden text o k e d d')) by (intros k Hk; rewrite HO; unfold dhidden; tauto).
      apply (by_kind fmt reprs ffmt text order up unzip l r e (fun ch => check ch = Ok c -> exists t, file_block fmt reprs text up unzip o false n l r DIFF p t /\ tells o n c t) DIFF true (or_intror eq_refl)); intros HE HX.
      * edestruct (diff_tells o n _ _ _ _ _ _ _ _ _ (dhidden text o DJar e d d') False HX) as (s & c' & ES & EC & HT); [apply HH; discriminate|split; [discriminate|contradiction]|].
        unfold dist_jar_sub in ES. rewrite (both_eq l r e d d' R1 R2) in ES. cbn [rbind] in ES. apply ok_inj in ES. subst s.
        destruct (unzip d) as [za|ee] eqn:Ua; [|exfalso; revert EC; unfold jar_change; intro EC; apply check_super in EC as (_ & kids & KF & _); inversion KF as [|? ? ? ? K1 K2]; subst; inversion K2 as [|? ? ? ? K3 K4]; subst; unfold jar_contents in K3; apply check_parts in K3 as (? & ? & K5 & _); [|reflexivity]; discriminate K5].
        destruct (unzip d') as [zb|ee] eqn:Ub; [|exfalso; revert EC; unfold jar_change; intro EC; apply check_super in EC as (_ & kids & KF & _); inversion KF as [|? ? ? ? K1 K2]; subst; inversion K2 as [|? ? ? ? K3 K4]; subst; unfold jar_contents in K3; apply check_parts in K3 as (? & ? & K5 & _); [|reflexivity]; discriminate K5].
        destruct (HKJ HE za zb eq_refl eq_refl) as [(A1 & A2 & A3) (B1 & B2 & B3) JC JS].
        destruct (jar_text fmt reprs ffmt text order up order_perm za zb A1 B1 A2 B2 A3 B3 o JC (S n) c' EC JS) as (pc & P1 & P2).
        destruct (HT pc P2) as (t & T1 & T2). exists t. split; [|exact T2]. apply (file_both _ _ _ _ _ _ _ _ _ _ _ _ DJar d d' [pc]); [reflexivity|cbn [is_dkind]; tauto|exact D1|exact D2|exact (dinside_jar _ _ _ _ _ _ _ _ _ _ _ _ Ua Ub P1)|exact T1].
      * edestruct (diff_tells o n _ _ _ _ _ _ _ _ _ (dhidden text o DClass e d d') False HX) as (s & c' & ES & EC & HT); [apply HH; discriminate|split; [discriminate|contradiction]|].
        apply (class_sub_eq fmt reprs ffmt l r e d d' R1 R2) in ES as (ca & cb & Ua & Ub & ->). destruct (HKC HE ca cb Ua Ub) as [[A HA] [B HB]].
        destruct (report_text fmt reprs ffmt o (S n) ca cb c' A B HA HB EC) as (pc & P1 & P2).
        destruct (HT pc P2) as (t & T1 & T2). exists t. split; [|exact T2]. apply (file_both _ _ _ _ _ _ _ _ _ _ _ _ DClass d d' [pc]); [reflexivity|cbn [is_dkind]; tauto|exact D1|exact D2|exact (dinside_class _ _ _ _ _ _ _ _ _ _ _ _ Ua Ub P1)|exact T1].
      * destruct (text_tells n e d d' true c R1 R2 HX) as (a & b & Ea & Eb & HT). destruct (HT _ eq_refl) as (t & T1 & T2). exists t. split; [|exact T2].
        eapply (file_both _ _ _ _ _ _ _ _ _ _ _ _ DText d d'); [reflexivity|cbn [is_dkind]; tauto|exact D1|exact D2| |exact T1]. destruct (seqb_spec a b) as [Eab|Nab]; [subst b; now apply dinside_same with (l := a)|now apply dinside_text].
      * edestruct (diff_tells o n _ _ _ _ _ _ _ _ _ (dhidden text o DManifest e d d') False HX) as (s & c' & ES & EC & HT); [apply HH; discriminate|split; [discriminate|contradiction]|].
        apply (manifest_sub_eq order l r e d d' R1 R2) in ES as (ma & mb & Pa & Pb & ->).
        destruct (manifest_tells order order_perm o (S n) _ "Manifest" _ (ignore_manifest o = true) ma mb c' (parsed_named _ _ Pa) (parsed_named _ _ Pb) (iff_refl _) EC) as (pc & P1 & P2).
        destruct (HT pc P2) as (t & T1 & T2). exists t. split; [|exact T2]. apply (file_both _ _ _ _ _ _ _ _ _ _ _ _ DManifest d d' [pc]); [reflexivity|cbn [is_dkind]; tauto|exact D1|exact D2|exact (dinside_manifest _ _ _ _ _ _ _ _ _ _ _ _ Pa Pb P1)|exact T1].
      * apply (data_diff_tells o n) in HX. eexists. split; [|exact HX]. apply (file_same _ _ _ _ _ _ _ _ _ _ _ _ DContent); [now right|]. split; [now right|]. intros j [_ X]. exact (HE j X).
  - destruct HD as (d & D1 & D2). assert (E : Dir_Spec.written (SAME, p) = (SAME, name_of p)) by (unfold Dir_Spec.written; cbn [fst snd]; now destruct p as [|? [|? ?]]). rewrite E in HX. clear E.
    set (e := name_of p) in *.
    assert (R1 : read_file l e = Ok d) by (apply read_data; [exact Pl|exact Nl|exact (left_root p d D1)|exact D1]).
    assert (R2 : read_file r e = Ok d) by (apply read_data; [exact Pr|exact Nr|exact (right_root p d D2)|exact D2]).
    destruct sh eqn:Esh.
    + apply (same_tells o n) in HX. eexists. split; [|exact HX]. apply (file_same _ _ _ _ _ _ _ _ _ _ _ _ DContent); [now left|]. split; [now left|]. intros j [X _]. discriminate X.
    + revert HX. apply (by_kind fmt reprs ffmt text order up unzip l r e (fun ch => check ch = Ok c -> exists t, file_block fmt reprs text up unzip o false n l r SAME p t /\ tells o n c t) SAME false (or_introl eq_refl)); intros HE HX.
      3: { destruct (text_tells n e d d false c R1 R2 HX) as (a & b & Ea & Eb & HT). rewrite Ea in Eb. injection Eb as <-. destruct (HT [] ltac:(now rewrite seqb_refl)) as (t & T1 & T2). exists t. split; [|exact T2].
           inversion T1 as [X|X|X|X]; subst; [|exfalso; now apply X|discriminate X|exfalso; destruct X as [X|[X _]]; discriminate X].
           replace (Text_Spec.written o n Same (lit "Distributed Text" ++ lit " has changed: " ++ e) (lit "Distributed Text" ++ lit " is unchanged: " ++ e) (concat (map snd (@nil (standing * str)))))
             with (Text_Spec.written o n Same [] (lit "Distributed Text" ++ lit " is unchanged: " ++ e) []) by reflexivity.
           apply (file_same _ _ _ _ _ _ _ _ _ _ _ _ DText); [now left|cbn [is_dkind]; tauto]. }
      all: apply (same_tells o n) in HX; (eexists; split; [|exact HX]).
      * apply (file_same _ _ _ _ _ _ _ _ _ _ _ _ DJar); [now left|cbn [is_dkind]; tauto].
      * apply (file_same _ _ _ _ _ _ _ _ _ _ _ _ DClass); [now left|cbn [is_dkind]; tauto].
      * apply (file_same _ _ _ _ _ _ _ _ _ _ _ _ DManifest); [now left|cbn [is_dkind]; tauto].
      * apply (file_same _ _ _ _ _ _ _ _ _ _ _ _ DContent); [now left|]. split; [now left|]. intros j [_ X]. exact (HE j X).
Qed.

(** ** The whole *)
Theorem dist_text_report lname rname s : distdiff fmt reprs ffmt text order up unzip l r o sh = Ok s ->
  exists t, distdiff_text fmt reprs ffmt text order up unzip lname rname l r o sh = Ok (t, s) /\ dist_report_of fmt reprs text up unzip o sh lname rname l r t.
Proof.
  intro HS. unfold distdiff, dist_change in HS. apply (status_described o _ _ _ (Some (fun b : bool => Ok (dist_description lname rname b)))) in HS as (c & HX & HS).
  unfold distdiff_text, dist_change_at. cbv zeta. rewrite HX. cbn [rbind].
  destruct (described_tells o 0 _ _ _ _ _ _ (lit "Distribution changed from " ++ lname ++ lit " to " ++ rname) (lit "Distribution unchanged from " ++ lname ++ lit " to " ++ rname) HX) as (kids & HF & HT); [intros []; reflexivity|].
  destruct (Dir_Proofs.gen_spec l Pl [] r Pr HC) as (K & EK & NK & HKK & _).
  set (ty := fun ev => k_name (k_of (event sh ev))).
  assert (HL : Forall (fun xp => In (ty (Dir_Spec.written xp)) dist_types) K).
  { apply Forall_forall. intros xp _. unfold ty. destruct (Dir_Spec.written xp) as [x e]. destruct (event_dkind x e) as (k & _ & ->). rewrite dist_types_are. apply in_map, all_dkinds. }
  assert (EV : dist_events fmt reprs ffmt text order up unzip l r sh = Ok (map Dir_Spec.written (concat (map (fun t => of_type (fun xp => ty (Dir_Spec.written xp)) t K) dist_types)))).
  { unfold dist_events, Dir_Model.dir_compare. rewrite EK. f_equal. exact (iterate_grouped Dir_Spec.written ty K dist_types dist_types_distinct HL). }
  rewrite EV in HF. set (groups := map (fun t => of_type (fun xp => ty (Dir_Spec.written xp)) t K) dist_types) in *. rewrite map_map in HF.
  assert (GP : Permutation (concat groups) K) by (apply groups_perm; [exact dist_types_distinct|exact HL]).
  assert (GI : forall x p, In (x, p) (concat groups) <-> dclass l r x p) by (intros x p; rewrite <- HKK; split; apply Permutation_in; [exact GP|now apply Permutation_sym]).
  destruct (Forall2_tells o 1 _ (fun xp => file_block fmt reprs text up unzip o sh 1 l r (fst xp) (snd xp)) _ _ HF) as (ts & S1 & S2).
  { intros [x p] c0 Hx Hc. apply GI in Hx. exact (file_tells 1 x p c0 Hx Hc). }
  destruct (HT ts S2) as [T1 _]. unfold text_report. rewrite T1. cbn [rbind]. rewrite HS. cbn [rbind]. eexists. split; [reflexivity|].
  exists groups, ts. split; [|split; [|split; [exact GI|split; [exact S1|reflexivity]]]].
  - unfold groups. rewrite dist_types_are, map_map. generalize dkinds. intro ks. induction ks as [|k ks IH]; [constructor|]. cbn [map]. constructor; [|exact IH]. apply Forall_forall. intros xp Hx. unfold of_type in Hx. apply filter_In in Hx as [_ Hx].
    destruct (seqb_spec (ty (Dir_Spec.written xp)) (dkind_type k)) as [E|]; [|discriminate Hx]. unfold ty in E. assert (EF : fst (Dir_Spec.written xp) = fst xp) by reflexivity. destruct (Dir_Spec.written xp) as [x e]. cbn [fst snd] in *. subst x. destruct (event_dkind (fst xp) e) as (k' & HK' & E'). rewrite E' in E. apply dkind_type_inj in E. subst k'. exact HK'.
  - eapply Permutation_NoDup; [apply Permutation_map, Permutation_sym, GP|exact NK].
Qed.
End Dist.

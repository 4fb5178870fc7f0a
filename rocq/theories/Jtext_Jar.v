(** The text report of jardiff: entries and the whole. *)
From Verif Require Import Base Pack_Model ConstPool_Model ClassFile_Model Manifest_Model Change_Model Change_Spec Change_Proofs Change_Report Classdiff_Model Classdiff_Class Html_Values
  Jardiff_Model Jardiff_Spec Jardiff_Proofs Jardiff_Jar Text_Spec Text_Proofs Text_Class Jtext_Spec Jtext_Proofs.
From Verif Require Zip_Model Sign_Model.
From Verif Require Import Zip_Spec.
From Coq Require Import Permutation Sorted.

(** ** Grouping *)
Section Groups.
Context {A : Type}.
Variable ty : A -> str.
Lemma ordered_sorted ts (l : list A) : ordered ty ts l -> StronglySorted (fun a b => (rank ts (ty a) <= rank ts (ty b))%nat) l.
Proof.
  induction l as [|x l IH]; intro H; constructor.
  - apply IH. intros i j a b Hij Ha Hb. apply (H (S i) (S j) a b); [lia|exact Ha|exact Hb].
  - apply Forall_forall. intros y Hy. apply In_nth_error in Hy as (i & Hi). apply (H 0%nat (S i) x y); [lia|reflexivity|exact Hi].
Qed.
Lemma sorted_groups ts : NoDup ts -> forall l : list A, StronglySorted (fun a b => (rank ts (ty a) <= rank ts (ty b))%nat) l -> Forall (fun a => In (ty a) ts) l ->
  l = concat (map (fun t => of_type ty t l) ts).
Proof.
  induction 1 as [|t ts Ht HN IH]; intros l HS HL; [destruct HL as [|x l H _]; [reflexivity|destruct H]|]. cbn [map concat].
  set (rest := filter (fun v => negb (seqb (ty v) t)) l).
  assert (E : l = of_type ty t l ++ rest).
  { unfold rest. clear IH HL rest. induction HS as [|x l HS IHS HX]; [reflexivity|]. unfold of_type in *. cbn [filter]. destruct (seqb_spec (ty x) t) as [Ex|Ex]; cbn [negb].
    - cbn [app]. now f_equal.
    - assert (Z : filter (fun v => seqb (ty v) t) l = []); [|rewrite Z in *; cbn [app] in *; now f_equal].
      clear -HX Ex. induction HX as [|y l Hy HX IH]; [reflexivity|]. cbn [filter]. destruct (seqb_spec (ty y) t) as [Ey|]; [|exact IH]. exfalso. cbn [rank] in Hy. rewrite Ey, seqb_refl in Hy. destruct (seqb_spec (ty x) t); [congruence|lia]. }
  assert (R : rest = concat (map (fun u => of_type ty u rest) ts)).
  { apply IH.
    - unfold rest. clear -HS. induction HS as [|x l HS IHS HX]; [constructor|]. cbn [filter]. destruct (seqb_spec (ty x) t) as [Ex|Ex]; cbn [negb]; [exact IHS|]. constructor; [exact IHS|].
      apply Forall_forall. intros y Hy. apply filter_In in Hy as [Hy Ey]. rewrite Forall_forall in HX. specialize (HX y Hy). cbn [rank] in HX. destruct (seqb_spec (ty x) t); [contradiction|]. destruct (seqb_spec (ty y) t); [discriminate Ey|]. lia.
    - apply Forall_forall. intros y Hy. unfold rest in Hy. apply filter_In in Hy as [Hy Ey]. rewrite Forall_forall in HL. destruct (HL y Hy) as [X|X]; [|exact X]. rewrite X, seqb_refl in Ey. discriminate Ey. }
  assert (G : map (fun u => of_type ty u l) ts = map (fun u => of_type ty u rest) ts).
  { apply map_ext_in. intros u Hu. unfold rest, of_type. clear -Hu Ht. induction l as [|x l IH]; [reflexivity|]. cbn [filter]. destruct (seqb_spec (ty x) t) as [Ex|Ex]; cbn [negb].
    - destruct (seqb_spec (ty x) u); [congruence|exact IH].
    - cbn [filter]. destruct (seqb (ty x) u); [f_equal|]; exact IH. }
  rewrite G, <- R. exact E.
Qed.
Lemma groups_perm ts : NoDup ts -> forall l : list A, Forall (fun a => In (ty a) ts) l -> Permutation (concat (map (fun t => of_type ty t l) ts)) l.
Proof.
  intros HN l HL. induction HL as [|x l Hx HL IH].
  - induction ts as [|t ts IH]; [constructor|]. inversion HN; subst. cbn. now apply IH.
  - apply Permutation_trans with (x :: concat (map (fun t => of_type ty t l) ts)); [|now constructor]. clear IH HL. apply in_split in Hx as (a & b & ->). rewrite !map_app, !concat_app. cbn [map concat].
    assert (Z : forall c, ~ In (ty x) c -> map (fun t => of_type ty t (x :: l)) c = map (fun t => of_type ty t l) c).
    { intros c Hc. apply map_ext_in. intros u Hu. unfold of_type. cbn [filter]. destruct (seqb_spec (ty x) u); [congruence|reflexivity]. }
    apply NoDup_remove_2 in HN. rewrite !Z by (intro X; apply HN, in_or_app; auto). unfold of_type at 2. cbn [filter]. rewrite seqb_refl. cbn [app]. apply Permutation_sym, Permutation_middle.
Qed.
End Groups.

(** ** Kinds of entries *)
Definition kind_type (k : kind) : str :=
  match k with
  | KManifest => lit "JarManifestChange"
  | KSigAdded => lit "JarSignatureFileAdded" | KSigRemoved => lit "JarSignatureFileRemoved" | KSigFile => lit "JarSignatureFileChange"
  | KBlockAdded => lit "JarSignatureBlockFileAdded" | KBlockRemoved => lit "JarSignatureBlockFileRemoved" | KBlock => lit "JarSignatureBlockFileChange"
  | KData => lit "JarGenericFileChange" | KAdded => lit "JarContentAdded" | KRemoved => lit "JarContentRemoved" | KContent => lit "JarContentChange"
  | KClassAdded => lit "JarClassAdded" | KClassRemoved => lit "JarClassRemoved" | KClass => lit "JarClassChange"
  end.
Lemma jar_types_are : jar_types = map kind_type kinds.
Proof. reflexivity. Qed.
Lemma jar_types_distinct : NoDup jar_types.
Proof. unfold jar_types. repeat (apply NoDup_cons; [intro H; repeat (destruct H as [H|H]; [discriminate H|]); destruct H|]). constructor. Qed.
Lemma kind_type_inj j k : kind_type j = kind_type k -> j = k.
Proof. destruct j, k; intro H; reflexivity || discriminate H. Qed.
Lemma all_kinds k : In k kinds.
Proof. destruct k; vm_compute; tauto. Qed.

(** ** Entries *)
Lemma one_tells o n nm lb ad re own parts e c hidden : check (jar_node nm lb true ad re own parts true None e) = Ok c -> (own o = true <-> hidden) ->
  exists t, entry o n (mksays (lb ++ lit ": " ++ e) [] False hidden) t /\ tells o n c t.
Proof.
  intros HC HO. unfold jar_node in HC. apply check_parts in HC as (ks & ks' & HK & HF & ->); [|reflexivity]. cbn [collect_in pick k_super negb k_incheck andb k_gate k_always orb k_raises] in HK. apply ok_inj in HK. subst ks. inversion HF; subst.
  cbn [existsb]. match goal with |- context[tells o n ?x _] => set (c := x) end.
  assert (HI : is_ignored o c = Ok (own o)) by (unfold c; rewrite is_ignored_eq; cbn [k_own]; destruct (own o); [reflexivity|]; cbn [k_parts]; destruct parts; reflexivity).
  assert (HT := plain_tells o n c (own o) (lb ++ lit ": " ++ e) [] HI eq_refl eq_refl). change (is_change c) with true in HT. eexists. split; [|exact HT].
  unfold standing_of. destruct (own o).
  - apply (entry_aside o n (mksays (lb ++ lit ": " ++ e) [] False hidden)); [intros []|now apply HO].
  - apply (entry_told o n (mksays (lb ++ lit ": " ++ e) [] False hidden)); [intros []|]. cbn [s_hidden]. intro X. apply HO in X. discriminate X.
Qed.
Lemma same_tells o n nm lb ad re own parts sub e c : check (jar_node nm lb false ad re own parts false sub e) = Ok c ->
  tells o n c (written o n Same [] (lb ++ lit " is unchanged: " ++ e) []).
Proof.
  intros HC. unfold jar_node in HC. apply check_parts in HC as (ks & ks' & HK & HF & ->); [|reflexivity]. cbn [collect_in pick k_super negb k_incheck andb k_gate k_always orb] in HK. apply ok_inj in HK. subst ks. inversion HF; subst.
  cbn [existsb]. match goal with |- tells o n ?x _ => set (c := x) end.
  assert (HI : is_ignored o c = Ok (own o)) by (unfold c; rewrite is_ignored_eq; cbn [k_own]; destruct (own o); [reflexivity|]; cbn [k_parts]; destruct parts; reflexivity).
  exact (plain_tells o n c (own o) [] (lb ++ lit " is unchanged: " ++ e) HI eq_refl eq_refl).
Qed.
Lemma diff_tells o n nm lb ad re own parts sub e c hidden counts : check (jar_node nm lb false ad re own parts true (Some sub) e) = Ok c -> (own o = true <-> hidden) -> (parts = false <-> counts) ->
  exists s c', sub = Ok s /\ check s = Ok c' /\ forall p, tells o (S n) c' p ->
    exists t, over o n (lb ++ lit " has changed: " ++ e) (lb ++ lit " is unchanged: " ++ e) hidden counts [p] t /\ tells o n c t.
Proof.
  intros HC HO HP. destruct (proj1 (differs_completes nm lb ad re own parts e sub) (ex_intro _ c HC)) as (s & -> & c' & Hc'). exists s, c'. split; [reflexivity|]. split; [exact Hc'|]. intros p Hp.
  rewrite (differs_check nm lb ad re own parts e s c' Hc') in HC. unfold jar_node in HC. cbv iota in HC. apply ok_inj in HC. subst c.
  eapply (over_tells o n _ (own o) [c'] [p] _ _ hidden counts); [reflexivity| |reflexivity|exact HO|exact HP| |apply Forall2_cons; [exact Hp|constructor]].
  - cbn [is_change k_always orb existsb]. now rewrite orb_false_r.
  - unfold get_description. cbn [k_text]. cbv beta. destruct (is_change _); reflexivity.
Qed.
Lemma data_tells o n nm lb tx sh a b c : a <> b -> check (data_node nm lb tx sh (Zip_Model.PBytes a) (Zip_Model.PBytes b)) = Ok c -> tells o n c (written o n Told tx [] []).
Proof.
  intros HN HC. unfold data_node in HC. cbn [check k_check Zip_Model.peqb] in HC. destruct (seqb_spec a b); [contradiction|]. cbn [rbind] in HC. apply ok_inj in HC. subst c.
  match goal with |- tells o n ?x _ => exact (plain_tells o n x false tx [] eq_refl eq_refl eq_refl) end.
Qed.

Section Jars.
Variable fmt : pyval -> str.
Variable reprs : str -> str.
Variable ffmt : pyval -> str.
Variable text : bytes -> res str.
Variable order : list str -> list str.
Variable up : Z -> str.
Hypothesis order_perm : forall s, Permutation (order s) s.
Variables l r : Zip_Model.archive.
Hypothesis Kl : Zip_Model.a_kind l = Zip_Model.Zip.
Hypothesis Kr : Zip_Model.a_kind r = Zip_Model.Zip.
Hypothesis Ol : Zip_Model.a_open l = true.
Hypothesis Or : Zip_Model.a_open r = true.
Hypothesis Sl : Forall sound (Zip_Model.a_entries l).
Hypothesis Sr : Forall sound (Zip_Model.a_entries r).
Notation event := (jar_event fmt reprs ffmt text order up l r).

Ltac names_of n := destruct (is_sigfile up n) eqn:Ef; [|destruct (is_sigblock up n) eqn:Eb; [|destruct (is_classfile n) eqn:Ec]].
Lemma not_true (b : bool) P : (b = true <-> P) -> b = false -> ~ P.
Proof. intros H -> X. apply H in X. discriminate X. Qed.
Lemma event_kind x n : exists k, is_kind up x n k /\ k_name (k_of (event (x, n))) = kind_type k.
Proof.
  assert (HF := is_sigfile_iff up n). assert (HB := is_sigblock_iff up n). assert (HC := is_classfile_iff n). assert (HM := manifest_is_sigfree n).
  assert (NF := not_true _ _ HF). assert (NB := not_true _ _ HB). assert (NC := not_true _ _ HC). assert (NM := not_true _ _ HM).
  destruct x; cbn [jar_event].
  - names_of n; [exists KSigRemoved|exists KBlockRemoved|exists KClassRemoved|exists KRemoved]; unfold is_kind, other, signature; (split; [|reflexivity]); tauto.
  - names_of n; [exists KSigAdded|exists KBlockAdded|exists KClassAdded|exists KAdded]; unfold is_kind, other, signature; (split; [|reflexivity]); tauto.
  - destruct (seqb n Sign_Model.MANIFEST_NAME) eqn:Em; [exists KManifest|names_of n; [exists KSigFile|exists KBlock|exists KClass|exists KData]]; unfold is_kind, other, signature; (split; [|reflexivity]); tauto.
  - destruct (seqb n Sign_Model.MANIFEST_NAME) eqn:Em; [exists KManifest|names_of n; [exists KSigFile|exists KBlock|exists KClass|exists KContent]]; unfold is_kind, other, signature; (split; [|reflexivity]); tauto.
Qed.
Lemma classified_perm evs evs' : Permutation evs evs' -> classified evs l r -> classified evs' l r.
Proof.
  intros HP [HN HC]. split; [eapply Permutation_NoDup; [apply Permutation_map; exact HP|exact HN]|]. intro n. destruct (HC n) as (C1 & C2 & C3 & C4).
  assert (HI : forall x, In x evs' <-> In x evs) by (intro x; split; apply Permutation_in; [now apply Permutation_sym|exact HP]). rewrite !HI. auto.
Qed.
Lemma entries_grouped evs : classified evs l r -> exists groups,
  Forall2 (fun k g => Forall (fun xe => is_kind up (fst xe) (snd xe) k) g) kinds groups /\ classified (concat groups) l r /\
  iterate_by_type (fun c => k_name (k_of c)) (map event evs) jar_types = map event (concat groups).
Proof.
  intro HC. set (ty := fun c => k_name (k_of c)). set (tye := fun xe => ty (event xe)).
  assert (HL : Forall (fun xe => In (tye xe) jar_types) evs).
  { apply Forall_forall. intros [x n] _. destruct (event_kind x n) as (k & _ & E). unfold tye, ty. rewrite E, jar_types_are. apply in_map, all_kinds. }
  exists (map (fun k => of_type tye (kind_type k) evs) kinds). split; [|split].
  - generalize kinds. clear HL. intro ks. induction ks as [|k ks IH]; [constructor|]. cbn [map]. constructor; [|exact IH]. apply Forall_forall. intros [x n] Hx. unfold of_type in Hx. apply filter_In in Hx as [_ Hx].
    destruct (seqb_spec (tye (x, n)) (kind_type k)) as [E|]; [|discriminate Hx]. destruct (event_kind x n) as (k' & HK & E'). unfold tye, ty in E. rewrite E' in E. apply kind_type_inj in E. subst k'. exact HK.
  - eapply classified_perm; [|exact HC]. apply Permutation_sym. rewrite <- (map_map kind_type (fun t => of_type tye t evs)), <- jar_types_are. apply groups_perm; [exact jar_types_distinct|exact HL].
  - destruct (iterate_spec ty (map event evs) jar_types) as (P & T & O & _). fold ty. set (es := iterate_by_type ty (map event evs) jar_types) in *.
    rewrite (sorted_groups ty jar_types jar_types_distinct es (ordered_sorted ty _ _ O)).
    + rewrite (map_ext _ _ T), jar_types_are, map_map, concat_map, map_map. f_equal. apply map_ext. intro k. unfold of_type, tye. clear. induction evs as [|e evs IH]; [reflexivity|]. cbn [map filter]. destruct (seqb (ty (event e)) (kind_type k)); cbn [map]; [f_equal|]; exact IH.
    + eapply Permutation_Forall; [apply Permutation_sym; exact P|]. apply Forall_map. exact HL.
Qed.

Variable o : options.
Hypothesis HK : classes_known fmt up l r.
Lemma entry_tells n evs x e c : classified evs l r -> In (x, e) evs -> check (event (x, e)) = Ok c -> exists t, entry_block fmt reprs up o n l r x e t /\ tells o n c t.
Proof.
  intros [_ HC] Hin HX. destruct (HC e) as (_ & _ & _ & C4). clear HC.
  assert (HF := is_sigfile_iff up e). assert (HB := is_sigblock_iff up e). assert (HC := is_classfile_iff e). assert (HM := manifest_is_sigfree e). assert (HE := entry_own_iff o e).
  assert (NF := not_true _ _ HF). assert (NB := not_true _ _ HB). assert (NC := not_true _ _ HC). assert (NM := not_true _ _ HM).
  destruct x; cbn [jar_event] in HX.
  - names_of e.
    + destruct (one_tells o n _ _ _ _ _ _ _ _ (entry_hidden o KSigRemoved e) HX) as (t & T1 & T2); [unfold entry_hidden, of_signature; tauto|]. exists t. split; [|exact T2]. apply (entry_one fmt reprs up o n l r _ _ KSigRemoved); [tauto|unfold is_kind; tauto|exact T1].
    + destruct (one_tells o n _ _ _ _ _ _ _ _ (entry_hidden o KBlockRemoved e) HX) as (t & T1 & T2); [unfold entry_hidden, of_signature; tauto|]. exists t. split; [|exact T2]. apply (entry_one fmt reprs up o n l r _ _ KBlockRemoved); [tauto|unfold is_kind; tauto|exact T1].
    + destruct (one_tells o n _ _ _ _ _ _ _ _ (entry_hidden o KClassRemoved e) HX) as (t & T1 & T2); [unfold entry_hidden, of_signature; tauto|]. exists t. split; [|exact T2]. apply (entry_one fmt reprs up o n l r _ _ KClassRemoved); [tauto|unfold is_kind, signature; tauto|exact T1].
    + destruct (one_tells o n _ _ _ _ _ _ _ _ (entry_hidden o KRemoved e) HX) as (t & T1 & T2); [unfold entry_hidden, of_signature; tauto|]. exists t. split; [|exact T2]. apply (entry_one fmt reprs up o n l r _ _ KRemoved); [tauto|unfold is_kind, other, signature; tauto|exact T1].
  - names_of e.
    + destruct (one_tells o n _ _ _ _ _ _ _ _ (entry_hidden o KSigAdded e) HX) as (t & T1 & T2); [unfold entry_hidden, of_signature; tauto|]. exists t. split; [|exact T2]. apply (entry_one fmt reprs up o n l r _ _ KSigAdded); [tauto|unfold is_kind; tauto|exact T1].
    + destruct (one_tells o n _ _ _ _ _ _ _ _ (entry_hidden o KBlockAdded e) HX) as (t & T1 & T2); [unfold entry_hidden, of_signature; tauto|]. exists t. split; [|exact T2]. apply (entry_one fmt reprs up o n l r _ _ KBlockAdded); [tauto|unfold is_kind; tauto|exact T1].
    + destruct (one_tells o n _ _ _ _ _ _ _ _ (entry_hidden o KClassAdded e) HX) as (t & T1 & T2); [unfold entry_hidden, of_signature; tauto|]. exists t. split; [|exact T2]. apply (entry_one fmt reprs up o n l r _ _ KClassAdded); [tauto|unfold is_kind, signature; tauto|exact T1].
    + destruct (one_tells o n _ _ _ _ _ _ _ _ (entry_hidden o KAdded e) HX) as (t & T1 & T2); [unfold entry_hidden, of_signature; tauto|]. exists t. split; [|exact T2]. apply (entry_one fmt reprs up o n l r _ _ KAdded); [tauto|unfold is_kind, other, signature; tauto|exact T1].
  - apply C4 in Hin as (D0 & a & b & Ca & Cb & Hab). assert (Ra := read_content text l e a Kl Ol Ca). assert (Rb := read_content text r e b Kr Or Cb). specialize (HK e a b D0 Ca Cb Hab).
    destruct (seqb e Sign_Model.MANIFEST_NAME) eqn:Em; [|names_of e].
    + edestruct (diff_tells o n _ _ _ _ _ _ _ _ _ (entry_hidden o KManifest e) (of_signature KManifest) HX) as (s & c' & ES & EC & HT); [unfold entry_hidden, of_signature; tauto|cbn; split; [discriminate|contradiction]|].
      apply (manifest_sub_iff text l r e a b Ra Rb) in ES as (ma & mb & Pa & Pb & ->).
      destruct (manifest_tells order order_perm o (S n) _ "Manifest" _ (ignore_manifest o = true) ma mb c' (parsed_named _ _ Pa) (parsed_named _ _ Pb) (iff_refl _) EC) as (p & P1 & P2).
      destruct (HT p P2) as (t & T1 & T2). exists t. split; [|exact T2]. apply (entry_both fmt reprs up o n l r _ _ KManifest a b p); [reflexivity|unfold is_kind; tauto|exact Ca|exact Cb|exact (inside_manifest _ _ _ _ _ _ _ _ _ Pa Pb P1)|exact T1].
    + edestruct (diff_tells o n _ _ _ _ _ _ _ _ _ (entry_hidden o KSigFile e) (of_signature KSigFile) HX) as (s & c' & ES & EC & HT); [unfold entry_hidden, of_signature; tauto|cbn; tauto|].
      apply (manifest_sub_iff text l r e a b Ra Rb) in ES as (ma & mb & Pa & Pb & ->).
      destruct (manifest_tells order order_perm o (S n) _ "Signature File" _ (ignore_jar_signature o = true) ma mb c' (parsed_named _ _ Pa) (parsed_named _ _ Pb) (iff_refl _) EC) as (p & P1 & P2).
      destruct (HT p P2) as (t & T1 & T2). exists t. split; [|exact T2]. apply (entry_both fmt reprs up o n l r _ _ KSigFile a b p); [reflexivity|unfold is_kind; tauto|exact Ca|exact Cb|exact (inside_sigfile _ _ _ _ _ _ _ _ _ Pa Pb P1)|exact T1].
    + edestruct (diff_tells o n _ _ _ _ _ _ _ _ _ (entry_hidden o KBlock e) (of_signature KBlock) HX) as (s & c' & ES & EC & HT); [unfold entry_hidden, of_signature; tauto|cbn; tauto|].
      rewrite (data_sub_eq text l r e a b Ra Rb) in ES. apply ok_inj in ES. subst s. destruct (HT _ (data_tells o (S n) _ _ _ _ a b c' Hab EC)) as (t & T1 & T2). exists t. split; [|exact T2].
      eapply (entry_both fmt reprs up o n l r _ _ KBlock a b); [reflexivity|unfold is_kind; tauto|exact Ca|exact Cb|apply inside_block|exact T1].
    + edestruct (diff_tells o n _ _ _ _ _ _ _ _ _ (entry_hidden o KClass e) (of_signature KClass) HX) as (s & c' & ES & EC & HT); [unfold entry_hidden, of_signature; tauto|cbn; split; [discriminate|contradiction]|].
      apply (class_sub_iff fmt reprs ffmt text l r e a b Ra Rb) in ES as (ca & cb & Ua & Ub & ->).
      destruct (HK ltac:(tauto) ltac:(unfold signature; tauto) ltac:(tauto) ca cb Ua Ub) as [[A HA] [B HB']].
      destruct (report_text fmt reprs ffmt o (S n) ca cb c' A B HA HB' EC) as (p & P1 & P2).
      destruct (HT p P2) as (t & T1 & T2). exists t. split; [|exact T2]. apply (entry_both fmt reprs up o n l r _ _ KClass a b p); [reflexivity|unfold is_kind, signature; tauto|exact Ca|exact Cb|exact (inside_class _ _ _ _ _ _ _ _ _ Ua Ub P1)|exact T1].
    + edestruct (diff_tells o n _ _ _ _ _ _ _ _ _ (entry_hidden o KData e) (of_signature KData) HX) as (s & c' & ES & EC & HT); [unfold entry_hidden, of_signature; tauto|cbn; split; [discriminate|contradiction]|].
      rewrite (data_sub_eq text l r e a b Ra Rb) in ES. apply ok_inj in ES. subst s. destruct (HT _ (data_tells o (S n) _ _ _ _ a b c' Hab EC)) as (t & T1 & T2). exists t. split; [|exact T2].
      eapply (entry_both fmt reprs up o n l r _ _ KData a b); [reflexivity|unfold is_kind, other, signature; tauto|exact Ca|exact Cb|apply inside_data|exact T1].
  - destruct (seqb e Sign_Model.MANIFEST_NAME) eqn:Em; [|names_of e]; apply (same_tells o n) in HX; (eexists; split; [|exact HX]).
    + apply (entry_both_same fmt reprs up o n l r _ _ KManifest); [reflexivity|unfold is_kind; tauto].
    + apply (entry_both_same fmt reprs up o n l r _ _ KSigFile); [reflexivity|unfold is_kind; tauto].
    + apply (entry_both_same fmt reprs up o n l r _ _ KBlock); [reflexivity|unfold is_kind; tauto].
    + apply (entry_both_same fmt reprs up o n l r _ _ KClass); [reflexivity|unfold is_kind, signature; tauto].
    + apply (entry_both_same fmt reprs up o n l r _ _ KContent); [reflexivity|unfold is_kind, other, signature; tauto].
Qed.

(** ** The whole *)
Theorem jar_text d c : check (jar_change fmt reprs ffmt text order up (Ok l) (Ok r)) = Ok c ->
  (show_unchanged o = true -> some_entry l r) ->
  exists t, jar_block fmt reprs up o d l r t /\ tells o d c t.
Proof.
  intros HC HU. unfold jar_change in HC. destruct (super_tells o d _ _ _ _ _ _ (lit "JAR changed") (stays "JAR") HC (conj eq_refl eq_refl)) as (kids & HF & HT).
  inversion HF as [|? ct ? kids1 HTY HF1]; subst. inversion HF1 as [|? cc ? kids2 HCO HF2]; subst. inversion HF2; subst. clear HF HF1 HF2.
  assert (T1 : tells o (S d) ct (written o (S d) Same [] (stays "Jar type") [])).
  { destruct (leaf_tells o (S d) _ "Jar type" _ _ _ _ _ _ _ _ ct (jar_type_name (Ok l)) (jar_type_name (Ok r)) True False HTY eq_refl eq_refl) as (t & E & T).
    - fold (jar_type (Ok l) (Ok r)). split; [auto|intros _]. eexists. split; [exact HTY|]. revert HTY. unfold jar_type, leaf_text, leaf, generic_check, pure2. cbn [check k_check rbind].
      rewrite (type_same l r Kl Kr). rewrite Bool.eqb_reflx. intro H. apply ok_inj in H. subst ct. reflexivity.
    - apply never_hidden.
    - inversion E as [N|N|]; subst; try (exfalso; exact (N I)). exact T. }
  destruct (events_ok text order order_perm l r Kl Kr Ol Or Sl Sr) as (evs & EV & CL).
  unfold jar_contents in HCO. apply check_parts in HCO as (ks & ks' & HK' & HF & ->); [|reflexivity].
  cbn [collect_in pick contents_cls k_super negb k_incheck andb k_gate k_raises] in HK'. rewrite EV in HK'. apply ok_inj in HK'. subst ks. unfold jar_entries in HF. rewrite EV in HF.
  destruct (entries_grouped evs CL) as (groups & G1 & G2 & G3). rewrite G3 in HF.
  destruct (Forall2_tells o (S (S d)) _ (fun xe => entry_block fmt reprs up o (S (S d)) l r (fst xe) (snd xe)) _ _ HF) as (ts & S1 & S2); [intros [x e] c0 Hx HX; exact (entry_tells (S (S d)) _ x e c0 G2 Hx HX)|].
  match type of HT with forall ts, Forall2 _ [_; ?x] ts -> _ => set (cc := x) in * end.
  assert (T2 : tells o (S d) cc (block_text o (S d) (lit "JAR Contents changed") (stays "JAR Contents") ts)).
  { destruct (together_is o (S (S d)) ks' ts S2) as [HB HG]. destruct (all_ignored_spec o ks' HB) as (b & Hb & _). rewrite Hb in HG. unfold block_text. rewrite HG. destruct ks' as [|k0 ks'].
    - inversion S2; subst. apply silent_tells; [reflexivity| |exists false; reflexivity|eexists; reflexivity]. destruct (show_unchanged o); [|reflexivity]. exfalso.
      assert (E0 : concat groups = []) by (inversion S1; reflexivity). destruct G2 as [_ C]. rewrite E0 in C. destruct (HU eq_refl) as (n & X). destruct (C n) as (C1 & C2 & C3 & C4).
      destruct X as [X|[X|(X0 & X1 & X2)]]; [exact (proj2 C1 X)|exact (proj2 C2 X)|].
      assert (HX : forall a, In n (names a) -> exists d, content a n d).
      { clear. intros a. unfold names, content. generalize (Zip_Model.a_entries a). intro es. induction es as [|e es IH] using rev_ind; [intros []|]. rewrite map_app. cbn [map]. intro H. apply in_app_or in H as [H|[H|[]]].
        - destruct (list_eq_dec Z.eq_dec (Zip_Model.e_name e) n) as [E|E]; [exists (Zip_Model.e_data e), es, e, []; repeat split; [exact E|intros []]|]. destruct (IH H) as (d & l1 & e1 & l2 & -> & A & B & C). exists d, l1, e1, (l2 ++ [e]). split; [now rewrite <- app_assoc|]. split; [exact A|]. split; [exact B|].
          rewrite map_app. intro X. apply in_app_or in X as [X|[X|[]]]; [exact (C X)|exact (E X)].
        - exists (Zip_Model.e_data e), es, e, []. repeat split; [exact H|intros []]. }
      destruct (HX l X1) as (d1 & D1). destruct (HX r X2) as (d2 & D2). destruct (list_eq_dec Z.eq_dec d1 d2) as [->|Hd]; [apply (proj2 C3); eauto|apply (proj2 C4); eauto 7].
    - set (kk := k0 :: ks') in *. assert (HCC : collect cc = Ok kk) by reflexivity.
      assert (HCH : is_change cc = existsb is_change kk) by reflexivity.
      assert (HI : is_ignored o cc = Ok (if existsb is_change kk then b else false)).
      { unfold cc. rewrite is_ignored_eq. fold cc. rewrite HCC, HCH. cbn [contents_cls k_own never k_parts negb]. destruct (existsb is_change kk); [|reflexivity]. cbn [negb rbind]. exact Hb. }
      assert (HD : get_description cc = Ok (if is_change cc then lit "JAR Contents changed" else stays "JAR Contents")) by (unfold cc, get_description; cbn [contents_cls k_text k_label]; destruct (is_change _); reflexivity).
      assert (H := node_tells o (S d) cc _ _ _ kk ts HI HD HCC S2). rewrite HCH in H. unfold standing_of in *. destruct (existsb is_change kk); exact H. }
  specialize (HT _ (Forall2_cons _ _ T1 (Forall2_cons _ _ T2 (Forall2_nil _)))). eexists. split; [|exact HT]. exists groups, ts. split; [exact G1|]. split; [exact G2|]. split; [exact S1|reflexivity].
Qed.
End Jars.

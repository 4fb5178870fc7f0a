(** Property C128, for distributions: distdiff completes and its reports are always
    written. *)
From Verif Require Import Base Pack_Model ConstPool_Model ClassFile_Model Manifest_Model Change_Model Change_Tame Classdiff_Model Classdiff_Class
  Zip_Spec Jardiff_Model Jardiff_Spec Text_Spec Jtext_Spec Dir_Spec Distdiff_Model Distdiff_Spec Distdiff_Proofs Distdiff_Dist Dtext_Model Dtext_Spec Dtext_Proofs
  Doc_Spec Jdoc_Spec Ddoc_Model Ddoc_Spec Ddoc_Proofs P_Classdiff P_Jardiff P_Distdiff P_Jtext P_Dtext Written_Spec Written_Dspec Written_Dist.
From Verif Require Zip_Model P_Ddoc P_Written.
From Coq Require Import Permutation.
Import Zip_Model (node, Dir, File).

(** ** C128 *)
Theorem C128_dists : forall fmt reprs ffmt text order up unzip o shallow lname rname l r, (forall s, Permutation (order s) s) ->
  plain l -> plain r -> names_ok l -> names_ok r -> Dir_Spec.comparable l r -> on_common text shallow (fine_file fmt text up unzip o) l r ->
  exists s, distdiff fmt reprs ffmt text order up unzip l r o shallow = Ok s /\ (s = 0 \/ s = 1) /\
    (exists t, distdiff_text fmt reprs ffmt text order up unzip lname rname l r o shallow = Ok (t, s) /\ dist_report_of fmt reprs text up unzip o shallow lname rname l r t) /\
    exists j, distdiff_json fmt reprs ffmt text order up unzip lname rname l r o shallow = Ok (j, s) /\ dist_doc fmt reprs ffmt text up unzip o shallow lname rname l r j.
Proof.
  intros fmt reprs ffmt text order up unzip o sh lname rname l r P P1 P2 N1 N2 C HF.
  assert (HC : on_common text sh (file_comparable fmt reprs ffmt text order up unzip o) l r).
  { destruct HF as [HF|HF]; [now left|right]. intros p d d' D1 D2. destruct (HF p d d' D1 D2) as [H1 H2]. split; [|exact H2]. intro DN. destruct (H1 DN) as [a b K U1 U2 (A1 & A2 & A3) (B1 & B2 & B3) HJ HS|a b K U1 U2 ((A & KA) & WA & RA) ((B & KB) & WB & RB)|a b K T1 T2|a b K Q1 Q2|K].
    - destruct (P_Written.C128_jars fmt reprs ffmt text order up o a b P A1 B1 A2 B2 A3 B3 HJ HS) as (c & _ & [s Hs] & _). rewrite <- U1, <- U2 in Hs. exact (fcmp_jar _ _ _ _ _ _ _ _ _ _ _ s K Hs).
    - destruct (P_Written.C128_classes fmt reprs ffmt o a b A B KA KB WA WB RA RB) as (c & _ & HS & _). destruct HS as [HS|HS]; exact (fcmp_class _ _ _ _ _ _ _ _ _ _ _ a b _ K U1 U2 HS).
    - exact (fcmp_text _ _ _ _ _ _ _ _ _ _ _ a b K T1 T2).
    - exact (fcmp_manifest _ _ _ _ _ _ _ _ _ _ _ a b K Q1 Q2).
    - exact (fcmp_data _ _ _ _ _ _ _ _ _ _ _ K). }
  destruct (proj2 (distdiff_ends fmt reprs ffmt text order up unzip P l r P1 P2 N1 N2 C o sh) HC) as [s Hs]. exists s. split; [exact Hs|]. split; [exact (distdiff_status fmt reprs ffmt text order up unzip P l r o sh s Hs)|].
  (* what the conditions say of a file of a given kind *)
  assert (HJ : forall p d d', data_at l p d -> data_at r p d' -> d <> d' -> sh = false -> ends_in (name_of p) KJar -> exists a b, unzip d = Ok a /\ unzip d' = Ok b /\ whole_jar a /\ whole_jar b /\ fine_jars fmt up a b /\ (show_unchanged o = true -> some_entry a b)).
  { intros p d d' D1 D2 DN -> HE. destruct HF as [HF|HF]; [discriminate HF|]. destruct (HF p d d' D1 D2) as [H1 _]. destruct (H1 DN) as [a b K|a b K|a b K|a b K|K]; [exists a, b; auto 8| | | |exfalso; exact (K KJar HE)]; discriminate (kinds_clash (name_of p) KJar _ HE K). }
  assert (HCl : forall p d d', data_at l p d -> data_at r p d' -> d <> d' -> sh = false -> ends_in (name_of p) KClass -> exists a b, unpack_class d MNone = Ok a /\ unpack_class d' MNone = Ok b /\ fine_class fmt a /\ fine_class fmt b).
  { intros p d d' D1 D2 DN -> HE. destruct HF as [HF|HF]; [discriminate HF|]. destruct (HF p d d' D1 D2) as [H1 _]. destruct (H1 DN) as [a b K|a b K|a b K|a b K|K]; [|exists a, b; auto| | |exfalso; exact (K KClass HE)]; discriminate (kinds_clash (name_of p) KClass _ HE K). }
  assert (CK : forall a b, fine_jars fmt up a b -> classes_known fmt up a b).
  { intros a b HX n d d' ND D1 D2 _ M1 M2 M3 u v Hu Hv. destruct (HX n d d' ND D1 D2) as [x y [M|M] Q1 Q2|x y K1 K2 K3 U1 U2 [KA _] [KB _]|K1 K2 K3|K1 K2 K3]; try contradiction; [destruct M2; now left| |destruct M2; now right].
    rewrite U1 in Hu. rewrite U2 in Hv. apply Jardiff_Report.ok_inj in Hu. apply Jardiff_Report.ok_inj in Hv. subst. split; assumption. }
  split.
  - apply C124_report; try assumption. intros p d d' D1 D2 DN ES. split; intros HE a b Ha Hb.
    + destruct (HCl p d d' D1 D2 DN ES HE) as (u & v & U1 & U2 & [KA _] & [KB _]). rewrite U1 in Ha. rewrite U2 in Hb. apply Jardiff_Report.ok_inj in Ha. apply Jardiff_Report.ok_inj in Hb. subst. split; assumption.
    + destruct (HJ p d d' D1 D2 DN ES HE) as (u & v & U1 & U2 & W1 & W2 & FJ & SE). rewrite U1 in Ha. rewrite U2 in Hb. apply Jardiff_Report.ok_inj in Ha. apply Jardiff_Report.ok_inj in Hb. subst. constructor; [exact W1|exact W2|now apply CK|exact SE].
  - destruct (dist_json_written fmt reprs ffmt text order up unzip P l r o sh P1 P2 N1 N2 C) with (lname := lname) (rname := rname) (s := s) as [j Hj]; [|exact Hs|].
    + destruct sh eqn:ES; [now left|right]. intros p d d' D1 D2. split; [|destruct HF as [HF|HF]; [discriminate HF|]; exact (proj2 (HF p d d' D1 D2))]. intro DN. split.
      * intros HE c HX. destruct (HJ p d d' D1 D2 DN eq_refl HE) as (u & v & U1 & U2 & (A1 & A2 & A3) & (B1 & B2 & B3) & FJ & SE). rewrite U1, U2 in HX.
        destruct (P_Written.C128_jars fmt reprs ffmt text order up o u v P A1 B1 A2 B2 A3 B3 FJ SE) as (c' & HX' & _ & _ & j & Hj & _). rewrite HX in HX'. apply Jardiff_Report.ok_inj in HX'. subst c'. eauto.
      * intros HE a b Ua Ub c HX. destruct (HCl p d d' D1 D2 DN eq_refl HE) as (u & v & U1 & U2 & ((A & KA) & WA & RA) & ((B & KB) & WB & RB)). rewrite U1 in Ua. rewrite U2 in Ub. apply Jardiff_Report.ok_inj in Ua. apply Jardiff_Report.ok_inj in Ub. subst u v.
        destruct (P_Written.C128_classes fmt reprs ffmt o a b A B KA KB WA WB RA RB) as (c' & HX' & _ & _ & j & Hj & _). rewrite HX in HX'. apply Jardiff_Report.ok_inj in HX'. subst c'. eauto.
    + exists j. split; [exact Hj|]. refine (proj1 (P_Ddoc.C127_document fmt reprs ffmt text order up unzip o sh lname rname l r j s P P1 P2 N1 N2 C _ Hj)). intros p d d' D1 D2 DN ES. split; intros HE a b Ha Hb.
      * destruct (HCl p d d' D1 D2 DN ES HE) as (u & v & U1 & U2 & [KA _] & [KB _]). rewrite U1 in Ha. rewrite U2 in Hb. apply Jardiff_Report.ok_inj in Ha. apply Jardiff_Report.ok_inj in Hb. subst. split; assumption.
      * destruct (HJ p d d' D1 D2 DN ES HE) as (u & v & U1 & U2 & W1 & W2 & FJ & SE). rewrite U1 in Ha. rewrite U2 in Hb. apply Jardiff_Report.ok_inj in Ha. apply Jardiff_Report.ok_inj in Hb. subst. constructor; [exact W1|exact W2|now apply CK].
Qed.
Print Assumptions C128_dists.

(** Two distributions that meet the conditions *)
Lemma files_all time txt ends cls bin mf jar extra p d : data_at (files time txt ends cls bin mf jar extra) p d ->
  In (p, d) [([lit "README.txt"], txt); ([lit "ends.cfg"], ends); ([lit "a.bin"], bin); ([lit "A.class"], cls); ([lit "lib"; lit "MANIFEST.MF"], mf); ([lit "lib"; lit "x.jar"], jar)] \/ In (hd [] p) (map fst extra).
Proof.
  intros (x & m & F). unfold files in F. inversion F as [|? ? k n q ? HI F' E1 E2]; subst. cbn [In] in HI. destruct HI as [HI|[HI|[HI|[HI|[HI|HI]]]]]; [..|right; apply (in_map fst) in HI; exact HI]; injection HI as <- <-; inversion F' as [|? ? k' n' q' ? HI' F'' E1 E2]; subst; try (left; cbn [In]; tauto).
  cbn [In] in HI'. destruct HI' as [HI'|[HI'|[]]]; injection HI' as <- <-; inversion F''; subst; left; cbn [In]; tauto.
Qed.
Lemma no_kind n : fnmatches n JAR_PATTERNS = false -> fnmatches n [lit "*.class"] = false -> fnmatches n TEXT_PATTERNS = false -> fnmatches n [lit "*/MANIFEST.MF"] = false -> is_kind n KData.
Proof.
  intros H1 H2 H3 H4 k H. destruct k; [apply is_jar_iff in H|apply is_class_iff in H|apply is_text_iff in H|apply is_manifest_iff in H|destruct H as (p & e & [] & _)]; congruence.
Qed.
Lemma dists_fine o : on_common ascii_lines false (fine_file no_fmt ascii_lines ascii_up two_jars o) dist_left dist_right.
Proof.
  right. intros p d d' D1 D2. unfold dist_left in D1. unfold dist_right in D2. apply files_all in D1. apply files_all in D2.
  assert (HP : In (p, (d, d')) [([lit "README.txt"], (lit "one", lit "one ")); ([lit "ends.cfg"], ([120; 13; 10], [120; 10])); ([lit "a.bin"], ([1], [1; 2])); ([lit "A.class"], (small 51, small 52));
     ([lit "lib"; lit "MANIFEST.MF"], (mf_small "Built-By: an", mf_small "Built-By: bob")); ([lit "lib"; lit "x.jar"], ([1], [2]))]).
  { destruct D1 as [D1|D1]; [|exfalso; cbn [map fst In] in D1; destruct D2 as [D2|D2]; cbn [In map fst] in D2].
    - cbn [In] in D1. repeat (destruct D1 as [D1|D1]; [injection D1 as <- <-; destruct D2 as [D2|D2]; [cbn [In] in D2; repeat (destruct D2 as [D2|D2]; [try discriminate D2; injection D2 as <-; cbn [In]; tauto|]); destruct D2|exfalso; cbn [hd map fst In] in D2; repeat (destruct D2 as [D2|D2]; [discriminate D2|]); exact D2]|]). destruct D1.
    - repeat (destruct D2 as [D2|D2]; [injection D2 as <- <-; cbn [hd] in D1; repeat (destruct D1 as [D1|D1]; [discriminate D1|]); exact D1|]). exact D2.
    - repeat (destruct D2 as [D2|D2]; [rewrite <- D2 in D1; repeat (destruct D1 as [D1|D1]; [discriminate D1|]); exact D1|]). exact D2. }
  clear D1 D2. cbn [In] in HP. destruct HP as [HP|[HP|[HP|[HP|[HP|[HP|[]]]]]]]; injection HP as <- <- <-; (split; [intros _|]).
  - eapply ff_text; [apply is_text_iff; vm_compute; reflexivity|vm_compute; reflexivity|vm_compute; reflexivity].
  - discriminate.
  - eapply ff_text; [apply is_text_iff; vm_compute; reflexivity|vm_compute; reflexivity|vm_compute; reflexivity].
  - discriminate.
  - apply ff_data. apply no_kind; vm_compute; reflexivity.
  - discriminate.
  - apply (ff_class _ _ _ _ _ _ _ _ (the_class 51) (the_class 52)); [apply is_class_iff; vm_compute; reflexivity|vm_compute; reflexivity|vm_compute; reflexivity|apply P_Written.small_fine; now left|apply P_Written.small_fine; now right].
  - intros _ K. apply is_text_iff in K. vm_compute in K. discriminate K.
  - eapply ff_manifest; [apply is_manifest_iff; vm_compute; reflexivity|vm_compute; reflexivity|vm_compute; reflexivity].
  - intros _ K. apply is_text_iff in K. vm_compute in K. discriminate K.
  - apply (ff_jar _ _ _ _ _ _ _ _ jar_left jar_right); [apply is_jar_iff; vm_compute; reflexivity|reflexivity|reflexivity|repeat split; apply jars_sound|repeat split; apply jars_sound|exact P_Written.jars_fine|].
    intros _. exact (jk_some _ _ _ _ _ (jars_at (soft true true)) eq_refl).
  - discriminate.
Qed.
Example C128_dists_ex : plain dist_left /\ plain dist_right /\ names_ok dist_left /\ names_ok dist_right /\ Dir_Spec.comparable dist_left dist_right /\
  on_common ascii_lines false (fine_file no_fmt ascii_lines ascii_up two_jars strict) dist_left dist_right /\
  distdiff no_fmt no_repr no_fmt ascii_lines (fun s => s) ascii_up two_jars dist_left dist_right strict false = Ok 1.
Proof. destruct dists_known as (A & B & C & D & E). repeat (split; [assumption|]). split; [apply dists_fine|]. vm_compute. reflexivity. Qed.

(** Classes with annotations meet the conditions too. *)
Definition j_anno (v : Z) : list ConstPool_Spec.jconst := [ConstPool_Spec.JClass 2; ConstPool_Spec.JUtf8 (lit "A"); ConstPool_Spec.JClass 4; ConstPool_Spec.JUtf8 (lit "java/lang/Object");
  ConstPool_Spec.JUtf8 (lit "LAnno;"); ConstPool_Spec.JUtf8 (lit "value"); ConstPool_Spec.JInteger v].
Definition c_anno (v : Z) : classinfo := mkclass (52, 0) [KNone; KRef 7 2; KUtf8 (lit "A"); KRef 7 4; KUtf8 (lit "java/lang/Object"); KUtf8 (lit "LAnno;"); KUtf8 (lit "value"); KInt v] 33 1 3 [] [] []
  [(PStr (lit "RuntimeVisibleAnnotations"), [0; 1; 0; 5; 0; 1; 0; 6; 73; 0; 7])].
Lemma anno_fine v : v = 1 \/ v = 2 -> fine_class no_fmt (c_anno v).
Proof.
  intro H. split; [|split].
  - exists (mkcdata (lit "A") (lit "java/lang/Object") [] None [lit "Anno(value=I#7)"] []). constructor.
    + constructor; vm_compute; reflexivity.
    + exists [(5, [(PStr (lit "value"), Anno_Model.AConst 73 7)])]. split; vm_compute; reflexivity.
    + exists []. split; vm_compute; reflexivity.
    + constructor.
    + constructor.
    + apply distinct_by with []; vm_compute; reflexivity.
    + apply distinct_by with []; vm_compute; reflexivity.
  - exists (j_anno v). split; [exact (ClassFile_Proofs.pool_shows_parsed (j_anno v))|]. split; [apply P_Written.no_dynamic; reflexivity|]. intros m k [].
  - assert (EA : Anno_Model.annotations_of (c_pool (c_anno v)) (c_attrs (c_anno v)) Classdiff_Model.A_vis = Ok [(5, [(PStr (lit "value"), Anno_Model.AConst 73 7)])]) by (vm_compute; reflexivity).
    assert (EB : Anno_Model.annotations_of (c_pool (c_anno v)) (c_attrs (c_anno v)) Classdiff_Model.A_invis = Ok []) by (vm_compute; reflexivity).
    intros d [-> |(m & [] & _)]. split; intros l E.
    + rewrite EA in E. apply Jardiff_Report.ok_inj in E. subst l. apply Forall_cons; [|apply Forall_nil].
      exists (Anno_Spec.RAnno (PStr (lit "LAnno;")) [(lit "value", Anno_Spec.RConst 73 (PInt v))]). apply Anno_Spec.m_anno; [apply ConstPool_Spec.d_utf8; [discriminate|vm_compute; reflexivity]|apply NoDup_cons; [intros []|apply NoDup_nil]|].
      apply Forall2_cons; [split; [reflexivity|apply Anno_Spec.m_const, ConstPool_Spec.d_int; [discriminate|vm_compute; reflexivity]]|apply Forall2_nil].
    + rewrite EB in E. apply Jardiff_Report.ok_inj in E. subst l. constructor.
Qed.
Example C128_annotated_ex : fine_class no_fmt (c_anno 1) /\ fine_class no_fmt (c_anno 2) /\ classdiff no_fmt no_repr no_fmt strict (c_anno 1) (c_anno 2) = Ok 1.
Proof. split; [apply anno_fine; now left|]. split; [apply anno_fine; now right|]. vm_compute. reflexivity. Qed.

(** Property C128: a JSON document is always written. *)
From Verif Require ClassFile_Proofs.
From Verif Require Import Base Pack_Model ConstPool_Model ConstPool_Spec ClassFile_Model Descr_Model Descr_Spec Opcodes_Model Opcodes_Spec Anno_Model Anno_Spec
  Change_Model Change_Spec Change_Proofs Change_Report Change_Tame Classdiff_Model Classdiff_Spec Classdiff_Members Classdiff_Code Classdiff_Class Info_Model Info_Spec
  Text_Spec Text_Class P_Classdiff P_Text Doc_Spec Doc_Class P_Doc Written_Spec Written_Proofs.
From Verif Require Jardiff_Report.
From Verif Require Import Zip_Spec Zip_Proofs Jardiff_Model Jardiff_Spec Jardiff_Proofs Jardiff_Jar Jtext_Spec Jtext_Jar Jdoc_Spec P_Jardiff P_Jtext P_Jdoc Written_Jar.
From Verif Require Zip_Model P_Zip.
From Coq Require Import Permutation.
Import Zip_Model (archive, mka, Zip, a_kind, a_open, a_entries).

(** ** C128 *)

(** classdiff of two such classes does not fail: it has an exit status, and its
    text and JSON reports can be written whatever the options. *)
Theorem C128_classes : forall fmt reprs ffmt o l r L R, class_is fmt l L -> class_is fmt r R -> writable l -> writable r -> resolved l -> resolved r ->
  exists c, check (class_change fmt reprs ffmt l r) = Ok c /\
    (classdiff fmt reprs ffmt o l r = Ok 0 \/ classdiff fmt reprs ffmt o l r = Ok 1) /\
    (exists t, text_report o c = Ok t) /\
    exists j, json_of o c = Ok j /\ class_doc fmt reprs ffmt o l r j.
Proof.
  intros fmt reprs ffmt o l r L R KL KR WL WR DL DR. destruct (class_fine fmt reprs ffmt l r L R KL KR WL WR DL DR) as [[c HC] HE]. exists c. split; [exact HC|].
  destruct (Jardiff_Report.ready_unfolds _ (Jardiff_Report.ready_class fmt reprs ffmt l r) _ HC) as [t Ht]. pose proof (everywhere_check _ _ HE _ HC) as HE'. split; [|split].
  - unfold classdiff. rewrite HC. cbn [rbind]. unfold exit_status. destruct (is_change c); [|now left]. cbn [negb]. destruct (is_ignored_total o t c Ht) as [b ->]. cbn [rbind]. destruct b; auto.
  - eexists. unfold text_report. apply (report_spec o t 0%nat c Ht). refine (everywhere_tellable o c t _ Ht). exact (everywhere_mono _ _ _ (fun k X => proj1 X) HE').
  - destruct (json_written o _ c HE HC (Jardiff_Report.ready_class fmt reprs ffmt l r)) as [j Hj]. exists j. split; [exact Hj|]. exact (proj1 (C125_document fmt reprs ffmt o l r c L R j KL KR HC Hj)).
Qed.
Print Assumptions C128_classes.

(** jardiff of two jars whose common entries are such does not fail either *)
Theorem C128_jars : forall fmt reprs ffmt text order up o l r, (forall s, Permutation (order s) s) ->
  a_kind l = Zip -> a_kind r = Zip -> a_open l = true -> a_open r = true -> Forall sound (a_entries l) -> Forall sound (a_entries r) ->
  fine_jars fmt up l r -> (show_unchanged o = true -> some_entry l r) ->
  exists c, check (jar_change fmt reprs ffmt text order up (Ok l) (Ok r)) = Ok c /\
    (exists s, jardiff fmt reprs ffmt text order up o (Ok l) (Ok r) = Ok s) /\
    (exists t, text_report o c = Ok t /\ jar_report_of fmt reprs up o l r t) /\
    exists j, json_of o c = Ok j /\ jar_doc fmt reprs ffmt up o l r j.
Proof.
  intros fmt reprs ffmt text order up o l r P K1 K2 O1 O2 S1 S2 HF HU.
  assert (HD : on_differing (comparable fmt reprs ffmt up o) l r).
  { intros n d d' ND D1 D2 _. destruct (HF n d d' ND D1 D2) as [u v M P1 P2|u v N1 N2 N3 U1 U2 ((A & KA) & WA & RA) ((B & KB) & WB & RB)|N1 N2 N3|N1 N2 N3].
    - eapply cmp_manifest; eassumption.
    - destruct (C128_classes fmt reprs ffmt o u v A B KA KB WA WB RA RB) as (c & _ & HS & _). destruct HS as [HS|HS]; exact (cmp_class fmt reprs ffmt up o n d d' u v _ N1 N2 N3 U1 U2 HS).
    - now apply cmp_block.
    - now apply cmp_data. }
  pose proof (proj2 (jardiff_ends fmt reprs ffmt text order up P l r K1 K2 O1 O2 S1 S2 o) HD) as [s Hs].
  destruct (check (jar_change fmt reprs ffmt text order up (Ok l) (Ok r))) as [c|] eqn:HC; [|unfold jardiff in Hs; rewrite HC in Hs; discriminate Hs]. exists c. split; [reflexivity|]. split; [eauto|].
  assert (CK : classes_known fmt up l r).
  { intros n d d' ND D1 D2 _ M1 M2 M3 a b Ha Hb. destruct (HF n d d' ND D1 D2) as [u v [M|M] P1 P2|u v N1 N2 N3 U1 U2 [KA _] [KB _]|N1 N2 N3|N1 N2 N3]; try contradiction; [destruct M2; now left| |destruct M2; now right].
    rewrite U1 in Ha. rewrite U2 in Hb. apply Jardiff_Report.ok_inj in Ha. apply Jardiff_Report.ok_inj in Hb. subst. split; assumption. }
  split; [exact (C123_report fmt reprs ffmt text order up o l r c P K1 K2 O1 O2 S1 S2 CK HC HU)|].
  destruct (C70_json_partial fmt reprs ffmt text order up o (Ok l) (Ok r) c HC) as [j Hj].
  - intro E. exact (some_entry_entries fmt reprs ffmt text order up P l r K1 K2 O1 O2 S1 S2 (HU E)).
  - intros x y c' (a & b & n & d & d' & E1 & E2 & D1 & D2 & M3 & M1 & M2 & U1 & U2) HC'. apply Jardiff_Report.ok_inj in E1. apply Jardiff_Report.ok_inj in E2. subst a b. assert (ND : ~ directory n) by exact (class_not_directory n M3).
    destruct (HF n d d' ND D1 D2) as [u v [M|M] P1 P2|u v N1 N2 N3 V1 V2 ((A & KA) & WA & RA) ((B & KB) & WB & RB)|N1 N2 N3|N1 N2 N3]; try contradiction; [destruct M2; now left| |destruct M2; now right].
    rewrite U1 in V1. rewrite U2 in V2. apply Jardiff_Report.ok_inj in V1. apply Jardiff_Report.ok_inj in V2. subst u v. destruct (C128_classes fmt reprs ffmt o x y A B KA KB WA WB RA RB) as (c1 & H1 & _ & _ & j & Hj & _). rewrite HC' in H1. apply Jardiff_Report.ok_inj in H1. subst c1. eauto.
  - exists j. split; [exact Hj|]. exact (C126_document fmt reprs ffmt text order up o l r c j P K1 K2 O1 O2 S1 S2 CK HC Hj).
Qed.
Print Assumptions C128_jars.

(** Classes and jars that meet the conditions *)
Lemma no_dynamic l : forallb (fun k => match k with JDynamic _ _ => false | _ => true end) l = true -> forall a b, ~ In (JDynamic a b) l.
Proof. intros H a b HI. rewrite forallb_forall in H. specialize (H _ HI). discriminate H. Qed.
Lemma unannotated c : forallb (fun d => match get_attribute d A_vis, get_attribute d A_invis with None, None => true | _, _ => false end) (c_attrs c :: map m_attrs (c_fields c ++ c_methods c)) = true -> resolved c.
Proof.
  intros H d Hd. rewrite forallb_forall in H. specialize (H d). assert (HI : In d (c_attrs c :: map m_attrs (c_fields c ++ c_methods c))) by (destruct Hd as [->|(m & Hm & ->)]; [now left|right; now apply in_map]).
  specialize (H HI). unfold resolved_annos, annotations_of. destruct (get_attribute d A_vis); [discriminate|]. destruct (get_attribute d A_invis); [discriminate|]. split; intros l E; apply Jardiff_Report.ok_inj in E; subst l; constructor.
Qed.
Lemma one_string l bc ins i j s : disassemble bc = (ins, None) -> map (fun x => i_args x) (filter (fun x => tool_resolved (i_code x)) ins) = [AInts [i]] -> jat l i = Some (JString j) -> jutf8_at l j = Some s -> writable_code l bc.
Proof.
  intros HD HF H1 H2. exists ins. split; [exact HD|]. intros x a rest HI HT HA. assert (HX : In (i_args x) (map (fun x => i_args x) (filter (fun x => tool_resolved (i_code x)) ins))) by (apply (in_map (fun x => i_args x)); apply filter_In; auto).
  rewrite HF in HX. destruct HX as [HX|[]]. rewrite HA in HX. injection HX as <- <-. exact (wc_string l i j s H1 H2).
Qed.
Lemma left_fine : fine_class no_fmt c_left.
Proof.
  split; [eexists; exact known_left|]. split; [|apply unannotated; vm_compute; reflexivity]. exists j_left. split; [exact (ClassFile_Proofs.pool_shows_parsed j_left)|]. split; [apply no_dynamic; reflexivity|].
  intros m k HM HK. destruct HM as [<-|[<-|[]]]; [|vm_compute in HK; discriminate HK]. assert (HB : k_code k = [18; 13; 87; 177]) by (vm_compute in HK; injection HK as <-; reflexivity). rewrite HB.
  eapply (one_string _ _ _ 13 12); [vm_compute; reflexivity|vm_compute; reflexivity|vm_compute; reflexivity|vm_compute; reflexivity].
Qed.
Lemma other_fine : fine_class no_fmt c_other.
Proof.
  split; [eexists; exact known_other|]. split; [|apply unannotated; vm_compute; reflexivity]. exists j_other. split; [exact (ClassFile_Proofs.pool_shows_parsed j_other)|]. split; [apply no_dynamic; reflexivity|].
  intros m k HM HK. destruct HM as [<-|[<-|[]]]; [|vm_compute in HK; discriminate HK]. assert (HB : k_code k = [18; 17; 87; 177]) by (vm_compute in HK; injection HK as <-; reflexivity). rewrite HB.
  eapply (one_string _ _ _ 17 16); [vm_compute; reflexivity|vm_compute; reflexivity|vm_compute; reflexivity|vm_compute; reflexivity].
Qed.
Example C128_classes_ex : fine_class no_fmt c_left /\ fine_class no_fmt c_other /\ classdiff no_fmt no_repr no_fmt lax_pool c_left c_other = Ok 1.
Proof. split; [exact left_fine|]. split; [exact other_fine|]. vm_compute. reflexivity. Qed.
Lemma small_fine v : v = 51 \/ v = 52 -> fine_class no_fmt (the_class v).
Proof.
  intro H. split; [eexists; exact (small_known v H)|]. split.
  - exists [JClass 2; JUtf8 (lit "A"); JClass 4; JUtf8 (lit "java/lang/Object")]. split; [|split; [apply no_dynamic; reflexivity|]].
    + destruct H as [->| ->]; exact (ClassFile_Proofs.pool_shows_parsed [JClass 2; JUtf8 (lit "A"); JClass 4; JUtf8 (lit "java/lang/Object")]).
    + assert (E : c_methods (the_class v) = []) by (destruct H as [->| ->]; vm_compute; reflexivity). rewrite E. intros m k [].
  - apply unannotated. destruct H as [->| ->]; vm_compute; reflexivity.
Qed.
Lemma jars_fine : fine_jars no_fmt ascii_up jar_left jar_right.
Proof.
  intros n x y HN Hx Hy.
  assert (H1 : In n (names jar_left)) by (apply names_content; eauto). assert (H2 : In n (names jar_right)) by (apply names_content; eauto).
  apply find_entry_content in Hx as (e & E & <-). apply find_entry_content in Hy as (e' & E' & <-).
  unfold names in H1, H2. cbn [jar_left jar_right zip_of a_entries map P_Zip.zdir P_Zip.zfile Zip_Model.e_name fst snd] in H1, H2.
  assert (YES : forall f P, (f n = true <-> P) -> f n = true -> P) by tauto. assert (NO : forall f P, (f n = true <-> P) -> f n = false -> ~ P) by (intros f P [_ A] B C; rewrite (A C) in B; discriminate).
  destruct H1 as [<-|[<-|[<-|[<-|[<-|[<-|[<-|[<-|[<-|[]]]]]]]]]].
  - destruct HN. exists (lit "d"). reflexivity.
  - vm_compute in E, E'. injection E as <-. injection E' as <-. eapply (fe_manifest _ _ _ _ _); [left; reflexivity|vm_compute; reflexivity|vm_compute; reflexivity].
  - vm_compute in E, E'. injection E as <-. injection E' as <-. eapply (fe_manifest _ _ _ _ _); [right; apply is_sigfile_iff; vm_compute; reflexivity|vm_compute; reflexivity|vm_compute; reflexivity].
  - apply fe_block; [discriminate|intro X; apply is_sigfile_iff in X; vm_compute in X; discriminate X|apply is_sigblock_iff; vm_compute; reflexivity].
  - apply (fe_class _ _ _ _ _ (the_class 51) (the_class 52)); [discriminate|intros [X|X]; [apply is_sigfile_iff in X|apply is_sigblock_iff in X]; vm_compute in X; discriminate X|exists (lit "A"); reflexivity| | |apply small_fine; now left|apply small_fine; now right].
    + vm_compute in E. injection E as <-. vm_compute. reflexivity.
    + vm_compute in E'. injection E' as <-. vm_compute. reflexivity.
  - apply fe_data; [discriminate|intros [X|X]; [apply is_sigfile_iff in X|apply is_sigblock_iff in X]; vm_compute in X; discriminate X|intro X; apply is_classfile_iff in X; vm_compute in X; discriminate X].
  - apply fe_data; [discriminate|intros [X|X]; [apply is_sigfile_iff in X|apply is_sigblock_iff in X]; vm_compute in X; discriminate X|intro X; apply is_classfile_iff in X; vm_compute in X; discriminate X].
  - vm_compute in E'. discriminate E'.
  - vm_compute in E'. discriminate E'.
Qed.
Example C128_jars_ex : Forall sound (a_entries jar_left) /\ Forall sound (a_entries jar_right) /\ fine_jars no_fmt ascii_up jar_left jar_right /\ some_entry jar_left jar_right /\
  jardiff no_fmt no_repr no_fmt P_Zip.no_text (fun s => s) ascii_up strict (Ok jar_left) (Ok jar_right) = Ok 1.
Proof.
  split; [exact (proj1 jars_sound)|]. split; [exact (proj2 jars_sound)|]. split; [exact jars_fine|]. split; [|vm_compute; reflexivity].
  exists (lit "old.txt"). left. split; [vm_compute; tauto|]. intro H. vm_compute in H. repeat (destruct H as [H|H]; [discriminate H|]). exact H.
Qed.

(** What the conditions leave out: a dynamic constant (JVMS 4.4.10) among the
    constants makes the comparison itself fail if the constants are others, even
    with --ignore-pool.  (Method handles and method types: C70_json_refuted.) *)
Definition j_dynamic : list jconst := j_left ++ [JUtf8 (lit "v"); JNameAndType 16 4; JDynamic 0 17].
Definition c_dynamic : classinfo := mkclass (52, 0) (p_left ++ [KUtf8 (lit "v"); KRef2 12 16 4; KRef2 17 0 17]) 33 2 15 [15] (c_fields c_left) (c_methods c_left) [].
Theorem C128_refuted : exists l r L R, class_is no_fmt l L /\ class_is no_fmt r R /\ pool_shows j_left (c_pool l) /\ pool_shows j_dynamic (c_pool r) /\ resolved l /\ resolved r /\
  (forall o, exists e, classdiff no_fmt no_repr no_fmt o l r = Err e).
Proof.
  exists c_left, c_dynamic. eexists _, _. split; [exact known_left|]. split.
  - instantiate (1 := mkcdata (lit "A") (lit "B") [lit "B"] None [] []). constructor; [constructor; closed|no_annos|no_annos| | | |].
    + apply Forall_cons; [|apply Forall_cons; [|apply Forall_nil]]; [exists (plain_field "f" (TPrim PInt_))|exists (plain_field "g" (TPrim PLong))]; a_field.
    + apply Forall_cons; [|apply Forall_cons; [|apply Forall_nil]]; [exists (plain_method "m" (TPrim PInt_) (Some (code_m (c_pool c_dynamic) (hd (mkmember 0 0 0 [] true) (c_methods c_dynamic)) [(0, 10); (2, 11)])))|exists (plain_method "m" (TPrim PLong) None)]; a_method; [|exact I].
      constructor; [closed|]. constructor; [|constructor]. apply (catch_class _ _ 66 []); [vm_compute; discriminate|closed].
    + apply distinct_by with [PStr (lit "f"); PStr (lit "g")]; vm_compute; reflexivity.
    + apply distinct_by with [PStr (lit "m(I)"); PStr (lit "m(J)")]; vm_compute; reflexivity.
  - split; [exact (ClassFile_Proofs.pool_shows_parsed j_left)|]. split; [exact (ClassFile_Proofs.pool_shows_parsed j_dynamic)|]. split; [apply unannotated; vm_compute; reflexivity|]. split; [apply unannotated; vm_compute; reflexivity|].
    intro o. eexists. unfold classdiff. match goal with |- (c <- ?m ;; _) = _ => let v := eval vm_compute in m in change m with v end. reflexivity.
Qed.
Print Assumptions C128_refuted.

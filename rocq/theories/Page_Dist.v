(** The HTML page of a comparison of distributions: proofs. *)
From Verif Require Import Base Pack_Model ConstPool_Model ClassFile_Model Manifest_Model Change_Model Change_Spec Change_Proofs Classdiff_Model Classdiff_Class Classdiff_Passes Change_Tame Change_Report Zip_Model Zip_Spec Dir_Spec
  Jardiff_Model Jardiff_Spec Jardiff_Proofs Jardiff_Jar Distdiff_Model Distdiff_Spec Distdiff_Proofs Distdiff_Dist Kinds_Spec P_Kinds Tmpl_Model Report_Model Html_Model Html_Spec Html_Members Jinfo_Spec Page_Model Page_Spec Page_Listing Page_Proofs.
From Verif Require Dir_Proofs.
From Coq Require Import Permutation Sorting.Sorted.

Lemma state_agree o c y ig ig' : agree o c y -> is_ignored o c = Ok ig -> is_ignored o y = Ok ig' -> state_of y ig' = state_of c ig.
Proof. intros [A1 A2] H H'. unfold state_of. rewrite A1. destruct (is_change c); [|reflexivity]. rewrite (A2 eq_refl), H in H'. now injection H' as ->. Qed.
Lemma fits_any o c0 e c' ig ok : check c0 = Ok c' -> is_ignored o c' = Ok ig -> (passes o c0 <-> ok) -> (e = LEFT \/ e = RIGHT -> is_change c' = true) -> (e = SAME -> is_change c' = false) ->
  state_fits e ok (state_of c' ig).
Proof.
  intros HC HI HP H1 H2. assert (PI : passes o c0 <-> is_change c' = false \/ ig = true).
  { unfold passes. split; [intros (c2 & HC2 & H)|intro H; exists c'; split; [exact HC|]].
    - rewrite HC in HC2. injection HC2 as <-. rewrite HI in H. destruct H as [H|H]; [now left|right; now injection H].
    - rewrite HI. destruct H as [H|H]; [now left|right; now rewrite H]. }
  unfold state_fits, state_of. split; [|split].
  - rewrite <- HP, PI. destruct (is_change c'), ig; split; try discriminate; try reflexivity; try (intros _ [H|H]; discriminate); intro H; exfalso; apply H; auto.
  - intro H. rewrite (H1 H). destruct ig; discriminate.
  - intro H. rewrite (H2 H). reflexivity.
Qed.

Section Dists.
Variable fmt : pyval -> str.
Variable reprs : str -> str.
Variable ffmt : pyval -> str.
Variable text : bytes -> res str.
Variable order : list str -> list str.
Variable up : Z -> str.
Variable unzip : bytes -> jar.
Hypothesis order_perm : forall s, Permutation (order s) s.
Variable o : options.
Variables l r : node.
Variable sh : bool.
Notation dev := (dist_event fmt reprs ffmt text order up unzip l r sh).

Lemma dname_class e n k : dist_kind sh e n k -> dname e k = dist_class e k /\ class_label (dname e k) = Ok (dist_heading e k).
Proof. intro H. unfold dist_kind in H. destruct sh; [subst k; destruct e; split; vm_compute; reflexivity|]. destruct k, e; try contradiction; split; vm_compute; reflexivity. Qed.
Lemma dname_not_squashed e k : seqb (dname e k) (lit "SquashedChange") = false.
Proof. destruct k, e; vm_compute; reflexivity. Qed.
(** the cases of dist_event *)
Lemma dist_cases e n k : dist_kind sh e n k ->
  match e, k with
  | LEFT, KJar => dev (e, n) = dist_removed "DistJarRemoved" "Distributed JAR Removed" n
  | RIGHT, KJar => dev (e, n) = dist_added "DistJarAdded" "Distributed JAR Added" n
  | LEFT, KClass => dev (e, n) = dist_removed "DistClassRemoved" "Distributed Java Class Removed" n
  | RIGHT, KClass => dev (e, n) = dist_added "DistClassAdded" "Distributed Java Class Added" n
  | LEFT, KData => dev (e, n) = dist_removed "DistContentRemoved" "Distributed Content Removed" n
  | RIGHT, KData => dev (e, n) = dist_added "DistContentAdded" "Distributed Content Added" n
  | LEFT, _ | RIGHT, _ => False
  | _, _ =>
      let d := match e with DIFF => true | _ => false end in
      dev (e, n) = match k with
        | KJar => dist_node (lit "DistJarChange") (lit "Distributed JAR") false false false (dist_own n) true d (Some (dist_jar_sub fmt reprs ffmt text order up unzip l r n)) n
        | KClass => dist_node (lit "DistClassChange") (lit "Distributed Java Class") false false false (dist_own n) true d (Some (dist_class_sub fmt reprs ffmt l r n)) n
        | KText => dist_text text l r d n
        | KManifest => dist_node (lit "DistManifestChange") (lit "Distributed Manifest") false false false (dist_own n) true d (Some (dist_manifest_sub order l r n)) n
        | KData => dist_node (lit "DistContentChange") (lit "Distributed Content") false false false (dist_own n) true d None n
        end
  end.
Proof.
  intro HK. destruct (ends_tests n) as (k0 & H0 & T1 & T2 & T3 & T4). unfold dist_event. rewrite T1, T2, T3, T4.
  assert (E : k = (if sh then KData else match e with LEFT | RIGHT => match k0 with KJar => KJar | KClass => KClass | _ => KData end | _ => k0 end)).
  { unfold dist_kind in HK. destruct sh; [exact HK|]. destruct e.
    - destruct k; try contradiction.
      + destruct k0; cbn [is_kind] in *; try reflexivity; try (discriminate (ends_unique _ _ _ H0 HK)). exfalso. exact (H0 _ HK).
      + destruct k0; cbn [is_kind] in *; try reflexivity; try (discriminate (ends_unique _ _ _ H0 HK)). exfalso. exact (H0 _ HK).
      + destruct k0; try reflexivity; exfalso; tauto.
    - destruct k; try contradiction.
      + destruct k0; cbn [is_kind] in *; try reflexivity; try (discriminate (ends_unique _ _ _ H0 HK)). exfalso. exact (H0 _ HK).
      + destruct k0; cbn [is_kind] in *; try reflexivity; try (discriminate (ends_unique _ _ _ H0 HK)). exfalso. exact (H0 _ HK).
      + destruct k0; try reflexivity; exfalso; tauto.
    - exact (kinds_clash n _ _ HK H0).
    - exact (kinds_clash n _ _ HK H0). }
  subst k. clear. destruct sh, e; cbn [negb andb]; try reflexivity; destruct k0; reflexivity.
Qed.
Lemma dev_flags e n k : dist_kind sh e n k -> k_name (k_of (dev (e, n))) = dname e k /\ k_entry (k_of (dev (e, n))) = Some n /\ (k_removal (k_of (dev (e, n))) = true <-> e = LEFT) /\ (k_addition (k_of (dev (e, n))) = true <-> e = RIGHT) /\
  (e = LEFT \/ e = RIGHT -> forall c, k_of c = k_of (dev (e, n)) -> is_change c = true).
Proof.
  intro HK. destruct (dist_shaped fmt reprs ffmt text order up unzip l r sh e n) as (k' & K1 & K2 & K3). rewrite (dist_kind_fun _ _ _ _ _ HK K1). split; [exact K2|]. destruct (K3 (dev (e, n)) eq_refl) as (L1 & L2 & L3 & _). split; [exact L1|]. split; [exact L2|]. split; [exact L3|].
  intros H c Hc. destruct (K3 c Hc) as (_ & _ & _ & L4 & _). auto.
Qed.
Definition reported (e : Zip_Model.event) (k : kind) : Prop := e = DIFF /\ (k = KJar \/ k = KClass).
Lemma reported_dec e k : reported e k \/ ~ reported e k.
Proof. unfold reported. destruct e, k; try (left; split; [reflexivity|]; (now left) || (now right)); right; intros [A [B|B]]; discriminate. Qed.
Lemma is_report_iff e n k : dist_kind sh e n k -> is_report fmt reprs ffmt text order up unzip l r sh (e, n) = true <-> reported e k.
Proof.
  intro HK. unfold is_report, reported. rewrite (proj1 (dev_flags e n k HK)). pose proof (dist_cases e n k HK) as HD.
  destruct e, k; try contradiction; cbv zeta in HD; rewrite HD; try (match goal with |- context [seqb ?x ?y || seqb ?z ?w] => let v := eval vm_compute in (seqb x y || seqb z w) in change (seqb x y || seqb z w) with v end); cbn [andb]; cbn [dist_node jar_node is_change k_always orb]; split; try discriminate; try reflexivity; auto; intros [A [B|B]]; discriminate.
Qed.
Lemma text_renders ch n c' : check (dist_text text l r ch n) = Ok c' ->
  exists ig more, is_ignored o c' = Ok ig /\ render o c' = Ok (item_html (lit "DistTextChange" ++ words (state_of c' ig)) n more) /\ (is_change c' = false -> more = []).
Proof.
  intro HC. pose proof (text_tame text l r ch n) as HT. destruct (tame_checked o _ HT c' HC) as [ig HI]. pose proof (check_k _ _ HC) as HK. exists ig.
  assert (CK : exists ks, collect c' = Ok ks /\ Forall (renders o) ks /\ (is_change c' = false -> ks = [])).
  { unfold dist_text in HC. cbv zeta in HC. cbn [check k_check map pick k_super negb k_incheck andb k_gate k_always k_raises] in HC. destruct (texts text l r n) as [[a b]|e]; [|discriminate HC]. destruct (seqb a b) eqn:E; cbn [map rbind sequence] in HC.
    - injection HC as <-. exists []. split; [reflexivity|]. split; [constructor|auto].
    - destruct (check (text_change a b)) as [x|] eqn:Ex; cbn [rbind] in HC; [|discriminate HC]. injection HC as <-. exists [x]. split; [reflexivity|]. split.
      + constructor; [|constructor]. assert (TL : tame (text_change a b)) by apply tame_leaf. destruct (renders_leaf o _ x TL Ex) as (i & _ & R); [|left; vm_compute; reflexivity|eexists; exact R].
        unfold text_change, leaf_text, leaf, generic_check, pure2 in Ex. cbn [check k_check rbind] in Ex. rewrite E in Ex. cbn [rbind] in Ex. injection Ex as <-. auto.
      + intro H. exfalso. unfold text_change, leaf_text, leaf, generic_check, pure2 in Ex. cbn [check k_check rbind] in Ex. rewrite E in Ex. cbn [rbind] in Ex. injection Ex as <-. discriminate H. }
  destruct CK as (ks & CK & FR & EM). destruct (renders_all o ks FR) as [hs HM]. exists (collect_html hs). split; [exact HI|]. split.
  - assert (HN : k_name (k_of c') = lit "DistTextChange") by now rewrite HK. assert (HE : entry_of c' = Ok n) by (unfold entry_of; now rewrite HK).
    assert (SE : shows_entry (k_name (k_of c')) = true) by (rewrite HN; vm_compute; reflexivity). destruct (shows_entry_template _ c' n SE HE) as (t & T1 & T2 & T3 & T4). rewrite (render_plain o c' t (txt (esc n)) ks hs ig T1 T2 T3 HI T4 CK HM). rewrite HN. reflexivity.
  - intro H. rewrite (EM H) in HM. injection HM as <-. reflexivity.
Qed.
Lemma dist_entry_renders e n k c' : dist_kind sh e n k -> check (dev (e, n)) = Ok c' -> ~ reported e k ->
  exists ig more, is_ignored o c' = Ok ig /\ render o c' = Ok (item_html (dname e k ++ words (state_of c' ig)) n more) /\ (e <> DIFF -> is_change c' = false \/ k <> KText -> more = []).
Proof.
  intros HK HC NR. pose proof (dist_cases e n k HK) as HD. pose proof (dist_event_tame fmt reprs ffmt text order up unzip order_perm l r sh (e, n)) as TM.
  destruct e, k; try contradiction; cbv zeta in HD; rewrite HD in HC, TM; try (exfalso; apply NR; split; [reflexivity|]; (now left) || (now right)); unfold dist_removed, dist_added, dist_node in HC, TM;
    try (destruct (text_renders _ n c' HC) as (ig & more & R1 & R2 & R3); exists ig, more; split; [exact R1|]; split; [exact R2|]; intros _ [X|X]; [apply R3, X|exfalso; apply X; reflexivity]);
    (edestruct jar_node_renders as (ig & more & R1 & R2 & R3); [exact TM|exact HC|vm_compute; reflexivity|intro X; reflexivity || discriminate X| |exists ig, more; split; [exact R1|split; [exact R2|intros NE _; try (exfalso; apply NE; reflexivity); apply R3; (now left) || (now right)]]]);
    intros H1 H2 s s' Hs Hs'; try discriminate H1; try discriminate H2; try discriminate Hs; injection Hs as Hs.
  unfold dist_manifest_sub in Hs. repeat match type of Hs with rbind ?m _ = _ => destruct m; cbn [rbind] in Hs; [|discriminate Hs] end. injection Hs as <-. exact (manifest_renders order order_perm o false _ _ _ Hs').
Qed.
Lemma same_quiet n d c' : read_file l n = Ok d -> read_file r n = Ok d -> check (dev (SAME, n)) = Ok c' -> is_change c' = false.
Proof.
  intros Hl Hr HC. assert (Q : quiet (dev (SAME, n))); [|destruct Q as (c2 & E & H); rewrite HC in E; injection E as <-; exact H].
  destruct sh eqn:ES; [apply shallow_quiet|]. assert (HQ : completes (dev (SAME, n)) -> quiet (dist_event fmt reprs ffmt text order up unzip l r false (SAME, n))).
  { rewrite ES. apply (by_kind fmt reprs ffmt text order up unzip l r n (fun c => completes c -> quiet c) SAME false); [now left|..]; intros _ CO; try (unfold dist_node; apply unchanged_quiet).
    destruct CO as [x Hx]. exists x. split; [exact Hx|]. unfold dist_text in Hx. cbv zeta in Hx. cbn [check k_check map pick k_super negb k_incheck andb k_gate k_always k_raises] in Hx. destruct (texts text l r n) as [[a b]|] eqn:ET; [|discriminate Hx].
    apply (texts_iff text l r n d d Hl Hr) in ET as [E1 E2]. rewrite E1 in E2. injection E2 as <-. rewrite seqb_refl in Hx. injection Hx as <-. reflexivity. }
  rewrite ES in HQ. apply HQ. exists c'. exact HC.
Qed.
Lemma dist_report_entry e n k y : dist_kind sh e n k -> (e = SAME -> exists d, read_file l n = Ok d /\ read_file r n = Ok d) ->
  (if is_report fmt reprs ffmt text order up unzip l r sh (e, n) then report_task fmt reprs ffmt text order up unzip l r o sh (e, n) else check (dev (e, n))) = Ok y ->
  exists c' ig, check (dev (e, n)) = Ok c' /\ is_ignored o c' = Ok ig /\ good_kid (seen o y) /\ name_of_kid (seen o y) = n /\ key dist_aliases (seen o y) = dname e k /\
    (is_squashed (seen o y) = true -> k_orig (k_of y) <> None) /\ dist_item e k n (state_of c' ig) (html_of (seen o y)).
Proof.
  intros HK HS HR. pose proof (task_agree fmt reprs ffmt text order up unzip order_perm l r o sh (e, n)) as HA. rewrite HR in HA. unfold agreeing in HA.
  destruct (check (dev (e, n))) as [c'|] eqn:HC; [|contradiction]. exists c'. pose proof (check_k _ _ HC) as EK. destruct (dev_flags e n k HK) as (EN & F1 & F2 & F3 & F4). rewrite <- EK in F1, F2, F3, EN.
  destruct (tame_checked o _ (dist_event_tame fmt reprs ffmt text order up unzip order_perm l r sh (e, n)) c' HC) as [ig HI].
  destruct (reported_dec e k) as [D|D].
  - rewrite (proj2 (is_report_iff e n k HK) D) in HR. exists ig. split; [reflexivity|]. split; [exact HI|]. unfold report_task in HR. destruct (report_check _ _ _ _ _ _ _ _ _ _ _ _) as [c|] eqn:ER; cbn [rbind] in HR; [|discriminate HR].
    assert (KC : k_of c = k_of (dev (e, n))).
    { unfold report_check in ER. destruct (seqb _ (lit "DistJarChange")); [|now rewrite (check_k _ _ ER)]. destruct (both l r _) as [[a b]|]; cbn [rbind] in ER; [|discriminate ER]. destruct (jar_report_check _ _ _ _ _ _ _ _ _) as [j|]; cbn [rbind] in ER; [|discriminate ER]. destruct (dev (e, n)) as [kk chh dd css imm]. injection ER as <-. reflexivity. }
    rewrite EK, <- KC in F1, F2, F3, EN.
    assert (R0 : k_removal (k_of c) = false) by (destruct (k_removal (k_of c)); [destruct D as [-> _]; discriminate (proj1 F2 eq_refl)|reflexivity]). assert (A0 : k_addition (k_of c) = false) by (destruct (k_addition (k_of c)); [destruct D as [-> _]; discriminate (proj1 F3 eq_refl)|reflexivity]).
    assert (HX : exists i, is_ignored o c = Ok i) by (unfold squash in HR; rewrite named_ignored in HR; destruct (is_ignored o c) as [i|]; [eauto|discriminate HR]). destruct HX as [i HX].
    assert (RC : exists orig rn, report_class fmt reprs ffmt text order up unzip l r sh (e, n) = orig /\ report_name (lit orig) = Some rn /\ (match dget dist_aliases (lit orig) with Some t => t | None => lit orig end) = dname e k /\
       forall h, h = item_html (lit "SquashedChange " ++ lit orig ++ words (state_of c' ig)) n (link_html (n ++ 47 :: rn ++ lit ".html")) -> dist_item e k n (state_of c' ig) h).
    { unfold report_class. rewrite <- KC, EN. destruct D as [-> [-> | ->]].
      - exists "DistJarReport"%string, (lit "JarReport"). split; [vm_compute; reflexivity|]. split; [reflexivity|]. split; [vm_compute; reflexivity|]. intros h ->. reflexivity.
      - exists "DistClassReport"%string, (lit "JavaClassReport"). split; [vm_compute; reflexivity|]. split; [reflexivity|]. split; [vm_compute; reflexivity|]. intros h ->. reflexivity. }
    destruct RC as (orig & rn & R1 & R2 & R3 & R4). rewrite R1 in HR.
    destruct (squashed_renders o c n _ orig rn i y HR eq_refl F1 R0 A0 HX R2) as (y' & S1 & S2 & S3 & S4 & S5). rewrite S1 in HR. injection HR as ->.
    assert (SE : state_of c i = state_of c' ig).
    { assert (SQ : is_change y = is_change c /\ is_ignored o y = Ok i). { assert (HX' : is_ignored o (named orig c) = Ok i) by now rewrite named_ignored. destruct (squash_facts _ _ _ _ HX' S1) as (Q1 & Q2 & _). rewrite named_change in Q1. auto. }
      destruct SQ as [Q1 Q2]. rewrite <- (state_agree o c' y ig i HA HI Q2). unfold state_of. now rewrite Q1. }
    rewrite SE in S5. assert (NK : name_of_kid (seen o y) = n) by (unfold name_of_kid, seen; cbn [fst]; now rewrite S2). split; [|split; [exact NK|split; [|split]]].
    + split; [rewrite NK; exact S2|]. unfold html_of, seen. cbn [snd]. rewrite S5. reflexivity.
    + unfold key, is_squashed, kid_type, seen. cbn [fst]. rewrite S3, seqb_refl, S4. exact R3.
    + intros _. rewrite S4. discriminate.
    + unfold html_of, seen. cbn [snd]. rewrite S5. now apply R4.
  - destruct (is_report fmt reprs ffmt text order up unzip l r sh (e, n)) eqn:CR; [exfalso; apply D; now apply (is_report_iff e n k HK)|]. injection HR as <-. destruct (dist_entry_renders e n k c' HK HC D) as (ig' & more & R1 & R2 & R3). exists ig'. split; [reflexivity|]. split; [exact R1|].
    assert (NS : is_squashed (seen o c') = false) by (unfold is_squashed, kid_type, seen; cbn [fst]; rewrite EN; apply dname_not_squashed).
    assert (NK : name_of_kid (seen o c') = n) by (unfold name_of_kid, seen; cbn [fst]; now rewrite F1). split; [|split; [exact NK|split; [|split]]].
    + split; [rewrite NK; exact F1|]. unfold html_of, seen. cbn [snd]. now rewrite R2.
    + unfold key. rewrite NS. unfold kid_type, seen. cbn [fst]. exact EN.
    + rewrite NS. discriminate.
    + unfold html_of, seen. cbn [snd]. rewrite R2. destruct (dname_class e n k HK) as [-> _]. unfold dist_item.
      assert (MN : e <> DIFF -> more = []).
      { intro NE. apply R3; [exact NE|]. destruct k; try (right; discriminate). left. destruct e; [pose proof (dist_cases LEFT n KText HK) as []|pose proof (dist_cases RIGHT n KText HK) as []|contradiction|]. destruct (HS eq_refl) as (d & A & B). eapply same_quiet; eassumption. }
      destruct e; try (rewrite (MN ltac:(discriminate)); destruct k; reflexivity). destruct k; try (exists more; reflexivity); exfalso; apply D; split; auto.
Qed.
Hypothesis Pl : plain l.
Hypothesis Pr : plain r.
Hypothesis Nl : names_ok l.
Hypothesis Nr : names_ok r.
Hypothesis HC : Dir_Spec.comparable l r.
Lemma written_name e n p : (e, n) = written (e, p) -> n = snd (written (e, p)).
Proof. intro H. now rewrite <- H. Qed.
Lemma left_root p d : data_at l p d -> p <> [].
Proof. intros H ->. destruct H as (x & m & H). apply Dir_Proofs.comparable_dir in HC as [H1 _]. inversion H; subst. discriminate. Qed.
Lemma dclass_path e p : dclass l r e p -> p <> [] /\ Forall name_ok p.
Proof.
  assert (FL : file_at l p -> p <> [] /\ Forall name_ok p).
  { intros (m & F & D). split; [|exact (Nl _ _ F)]. intros ->. inversion F; subst. apply Dir_Proofs.comparable_dir in HC as [H1 _]. congruence. }
  assert (FR : file_at r p -> p <> [] /\ Forall name_ok p).
  { intros (m & F & D). split; [|exact (Nr _ _ F)]. intros ->. inversion F; subst. apply Dir_Proofs.comparable_dir in HC as [_ H1]. congruence. }
  assert (FD : forall d, data_at l p d -> file_at l p) by (intros d (x & m & F); exists (File x d m); auto).
  destruct e; cbn [dclass]; [intros [H _]; auto|intros [H _]; auto|intros (d & d' & H & _); eauto|intros (d & H & _); eauto].
Qed.
Lemma written_components e p : p <> [] -> Forall name_ok p -> components (snd (written (e, p))) = p.
Proof.
  intros H1 H2. destruct e; [rewrite (proj1 (written_one p))|rewrite (proj2 (written_one p))|rewrite (proj2 (written_common p))|rewrite (proj1 (written_common p))].
  - now apply components_slashes. - now apply components_slashes. - now apply components_name. - now apply components_name.
Qed.
Lemma dist_state e p n c' ig : dclass l r e p -> (e, n) = written (e, p) -> check (dev (e, n)) = Ok c' -> is_ignored o c' = Ok ig -> (e = LEFT \/ e = RIGHT -> is_change c' = true) ->
  state_fits e (file_ok fmt reprs ffmt text order up unzip o sh l r e n) (state_of c' ig).
Proof.
  intros HD HW HK HG HL. apply (fits_any o (dev (e, n))); [exact HK|exact HG| |exact HL|].
  - destruct (one_sided fmt reprs ffmt text order up unzip l r sh o n) as [P1 P2]. destruct e; unfold file_ok.
    + exact P1.
    + exact P2.
    + destruct HD as (d & d' & D1 & D2 & ND). destruct sh; [split; [now left|intros _; apply quiet_passes, shallow_quiet]|]. pose proof (left_root _ _ D1) as Hp. apply written_name in HW. rewrite (proj2 (written_common p)) in HW.
      pose proof (read_data _ _ _ Pl Nl Hp D1) as RA. pose proof (read_data _ _ _ Pr Nr Hp D2) as RB. rewrite <- HW in RA, RB. rewrite (diff_passes fmt reprs ffmt text order up unzip order_perm l r n d d' RA RB o). split; [|intros [X|X]; [discriminate X|eauto]].
      intro A. right. intros q x x' EQ X X'. pose proof (left_root _ _ X) as Hq. pose proof (read_data _ _ _ Pl Nl Hq X) as RX. pose proof (read_data _ _ _ Pr Nr Hq X') as RX'. rewrite <- EQ in RX, RX'. rewrite RA in RX. rewrite RB in RX'. injection RX as <-. injection RX' as <-. exact A.
    + split; [auto|intros _]. apply quiet_passes. exists c'. split; [exact HK|]. destruct HD as (d & D1 & D2). pose proof (left_root _ _ D1) as Hp. apply written_name in HW. rewrite (proj1 (written_common p)) in HW.
      pose proof (read_data _ _ _ Pl Nl Hp D1) as RA. pose proof (read_data _ _ _ Pr Nr Hp D2) as RB. rewrite <- HW in RA, RB. eapply same_quiet; eassumption.
  - intros ->. destruct HD as (d & D1 & D2). pose proof (left_root _ _ D1) as Hp. apply written_name in HW. rewrite (proj1 (written_common p)) in HW.
    pose proof (read_data _ _ _ Pl Nl Hp D1) as RA. pose proof (read_data _ _ _ Pr Nr Hp D2) as RB. rewrite <- HW in RA, RB. eapply same_quiet; eassumption.
Qed.
Definition dist_all : list str := dist_types.
Lemma dname_all e k : In (dname e k) dist_all.
Proof. assert (H0 : existsb (seqb (dname e k)) dist_all = true) by (destruct k, e; vm_compute; reflexivity). apply existsb_exists in H0 as (x & HX & E). now apply seqb_eq in E as ->. Qed.
Lemma dist_all_labels : map label_of dist_all = dist_headings.
Proof. vm_compute. reflexivity. Qed.
Theorem dist_page_groups env ks : sequential_check fmt reprs ffmt text order up unzip l r o sh = Ok ks ->
  exists K, NoDup (map snd K) /\ (forall e p, In (e, p) K <-> dclass l r e p) /\
    exists h gs, page env o (dist_report fmt reprs ffmt text order up unzip l r sh ks) = Ok h /\ lists_groups h gs /\ in_sequence dist_headings (map g_heading gs) /\ Forall tidy gs /\
      Permutation (listed_names gs) (map (fun k => snd (written k)) K) /\
      Forall (fun g => Forall (dist_item_fits fmt reprs ffmt text order up unzip o sh l r (map written K) (g_heading g)) (g_items g)) gs.
Proof.
  intro H. destruct (Dir_Proofs.gen_spec l Pl [] r Pr HC) as (K & E & N & HK & _). exists K. split; [exact N|]. split; [exact HK|].
  unfold sequential_check, dist_events, Dir_Model.dir_compare in H. rewrite E in H. cbn [rbind] in H.
  match type of H with mapM _ (iterate_by_type ?ty _ _) = _ => destruct (iterate_spec ty (map written K) dist_types) as (P & _); set (rows := iterate_by_type ty (map written K) dist_types) in * end. clearbody rows.
  apply mapM_Forall2 in H.
  assert (RW : forall en, In en rows -> exists p, In (fst en, p) K /\ en = written (fst en, p)).
  { intros en Hen. apply (Permutation_in _ P) in Hen. apply in_map_iff in Hen as ([e p] & <- & Hp). exists p. cbn [written fst]. auto. }
  assert (FK : Forall2 (fun en y => exists k c' ig, dist_kind sh (fst en) (snd en) k /\ check (dev en) = Ok c' /\ is_ignored o c' = Ok ig /\ good_kid (seen o y) /\ name_of_kid (seen o y) = snd en /\
       key dist_aliases (seen o y) = dname (fst en) k /\ (is_squashed (seen o y) = true -> k_orig (k_of y) <> None) /\ dist_item (fst en) k (snd en) (state_of c' ig) (html_of (seen o y))) rows ks).
  { clear P. induction H as [|[e n] y rs ys Hy _ IH]; [constructor|]. constructor; [|apply IH; intros; apply RW; now right]. destruct (dist_shaped fmt reprs ffmt text order up unzip l r sh e n) as (k & K1 & _).
    destruct (RW (e, n) (or_introl eq_refl)) as (p & Hp & Ep). cbn [fst] in Hp, Ep. apply HK in Hp. destruct (dist_report_entry e n k y K1) as (c' & i & R).
    - intros ->. destruct Hp as (d & D1 & D2). pose proof (left_root _ _ D1) as Hp. apply written_name in Ep. rewrite (proj1 (written_common p)) in Ep. exists d. rewrite Ep. split; [exact (read_data _ _ _ Pl Nl Hp D1)|exact (read_data _ _ _ Pr Nr Hp D2)].
    - exact Hy.
    - exists k, c', i. cbn [fst snd]. split; [exact K1|exact R]. }
  assert (NM : map name_of_kid (map (seen o) ks) = map snd rows).
  { rewrite map_map. clear -FK. induction FK as [|en y a b (k & c' & i & _ & _ & _ & _ & N & _) _ IH]; [reflexivity|]. cbn [map]. now rewrite N, IH. }
  assert (IN : forall y, In y ks -> exists en, In en rows /\ exists k c' ig, dist_kind sh (fst en) (snd en) k /\ check (dev en) = Ok c' /\ is_ignored o c' = Ok ig /\ good_kid (seen o y) /\ name_of_kid (seen o y) = snd en /\
       key dist_aliases (seen o y) = dname (fst en) k /\ (is_squashed (seen o y) = true -> k_orig (k_of y) <> None) /\ dist_item (fst en) k (snd en) (state_of c' ig) (html_of (seen o y))).
  { clear -FK. induction FK as [|en y a b H _ IH]; [intros ? []|]. intros z [<-|Hz]; [exists en; split; [now left|exact H]|]. destruct (IH z Hz) as (en' & I1 & I2). exists en'. split; [now right|exact I2]. }
  assert (ND : NoDup (map snd rows)).
  { apply (Permutation_NoDup (Permutation_map snd (Permutation_sym P))). rewrite map_map. assert (FP : forall x, In x K -> snd x <> [] /\ Forall name_ok (snd x)) by (intros [e p] Hx; apply (dclass_path e), HK, Hx). clear -N FP.
    induction K as [|[e p] K IH]; [constructor|]. cbn [map] in *. inversion N as [|? ? N1 N2]; subst. constructor; [|apply IH; [exact N2|intros; apply FP; now right]]. intro HI. apply in_map_iff in HI as ([e' p'] & EW & HI). apply N1.
    destruct (FP _ (or_introl eq_refl)) as [A1 A2]. destruct (FP _ (or_intror HI)) as [B1 B2]. cbn [snd] in *. apply (f_equal components) in EW. rewrite !written_components in EW by assumption. subst p'. exact (in_map snd _ _ HI). }
  destruct (listing_groups dist_page_order dist_aliases dist_all (map (seen o) ks)) as (gs & L1 & L2 & L3 & L4 & L5).
  { vm_compute. reflexivity. } { vm_compute. reflexivity. }
  { rewrite Forall_map. apply Forall_forall. intros y Hy. destruct (IN y Hy) as (en & _ & k & c' & i & _ & _ & _ & G & _). exact G. }
  { rewrite NM. exact ND. }
  { rewrite Forall_map. apply Forall_forall. intros y Hy. destruct (IN y Hy) as (en & _ & k & c' & i & _ & _ & _ & _ & _ & _ & G & _). exact G. }
  { rewrite Forall_map. apply Forall_forall. intros y Hy. destruct (IN y Hy) as (en & _ & k & c' & i & _ & _ & _ & _ & _ & G & _). rewrite G. apply dname_all. }
  rewrite dist_all_labels in L2. rewrite NM in L4.
  exists (page_with env (lit "DistReport") ([] ++ flat_map group_html gs ++ [])), gs.
  split; [|split; [|split; [exact L2|split; [exact L3|split]]]].
  - unfold page. assert (KN : k_name (k_of (dist_report fmt reprs ffmt text order up unzip l r sh ks)) = lit "DistReport") by reflexivity. rewrite KN. assert (TD : template (lit "DistReport") = Ok (lit "distdiff_DistReport")) by (vm_compute; reflexivity). rewrite TD. cbn [rbind].
    assert (CD : collect (dist_report fmt reprs ffmt text order up unzip l r sh ks) = Ok ks).
    { destruct ks as [|k0 ks']; [|reflexivity]. inversion H; subst. unfold dist_report, dist_change, super, dist_events, Dir_Model.dir_compare. rewrite E. apply Permutation_nil, map_eq_nil in P. subst K. reflexivity. }
    rewrite CD. cbn [rbind]. replace (seqb (lit "distdiff_DistReport") (lit "jardiff_JarReport")) with false by (vm_compute; reflexivity). rewrite seqb_refl. change (map (fun x => (x, render o x)) ks) with (map (seen o) ks). rewrite L1. cbn [rbind app]. now rewrite app_nil_r.
  - apply page_lists; constructor.
  - etransitivity; [exact L4|]. rewrite <- (map_map written snd). apply Permutation_map. exact P.
  - revert L5. apply Forall_impl. intros g. apply Forall_impl. intros it (x & HX & -> & HG). apply in_map_iff in HX as (y & <- & Hy). destruct (IN y Hy) as ([e n] & I1 & k & c' & i & K1 & K2 & K3 & _ & K5 & K6 & _ & K8). cbn [fst snd] in *.
    unfold dist_item_fits. cbn [fst snd]. exists e, k, (state_of c' i). rewrite K5. split; [exact (Permutation_in _ P I1)|]. split; [exact K1|]. split; [rewrite HG, K6; unfold label_of; now rewrite (proj2 (dname_class e n k K1))|]. split; [|exact K8].
    destruct (RW _ I1) as (p & Hp & Ep). cbn [fst] in Hp, Ep. apply (dist_state e p); [now apply HK|exact Ep|exact K2|exact K3|]. intro HL. destruct (dev_flags e n k K1) as (_ & _ & _ & _ & F4). apply (F4 HL). now apply check_k.
Qed.
End Dists.

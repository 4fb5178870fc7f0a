(** Comparing a jar with its signed copy. *)
From Verif Require Import Base Pack_Model ConstPool_Model Manifest_Model Manifest_Spec Manifest_Proofs Manifest_RT Manifest_Canon
  Sign_Model Sign_Spec Sign_Proofs Sign_Names Sign_Bind Sign_Tamper Sign_Parsed Sign_Jar Sign_C31 Sign_C32
  Change_Model Classdiff_Model Zip_Spec Signdiff_Spec.
From Verif Require Zip_Model Jardiff_Spec Jardiff_Model Jardiff_Jar.
From Coq Require Import Permutation.

Section Sg.
Variable up : Z -> str.
Hypothesis Hup : upper_ok up.
Variable hash : str -> bytes -> str.
Hypothesis Htext : hash_text hash.
Variable make_block : str -> bytes -> bytes.
Variable key_ext : str.

Lemma archive_names z a : archive_of z a -> names a = namelist z.
Proof. intros (_ & _ & _ & <-). unfold names, namelist. rewrite map_map. reflexivity. Qed.
Lemma archive_content z a n d : archive_of z a -> content a n d <-> zread z n = Ok d.
Proof.
  intros (_ & _ & _ & E). rewrite zread_holds. unfold content, holds. split.
  - intros (l1 & e & l2 & E2 & E3 & E4 & E5). rewrite E2, map_app in E. cbn [map] in E. subst n d.
    eexists _, _. split; [symmetry; exact E|]. rewrite map_map. exact E5.
  - intros (z1 & z2 & E2 & E3). rewrite E2 in E. apply map_eq_app in E as (l1 & l2 & -> & E4 & E5).
    destruct l2 as [|e l2]; [discriminate|]. cbn [map] in E5. injection E5 as E6 E7 E8.
    exists l1, e, l2. split; [reflexivity|]. split; [exact E6|]. split; [exact E7|]. rewrite <- E8, map_map in E3. exact E3.
Qed.

Lemma algs_java alg : smem alg java_digests = true -> In alg algs.
Proof. intro H. apply smem_In in H. exact H. Qed.

(** What signing does to the archive. *)
Lemma signed z alias alg z' mf0 : signable up z mf0 -> sign up hash make_block key_ext z alias alg = Ok z' ->
  exists mfd0 mfd sfd mf2 rest, In alg algs /\ zread z MANIFEST_NAME = Ok mfd0 /\ man_parse (new_manifest None) mfd0 = Ok mf0 /\
    z' = (MANIFEST_NAME, mfd) :: (META ++ alias ++ lit ".SF", sfd) :: (META ++ alias ++ [46] ++ key_ext, make_block alg sfd) :: rest /\
    namelist rest = filter (fun n => negb (seqb (upper up n) MANIFEST_NAME)) (namelist z) /\
    (forall f, In f (namelist rest) -> zread rest f = zread z f) /\
    man_parse (new_manifest None) mfd = Ok mf2 /\ m_main mf2 = m_main mf0 /\
    forall f, dget (m_subs mf2) f = dget (added up hash z alg (namelist z) (m_subs mf0)) f.
Proof.
  intros (HZ & (mfd0 & Hm0 & Hp0) & HOK0 & HN & _) HS. apply zread_holds in Hm0. pose proof Hm0 as Hm0'. apply zread_holds in Hm0'.
  assert (HIm : smem MANIFEST_NAME (namelist z) = true).
  { apply smem_In. destruct Hm0' as (z1 & z2 & -> & _). unfold namelist. rewrite map_app. apply in_or_app. right. now left. }
  unfold sign, load_from_jar in HS. rewrite HIm in HS. cbn [negb] in HS. change (lit "META-INF/MANIFEST.MF") with MANIFEST_NAME in Hm0.
  rewrite Hm0 in HS. cbn [rbind] in HS. rewrite Hp0 in HS. cbn [rbind] in HS. unfold add_jar_entries in HS.
  destruct (smem alg java_digests) eqn:EA; [|discriminate]. apply algs_java in EA.
  rewrite (add_entries_ok up hash z alg EA) in HS by auto. cbn [rbind] in HS.
  set (mf := mkman (m_primary_key mf0) (m_main mf0) (added up hash z alg (namelist z) (m_subs mf0)) (m_linesep mf0)) in *.
  destruct (digest_manifest hash _ mf alg) as [sf|] eqn:ED; [|discriminate]. cbn [rbind] in HS.
  destruct (man_data sf None) as [sfd|] eqn:ES; [|discriminate]. cbn [rbind] in HS.
  destruct (parsed_new None mfd0 mf0 (zip_bytes_holds z _ _ HZ Hm0') Hp0) as (HT0 & HW0 & HL0).
  assert (HN' : Forall (fun f => file_skips_verification up f = false -> item_ok (K_Name, f)) (namelist z)).
  { eapply Forall_impl; [|exact HN]. intros f [H|H] Hs; [|exact H]. apply (skips_exact up Hup) in H. congruence. }
  assert (HOK : manifest_ok mf) by (apply (added_ok up hash Htext); assumption).
  assert (HL' : exists ls, m_linesep mf = Some ls /\ a_linesep ls).
  { cbn [m_linesep mf]. destruct HL0 as [->| ->]; eexists; (split; [reflexivity|]); [now left|now right]. }
  destruct HL' as (ls & EL & Hls).
  assert (HPK : m_primary_key mf = K_MV).
  { cbn [mf m_primary_key]. unfold man_parse in Hp0. destruct (parse_sections _) as [[|s l] e]; [discriminate|].
    destruct (sec_load _ _); [|discriminate]. cbn [rbind] in Hp0. destruct (load_subs _ _); [|discriminate]. cbn [rbind] in Hp0.
    destruct e; [discriminate|]. apply ok_inj in Hp0. subst mf0. reflexivity. }
  assert (HWr : writes_with mf None ls) by (split; [exact Hls|]; right; left; split; [reflexivity|exact EL]).
  destruct (round_trip' mf None ls (new_manifest None) (lit "1.0") HOK HWr) as (mfd & mf2 & M1 & M2 & M3 & M4 & M5);
    try (rewrite HPK); try reflexivity.
  rewrite M1 in HS. cbn [rbind] in HS.
  destruct (mapM _ _) as [rest|] eqn:ER in HS; [|discriminate]. cbn [rbind] in HS. apply ok_inj in HS. subst z'.
  destruct (copied z _ rest ER) as [CR1 CR2].
  exists mfd0, mfd, sfd, mf2, rest. split; [exact EA|]. split; [exact Hm0|]. split; [exact Hp0|]. split; [reflexivity|].
  split; [exact CR1|]. split; [intros f Hf; apply CR2; rewrite <- CR1; exact Hf|]. split; [exact M2|]. split; [exact M3|].
  intro f. rewrite (dget_perm (m_subs mf) (m_subs mf2)); [reflexivity| |now symmetry].
  apply added_NoDup. apply HW0.
Qed.

Lemma sf_sig alias : ~ In 47 alias -> Jardiff_Spec.signature up (META ++ alias ++ lit ".SF").
Proof.
  intro Ha. left. split.
  - exists (alias ++ lit ".SF"). split; [reflexivity|]. intro H. apply in_app_or in H as [H|H]; [contradiction|].
    cbn in H. repeat destruct H as [H|H]; try discriminate H. contradiction.
  - exists (META ++ upper up alias). change (uppercase up) with (upper up). rewrite (up_meta up Hup), upper_app.
    rewrite (upper_ascii up Hup (lit ".SF")) by reflexivity. now rewrite <- app_assoc.
Qed.
Lemma block_sig alias : ~ In 47 alias -> In key_ext [lit "RSA"; lit "DSA"; lit "EC"] -> Jardiff_Spec.signature up (META ++ alias ++ [46] ++ key_ext).
Proof.
  intros Ha He. right. exists (alias ++ [46] ++ key_ext). split.
  - split; [reflexivity|]. intro H. apply in_app_or in H as [H|H]; [contradiction|].
    destruct He as [<-|[<-|[<-|[]]]]; cbn in H; repeat destruct H as [H|H]; try discriminate H; contradiction.
  - change (uppercase up) with (upper up). rewrite upper_app. destruct He as [<-|[<-|[<-|[]]]].
    + left. exists (upper up alias). f_equal. rewrite (upper_ascii up Hup) by reflexivity. reflexivity.
    + right. left. exists (upper up alias). f_equal. rewrite (upper_ascii up Hup) by reflexivity. reflexivity.
    + right. right. left. exists (upper up alias). f_equal. rewrite (upper_ascii up Hup) by reflexivity. reflexivity.
Qed.

Lemma upper_manifest : upper up MANIFEST_NAME = MANIFEST_NAME.
Proof. rewrite (upper_ascii up Hup) by reflexivity. reflexivity. Qed.

Section Diff.
Variable fmt : pyval -> str.
Variable reprs : str -> str.
Variable ffmt : pyval -> str.
Variable text : bytes -> res str.
Variable order : list str -> list str.
Hypothesis order_ok : forall s, Permutation (order s) s.
Variable o : options.
Variable z z' : zip.
Variable alias alg : str.
Variable mf0 : manifest.
Variable l r : Zip_Model.archive.
Hypothesis HZ : signable up z mf0.
Hypothesis HE : In key_ext [lit "RSA"; lit "DSA"; lit "EC"].
Hypothesis HA : ~ In 47 alias.
Hypothesis HS : sign up hash make_block key_ext z alias alg = Ok z'.
Hypothesis HL : archive_of z l.
Hypothesis HR : archive_of z' r.
Hypothesis HI : ignore_jar_signature o = true.

Definition settled : Prop := ignore_manifest o = true \/ ignore_manifest_subsections o = true \/ Jardiff_Spec.matched o (lit "META-INF/MANIFEST.MF") \/
  forall f b, holds z f b -> ~ sig_related (uppercase up f) -> section_settled hash o alg mf0 f b.

Lemma names_differ : 
  (forall n, In n (names l) -> ~ In n (names r) -> Jardiff_Spec.one_sided_ok up o n) /\ (forall n, In n (names r) -> ~ In n (names l) -> Jardiff_Spec.one_sided_ok up o n).
Proof.
  destruct (signed z alias alg z' mf0 HZ HS) as (mfd0 & mfd & sfd & mf2 & rest & EA & Hm & Hp & Ez & En & Ec & Hp2 & Emn & Esub).
  rewrite (archive_names z l HL), (archive_names z' r HR), Ez. unfold namelist at 2 3. cbn [map fst]. fold (namelist rest). rewrite En.
  split; intros n H1 H2.
  - exfalso. apply H2. destruct (seqb_spec (upper up n) MANIFEST_NAME) as [E|E].
    + left. symmetry. destruct HZ as (_ & _ & _ & _ & H). apply H; assumption.
    + do 3 right. apply filter_In. split; [exact H1|]. destruct (seqb_spec (upper up n) MANIFEST_NAME); [contradiction|reflexivity].
  - destruct H1 as [<-|[<-|[<-|H1]]].
    + exfalso. apply H2. apply zread_holds in Hm as (z1 & z2 & -> & _). unfold namelist. rewrite map_app. apply in_or_app. right. now left.
    + left. split; [now apply sf_sig|exact HI].
    + left. split; [now apply block_sig|exact HI].
    + exfalso. apply H2. now apply filter_In in H1 as [H1 _].
Qed.

Lemma only_manifest n d d' : content l n d -> content r n d' -> d <> d' -> n = MANIFEST_NAME.
Proof.
  destruct (signed z alias alg z' mf0 HZ HS) as (mfd0 & mfd & sfd & mf2 & rest & EA & Hm & Hp & Ez & En & Ec & Hp2 & Emn & Esub).
  rewrite (archive_content z l n d HL), (archive_content z' r n d' HR). intros H1 H2 Hne.
  assert (HIn : In n (namelist z)).
  { apply zread_holds in H1 as (z1 & z2 & -> & _). unfold namelist. rewrite map_app. apply in_or_app. right. now left. }
  destruct (seqb_spec (upper up n) MANIFEST_NAME) as [E|E].
  - destruct HZ as (_ & _ & _ & _ & H). apply H; assumption.
  - exfalso. apply Hne.
    assert (HIr : In n (namelist rest)).
    { rewrite En. apply filter_In. split; [exact HIn|]. destruct (seqb_spec (upper up n) MANIFEST_NAME); [contradiction|reflexivity]. }
    rewrite Ez in H2. rewrite !zread_cons_later in H2 by (unfold namelist in *; cbn [map fst In]; auto). rewrite (Ec n HIr) in H2. congruence.
Qed.

Lemma new_manifest_content mfd rest x y : z' = (MANIFEST_NAME, mfd) :: (META ++ alias ++ lit ".SF", x) :: (META ++ alias ++ [46] ++ key_ext, y) :: rest ->
  namelist rest = filter (fun n => negb (seqb (upper up n) MANIFEST_NAME)) (namelist z) -> zread z' MANIFEST_NAME = Ok mfd.
Proof.
  intros -> En. apply zread_cons_new. unfold namelist. cbn [map fst]. fold (namelist rest). intros [H|[H|H]].
  - pose proof (f_equal (fun l => nth 1 (rev l) 0) H) as H'. cbv beta in H'. rewrite !rev_app_distr in H'. vm_compute in H'. discriminate H'.
  - pose proof (f_equal (fun l => nth 0 (rev l) 0) H) as H'. cbv beta in H'. rewrite !rev_app_distr in H'.
    destruct HE as [E|[E|[E|[]]]]; rewrite <- E in H'; vm_compute in H'; discriminate H'.
  - rewrite En in H. apply filter_In in H as [_ H]. rewrite upper_manifest, seqb_refl in H. discriminate H.
Qed.

Lemma section_after mf2 f : In alg algs -> (forall f, dget (m_subs mf2) f = dget (added up hash z alg (namelist z) (m_subs mf0)) f) ->
  (exists b, holds z f b /\ ~ sig_related (uppercase up f) /\ dget (m_subs mf2) f = Some (signed_section hash alg f b)) \/
  ((forall b, holds z f b -> sig_related (uppercase up f)) /\ dget (m_subs mf2) f = dget (m_subs mf0) f).
Proof.
  intros EA Esub. rewrite Esub, (added_get up hash) by auto. destruct (smem f (namelist z)) eqn:E1; cbn [andb].
  - destruct (file_skips_verification up f) eqn:E2; cbn [negb].
    + right. split; [intros b _; now apply (skips_exact up Hup)|reflexivity].
    + apply smem_In in E1. destruct (zread_in z f E1) as (b & Hb). left. exists b. rewrite Hb. split; [now apply zread_holds|].
      split; [|reflexivity]. intro H. apply (skips_exact up Hup) in H. congruence.
  - right. split; [|reflexivity]. intros b (z1 & z2 & Ez & _). exfalso. apply not_true_iff_false in E1. apply E1. apply smem_In. unfold namelist. rewrite Ez, map_app.
    apply in_or_app. right. now left.
Qed.

Lemma settled_ok mf2 : In alg algs -> m_main mf2 = m_main mf0 ->
  (forall f, dget (m_subs mf2) f = dget (added up hash z alg (namelist z) (m_subs mf0)) f) ->
  (Jardiff_Spec.matched o MANIFEST_NAME \/ Jardiff_Spec.manifest_ok o mf0 mf2 <-> settled).
Proof.
  intros EA Emn Esub. unfold settled, Jardiff_Spec.manifest_ok. change (lit "META-INF/MANIFEST.MF") with MANIFEST_NAME. split.
  - intros [H|[H|[_ H]]]; [auto|auto|]. destruct (ignore_manifest_subsections o) eqn:EI; [auto|]. right. right. right. intros f b Hf Hs.
    specialize (H f). destruct (section_after mf2 f EA Esub) as [(b' & Hb & _ & E)|[Hn _]]; [|exfalso; apply Hs; eauto].
    apply zread_holds in Hf. apply zread_holds in Hb. assert (b' = b) by congruence. subst b'. rewrite E in H. unfold section_settled.
    destruct (dget (m_subs mf0) f) as [s|]; [|congruence]. exists s. split; [reflexivity|]. destruct H as [H|[H|H]]; [auto|congruence|auto].
  - intros [H|[H|[H|H]]]; [auto| |auto|].
    + right. right. split; [left; now symmetry|]. intro f. destruct (dget (m_subs mf0) f), (dget (m_subs mf2) f); auto.
    + right. right. split; [left; now symmetry|]. intro f. destruct (section_after mf2 f EA Esub) as [(b & Hb & Hs & E)|[Hn ->]].
      * rewrite E. destruct (H f b Hb Hs) as (s & -> & H3). destruct H3 as [H3|H3]; auto.
      * destruct (dget (m_subs mf0) f); auto.
Qed.

Lemma sign_jardiff :
  (Jardiff_Model.jardiff fmt reprs ffmt text order up o (Ok l) (Ok r) = Ok 0 <-> settled) /\ (Jardiff_Model.jardiff fmt reprs ffmt text order up o (Ok l) (Ok r) = Ok 0 \/
   Jardiff_Model.jardiff fmt reprs ffmt text order up o (Ok l) (Ok r) = Ok 1).
Proof.
  pose proof HL as (K1 & O1 & S1 & _). pose proof HR as (K2 & O2 & S2 & _).
  destruct (signed z alias alg z' mf0 HZ HS) as (mfd0 & mfd & sfd & mf2 & rest & EA & Hm & Hp & Ez & En & Ec & Hp2 & Emn & Esub).
  pose proof (new_manifest_content mfd rest sfd _ Ez En) as Hm'. apply (archive_content z l _ _ HL) in Hm. apply (archive_content z' r _ _ HR) in Hm'.
  assert (Hl : forall d, content l MANIFEST_NAME d -> d = mfd0).
  { intros d H. apply (archive_content z l _ _ HL) in H. apply (archive_content z l _ _ HL) in Hm. congruence. }
  assert (Hr : forall d, content r MANIFEST_NAME d -> d = mfd).
  { intros d H. apply (archive_content z' r _ _ HR) in H. apply (archive_content z' r _ _ HR) in Hm'. congruence. }
  split.
  - rewrite (Jardiff_Jar.jardiff_zero fmt reprs ffmt text order up order_ok l r K1 K2 O1 O2 S1 S2 o). split.
    + intros (_ & _ & H). apply (settled_ok mf2 EA Emn Esub).
      assert (D : mfd0 = mfd \/ mfd0 <> mfd) by (destruct (seqb_spec mfd0 mfd); auto). destruct D as [<-|Hne].
      * assert (mf2 = mf0) by congruence. subst mf2. right. right. split; [now left|]. intro f. destruct (dget (m_subs mf0) f); auto.
      * assert (HD : ~ directory MANIFEST_NAME).
        { intros (p & E). apply (f_equal (fun l => nth 0 (rev l) 0)) in E. rewrite rev_app_distr in E. vm_compute in E. discriminate E. }
        destruct (H MANIFEST_NAME mfd0 mfd HD Hm Hm' Hne) as [a b T P1 P2 G|a b T|T|a b s T|T]; try (exfalso; apply T; reflexivity).
        unfold Jardiff_Spec.parses in *. assert (a = mf0) by congruence. assert (b = mf2) by congruence. subst a b. exact G.
    + intro H. apply (settled_ok mf2 EA Emn Esub) in H. split; [apply names_differ|]. split; [apply names_differ|].
      intros n d d' _ H1 H2 Hne. pose proof (only_manifest n d d' H1 H2 Hne). subst n.
      pose proof (Hl d H1). pose proof (Hr d' H2). subst d d'. exact (Jardiff_Spec.acc_manifest fmt reprs ffmt up o _ _ _ mf0 mf2 eq_refl Hp Hp2 H).
  - assert (HC : exists s, Jardiff_Model.jardiff fmt reprs ffmt text order up o (Ok l) (Ok r) = Ok s).
    { apply (Jardiff_Jar.jardiff_ends fmt reprs ffmt text order up order_ok l r K1 K2 O1 O2 S1 S2 o).
      intros n d d' _ H1 H2 Hne. pose proof (only_manifest n d d' H1 H2 Hne). subst n.
      pose proof (Hl d H1). pose proof (Hr d' H2). subst d d'. exact (Jardiff_Spec.cmp_manifest fmt reprs ffmt up o _ _ _ mf0 mf2 (or_introl eq_refl) Hp Hp2). }
    destruct HC as (s & E). destruct (Jardiff_Jar.jardiff_status fmt reprs ffmt text order up order_ok l r o s E) as [->| ->]; auto.
Qed.
End Diff.
End Sg.

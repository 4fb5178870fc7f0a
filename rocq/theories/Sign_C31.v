(** Proofs: what a successful verification of a jar guarantees. *)
From Verif Require Import Base ConstPool_Model Manifest_Model Manifest_Spec Manifest_Proofs Manifest_RT Manifest_Canon
  Sign_Model Sign_Spec Sign_Proofs Sign_Names Sign_Bind Sign_Tamper Sign_Parsed Sign_Jar.
From Coq Require Import Permutation.

Lemma picks_nil_all {A} (Q : A -> Prop) l : picks Q l [] -> forall a, In a l -> ~ Q a.
Proof.
  intro H. remember [] as r eqn:E. induction H as [|a l r H HP IH|a l r H HP IH]; [contradiction|discriminate|].
  intros x [<-|Hx]; [exact H|now apply IH].
Qed.
Lemma holds_fun z f b b' : holds z f b -> holds z f b' -> b = b'.
Proof. intros H H'. apply zread_holds in H, H'. congruence. Qed.
Lemma holds_in z f b : holds z f b -> In f (namelist z).
Proof. intros (z1 & z2 & -> & _). unfold namelist. rewrite map_app. apply in_or_app. right. now left. Qed.
Lemma zip_bytes_holds z f b : zip_bytes z -> holds z f b -> all_bytes b.
Proof.
  intros HZ (z1 & z2 & -> & _). apply Forall_app in HZ as [_ HZ]. now inversion HZ.
Qed.

Section Env.
Variable up : Z -> str.
Hypothesis Hup : upper_ok up.
Variable hash : str -> bytes -> str.
Variable block_ok : bytes -> bytes -> bytes -> bool.
Notation skips := (file_skips_verification up).

Lemma choose_sf_name z sfn n : choose_sf up z sfn = Ok n -> exists x, n = META ++ x /\ ~ In 47 x /\ In n (namelist z) /\
  exists y, uppercase up n = y ++ lit ".SF".
Proof.
  intro H. assert (HF : In n (filter (file_matches_sigfile up) (namelist z))).
  { unfold choose_sf in H. destruct (filter (file_matches_sigfile up) (namelist z)) as [|f [|g l]]; [discriminate| |].
    - destruct sfn as [m|]; [destruct (seqb f (META ++ m)); [|discriminate]|]; apply ok_inj in H; subst; now left.
    - destruct sfn as [m|]; [|discriminate]. destruct (smem (META ++ m) (f :: g :: l)) eqn:E; [|discriminate].
      apply ok_inj in H. subst. now apply smem_In. }
  apply filter_In in HF as [H1 H2]. unfold file_matches_sigfile in H2. apply andb_prop in H2 as [H2 H3].
  apply in_sig_dir in H2 as (x & -> & Hx). exists x. split; [reflexivity|]. split; [exact Hx|]. split; [exact H1|].
  now apply matches_pat1.
Qed.
Lemma find_block_name z alias blk : find_block z alias = Ok blk -> In blk (namelist z) /\
  exists e, In e [lit "RSA"; lit "DSA"; lit "EC"] /\ blk = META ++ alias ++ [46] ++ e.
Proof.
  unfold find_block. cbv zeta. intro H.
  destruct (smem _ (namelist z)) eqn:E1 in H; [apply ok_inj in H; subst; apply smem_In in E1; split; [exact E1|eexists; split; [now left|reflexivity]]|].
  destruct (smem _ (namelist z)) eqn:E2 in H; [apply ok_inj in H; subst; apply smem_In in E2; split; [exact E2|eexists; split; [now right; left|reflexivity]]|].
  destruct (smem _ (namelist z)) eqn:E3 in H; [apply ok_inj in H; subst; apply smem_In in E3; split; [exact E3|eexists; split; [now right; right; left|reflexivity]]|].
  discriminate.
Qed.

(** The evidence behind a successful verification. *)
Lemma verify_inv cert z sfn : verify up hash block_ok cert z sfn = Ok tt ->
  exists n sfd blk sg sf mfd mf,
    choose_sf up z sfn = Ok n /\ holds z n sfd /\ find_block z (alias_of n) = Ok blk /\ holds z blk sg /\
    block_ok cert sfd sg = true /\
    man_parse (new_sigmanifest None) sfd = Ok sf /\
    holds z MANIFEST_NAME mfd /\ man_parse (new_manifest None) mfd = Ok mf /\
    verify_manifest hash sf mf = Ok [] /\
    forall f b, skips f = false -> holds z f b -> exists s, dget (m_subs mf) f = Some s /\ vouched hash s b.
Proof.
  unfold verify. intro H. destruct (choose_sf up z sfn) as [n|] eqn:E1; [|discriminate]. cbn [rbind] in H.
  destruct (zread z n) as [sfd|] eqn:E2; [|discriminate]. cbn [rbind] in H.
  destruct (find_block z (alias_of n)) as [blk|] eqn:E3; [|discriminate]. cbn [rbind] in H.
  destruct (zread z blk) as [sg|] eqn:E4; [|discriminate]. cbn [rbind] in H.
  destruct (block_ok cert sfd sg) eqn:E5; [|discriminate]. cbn [negb] in H.
  destruct (man_parse (new_sigmanifest None) sfd) as [sf|] eqn:E6; [|discriminate]. cbn [rbind] in H.
  unfold load_from_jar in H. destruct (negb _); [discriminate|].
  destruct (zread z MANIFEST_NAME) as [mfd|] eqn:E7; [|discriminate]. cbn [rbind] in H.
  destruct (man_parse (new_manifest None) mfd) as [mf|] eqn:E8; [|discriminate]. cbn [rbind] in H.
  destruct (verify_manifest hash sf mf) as [[|]|] eqn:E9; [|discriminate|discriminate]. cbn [rbind] in H.
  destruct (verify_jar_checksums up hash mf z true) as [[[|] m']|] eqn:E10; [|discriminate|discriminate].
  exists n, sfd, blk, sg, sf, mfd, mf. rewrite zread_holds in E2, E4, E7. repeat (split; [first [reflexivity|assumption]|]).
  intros f b Hf Hb. apply verify_jar_exact in E10.
  pose proof (picks_nil_all _ _ E10 f (holds_in z f b Hb)) as HB. unfold bad in HB.
  assert (HD : exists s, dget (m_subs mf) f = Some s /\ (vouched hash s b \/ ~ vouched hash s b)).
  { destruct (dget (m_subs mf) f) as [s|] eqn:E.
    - exists s. split; [reflexivity|].
      assert (HDec : forall l, {exists A, In A l /\ dget s (A ++ lit "-Digest") = Some (hash A b)} + {~ exists A, In A l /\ dget s (A ++ lit "-Digest") = Some (hash A b)}).
      { induction l as [|A l IH]; [right; intros (A & [] & _)|]. destruct IH as [IH|IH].
        - left. destruct IH as (B & HB1 & HB2). exists B. split; [now right|exact HB2].
        - destruct (dget s (A ++ lit "-Digest")) as [v|] eqn:Ev.
          + destruct (seqb_spec v (hash A b)) as [->|Hv].
            * left. exists A. split; [now left|exact Ev].
            * right. intros (B & [<-|HB1] & HB2); [rewrite Ev in HB2; injection HB2 as ->; contradiction|]. apply IH. eauto.
          + right. intros (B & [<-|HB1] & HB2); [congruence|]. apply IH. eauto. }
      destruct (HDec algs) as [Hv|Hv]; [left; exact Hv|right; exact Hv].
    - exfalso. apply HB. split; [exact Hf|]. intros (s & b' & H1 & _). congruence. }
  destruct HD as (s & Hs & [Hv|Hv]); [exists s; auto|].
  exfalso. apply HB. split; [exact Hf|]. intros (s' & b' & H1 & H2 & H3). assert (s' = s) by congruence.
  assert (b' = b) by (eapply holds_fun; eauto). subst. contradiction.
Qed.

Variable make_block : str -> bytes -> bytes.
Variable key_ext : str.
Notation sign := (sign up hash make_block key_ext).

(** The manifest and signature file made by signing. *)
Lemma sign_inv z alias alg z' : zip_bytes z -> sign z alias alg = Ok z' ->
  exists mfd0 mf0 mf sf sfd mfd ls rest,
    holds z MANIFEST_NAME mfd0 /\ man_parse (new_manifest None) mfd0 = Ok mf0 /\ In alg algs /\
    mf = mkman (m_primary_key mf0) (m_main mf0) (added up hash z alg (namelist z) (m_subs mf0)) (m_linesep mf0) /\
    m_linesep mf = Some ls /\ a_linesep ls /\ text_manifest mf0 /\ well_named mf0 /\ well_named mf /\
    digest_manifest hash (new_sigmanifest (m_linesep mf)) mf alg = Ok sf /\
    man_data sf None = Ok sfd /\ man_data mf None = Ok mfd /\
    mapM (fun n => b <- zread z n ;; Ok (n, b)) (filter (fun n => negb (seqb (upper up n) MANIFEST_NAME)) (namelist z)) = Ok rest /\
    z' = (MANIFEST_NAME, mfd) :: (META ++ alias ++ lit ".SF", sfd) :: (META ++ alias ++ [46] ++ key_ext, make_block alg sfd) :: rest.
Proof.
  intros HZ H. unfold Sign_Model.sign, load_from_jar in H. destruct (negb _); [discriminate|].
  destruct (zread z MANIFEST_NAME) as [mfd0|] eqn:E1; [|discriminate]. cbn [rbind] in H. apply zread_holds in E1.
  destruct (man_parse (new_manifest None) mfd0) as [mf0|] eqn:E2; [|discriminate]. cbn [rbind] in H.
  unfold add_jar_entries in H. destruct (smem alg java_digests) eqn:E3; [|discriminate]. apply smem_alg in E3.
  rewrite (add_entries_ok up hash z alg E3 (namelist z) mf0 (fun f Hf => Hf)) in H. cbn [rbind] in H.
  set (mf := mkman (m_primary_key mf0) (m_main mf0) _ _) in H.
  destruct (digest_manifest hash (new_sigmanifest (m_linesep mf)) mf alg) as [sf|] eqn:E4; [|discriminate]. cbn [rbind] in H.
  destruct (man_data sf None) as [sfd|] eqn:E5; [|discriminate]. cbn [rbind] in H.
  destruct (man_data mf None) as [mfd|] eqn:E6; [|discriminate]. cbn [rbind] in H.
  destruct (mapM _ _) as [rest|] eqn:E7; [|discriminate]. cbn [rbind] in H. apply ok_inj in H. subst z'.
  destruct (parsed_new None mfd0 mf0 (zip_bytes_holds z _ _ HZ E1) E2) as (HT & HW & HL).
  assert (HL' : exists ls, m_linesep mf = Some ls /\ a_linesep ls).
  { cbn [m_linesep mf]. destruct HL as [->| ->]; eexists; (split; [reflexivity|]); [now left|now right]. }
  destruct HL' as (ls & EL & Hls).
  exists mfd0, mf0, mf, sf, sfd, mfd, ls, rest. split; [exact E1|]. split; [exact E2|]. split; [exact E3|]. split; [reflexivity|].
  split; [exact EL|]. split; [exact Hls|]. split; [exact HT|]. split; [exact HW|].
  split; [|auto 6]. destruct HW as [HN HM]. split; cbn [m_subs mf].
  - now apply added_NoDup.
  - apply added_Forall; [auto| |exact HM]. intros f b _ _ _. reflexivity.
Qed.

Hypothesis Htext : hash_text hash.

(** Entries of a jar verified against a signature made for another jar. *)
Lemma tamper_evident z1 alias alg z1' cert sfd z2 sfn mfd0 mf0 :
  zip_bytes z1 -> zip_bytes z2 ->
  sign z1 alias alg = Ok z1' -> nth_error z1' 1 = Some (META ++ alias ++ lit ".SF", sfd) ->
  holds z1 MANIFEST_NAME mfd0 -> man_parse (new_manifest None) mfd0 = Ok mf0 ->
  Forall (fun f => item_ok (K_Name, f)) (namelist z1) -> names_ok (m_subs mf0) ->
  (forall d sg, block_ok cert d sg = true -> d = sfd) ->
  verify up hash block_ok cert z2 sfn = Ok tt ->
  collision hash \/
  forall f b, ~ sig_related (uppercase up f) -> holds z2 f b ->
    holds z1 f b \/ (~ In f (namelist z1) /\ exists s, In (f, s) (m_subs mf0) /\ vouched hash s b).
Proof.
  intros HZ1 HZ2 HS Hsfd Hm0 Hp0 HN1 HN0 Hunf HV.
  destruct (sign_inv z1 alias alg z1' HZ1 HS) as (mfd0' & mf0' & mf & sf & sfd' & mfd & ls & rest & A1 & A2 & HA & Emf & EL & Hls & HT0 & HW0 & HW & A4 & A5 & A6 & A7 & Ez).
  assert (mfd0' = mfd0) by (eapply holds_fun; eauto). subst mfd0'. assert (mf0' = mf0) by congruence. subst mf0'. clear A1 A2.
  rewrite Ez in Hsfd. cbn [nth_error] in Hsfd. injection Hsfd as Hsfd. subst sfd'.
  destruct (verify_inv cert z2 sfn HV) as (n & sfd2 & blk & sg & sf2 & mfd2 & mf2 & _ & _ & _ & _ & B5 & B6 & B7 & B8 & B9 & B10).
  apply Hunf in B5. subst sfd2.
  destruct (parsed_new None mfd2 mf2 (zip_bytes_holds z2 _ _ HZ2 B7) B8) as (HT2 & HW2 & HL2).
  assert (HTm : text_manifest mf).
  { subst mf. destruct HT0 as [T1 T2]. split; cbn [m_main m_subs]; [exact T1|]. apply added_Forall; [auto| |exact T2].
    intros f b Hf _ _. cbn [snd]. rewrite Forall_forall in HN1. specialize (HN1 f Hf).
    assert (G : forall kv, item_ok kv -> text_item kv).
    { intros kv (K1 & K2 & _). apply key_ok_facts in K1 as (K1 & K3 & (c & k' & K4 & K5) & _). unfold val_ok in K2. apply andb_prop in K2 as [K2 _].
      split; [exact K1|]. split; [exact K2|]. split; [exact K3|]. intros k Hk. rewrite K4 in Hk. apply cons_inj in Hk as [Hk _]. contradiction. }
    destruct (sfsec_ok hash Htext alg f b HA HN1) as (_ & _ & HF). eapply Forall_impl; [|exact HF]. exact G. }
  assert (HNm : names_ok (m_subs mf)).
  { subst mf. cbn [m_subs]. apply added_Forall; [auto| |exact HN0]. intros f b Hf _ _. cbn [fst]. rewrite Forall_forall in HN1. now apply HN1. }
  assert (HD : digests_of hash sf2 mf alg).
  { destruct (man_data_sections mf ls mfd) as (mn & ds & Em & Ed & _).
    { now apply (man_linesep_some mf ls EL). } { exact A6. }
    destruct (sf_round_trip hash Htext mf alg ls HA HW EL Hls HNm mn ds Em Ed) as (sf0 & sfd0 & sf2' & C1 & C2 & C3 & C4 & C5).
    assert (sf0 = sf) by congruence. subst sf0. assert (sfd0 = sfd) by congruence. subst sfd0. assert (sf2' = sf2) by congruence. subst sf2'.
    exists (lit "1.0"), mn, ds, ls. split; [exact Hls|]. split; [exact Em|]. split; [exact Ed|]. split; [exact C4|].
    intros k x Hx. rewrite C5 in Hx. apply (sf_subs_get hash alg ls (m_subs mf) ds (proj1 HW) Ed) in Hx. exact Hx. }
  assert (HL2' : usual_linesep mf2) by (destruct HL2 as [H|H]; [right; left|right; right]; exact H).
  destruct (binds hash sf2 mf mf2 alg HA HD HW HW2 HTm HT2 HL2' B9) as [HC|[_ HSub]]; [now left|].
  (* decide collisions entry by entry *)
  assert (HE : collision hash \/ Forall (fun f => forall b, ~ sig_related (uppercase up f) -> holds z2 f b ->
      holds z1 f b \/ (~ In f (namelist z1) /\ exists s, In (f, s) (m_subs mf0) /\ vouched hash s b)) (namelist z2)).
  { apply Forall_or. apply Forall_forall. intros f Hf. destruct (zread_in z2 f Hf) as (b & Hb). apply zread_holds in Hb.
    destruct (skips f) eqn:ESk.
    { right. intros b' Hn. exfalso. apply Hn. now apply (skips_exact up Hup). }
    destruct (B10 f b ESk Hb) as (s & Hs & Hv). apply dget_In in Hs. apply HSub in Hs. subst mf. cbn [m_subs] in Hs.
    apply added_keep in Hs; [|apply HW0]. destruct Hs as [(_ & _ & b1 & Eb1 & ->)|([Hn|Hn] & Hs)]; [| |congruence].
    - destruct Hv as (B & HB & HG). apply sfsec_get in HG as [-> HG]; [|exact HB]. apply digest_dec in HG as [HC|E]; [now left| |exact HB].
      right. intros b' _ Hb'. left. apply zread_holds in Eb1. assert (b' = b) by (eapply holds_fun; eauto). now subst.
    - right. intros b' _ Hb'. right. split; [exact Hn|]. exists s. split; [exact Hs|]. assert (b' = b) by (eapply holds_fun; eauto). now subst. }
  destruct HE as [HC|HE]; [now left|]. right. rewrite Forall_forall in HE. intros f b Hn Hb. apply HE; [|exact Hn|exact Hb]. now apply (holds_in z2 f b).
Qed.
End Env.

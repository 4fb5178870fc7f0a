(** Proofs: signing a jar and verifying the result. *)
From Verif Require Import Base ConstPool_Model Manifest_Model Manifest_Spec Manifest_Proofs Manifest_RT Manifest_Canon
  Sign_Model Sign_Spec Sign_Proofs Sign_Names Sign_Bind Sign_Tamper Sign_Parsed Sign_Jar Sign_C31.
From Coq Require Import Permutation.

Section Core.
Variable hash : str -> bytes -> str.
(** A manifest is accepted when the signature file holds its digests. *)
Lemma verify_ok_core sf mf alg ls mn v h2 data : In alg algs -> a_linesep ls -> m_linesep mf = Some ls -> well_named mf ->
  man_data mf None = Ok data -> sec_data (m_main mf) (Some ls) = Ok mn ->
  m_main sf = sfmain alg v (hash alg mn) h2 ->
  (forall n s, In (n, s) (m_subs mf) -> exists d, sec_data s (Some ls) = Ok d /\ dget (m_subs sf) n = Some (sfsec hash alg n d)) ->
  h2 = hash alg data \/ Forall (fun ns => In (alg ++ SUF) (dkeys (snd ns)) /\ digests_supported (snd ns)) (m_subs mf) ->
  verify_manifest hash sf mf = Ok [].
Proof.
  intros HA Hls EL HW HD E1 Emain Hsubs Hor. destruct (man_linesep_some mf ls EL Hls) as [EL1 EL2].
  unfold verify_manifest, verify_manifest_main_checksum, verify_manifest_main_attributes_checksum. rewrite Emain.
  destruct (main_keys alg (hash alg mn) h2 v HA) as [-> ->].
  rewrite HD. destruct (some_match_ok hash (sfmain alg v (hash alg mn) h2) SUF_ALL data [alg]) as (r & Er).
  { intros A [<-|[]]; exact HA. }
  rewrite Er. cbn [rbind]. destruct r; [reflexivity|].
  assert (E : seqb (alg ++ SUF_ALL) (alg ++ SUF_MAIN) = false).
  { clear -HA. destruct HA as [<-|[<-|[<-|[<-|[<-|[]]]]]]; vm_compute; reflexivity. }
  destruct Hor as [->|HF].
  { exfalso. destruct (some_match_false hash _ _ _ _ Er alg (or_introl eq_refl)) as [_ Hx]. apply Hx.
    unfold sfmain. cbn [dget]. destruct (alg_not_name alg SUF_ALL) as [_ ->]; [now right; left|exact HA|].
    rewrite E. now rewrite seqb_refl. }
  unfold get_main_section. rewrite EL1, E1.
  rewrite (some_match_found hash _ SUF_MAIN mn [alg] alg).
  - cbn [rbind negb]. unfold verify_manifest_entry_checksums. rewrite EL. rewrite verify_sections_ok; [reflexivity|].
    intros s Hs. apply in_map_iff in Hs as ([n s'] & <- & Hns). cbn [snd]. destruct HW as (HN & HNm).
    rewrite Forall_forall in HF, HNm. destruct (HF _ Hns) as [F1 F2]. cbn [snd] in *. specialize (HNm _ Hns). cbn [fst snd] in HNm.
    destruct (Hsubs n s' Hns) as (d & Ed & Hd).
    exists n, (sfsec hash alg n d), alg, d. split; [exact HNm|]. split; [exact Hd|]. split; [exact F2|]. split; [exact HA|].
    split; [exact F1|]. split; [exact Ed|].
    unfold sfsec. cbn [dget]. destruct (alg_not_name alg SUF) as [-> _]; [now left|exact HA|]. now rewrite seqb_refl.
  - intros A [<-|[]]; exact HA.
  - now left.
  - unfold sfmain. cbn [dget]. destruct (alg_not_name alg SUF_MAIN) as [_ ->]; [now right; right|exact HA|]. now rewrite seqb_refl.
Qed.
End Core.

Lemma alias_of_sf alias : alias_of (META ++ alias ++ lit ".SF") = alias.
Proof.
  unfold alias_of. rewrite !app_length. change (length META) with 9%nat. change (length (lit ".SF")) with 3%nat.
  replace (9 + (length alias + 3) - 3)%nat with (length (META ++ alias)) by (rewrite app_length; cbn; lia).
  rewrite app_assoc, firstn_app, firstn_all, Nat.sub_diag. cbn [firstn]. rewrite app_nil_r. reflexivity.
Qed.
Lemma app_tail_neq (a b x y : list Z) : length x = length y -> x <> y -> a ++ x <> b ++ y.
Proof.
  intros HL Hn E. apply Hn. apply (f_equal (@rev Z)) in E. rewrite !rev_app_distr in E.
  assert (H : rev x = rev y).
  { apply (f_equal (firstn (length (rev x)))) in E. rewrite firstn_app, firstn_all, Nat.sub_diag in E. cbn [firstn] in E.
    rewrite app_nil_r in E. rewrite E. rewrite rev_length, HL, <- (rev_length y). rewrite firstn_app, firstn_all, Nat.sub_diag.
    cbn [firstn]. now rewrite app_nil_r. }
  rewrite <- (rev_involutive x), <- (rev_involutive y). now f_equal.
Qed.
Lemma zread_cons_other n b z f : f <> n -> zread ((n, b) :: z) f = zread z f.
Proof.
  intro H. unfold zread. cbn [rev]. rewrite dget_app. destruct (dget (rev z) f); [reflexivity|]. cbn [dget].
  destruct (seqb_spec f n); [contradiction|reflexivity].
Qed.
Lemma zread_cons_later n b z f : In f (namelist z) -> zread ((n, b) :: z) f = zread z f.
Proof.
  intro H. destruct (zread_in z f H) as (x & Hx). unfold zread in *. cbn [rev]. rewrite dget_app.
  destruct (dget (rev z) f); [reflexivity|discriminate].
Qed.
Lemma zread_cons_new n b z : ~ In n (namelist z) -> zread ((n, b) :: z) n = Ok b.
Proof.
  intro H. unfold zread. cbn [rev]. rewrite dget_app. replace (dget (rev z) n) with (@None bytes).
  - cbn [dget]. now rewrite seqb_refl.
  - symmetry. apply dget_None. rewrite map_rev, <- in_rev. exact H.
Qed.

(** The copied entries. *)
Lemma copied z : forall names rest, mapM (fun n => b <- zread z n ;; Ok (n, b)) names = Ok rest ->
  namelist rest = names /\ forall f, In f names -> zread rest f = zread z f.
Proof.
  induction names as [|n names IH]; intros rest H; cbn [mapM] in H; [apply ok_inj in H; subst; split; [reflexivity|contradiction]|].
  destruct (zread z n) as [b|] eqn:E; [|discriminate]. cbn [rbind] in H.
  destruct (mapM _ names) as [rest'|]; [|discriminate]. cbn [rbind] in H. apply ok_inj in H. subst rest.
  destruct (IH rest' eq_refl) as [IH1 IH2]. split; [cbn [namelist map fst]; f_equal; exact IH1|].
  intros f Hf. destruct (smem f names) eqn:Em.
  - apply smem_In in Em. rewrite zread_cons_later by (rewrite IH1; exact Em). now apply IH2.
  - assert (Hn : ~ In f names) by (intro Hi; apply smem_In in Hi; congruence). destruct Hf as [<-|Hf]; [|contradiction].
    rewrite zread_cons_new by (rewrite IH1; exact Hn). now symmetry.
Qed.

Section Env.
Variable up : Z -> str.
Hypothesis Hup : upper_ok up.
Variable hash : str -> bytes -> str.
Variable block_ok : bytes -> bytes -> bytes -> bool.
Variable make_block : str -> bytes -> bytes.
Variable key_ext : str.
Notation skips := (file_skips_verification up).
Notation sign := (sign up hash make_block key_ext).
Notation verify := (verify up hash block_ok).

Lemma up_manifest : upper up MANIFEST_NAME = MANIFEST_NAME.
Proof. rewrite (upper_ascii up Hup) by reflexivity. reflexivity. Qed.
Lemma up_meta x : upper up (META ++ x) = META ++ upper up x.
Proof. rewrite upper_app. f_equal. rewrite (upper_ascii up Hup) by reflexivity. reflexivity. Qed.
Lemma no_slash_alias alias : ~ In 47 (uppercase up alias) -> ~ In 47 alias.
Proof.
  intros H HI. apply H. unfold uppercase. apply in_concat. exists [47]. split; [|now left].
  apply in_map_iff. exists 47. split; [|exact HI]. rewrite (proj1 Hup) by lia. reflexivity.
Qed.
Lemma sigfile_iff f : file_matches_sigfile up f = true <-> exists x, f = META ++ x /\ ~ In 47 x /\ exists y, uppercase up f = y ++ lit ".SF".
Proof.
  unfold file_matches_sigfile. rewrite andb_true_iff, in_sig_dir, matches_pat1. split.
  - intros [(x & -> & Hx) H]. eauto.
  - intros (x & -> & Hx & H). split; [eauto|exact H].
Qed.
Lemma ext_cases e : In e [lit "RSA"; lit "DSA"; lit "EC"] -> upper up ([46] ++ e) = [46] ++ e.
Proof. intros [<-|[<-|[<-|[]]]]; rewrite (upper_ascii up Hup) by reflexivity; reflexivity. Qed.
Lemma sf_matches alias : ~ In 47 (uppercase up alias) -> file_matches_sigfile up (META ++ alias ++ lit ".SF") = true.
Proof.
  intro H. apply sigfile_iff. exists (alias ++ lit ".SF"). split; [reflexivity|]. split.
  - intro HI. apply in_app_or in HI as [HI|HI]; [now apply (no_slash_alias alias H)|cbn in HI; lia].
  - change (uppercase up) with (upper up). rewrite up_meta, upper_app. rewrite (upper_ascii up Hup (lit ".SF")) by reflexivity.
    exists (META ++ upper up alias). now rewrite <- app_assoc.
Qed.
Lemma ext_no_match alias : In key_ext [lit "RSA"; lit "DSA"; lit "EC"] -> file_matches_sigfile up (META ++ alias ++ [46] ++ key_ext) = false.
Proof.
  intro H. destruct (file_matches_sigfile _ _) eqn:E; [|reflexivity]. exfalso. apply sigfile_iff in E as (_ & _ & _ & y & Hy).
  change (uppercase up) with (upper up) in Hy. rewrite up_meta, upper_app, ext_cases in Hy by exact H.
  destruct H as [<-|[<-|[<-|[]]]].
  - replace (META ++ upper up alias ++ [46] ++ lit "RSA") with ((META ++ upper up alias ++ [46]) ++ lit "RSA") in Hy by (now rewrite <- !app_assoc).
    revert Hy. apply app_tail_neq; [reflexivity|discriminate].
  - replace (META ++ upper up alias ++ [46] ++ lit "DSA") with ((META ++ upper up alias ++ [46]) ++ lit "DSA") in Hy by (now rewrite <- !app_assoc).
    revert Hy. apply app_tail_neq; [reflexivity|discriminate].
  - rewrite app_assoc in Hy. revert Hy. apply app_tail_neq; [reflexivity|discriminate].
Qed.
Lemma mf_no_match : file_matches_sigfile up MANIFEST_NAME = false.
Proof.
  destruct (file_matches_sigfile _ _) eqn:E; [|reflexivity]. exfalso. apply sigfile_iff in E as (_ & _ & _ & y & Hy).
  change (uppercase up) with (upper up) in Hy. rewrite up_manifest in Hy.
  change MANIFEST_NAME with (lit "META-INF/MANIFEST" ++ lit ".MF") in Hy. revert Hy. apply app_tail_neq; [reflexivity|discriminate].
Qed.
Lemma skips_mf : skips MANIFEST_NAME = true.
Proof. apply (skips_exact up Hup). left. exact up_manifest. Qed.
Lemma skips_sf alias : ~ In 47 (uppercase up alias) -> skips (META ++ alias ++ lit ".SF") = true.
Proof.
  intro H. apply (skips_exact up Hup). right; right. exists (upper up alias ++ lit ".SF"). change (uppercase up) with (upper up).
  rewrite up_meta, upper_app. rewrite (upper_ascii up Hup (lit ".SF")) by reflexivity. split; [reflexivity|]. split.
  - intro HI. apply in_app_or in HI as [HI|HI]; [now apply H|cbn in HI; lia].
  - left. now exists (upper up alias).
Qed.
Lemma skips_ext alias : ~ In 47 (uppercase up alias) -> In key_ext [lit "RSA"; lit "DSA"; lit "EC"] ->
  skips (META ++ alias ++ [46] ++ key_ext) = true.
Proof.
  intros H HE. apply (skips_exact up Hup). right; right. exists (upper up alias ++ [46] ++ key_ext). change (uppercase up) with (upper up).
  rewrite up_meta, upper_app, ext_cases by exact HE. split; [reflexivity|]. split.
  - intro HI. apply in_app_or in HI as [HI|HI]; [now apply H|]. destruct HE as [<-|[<-|[<-|[]]]]; cbn in HI; lia.
  - right. destruct HE as [<-|[<-|[<-|[]]]]; [left|right; left|right; right; left]; now exists (upper up alias).
Qed.

(** ** C33: signing again with the same alias *)
Lemma resign_fails z alias alg z' cert : ~ In 47 (uppercase up alias) ->
  In (META ++ alias ++ lit ".SF") (namelist z) -> sign z alias alg = Ok z' -> verify cert z' None = Err VerificationError.
Proof.
  intros Ha HI H. unfold Sign_Model.sign in H. destruct (load_from_jar _ _) as [mf0|]; [|discriminate]. cbn [rbind] in H.
  destruct (add_jar_entries _ _ _ _ _) as [mf|]; [|discriminate]. cbn [rbind] in H.
  destruct (digest_manifest _ _ _ _) as [sf|]; [|discriminate]. cbn [rbind] in H.
  destruct (man_data sf None) as [sfd|]; [|discriminate]. cbn [rbind] in H.
  destruct (man_data mf None) as [mfd|]; [|discriminate]. cbn [rbind] in H.
  destruct (mapM _ _) as [rest|] eqn:ER; [|discriminate]. cbn [rbind] in H. apply ok_inj in H. subst z'.
  apply copied in ER as [ER _].
  assert (HR : In (META ++ alias ++ lit ".SF") (namelist rest)).
  { rewrite ER. apply filter_In. split; [exact HI|]. destruct (seqb_spec (upper up (META ++ alias ++ lit ".SF")) MANIFEST_NAME) as [E|]; [|reflexivity].
    exfalso. rewrite up_meta, upper_app in E. rewrite (upper_ascii up Hup (lit ".SF")) in E by reflexivity.
    change MANIFEST_NAME with (lit "META-INF/MANIFEST" ++ lit ".MF") in E. rewrite app_assoc in E.
    revert E. apply app_tail_neq; [reflexivity|discriminate]. }
  unfold Sign_Model.verify, choose_sf. cbn [namelist map fst filter]. rewrite mf_no_match, (sf_matches alias Ha).
  set (F := if file_matches_sigfile up (META ++ alias ++ [46] ++ key_ext) then _ else _).
  assert (HF : In (META ++ alias ++ lit ".SF") F).
  { unfold F. assert (In (META ++ alias ++ lit ".SF") (filter (file_matches_sigfile up) (map fst rest))).
    { apply filter_In. split; [exact HR|now apply sf_matches]. }
    destruct (file_matches_sigfile up _); [now right|assumption]. }
  destruct F as [|g l]; [contradiction|reflexivity].
Qed.

(** ** C32 *)
Hypothesis Htext : hash_text hash.

Lemma added_ok z alg mf0 : In alg algs -> manifest_ok mf0 -> Forall (fun f => skips f = false -> item_ok (K_Name, f)) (namelist z) ->
  manifest_ok (mkman (m_primary_key mf0) (m_main mf0) (added up hash z alg (namelist z) (m_subs mf0)) (m_linesep mf0)).
Proof.
  intros HA (H1 & H2 & H3) HN. split; [exact H1|]. cbn [m_subs]. split; [now apply added_NoDup|].
  apply added_Forall; [auto| |exact H3]. intros f b Hf Hs _. cbn [fst snd]. apply sfsec_ok; [exact Htext|exact HA|].
  rewrite Forall_forall in HN. now apply HN.
Qed.
Lemma sfsec_supported alg n d : In alg algs -> In (alg ++ SUF) (dkeys (sfsec hash alg n d)) /\ digests_supported (sfsec hash alg n d).
Proof.
  intro HA. split; [right; now left|]. intros x Hx. cbn in Hx. destruct Hx as [Hx|[Hx|[]]].
  - exfalso. apply (f_equal (fun l => nth 0 (rev l) 0)) in Hx. rewrite rev_app_distr in Hx. vm_compute in Hx. discriminate.
  - change (alg ++ SUF = x ++ SUF) in Hx. apply app_inv_tail in Hx. now subst.
Qed.

Lemma sign_verifies z alias alg cert mfd0 mf0 :
  zip_bytes z -> In alg algs -> In key_ext [lit "RSA"; lit "DSA"; lit "EC"] ->
  (forall d, block_ok cert d (make_block alg d) = true) ->
  ~ In 47 (uppercase up alias) ->
  (forall x y, In (META ++ x) (namelist z) -> uppercase up (META ++ x) <> y ++ lit ".SF") ->
  (forall e, In e [lit "RSA"; lit "DSA"; lit "EC"] -> ~ In (META ++ alias ++ [46] ++ e) (namelist z)) ->
  holds z MANIFEST_NAME mfd0 -> man_parse (new_manifest None) mfd0 = Ok mf0 -> manifest_ok mf0 ->
  Forall (fun f => sig_related (uppercase up f) \/ item_ok (K_Name, f)) (namelist z) ->
  Forall (fun ns => (In (fst ns) (namelist z) /\ ~ sig_related (uppercase up (fst ns))) \/
                    (In (alg ++ lit "-Digest") (dkeys (snd ns)) /\ digests_supported (snd ns))) (m_subs mf0) ->
  exists z', sign z alias alg = Ok z' /\ verify cert z' None = Ok tt /\
    forall f b, uppercase up f <> MANIFEST_NAME -> holds z f b -> holds z' f b.
Proof.
  intros HZ HA HE Hblk Ha Hsf Hext Hm0 Hp0 HOK0 HN HS.
  assert (HN' : Forall (fun f => skips f = false -> item_ok (K_Name, f)) (namelist z)).
  { eapply Forall_impl; [|exact HN]. intros f [H|H] Hs; [|exact H]. apply (skips_exact up Hup) in H. congruence. }
  destruct (parsed_new None mfd0 mf0 (zip_bytes_holds z _ _ HZ Hm0) Hp0) as (HT0 & HW0 & HL0).
  set (mf := mkman (m_primary_key mf0) (m_main mf0) (added up hash z alg (namelist z) (m_subs mf0)) (m_linesep mf0)).
  assert (HOK : manifest_ok mf) by (apply added_ok; assumption).
  assert (HW : well_named mf).
  { destruct HW0 as [W1 W2]. split; cbn [m_subs mf]; [now apply added_NoDup|]. apply added_Forall; [auto| |exact W2]. intros; reflexivity. }
  assert (HL' : exists ls, m_linesep mf = Some ls /\ a_linesep ls).
  { cbn [m_linesep mf]. destruct HL0 as [->| ->]; eexists; (split; [reflexivity|]); [now left|now right]. }
  destruct HL' as (ls & EL & Hls).
  assert (HPK : m_primary_key mf = K_MV).
  { cbn [mf m_primary_key]. unfold man_parse in Hp0. destruct (parse_sections _) as [[|s l] e]; [discriminate|].
    destruct (sec_load _ _); [|discriminate]. cbn [rbind] in Hp0. destruct (load_subs _ _); [|discriminate]. cbn [rbind] in Hp0.
    destruct e; [discriminate|]. apply ok_inj in Hp0. subst mf0. reflexivity. }
  assert (HWr : writes_with mf None ls) by (split; [exact Hls|]; right; left; split; [reflexivity|exact EL]).
  destruct (round_trip' mf None ls (new_manifest None) (lit "1.0") HOK HWr) as (mfd & mf2 & M1 & M2 & M3 & M4 & M5);
    try (rewrite HPK); try reflexivity.
  destruct (man_data_sections mf ls mfd) as (mn & ds & Em & Ed & _).
  { now apply (man_linesep_some mf ls EL). } { exact M1. }
  assert (HNm : names_ok (m_subs mf)).
  { destruct HOK as (_ & _ & HF). eapply Forall_impl; [|exact HF]. intros [n s] ((rest & Er) & _ & HI). cbn [fst snd] in *. subst s.
    now inversion HI. }
  destruct (sf_round_trip hash Htext mf alg ls HA HW EL Hls HNm mn ds Em Ed) as (sf & sfd & sf2 & C1 & C2 & C3 & C4 & C5).
  set (names := filter (fun n => negb (seqb (upper up n) MANIFEST_NAME)) (namelist z)).
  assert (HR : exists rest, mapM (fun n => b <- zread z n ;; Ok (n, b)) names = Ok rest).
  { assert (G : forall l, (forall f, In f l -> In f (namelist z)) -> exists rest, mapM (fun n => b <- zread z n ;; Ok (n, b)) l = Ok rest).
    { induction l as [|f l IH]; intro Hl; [now exists []|]. cbn [mapM]. destruct (zread_in z f (Hl f (or_introl eq_refl))) as (b & ->).
      cbn [rbind]. destruct IH as (r & ->); [intros; apply Hl; now right|]. cbn [rbind]. eauto. }
    apply G. intros f Hf. unfold names in Hf. now apply filter_In in Hf as [Hf _]. }
  destruct HR as (rest & ER). destruct (copied z names rest ER) as [CR1 CR2].
  set (z' := (MANIFEST_NAME, mfd) :: (META ++ alias ++ lit ".SF", sfd) :: (META ++ alias ++ [46] ++ key_ext, make_block alg sfd) :: rest).
  assert (HIn : forall f, In f (namelist rest) <-> In f (namelist z) /\ upper up f <> MANIFEST_NAME).
  { intro f. rewrite CR1. unfold names. rewrite filter_In. destruct (seqb_spec (upper up f) MANIFEST_NAME); cbn [negb]; intuition congruence. }
  assert (HSFnot : ~ In (META ++ alias ++ lit ".SF") (namelist z)).
  { intro HI. apply (Hsf (alias ++ lit ".SF") (META ++ upper up alias) HI). change (uppercase up) with (upper up).
    rewrite up_meta, upper_app. rewrite (upper_ascii up Hup (lit ".SF")) by reflexivity. now rewrite <- app_assoc. }
  assert (HXnot : ~ In (META ++ alias ++ [46] ++ key_ext) (namelist z)) by (apply Hext; exact HE).
  assert (HEne : META ++ alias ++ lit ".SF" <> META ++ alias ++ [46] ++ key_ext).
  { intro E. apply app_inv_head in E. apply app_inv_head in E. destruct HE as [<-|[<-|[<-|[]]]]; discriminate. }
  assert (HMne : forall x, MANIFEST_NAME <> META ++ x ++ lit ".SF").
  { intros x E. change MANIFEST_NAME with (lit "META-INF/MANIFEST" ++ lit ".MF") in E. rewrite app_assoc in E. revert E.
    apply app_tail_neq; [reflexivity|discriminate]. }
  assert (HXne : MANIFEST_NAME <> META ++ alias ++ [46] ++ key_ext).
  { intro E. pose proof skips_mf. pose proof (ext_no_match alias HE).
    destruct HE as [E2|[E2|[E2|[]]]]; rewrite <- E2 in E.
    - replace (META ++ alias ++ [46] ++ lit "RSA") with ((META ++ alias ++ [46]) ++ lit "RSA") in E by (now rewrite <- !app_assoc).
      change MANIFEST_NAME with (lit "META-INF/MANIFEST" ++ lit ".MF") in E. 
      change (lit "META-INF/MANIFEST" ++ lit ".MF") with (lit "META-INF/MANIFES" ++ lit "T.MF") in E.
      revert E. change (lit "META-INF/MANIFES" ++ lit "T.MF") with (lit "META-INF/MANIFEST" ++ lit ".MF"). apply app_tail_neq; [reflexivity|discriminate].
    - replace (META ++ alias ++ [46] ++ lit "DSA") with ((META ++ alias ++ [46]) ++ lit "DSA") in E by (now rewrite <- !app_assoc).
      change MANIFEST_NAME with (lit "META-INF/MANIFEST" ++ lit ".MF") in E. revert E. apply app_tail_neq; [reflexivity|discriminate].
    - rewrite app_assoc in E. change MANIFEST_NAME with (lit "META-INF/MANIFEST" ++ lit ".MF") in E. revert E.
      apply app_tail_neq; [reflexivity|discriminate]. }
  assert (Rsf : zread z' (META ++ alias ++ lit ".SF") = Ok sfd).
  { unfold z'. rewrite zread_cons_other by (intro E; symmetry in E; now apply (HMne alias)). apply zread_cons_new.
    cbn [namelist map fst]. intros [E|HI]; [now apply HEne|]. apply HIn in HI as [HI _]. contradiction. }
  assert (Rblk : zread z' (META ++ alias ++ [46] ++ key_ext) = Ok (make_block alg sfd)).
  { unfold z'. rewrite zread_cons_other by congruence. rewrite zread_cons_other by congruence. apply zread_cons_new.
    intro HI. apply HIn in HI as [HI _]. contradiction. }
  assert (Rmf : zread z' MANIFEST_NAME = Ok mfd).
  { unfold z'. apply zread_cons_new. cbn [namelist map fst]. intros [E|[E|HI]]; [now apply (HMne alias)|now apply HXne|].
    apply HIn in HI as [_ HI]. apply HI. exact up_manifest. }
  assert (Rrest : forall f, In f (namelist rest) -> zread z' f = zread z f).
  { intros f Hf. unfold z'. rewrite !zread_cons_later; [apply CR2; now rewrite <- CR1|exact Hf|now right|now right; right]. }
  exists z'. split.
  { unfold Sign_Model.sign, load_from_jar. replace (smem MANIFEST_NAME (namelist z)) with true.
    2:{ symmetry. apply smem_In. now apply (holds_in z _ mfd0). }
    cbn [negb]. apply zread_holds in Hm0. rewrite Hm0. cbn [rbind]. rewrite Hp0. cbn [rbind]. unfold add_jar_entries.
    rewrite (proj2 (smem_alg alg) HA). rewrite (add_entries_ok up hash z alg HA (namelist z) mf0 (fun f Hf => Hf)). cbn [rbind]. fold mf.
    rewrite C1. cbn [rbind]. rewrite C2. cbn [rbind]. rewrite M1. cbn [rbind]. fold names. rewrite ER. reflexivity. }
  split.
  - unfold Sign_Model.verify.
    assert (EF : filter (file_matches_sigfile up) (namelist z') = [META ++ alias ++ lit ".SF"]).
    { unfold z'. cbn [namelist map fst filter]. rewrite mf_no_match, (sf_matches alias Ha), (ext_no_match alias HE). f_equal.
      assert (G : forall l, (forall f, In f l -> file_matches_sigfile up f = false) -> filter (file_matches_sigfile up) l = []).
      { induction l as [|f l IH]; intro Hl; [reflexivity|]. cbn [filter]. rewrite (Hl f) by now left. apply IH. intros; apply Hl; now right. }
      apply G. intros f Hf. destruct (file_matches_sigfile up f) eqn:E; [|reflexivity]. exfalso.
      apply sigfile_iff in E as (x & -> & _ & y & Hy). apply HIn in Hf as [Hf _]. exact (Hsf x y Hf Hy). }
    unfold choose_sf. rewrite EF. cbn [rbind]. rewrite alias_of_sf, Rsf. cbn [rbind].
    assert (EB : find_block z' alias = Ok (META ++ alias ++ [46] ++ key_ext)).
    { assert (G : forall e, In e [lit "RSA"; lit "DSA"; lit "EC"] ->
        smem (META ++ alias ++ [46] ++ e) (namelist z') = seqb e key_ext).
      { intros e He. destruct (seqb_spec e key_ext) as [->|Hne].
        - apply smem_In. unfold z'. cbn [namelist map fst]. right; right; now left.
        - destruct (smem _ _) eqn:E; [|reflexivity]. exfalso. apply smem_In in E. unfold z' in E. cbn [namelist map fst] in E.
          destruct E as [E|[E|[E|E]]].
          + clear -E He. change MANIFEST_NAME with (lit "META-INF/MANIFEST" ++ lit ".MF") in E.
            destruct He as [<-|[<-|[<-|[]]]].
            * replace (META ++ alias ++ [46] ++ lit "RSA") with ((META ++ alias ++ [46]) ++ lit "RSA") in E by (now rewrite <- !app_assoc).
              revert E. apply app_tail_neq; [reflexivity|discriminate].
            * replace (META ++ alias ++ [46] ++ lit "DSA") with ((META ++ alias ++ [46]) ++ lit "DSA") in E by (now rewrite <- !app_assoc).
              revert E. apply app_tail_neq; [reflexivity|discriminate].
            * rewrite app_assoc in E. revert E. apply app_tail_neq; [reflexivity|discriminate].
          + do 2 apply app_inv_head in E. destruct He as [<-|[<-|[<-|[]]]]; discriminate.
          + do 3 apply app_inv_head in E. congruence.
          + apply HIn in E as [E _]. exact (Hext e He E). }
      unfold find_block. cbv zeta. rewrite !G by (cbn; auto).
      destruct HE as [<-|[<-|[<-|[]]]]; reflexivity. }
    rewrite EB. cbn [rbind]. rewrite Rblk. cbn [rbind]. rewrite Hblk. cbn [negb]. rewrite C3. cbn [rbind].
    unfold load_from_jar. replace (smem MANIFEST_NAME (namelist z')) with true by (symmetry; apply smem_In; now left).
    cbn [negb]. rewrite Rmf. cbn [rbind]. rewrite M2. cbn [rbind].
    assert (HW2 : well_named mf2).
    { destruct HW as [W1 W2]. split; [apply (Permutation_NoDup (Permutation_map fst (Permutation_sym M4)) W1)|].
      apply (Permutation_Forall (Permutation_sym M4) W2). }
    assert (HSall : Forall (fun ns => In (alg ++ SUF) (dkeys (snd ns)) /\ digests_supported (snd ns)) (m_subs mf2)).
    { apply (Permutation_Forall (Permutation_sym M4)). cbn [m_subs mf]. rewrite Forall_forall. intros [n s] Hns.
      apply added_keep in Hns; [|apply HW0]. cbn [snd]. destruct Hns as [(_ & _ & b & _ & ->)|(Hn & Hns)]; [now apply sfsec_supported|].
      rewrite Forall_forall in HS. specialize (HS _ Hns). cbn [fst snd] in HS. destruct HS as [(H1 & H2)|H]; [|exact H].
      exfalso. destruct Hn as [Hn|Hn]; [contradiction|]. apply H2. now apply (skips_exact up Hup). }
    assert (ED2 : man_data mf2 None = Ok mfd).
    { rewrite (canonical' mf mf2 None ls mfd); [reflexivity|exact M3|now rewrite M5, EL|exact M4|exact HWr| |exact M1].
      intros _. destruct HOK as (_ & _ & HF). eapply Forall_impl; [|exact HF]. intros [n s] (_ & _ & HI). now apply item_no_newline. }
    rewrite (verify_ok_core hash sf2 mf2 alg ls mn (lit "1.0") (hash alg (mn ++ concat ds)) mfd); try assumption.
    + cbn [rbind].
      assert (HSup : Forall (fun ns => digests_supported (snd ns)) (m_subs mf2)) by (eapply Forall_impl; [|exact HSall]; intros ? [_ ?]; assumption).
      destruct (verify_entries_ok up hash mf2 z' true HSup (namelist z') mf2 (fun f Hf => Hf) (extends_refl mf2)) as ([fails m'] & EV).
      unfold verify_jar_checksums. rewrite EV. cbn [rbind].
      destruct fails as [|f fails]; [reflexivity|]. exfalso.
      pose proof (verify_jar_exact up hash mf2 z' true _ _ EV) as HP.
      assert (HB : In f (namelist z') /\ bad up hash mf2 z' f).
      { clear -HP. remember (f :: fails) as r eqn:Er. revert f fails Er. induction HP as [|a l r H HP IH|a l r H HP IH]; intros f fails Er; [discriminate| |].
        - apply cons_inj in Er as [-> _]. split; [now left|exact H].
        - destruct (IH f fails Er) as [H1 H2]. split; [now right|exact H2]. }
      destruct HB as (HI & Hs & Hb). unfold z' in HI. cbn [namelist map fst] in HI.
      destruct HI as [<-|[<-|[<-|HI]]].
      * rewrite skips_mf in Hs. discriminate.
      * rewrite (skips_sf alias Ha) in Hs. discriminate.
      * rewrite (skips_ext alias Ha HE) in Hs. discriminate.
      * apply Hb. pose proof HI as HI'. apply HIn in HI as [HI _]. destruct (zread_in z f HI) as (b & Eb).
        exists (sfsec hash alg f b), b. split; [|split].
        -- rewrite <- (dget_perm (m_subs mf) (m_subs mf2)); [|apply HW|now symmetry]. cbn [m_subs mf].
           rewrite added_get by auto. rewrite (proj2 (smem_In f (namelist z)) HI), Hs, Eb. reflexivity.
        -- apply zread_holds. rewrite Rrest by exact HI'. exact Eb.
        -- exists alg. split; [exact HA|]. unfold sfsec. cbn [dget]. change (lit "-Digest") with SUF.
           destruct (alg_not_name alg SUF) as [-> _]; [now left|exact HA|]. now rewrite seqb_refl.
    + rewrite M3. exact Em.
    + intros n s Hns. assert (Hns' : In (n, s) (m_subs mf)) by (apply (Permutation_in _ M4); exact Hns).
      apply mapM_Forall2 in Ed as Ed'.
      assert (exists d, sec_data s (Some ls) = Ok d) as (d & Edd).
      { clear -Ed' Hns'. assert (HI : In s (map snd (m_subs mf))) by (apply in_map_iff; now exists (n, s)).
        induction Ed' as [|a b l r Hab HF IH]; [contradiction|]. destruct HI as [<-|HI]; [eauto|auto]. }
      exists d. split; [exact Edd|]. rewrite C5. apply (sf_subs_get hash alg ls (m_subs mf) ds (proj1 HW) Ed). exists s, d. auto.
    + right. exact HSall.
  - intros f b Hf Hb. apply zread_holds. rewrite Rrest; [now apply zread_holds|]. apply HIn. split; [now apply (holds_in z f b)|exact Hf].
Qed.
End Env.

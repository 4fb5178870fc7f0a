(** Proofs: a manifest accepted against a signature file is the one digested. *)
From Verif Require Import Base ConstPool_Model Manifest_Model Manifest_Spec Manifest_Proofs Manifest_RT Manifest_Canon
  Sign_Model Sign_Spec Sign_Proofs Sign_Bind.
From Coq Require Import Permutation.

Lemma usual_a_linesep m : usual_linesep m -> a_linesep (man_linesep m None).
Proof. unfold man_linesep. cbn [or_linesep]. intros [->|[->| ->]]; [left|left|right]; reflexivity. Qed.

Lemma Forall_or {A} (P : Prop) (Q : A -> Prop) l : Forall (fun x => P \/ Q x) l -> P \/ Forall Q l.
Proof. induction 1 as [|x l [H|H] HF [IH|IH]]; auto. Qed.

Section Env.
Variable hash : str -> bytes -> str.

Lemma digest_dec A x y : In A algs -> hash A x = hash A y -> collision hash \/ x = y.
Proof.
  intros HA E. destruct (list_eq_dec Z.eq_dec x y) as [->|Hn]; [now right|]. left. exists A, x, y. auto.
Qed.

(** What acceptance of a manifest means. *)
Definition section_matches (sf : manifest) (ls : option str) (s : section) : Prop :=
  exists n sfs A d, dget s K_Name = Some n /\ dget (m_subs sf) n = Some sfs /\ In A algs /\
    sec_data s ls = Ok d /\ dget sfs (A ++ SUF) = Some (hash A d).

Lemma some_match_true' s suf data ds : some_match hash s suf data ds = Ok true ->
  exists A b, data = Ok b /\ In A ds /\ In A algs /\ dget s (A ++ suf) = Some (hash A b).
Proof.
  destruct data as [b|e]; [|destruct ds; discriminate]. intro H. apply some_match_true in H as (A & H1 & H2 & H3). eauto 6.
Qed.

Lemma verify_sections_sound sf ls strict : forall secs sf0 sf', extends sf sf0 ->
  verify_sections hash sf0 ls strict secs = Ok ([], sf') -> Forall (section_matches sf ls) secs.
Proof.
  induction secs as [|s secs IH]; intros sf0 sf' HE H; [constructor|]. cbn [verify_sections] in H.
  unfold primary in H. destruct (dget s K_Name) as [n|] eqn:En; [|discriminate]. cbn [rbind] in H.
  destruct (get_or_create_section sf0 n) as [sfs sf1] eqn:EG. destruct (extends_goc sf sf0 n sfs sf1 HE EG) as [HE1 HS].
  destruct (empty (keys_with_suffix s SUF) && strict).
  - destruct (verify_sections hash sf1 ls strict secs) as [[l sf2]|]; discriminate.
  - destruct (some_match hash sfs SUF (sec_data s ls) (keys_with_suffix s SUF)) as [[|]|] eqn:EM; cbn [rbind] in H; try discriminate.
    + destruct (verify_sections hash sf1 ls strict secs) as [[l sf2]|] eqn:EV; [|discriminate]. cbn [rbind] in H.
      injection H as -> ->. constructor; [|eapply IH; eauto].
      apply some_match_true' in EM as (A & d & Ed & _ & HA & HG).
      exists n, sfs, A, d. split; [exact En|]. split; [|auto].
      destruct HS as [HS|[_ ->]]; [exact HS|]. rewrite new_section_get in HG. discriminate.
    + destruct (verify_sections hash sf1 ls strict secs) as [[l sf2]|]; discriminate.
Qed.

Lemma verify_manifest_sound sf mf : verify_manifest hash sf mf = Ok [] ->
  (exists A d, In A algs /\ man_data mf None = Ok d /\ dget (m_main sf) (A ++ SUF_ALL) = Some (hash A d)) \/
  ((exists A d, In A algs /\ get_main_section mf None = Ok d /\ dget (m_main sf) (A ++ SUF_MAIN) = Some (hash A d)) /\
   Forall (fun ns => section_matches sf (m_linesep mf) (snd ns)) (m_subs mf)).
Proof.
  unfold verify_manifest, verify_manifest_main_checksum, verify_manifest_main_attributes_checksum. intro H.
  destruct (some_match hash (m_main sf) SUF_ALL (man_data mf None) _) as [[|]|] eqn:E1; cbn [rbind] in H; [| |discriminate].
  - left. apply some_match_true' in E1 as (A & d & H1 & _ & H2 & H3). eauto 6.
  - right. destruct (some_match hash (m_main sf) SUF_MAIN (get_main_section mf None) _) as [[|]|] eqn:E2; cbn [rbind negb] in H; try discriminate.
    split; [apply some_match_true' in E2 as (A & d & H1 & _ & H2 & H3); eauto 6|].
    unfold verify_manifest_entry_checksums in H.
    destruct (verify_sections hash sf (m_linesep mf) true (map snd (m_subs mf))) as [[l sf']|] eqn:E3; [|discriminate].
    cbn [rbind] in H. apply ok_inj in H. subst l. apply (verify_sections_sound sf _ true _ sf sf' (extends_refl sf)) in E3.
    rewrite Forall_forall in *. intros ns Hns. apply E3. now apply in_map.
Qed.

(** [digests_of sf mf alg]: the signature file holds the digests of the manifest. *)
Definition digests_of (sf mf : manifest) (alg : str) : Prop :=
  exists v mn ds ls, a_linesep ls /\ sec_data (m_main mf) (Some ls) = Ok mn /\
    mapM (fun s => sec_data s (Some ls)) (map snd (m_subs mf)) = Ok ds /\
    m_main sf = sfmain alg v (hash alg mn) (hash alg (mn ++ concat ds)) /\
    (forall n x, dget (m_subs sf) n = Some x ->
       exists s d, In (n, s) (m_subs mf) /\ sec_data s (Some ls) = Ok d /\ x = sfsec hash alg n d).

Lemma digest_manifest_inv lo mf alg sf : digest_manifest hash (new_sigmanifest lo) mf alg = Ok sf ->
  In alg algs /\ exists mn, sec_data (m_main mf) (Some (man_linesep mf None)) = Ok mn.
Proof.
  unfold digest_manifest. cbv zeta. destruct (smem alg java_digests) eqn:E; [|discriminate]. apply smem_alg in E.
  cbn [negb]. unfold get_main_section. destruct (sec_data (m_main mf) _) as [mn|]; [|discriminate]. eauto.
Qed.
Lemma digest_sections_inv alg ls : forall secs sf accum r, digest_sections hash sf alg ls accum secs = Ok r ->
  exists ds, mapM (fun s => sec_data s (Some ls)) secs = Ok ds.
Proof.
  induction secs as [|s secs IH]; intros sf accum r H; cbn [digest_sections mapM] in *; [eauto|].
  destruct (sec_data s (Some ls)) as [d|]; [|discriminate]. cbn [rbind] in *. destruct (primary s) as [n|]; [|discriminate].
  cbn [rbind] in H. destruct (create_section sf n) as [x sf1]. destruct (set_in_section sf1 n _ _) as [sf2|]; [|discriminate].
  cbn [rbind] in H. destruct (IH _ _ _ H) as (ds & ->). cbn [rbind]. eauto.
Qed.
Lemma digest_manifest_digests lo mf alg sf : well_named mf -> usual_linesep mf ->
  digest_manifest hash (new_sigmanifest lo) mf alg = Ok sf -> digests_of sf mf alg /\ In alg algs.
Proof.
  intros HW HL H. destruct (digest_manifest_inv lo mf alg sf H) as (HA & mn & Em). split; [|exact HA].
  assert (HD : exists ds, mapM (fun s => sec_data s (Some (man_linesep mf None))) (map snd (m_subs mf)) = Ok ds).
  { unfold digest_manifest in H. cbv zeta in H. rewrite (proj2 (smem_alg alg) HA) in H. cbn [negb] in H.
    unfold get_main_section in H. rewrite Em in H. cbn [rbind] in H. destruct (set_main _ _ _) as [sf1|]; [|discriminate].
    cbn [rbind] in H.
    destruct (digest_sections hash sf1 alg (or_linesep (m_linesep mf) os_linesep) mn (map snd (m_subs mf))) as [r|] eqn:E; [|discriminate].
    apply digest_sections_inv in E. exact E. }
  destruct HD as (ds & Ed).
  rewrite (digest_manifest_ok hash mf alg (man_linesep mf None) lo mn ds HA HW eq_refl Em Ed) in H. apply ok_inj in H. subst sf.
  exists (lit "1.0"), mn, ds, (man_linesep mf None). split; [now apply usual_a_linesep|]. split; [exact Em|]. split; [exact Ed|].
  split; [reflexivity|]. intros n x Hx. cbn [m_subs] in Hx. destruct HW as [HN _].
  apply (sf_subs_get hash alg (man_linesep mf None) (m_subs mf) ds HN Ed) in Hx. exact Hx.
Qed.

Lemma text_secs m : text_manifest m -> Forall (Forall text_item) (map snd (m_subs m)).
Proof. intros [_ H]. rewrite Forall_forall in *. intros s Hs. apply in_map_iff in Hs as (ns & <- & Hns). now apply H. Qed.

Lemma same_name m m2 n s : well_named m -> well_named m2 -> In (n, s) (m_subs m2) -> In s (map snd (m_subs m)) -> In (n, s) (m_subs m).
Proof.
  intros [_ H] [_ H2] HI Hs. apply in_map_iff in Hs as ([n' s'] & E & Hs). cbn [snd] in E. subst s'.
  rewrite Forall_forall in H, H2. specialize (H _ Hs). specialize (H2 _ HI). cbn [fst snd] in *. replace n with n'; [exact Hs|congruence].
Qed.

Lemma binds sf mf mf2 alg : In alg algs -> digests_of sf mf alg -> well_named mf -> well_named mf2 ->
  text_manifest mf -> text_manifest mf2 -> usual_linesep mf2 -> verify_manifest hash sf mf2 = Ok [] ->
  collision hash \/
  (m_main mf2 = m_main mf /\ forall n s, In (n, s) (m_subs mf2) -> In (n, s) (m_subs mf)).
Proof.
  intros HA (v & mn & ds & ls & Hls & Em & Ed & Emain & Hsubs) HW HW2 HT HT2 HL2 HV.
  apply usual_a_linesep in HL2 as Hls2.
  apply verify_manifest_sound in HV as [(A & d & HA' & Hd & HG)|((A & d & HA' & Hd & HG) & HS)].
  - rewrite Emain in HG. apply main_get in HG as [-> HG]; [|exact HA|now left|exact HA']. rewrite seqb_refl in HG.
    apply digest_dec in HG as [HC|E]; [now left| |exact HA']. right. subst d.
    destruct (man_data_parts mf2 _ _ eq_refl Hd) as (mn2 & ks & ds2 & E1 & E2 & E3 & E4).
    rewrite <- (mapM_map (fun s => sec_data s (Some (man_linesep mf2 None))) snd) in E3.
    assert (HP : Permutation (map snd (sort_secs ks)) (map snd (m_subs mf2))).
    { rewrite sort_secs_map_snd. now rewrite (mapM_key_snd _ _ E2). }
    assert (X : m_main mf :: map snd (m_subs mf) = m_main mf2 :: map snd (sort_secs ks)).
    { apply (data_inj ls (man_linesep mf2 None) _ _ (mn :: ds) (mn2 :: ds2)); try assumption.
      - constructor; [apply HT|now apply text_secs].
      - constructor; [apply HT2|]. apply (Permutation_Forall (Permutation_sym HP)). now apply text_secs.
      - cbn [mapM]. rewrite Em. cbn [rbind]. rewrite Ed. reflexivity.
      - cbn [mapM]. rewrite E1. cbn [rbind]. rewrite E3. reflexivity. }
    apply cons_inj in X as [X1 X2]. split; [now symmetry|]. intros n s HI. apply (same_name mf mf2); try assumption.
    rewrite X2. apply (Permutation_in s (Permutation_sym HP)). apply in_map_iff. now exists (n, s).
  - rewrite Emain in HG. apply main_get in HG as [-> HG]; [|exact HA|now right|exact HA'].
    change (seqb SUF_MAIN SUF_ALL) with false in HG. cbn iota in HG.
    apply digest_dec in HG as [HC|E]; [now left| |exact HA']. subst d. unfold get_main_section in Hd.
    assert (HS2 : collision hash \/ Forall (fun ns => In ns (m_subs mf)) (m_subs mf2)).
    { apply Forall_or. rewrite Forall_forall in *. intros [n s] Hns. specialize (HS _ Hns). cbn [snd] in HS.
      destruct HS as (n' & sfs & A & d & H1 & H2 & H3 & H4 & H5). destruct (Hsubs n' sfs H2) as (s0 & d0 & Hs0 & Ed0 & ->).
      apply sfsec_get in H5 as [-> H5]; [|exact H3]. apply digest_dec in H5 as [HC|E]; [now left| |exact H3]. right. subst d0.
      destruct (m_linesep mf2) as [l2|] eqn:El2.
      2:{ unfold sec_data in H4. destruct (write_items s None); discriminate. }
      assert (Hl2 : a_linesep l2) by (destruct HL2 as [H|[H|H]]; rewrite El2 in H; inversion H; [now left|now right]).
      assert (s0 = s).
      { apply (sec_data_inj ls l2 s0 s d Hls Hl2); try assumption.
        - destruct HT as [_ HT]. rewrite Forall_forall in HT. exact (HT _ Hs0).
        - destruct HT2 as [_ HT2]. rewrite Forall_forall in HT2. exact (HT2 _ Hns). }
      subst s0. destruct HW2 as [_ HW2]. rewrite Forall_forall in HW2. specialize (HW2 _ Hns). cbn [fst snd] in HW2.
      replace n with n'; [exact Hs0|]. unfold K_Name in H1. congruence. }
    destruct HS2 as [HC|HS2]; [now left|]. right. split.
    + symmetry. apply (sec_data_inj ls (man_linesep mf2 None) (m_main mf) (m_main mf2) mn); try assumption; [apply HT|apply HT2].
    + intros n s HI. rewrite Forall_forall in HS2. exact (HS2 _ HI).
Qed.
End Env.

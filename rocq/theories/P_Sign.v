(** Properties C27-C34: digests, signature files, signing and verification. *)
From Verif Require Import Base ConstPool_Model Manifest_Model Manifest_Spec Manifest_Proofs Manifest_RT Manifest_Canon
  Sign_Model Sign_Spec Sign_Proofs Sign_Names Sign_Bind Sign_Tamper Sign_Parsed Sign_Jar Sign_C31 Sign_C32.
From Coq Require Import Permutation.

(** ** A concrete environment for the examples *)
Definition up0 (c : Z) : str := [up1 c].
Definition hash0 (alg : str) (b : bytes) : str :=
  dec (fold_left (fun a x => (a * 257 + x) mod 1000003) b (Z.of_nat (length alg))).
Definition block0 (cert d sg : bytes) : bool := seqb sg (cert ++ d).
Definition make0 (alg : str) (d : bytes) : bytes := [1; 2; 3] ++ d.
Definition MV1 : bytes := lit "Manifest-Version: 1.0" ++ [10; 10].
Definition jar0 : zip :=
  [(lit "META-INF/", []); (lit "META-INF/MANIFEST.MF", MV1); (lit "a/", []); (lit "a/B.class", [202; 254]); (lit "a/C.class", [186; 190])].
Definition jar1 : zip := Eval vm_compute in
  match sign up0 hash0 make0 (lit "RSA") jar0 (lit "KEY") (lit "SHA-256") with Ok z => z | Err _ => [] end.

Lemma up0_ok : upper_ok up0.
Proof.
  split; [reflexivity|]. intro c. unfold up0, uppercase. cbn [map concat app]. f_equal. unfold up1.
  destruct ((97 <=? c) && (c <=? 122)) eqn:E; [|now rewrite E]. replace ((97 <=? c - 32) && (c - 32 <=? 122)) with false by lia. reflexivity.
Qed.
Lemma dec_digits n : 0 <= n -> exists c s, dec n = c :: s /\ Forall (fun d => 48 <= d <= 57) (c :: s).
Proof.
  intro Hn. unfold dec. replace (n <? 0) with false by lia.
  assert (G : forall fuel n acc, 0 <= n -> Forall (fun d => 48 <= d <= 57) acc ->
    Forall (fun d => 48 <= d <= 57) (dec_aux fuel n acc) /\ (dec_aux fuel n acc = [] -> fuel = O)).
  { induction fuel as [|f IH]; intros m acc Hm HF; cbn [dec_aux]; [split; [exact HF|reflexivity]|].
    assert (H0 : Forall (fun d => 48 <= d <= 57) (48 + m mod 10 :: acc)).
    { constructor; [|exact HF]. pose proof (Z.mod_pos_bound m 10). lia. }
    destruct (m <? 10); [split; [exact H0|discriminate]|].
    destruct (IH (m / 10) (48 + m mod 10 :: acc)) as [H1 H2]; [apply Z.div_pos; lia|exact H0|]. split; [exact H1|].
    intro E. specialize (H2 E). subst f. cbn [dec_aux] in E. discriminate. }
  destruct (G (S (Z.to_nat (Z.log2 n))) n [] Hn (Forall_nil _)) as [H1 H2].
  destruct (dec_aux (S (Z.to_nat (Z.log2 n))) n []) as [|c s] eqn:E; [specialize (H2 eq_refl); discriminate|]. eauto.
Qed.
Lemma hash0_text : hash_text hash0.
Proof.
  intros A b. unfold hash0. set (n := fold_left _ b _).
  assert (Hn : 0 <= n).
  { unfold n. assert (H : 0 <= Z.of_nat (length A)) by lia. revert H. generalize (Z.of_nat (length A)). clear n.
    induction b as [|x b IH]; intros a Ha; [exact Ha|]. cbn [fold_left]. apply IH. apply Z.mod_pos_bound. lia. }
  destruct (dec_digits n Hn) as (c & s & -> & HF). split.
  - unfold val_ok. rewrite andb_true_r. apply forallb_forall. rewrite Forall_forall in HF. intros x Hx. specialize (HF x Hx).
    unfold plain, scalar, breaks. cbn [existsb]. lia.
  - apply forallb_forall. rewrite Forall_forall in HF. intros x Hx. specialize (HF x Hx). lia.
Qed.

(** ** C27 *)
Theorem C27_exact : forall up hash m z strict fails m', upper_ok up ->
  verify_jar_checksums up hash m z strict = Ok (fails, m') ->
  picks (fun f => ~ sig_related (uppercase up f) /\
                  ~ (exists s b, dget (m_subs m) f = Some s /\ holds z f b /\ vouched hash s b)) (namelist z) fails.
Proof.
  intros up hash m z strict fails m' Hup H. apply verify_jar_exact in H.
  induction H as [|a l r H HP IH|a l r H HP IH]; [constructor| |].
  - apply picks_in; [|exact IH]. destruct H as [H1 H2]. split; [|exact H2]. rewrite <- (skips_exact up Hup). congruence.
  - apply picks_out; [|exact IH]. intros [H1 H2]. apply H. split; [|exact H2].
    destruct (file_skips_verification up a) eqn:E; [|reflexivity]. exfalso. apply H1. now apply (skips_exact up Hup).
Qed.
Print Assumptions C27_exact.
Theorem C27_total : forall up hash m z strict, Forall (fun ns => digests_supported (snd ns)) (m_subs m) ->
  exists r, verify_jar_checksums up hash m z strict = Ok r.
Proof. intros up hash m z strict H. exact (verify_entries_ok up hash m z strict H (namelist z) m (fun f Hf => Hf) (extends_refl m)). Qed.
Print Assumptions C27_total.
Theorem C27_only_error : forall up hash m z strict e, verify_jar_checksums up hash m z strict = Err e -> e = UnsupportedDigest.
Proof. intros up hash m z strict e H. exact (verify_entries_err up hash z strict e (namelist z) m (fun f Hf => Hf) H). Qed.
Print Assumptions C27_only_error.
Definition mf_ex2 : manifest := mkman K_MV [(K_MV, lit "1.0")]
  [(lit "a/B.class", [(K_Name, lit "a/B.class"); (lit "MD5-Digest", lit "wrong"); (lit "SHA1-Digest", hash0 (lit "SHA1") [202; 254])]);
   (lit "a/C.class", [(K_Name, lit "a/C.class"); (lit "SHA1-Digest", lit "wrong")])] (Some lf).
Example C27_ex : exists m', verify_jar_checksums up0 hash0 mf_ex2 jar0 true = Ok ([lit "a/C.class"], m') /\
  Forall (fun ns => digests_supported (snd ns)) (m_subs mf_ex2).
Proof.
  eexists. split; [vm_compute; reflexivity|].
  apply Forall_cons; [|apply Forall_cons; [|apply Forall_nil]]; intros x Hx; cbn [snd dkeys map fst In] in Hx.
  - destruct Hx as [Hx|[Hx|[Hx|[]]]].
    + apply (f_equal (fun l => nth 0 (rev l) 0)) in Hx. rewrite rev_app_distr in Hx. vm_compute in Hx. discriminate.
    + change (lit "MD5" ++ lit "-Digest" = x ++ lit "-Digest") in Hx. apply app_inv_tail in Hx. subst. now left.
    + change (lit "SHA1" ++ lit "-Digest" = x ++ lit "-Digest") in Hx. apply app_inv_tail in Hx. subst. now right; left.
  - destruct Hx as [Hx|[Hx|[]]].
    + apply (f_equal (fun l => nth 0 (rev l) 0)) in Hx. rewrite rev_app_distr in Hx. vm_compute in Hx. discriminate.
    + change (lit "SHA1" ++ lit "-Digest" = x ++ lit "-Digest") in Hx. apply app_inv_tail in Hx. subst. now right; left.
Qed.
Example C27_unsupported_ex : verify_jar_checksums up0 hash0
  (mkman K_MV [] [(lit "a/B.class", [(K_Name, lit "a/B.class"); (lit "MD2-Digest", lit "x")])] None) jar0 true = Err UnsupportedDigest.
Proof. vm_compute. reflexivity. Qed.

(** ** C28: the strict flag has no effect *)
Theorem C28_strict_ignored : forall up hash m z, verify_jar_checksums up hash m z false = verify_jar_checksums up hash m z true.
Proof. intros up hash m z. exact (strict_entries up hash z (namelist z) m (fun f Hf => Hf)). Qed.
Print Assumptions C28_strict_ignored.
Theorem C28_strict_ignored_sections : forall hash sf mf,
  verify_manifest_entry_checksums hash sf mf false = verify_manifest_entry_checksums hash sf mf true.
Proof. intros hash sf mf. exact (strict_sections hash (m_linesep mf) (map snd (m_subs mf)) sf). Qed.
Print Assumptions C28_strict_ignored_sections.
(** An entry without any digest is reported although strict is off. *)
Theorem C28_refuted : exists up hash m z m', m_subs m = [] /\
  verify_jar_checksums up hash m z false = Ok ([lit "a/B.class"; lit "a/C.class"], m').
Proof. exists up0, hash0, (new_manifest None), jar0. eexists. split; [reflexivity|]. vm_compute. reflexivity. Qed.
Print Assumptions C28_refuted.

(** ** C29 *)
(** Full statement: every section carries some digest.  It is false (see
    C29_refuted); here every section carries one of the algorithm used. *)
Theorem C29_same_algorithm_partial : forall hash mf alg ls lo data,
  In alg algs -> well_named mf -> m_linesep mf = Some ls -> ls = lf \/ ls = crlf -> man_data mf None = Ok data ->
  Forall (fun ns => In (alg ++ lit "-Digest") (dkeys (snd ns)) /\ digests_supported (snd ns)) (m_subs mf) ->
  exists sf, digest_manifest hash (new_sigmanifest lo) mf alg = Ok sf /\ verify_manifest hash sf mf = Ok [].
Proof. intros hash mf alg ls lo data. exact (digest_verifies hash mf alg ls lo data). Qed.
Print Assumptions C29_same_algorithm_partial.
(** No digest is needed when the sections are in the order in which they are written. *)
Theorem C29_written_order : forall hash mf alg ls lo mn ds, In alg algs -> well_named mf -> man_linesep mf None = ls ->
  sec_data (m_main mf) (Some ls) = Ok mn -> mapM (fun s => sec_data s (Some ls)) (map snd (m_subs mf)) = Ok ds ->
  man_data mf None = Ok (mn ++ concat ds) ->
  exists sf, digest_manifest hash (new_sigmanifest lo) mf alg = Ok sf /\ verify_manifest hash sf mf = Ok [].
Proof. exact digest_verifies_sorted. Qed.
Print Assumptions C29_written_order.
Definition mf_ex3 (d : str) (ls : option str) : manifest := mkman K_MV [(K_MV, lit "1.0")]
  [(lit "b", [(K_Name, lit "b"); (d ++ lit "-Digest", lit "x")]); (lit "a", [(K_Name, lit "a"); (d ++ lit "-Digest", lit "y")])] ls.
Example C29_ex : exists sf, digest_manifest hash0 (new_sigmanifest None) (mf_ex3 (lit "SHA1") (Some crlf)) (lit "SHA1") = Ok sf /\
  verify_manifest hash0 sf (mf_ex3 (lit "SHA1") (Some crlf)) = Ok [].
Proof. eexists. split; [vm_compute; reflexivity|]. vm_compute. reflexivity. Qed.
Example C29_hyp_ex : well_named (mf_ex3 (lit "SHA1") (Some crlf)) /\
  Forall (fun ns => In (lit "SHA1" ++ lit "-Digest") (dkeys (snd ns)) /\ digests_supported (snd ns)) (m_subs (mf_ex3 (lit "SHA1") (Some crlf))).
Proof.
  split; [split; [repeat constructor; cbn; intuition discriminate|repeat constructor]|].
  assert (G : forall n v, In (lit "SHA1" ++ lit "-Digest") (dkeys [(K_Name, n); (lit "SHA1" ++ lit "-Digest", v)]) /\
    digests_supported [(K_Name, n); (lit "SHA1" ++ lit "-Digest", v)]).
  { intros n v. split; [right; now left|]. intros x Hx. destruct Hx as [Hx|[Hx|[]]].
    - cbn [fst] in Hx. apply (f_equal (fun l => nth 0 (rev l) 0)) in Hx. rewrite rev_app_distr in Hx. vm_compute in Hx. discriminate.
    - cbn [fst] in Hx. apply app_inv_tail in Hx. subst. now right; left. }
  constructor; [apply G|]. constructor; [apply G|constructor].
Qed.
(** Sections with only an MD5 digest, not in sorted order, signature with SHA-256:
    the signature file does not verify against the manifest it was made from. *)
Theorem C29_refuted : exists hash mf sf, (forall n s, In (n, s) (m_subs mf) -> In (lit "MD5-Digest") (dkeys s)) /\ well_named mf /\
  digest_manifest hash (new_sigmanifest None) mf (lit "SHA-256") = Ok sf /\ verify_manifest hash sf mf = Ok [lit "b"; lit "a"].
Proof.
  exists hash0, (mf_ex3 (lit "MD5") (Some lf)). eexists. split; [|split; [|split; [vm_compute; reflexivity|vm_compute; reflexivity]]].
  - intros n s [H|[H|[]]]; injection H as <- <-; right; now left.
  - split; [repeat constructor; cbn; intuition discriminate|repeat constructor].
Qed.
Print Assumptions C29_refuted.
(** A manifest made in memory (no line separator) cannot be checked by sections. *)
Theorem C29_no_linesep_refuted : exists hash mf sf, digest_manifest hash (new_sigmanifest None) mf (lit "SHA1") = Ok sf /\
  (forall n s, In (n, s) (m_subs mf) -> In (lit "SHA1-Digest") (dkeys s)) /\ verify_manifest hash sf mf = Err AttributeError.
Proof.
  exists hash0, (mf_ex3 (lit "SHA1") None). eexists. split; [vm_compute; reflexivity|]. split; [|vm_compute; reflexivity].
  intros n s [H|[H|[]]]; injection H as <- <-; right; now left.
Qed.
Print Assumptions C29_no_linesep_refuted.

(** ** C30 *)
(** What acceptance of a manifest rests on. *)
Theorem C30_evidence : forall hash sf mf, verify_manifest hash sf mf = Ok [] ->
  (exists A d, In A algs /\ man_data mf None = Ok d /\ dget (m_main sf) (A ++ lit "-Digest-Manifest") = Some (hash A d)) \/
  ((exists A d, In A algs /\ get_main_section mf None = Ok d /\
      dget (m_main sf) (A ++ lit "-Digest-Manifest-Main-Attributes") = Some (hash A d)) /\
   Forall (fun ns => exists n sfs A d, dget (snd ns) (lit "Name") = Some n /\ dget (m_subs sf) n = Some sfs /\ In A algs /\
      sec_data (snd ns) (m_linesep mf) = Ok d /\ dget sfs (A ++ lit "-Digest") = Some (hash A d)) (m_subs mf)).
Proof. exact verify_manifest_sound. Qed.
Print Assumptions C30_evidence.
(** Nothing can be altered: a manifest accepted against the signature file made
    from another one has the same main attributes and no other sections. *)
Theorem C30_binds : forall hash lo mf mf2 alg sf,
  well_named mf -> well_named mf2 -> text_manifest mf -> text_manifest mf2 -> usual_linesep mf -> usual_linesep mf2 ->
  digest_manifest hash (new_sigmanifest lo) mf alg = Ok sf -> verify_manifest hash sf mf2 = Ok [] ->
  collision hash \/ (m_main mf2 = m_main mf /\ forall n s, In (n, s) (m_subs mf2) -> In (n, s) (m_subs mf)).
Proof.
  intros hash lo mf mf2 alg sf HW HW2 HT HT2 HL HL2 HD HV. destruct (digest_manifest_digests hash lo mf alg sf HW HL HD) as [H1 H2].
  exact (binds hash sf mf mf2 alg H2 H1 HW HW2 HT HT2 HL2 HV).
Qed.
Print Assumptions C30_binds.
Example C30_ex : let mf := mf_ex3 (lit "SHA1") (Some lf) in
  let altered := mkman K_MV [(K_MV, lit "1.0")] [(lit "b", [(K_Name, lit "b"); (lit "SHA1-Digest", lit "z")])] (Some lf) in
  text_manifest mf /\ usual_linesep mf /\ text_manifest altered /\ well_named altered /\
  exists sf, digest_manifest hash0 (new_sigmanifest None) mf (lit "SHA1") = Ok sf /\ verify_manifest hash0 sf altered = Ok [lit "b"].
Proof.
  assert (G : forall kv, forallb plain (fst kv) && forallb plain (snd kv) && negb (existsb (Z.eqb 58) (fst kv)) &&
    match fst kv with 32 :: _ => false | _ => true end = true -> text_item kv).
  { intros [k v] H. cbn [fst snd] in H. apply andb_prop in H as [H H4]. apply andb_prop in H as [H H3]. apply andb_prop in H as [H1 H2].
    split; [exact H1|]. split; [exact H2|]. split.
    - cbn [fst]. intro HI. apply negb_true_iff in H3. assert (existsb (Z.eqb 58) k = true) by (apply existsb_exists; exists 58; split; [exact HI|reflexivity]). congruence.
    - cbn [fst]. intros k' ->. discriminate. }
  cbv zeta. split; [|split; [right; now left|split; [|split]]].
  - split; repeat (apply Forall_cons || apply Forall_nil); cbn [snd]; repeat (apply Forall_cons || apply Forall_nil); apply G; vm_compute; reflexivity.
  - split; repeat (apply Forall_cons || apply Forall_nil); cbn [snd]; repeat (apply Forall_cons || apply Forall_nil); apply G; vm_compute; reflexivity.
  - split; [repeat constructor; cbn; intuition discriminate|repeat constructor].
  - eexists. split; [vm_compute; reflexivity|]. vm_compute. reflexivity.
Qed.
(** Removing a section goes unnoticed. *)
Theorem C30_removal_refuted : exists hash mf mf2 sf n s, digest_manifest hash (new_sigmanifest None) mf (lit "SHA1") = Ok sf /\
  verify_manifest hash sf mf2 = Ok [] /\ In (n, s) (m_subs mf) /\ ~ In n (dkeys (m_subs mf2)) /\
  man_data mf None <> man_data mf2 None.
Proof.
  exists hash0, (mf_ex3 (lit "SHA1") (Some lf)),
    (mkman K_MV [(K_MV, lit "1.0")] [(lit "b", [(K_Name, lit "b"); (lit "SHA1-Digest", lit "x")])] (Some lf)).
  eexists _, (lit "a"), _. split; [vm_compute; reflexivity|]. split; [vm_compute; reflexivity|]. split; [right; left; reflexivity|].
  split; [cbn; intuition discriminate|]. vm_compute. discriminate.
Qed.
Print Assumptions C30_removal_refuted.

(** ** C31 *)
(** What a successful verification rests on. *)
Theorem C31_evidence : forall up hash block_ok cert z sfn, upper_ok up ->
  verify up hash block_ok cert z sfn = Ok tt ->
  exists x sfd e blk sg sf mfd mf, let n := lit "META-INF/" ++ x in
    ~ In 47 x /\ (exists y, uppercase up n = y ++ lit ".SF") /\ holds z n sfd /\
    In e [lit "RSA"; lit "DSA"; lit "EC"] /\ blk = lit "META-INF/" ++ skipn 9 (firstn (length n - 3) n) ++ lit "." ++ e /\
    holds z blk sg /\ block_ok cert sfd sg = true /\
    man_parse (new_sigmanifest None) sfd = Ok sf /\
    holds z (lit "META-INF/MANIFEST.MF") mfd /\ man_parse (new_manifest None) mfd = Ok mf /\
    verify_manifest hash sf mf = Ok [] /\
    forall f b, ~ sig_related (uppercase up f) -> holds z f b ->
      exists s, dget (m_subs mf) f = Some s /\ vouched hash s b.
Proof.
  intros up hash block_ok cert z sfn Hup H.
  destruct (verify_inv up hash block_ok cert z sfn H) as (n & sfd & blk & sg & sf & mfd & mf & H1 & H2 & H3 & H4 & H5 & H6 & H7 & H8 & H9 & H10).
  destruct (choose_sf_name up z sfn n H1) as (x & -> & Hx & _ & Hy). destruct (find_block_name z _ blk H3) as (_ & e & He & Eb).
  exists x, sfd, e, blk, sg, sf, mfd, mf. cbv zeta. repeat (split; [assumption|]).
  intros f b Hf. apply H10. destruct (file_skips_verification up f) eqn:E; [|reflexivity]. exfalso. apply Hf. now apply (skips_exact up Hup).
Qed.
Print Assumptions C31_evidence.
(** Tampering: let [sfd] be the only data for which the certificate accepts any
    signature, and let it be the signature file made by signing [z1].  Then every
    covered entry of a jar that verifies has its content of [z1], or z1's own
    manifest vouched for an entry that z1 did not have. *)
Theorem C31_tamper : forall up hash block_ok make_block key_ext z1 alias alg z1' cert sfd z2 sfn mfd0 mf0,
  upper_ok up -> hash_text hash -> zip_bytes z1 -> zip_bytes z2 ->
  sign up hash make_block key_ext z1 alias alg = Ok z1' ->
  nth_error z1' 1 = Some (lit "META-INF/" ++ alias ++ lit ".SF", sfd) ->
  holds z1 (lit "META-INF/MANIFEST.MF") mfd0 -> man_parse (new_manifest None) mfd0 = Ok mf0 ->
  Forall (fun f => item_ok (lit "Name", f)) (namelist z1) -> Forall (fun ns => item_ok (lit "Name", fst ns)) (m_subs mf0) ->
  (forall d sg, block_ok cert d sg = true -> d = sfd) ->
  verify up hash block_ok cert z2 sfn = Ok tt ->
  collision hash \/
  forall f b, ~ sig_related (uppercase up f) -> holds z2 f b ->
    holds z1 f b \/ (~ In f (namelist z1) /\ exists s, In (f, s) (m_subs mf0) /\ vouched hash s b).
Proof.
  intros up hash block_ok make_block key_ext z1 alias alg z1' cert sfd z2 sfn mfd0 mf0 Hup Htext.
  exact (tamper_evident up Hup hash block_ok make_block key_ext Htext z1 alias alg z1' cert sfd z2 sfn mfd0 mf0).
Qed.
Print Assumptions C31_tamper.
(** jar1 is jar0 signed; it verifies, and stops doing so when an entry is changed
    or an entry is added. *)
Definition sfd1 : bytes := Eval vm_compute in match nth_error jar1 1 with Some (_, d) => d | None => [] end.
Definition only1 (cert d sg : bytes) : bool := seqb d sfd1 && seqb sg (cert ++ d).
Example C31_ex : sign up0 hash0 make0 (lit "RSA") jar0 (lit "KEY") (lit "SHA-256") = Ok jar1 /\
  nth_error jar1 1 = Some (lit "META-INF/KEY.SF", sfd1) /\
  (forall d sg, only1 [1; 2; 3] d sg = true -> d = sfd1) /\
  verify up0 hash0 only1 [1; 2; 3] jar1 None = Ok tt /\
  verify up0 hash0 only1 [1; 2; 3] (jar1 ++ [(lit "a/B.class", [202; 255])]) None = Err JarChecksumError /\
  verify up0 hash0 only1 [1; 2; 3] (jar1 ++ [(lit "a/D.class", [])]) None = Err JarChecksumError /\
  verify up0 hash0 only1 [9] jar1 None = Err SignatureBlockFileVerificationError.
Proof.
  split; [vm_compute; reflexivity|]. split; [vm_compute; reflexivity|]. split; [|split; [|split; [|split]]; vm_compute; reflexivity].
  intros d sg H. apply andb_prop in H as [H _]. now apply seqb_eq.
Qed.

(** ** C32 *)
(** Full statement: every jar with a manifest, no previous signature and storable
    entry names.  It is false (C32_refuted); here every original section either
    names an entry, or has a digest of the algorithm used and only supported ones. *)
Theorem C32_sign_verify_partial : forall up hash block_ok make_block key_ext z alias alg cert mfd0 mf0,
  upper_ok up -> hash_text hash -> zip_bytes z -> In alg algs -> In key_ext [lit "RSA"; lit "DSA"; lit "EC"] ->
  (forall d, block_ok cert d (make_block alg d) = true) ->
  ~ In 47 (uppercase up alias) ->
  (forall x y, In (lit "META-INF/" ++ x) (namelist z) -> uppercase up (lit "META-INF/" ++ x) <> y ++ lit ".SF") ->
  (forall e, In e [lit "RSA"; lit "DSA"; lit "EC"] -> ~ In (lit "META-INF/" ++ alias ++ lit "." ++ e) (namelist z)) ->
  holds z (lit "META-INF/MANIFEST.MF") mfd0 -> man_parse (new_manifest None) mfd0 = Ok mf0 -> manifest_ok mf0 ->
  Forall (fun f => sig_related (uppercase up f) \/ item_ok (lit "Name", f)) (namelist z) ->
  Forall (fun ns => (In (fst ns) (namelist z) /\ ~ sig_related (uppercase up (fst ns))) \/
                    (In (alg ++ lit "-Digest") (dkeys (snd ns)) /\ digests_supported (snd ns))) (m_subs mf0) ->
  exists z', sign up hash make_block key_ext z alias alg = Ok z' /\ verify up hash block_ok cert z' None = Ok tt /\
    forall f b, uppercase up f <> lit "META-INF/MANIFEST.MF" -> holds z f b -> holds z' f b.
Proof.
  intros up hash block_ok make_block key_ext z alias alg cert mfd0 mf0 Hup Htext.
  exact (sign_verifies up Hup hash block_ok make_block key_ext Htext z alias alg cert mfd0 mf0).
Qed.
Print Assumptions C32_sign_verify_partial.
Lemma ascii_name f : val_ok f = true -> ascii f = true -> item_ok (lit "Name", f).
Proof. intros H1 H2. split; [reflexivity|]. split; [exact H1|]. now apply ascii_no_straddle. Qed.
Example C32_ex : exists z', sign up0 hash0 make0 (lit "RSA") jar0 (lit "KEY") (lit "SHA-256") = Ok z' /\
  verify up0 hash0 block0 [1; 2; 3] z' None = Ok tt /\
  forall f b, uppercase up0 f <> lit "META-INF/MANIFEST.MF" -> holds jar0 f b -> holds z' f b.
Proof.
  assert (HP : man_parse (new_manifest None) MV1 = Ok (mkman K_MV [(K_MV, lit "1.0")] [] (Some lf))) by (vm_compute; reflexivity).
  eapply (C32_sign_verify_partial up0 hash0 block0 make0 (lit "RSA") jar0 (lit "KEY") (lit "SHA-256") [1; 2; 3] MV1);
    [exact up0_ok|exact hash0_text| |right; right; now left|now left| | | | | |exact HP| | |].
  - unfold zip_bytes. apply Forall_forall. intros e He. apply Forall_forall. intros x Hx.
    assert (HF : forallb (fun e => forallb (fun x => (0 <=? x) && (x <? 256)) (snd e)) jar0 = true) by (vm_compute; reflexivity).
    rewrite forallb_forall in HF. specialize (HF e He). rewrite forallb_forall in HF. specialize (HF x Hx). cbv beta in HF. lia.
  - intro d. unfold block0, make0. apply seqb_refl.
  - vm_compute. intuition discriminate.
  - intros x y HI E. assert (HF : forallb (fun n => negb (ends_with (lit ".SF") (uppercase up0 n))) (namelist jar0) = true) by (vm_compute; reflexivity).
    rewrite forallb_forall in HF. specialize (HF _ HI). apply negb_true_iff in HF. rewrite E in HF.
    assert (ends_with (lit ".SF") (y ++ lit ".SF") = true) by (apply ends_with_app; now exists y). congruence.
  - intros e He HI. destruct He as [<-|[<-|[<-|[]]]]; apply smem_In in HI; vm_compute in HI; discriminate.
  - apply zread_holds. vm_compute. reflexivity.
  - split; [exists (lit "1.0")|split; [apply NoDup_nil|apply Forall_nil]]. cbn [m_primary_key m_main]. split; [eexists; reflexivity|]. split; [apply NoDup_cons; [intros []|apply NoDup_nil]|].
    constructor; [|constructor]. split; [reflexivity|]. split; [reflexivity|]. apply ascii_no_straddle; reflexivity.
  - unfold jar0. cbn [namelist map fst]. repeat (apply Forall_cons; [right; apply ascii_name; vm_compute; reflexivity|]). apply Forall_nil.
  - constructor.
Qed.
(** A section for a package (no digest) in the manifest, as jar tools write for
    sealed packages: the signed jar does not verify. *)
Definition jar_sealed : zip :=
  [(lit "META-INF/MANIFEST.MF", lit "Manifest-Version: 1.0" ++ [10; 10] ++ lit "Name: org/x/" ++ [10] ++ lit "Sealed: true" ++ [10; 10]);
   (lit "a/B.class", [202; 254])].
Theorem C32_refuted : exists up hash block_ok make_block z' cert, upper_ok up /\ hash_text hash /\
  (forall alg d, block_ok cert d (make_block alg d) = true) /\
  sign up hash make_block (lit "RSA") jar_sealed (lit "KEY") (lit "SHA-256") = Ok z' /\
  verify up hash block_ok cert z' None = Err ManifestChecksumError.
Proof.
  exists up0, hash0, block0, make0. eexists _, [1; 2; 3]. split; [exact up0_ok|]. split; [exact hash0_text|].
  split; [intros; unfold block0, make0; apply seqb_refl|]. split; [vm_compute; reflexivity|]. vm_compute. reflexivity.
Qed.
Print Assumptions C32_refuted.
(** Signing discards the other attributes of the sections of the entries. *)
Theorem C32_attributes_refuted : exists up hash make_block z z' mfd mf b mf', upper_ok up /\
  holds z (lit "META-INF/MANIFEST.MF") mfd /\ man_parse (new_manifest None) mfd = Ok mf /\
  (exists s, dget (m_subs mf) (lit "a/B.class") = Some s /\ dget s (lit "Content-Type") = Some (lit "x")) /\
  sign up hash make_block (lit "RSA") z (lit "KEY") (lit "SHA-256") = Ok z' /\
  holds z' (lit "META-INF/MANIFEST.MF") b /\ man_parse (new_manifest None) b = Ok mf' /\
  (exists s, dget (m_subs mf') (lit "a/B.class") = Some s /\ dget s (lit "Content-Type") = None).
Proof.
  exists up0, hash0, make0,
    [(lit "META-INF/MANIFEST.MF", MV1 ++ lit "Name: a/B.class" ++ [10] ++ lit "Content-Type: x" ++ [10; 10]); (lit "a/B.class", [202; 254])].
  eexists _, _, _, _, _. split; [exact up0_ok|]. split; [apply zread_holds; vm_compute; reflexivity|].
  split; [vm_compute; reflexivity|]. split; [eexists; split; [vm_compute; reflexivity|]; vm_compute; reflexivity|].
  split; [vm_compute; reflexivity|]. split; [apply zread_holds; vm_compute; reflexivity|]. split; [vm_compute; reflexivity|].
  eexists. split; [vm_compute; reflexivity|]. vm_compute. reflexivity.
Qed.
Print Assumptions C32_attributes_refuted.

(** ** C33: signing again with the same alias never verifies *)
Theorem C33_resign_always_fails : forall up hash block_ok make_block key_ext z alias alg z' cert, upper_ok up -> ~ In 47 (uppercase up alias) ->
  In (lit "META-INF/" ++ alias ++ lit ".SF") (namelist z) ->
  sign up hash make_block key_ext z alias alg = Ok z' -> verify up hash block_ok cert z' None = Err VerificationError.
Proof.
  intros up hash block_ok make_block key_ext z alias alg z' cert Hup.
  exact (resign_fails up Hup hash block_ok make_block key_ext z alias alg z' cert).
Qed.
Print Assumptions C33_resign_always_fails.
Theorem C33_refuted : exists up hash block_ok make_block key_ext z z' alias alg cert, upper_ok up /\
  (forall d, block_ok cert d (make_block alg d) = true) /\
  verify up hash block_ok cert z None = Ok tt /\
  sign up hash make_block key_ext z alias alg = Ok z' /\
  verify up hash block_ok cert z' None = Err VerificationError.
Proof.
  exists up0, hash0, block0, make0, (lit "RSA"), jar1. eexists _, (lit "KEY"), (lit "SHA-256"), [1; 2; 3]. split; [exact up0_ok|].
  split; [intro d; apply seqb_refl|]. split; [vm_compute; reflexivity|]. split; [vm_compute; reflexivity|]. vm_compute. reflexivity.
Qed.
Print Assumptions C33_refuted.
Example C33_ex : ~ In 47 (uppercase up0 (lit "KEY")) /\ In (lit "META-INF/" ++ lit "KEY" ++ lit ".SF") (namelist jar1) /\
  exists z', sign up0 hash0 make0 (lit "RSA") jar1 (lit "KEY") (lit "SHA-256") = Ok z'.
Proof. split; [vm_compute; intuition discriminate|]. split; [right; now left|]. eexists. vm_compute. reflexivity. Qed.

(** ** C34 *)
Theorem C34_exact : forall up f, upper_ok up -> (file_skips_verification up f = true <-> sig_related (uppercase up f)).
Proof. intros up f Hup. exact (skips_exact up Hup f). Qed.
Print Assumptions C34_exact.
Theorem C34_ascii : forall up f, upper_ok up -> ascii f = true ->
  (file_skips_verification up f = true <-> sig_related (map up1 f)).
Proof.
  intros up f Hup Hf. rewrite (skips_exact up Hup). change (uppercase up f) with (upper up f). now rewrite (upper_ascii up Hup) by exact Hf.
Qed.
Print Assumptions C34_ascii.
Example C34_ex : map (file_skips_verification up0)
  [lit "meta-inf/Manifest.mf"; lit "META-INF/key.rsa"; lit "Meta-Inf/sig-x"; lit "META-INF/services/x.SF"; lit "x.SF"; lit "META-INF/x.SFX"; lit "a/"]
  = [true; true; true; false; false; false; true].
Proof. vm_compute. reflexivity. Qed.
(** Unicode upper-casing exempts names that contain no ASCII match: U+017F (long
    s) upper-cases to S. *)
Definition up_long (c : Z) : str := if c =? 383 then [83] else [up1 c].
Theorem C34_unicode_refuted : exists up f, upper_ok up /\ up 383 = [83] /\ ~ sig_related (map up1 f) /\ file_skips_verification up f = true.
Proof.
  exists up_long, (lit "META-INF/" ++ 383 :: lit "ig-payload.class"). split; [|split; [reflexivity|split; [|vm_compute; reflexivity]]].
  - split.
    + intros c Hc. unfold up_long. replace (c =? 383) with false by lia. reflexivity.
    + intro c. unfold up_long at 2 3. destruct (Z.eqb_spec c 383) as [->|Hc]; [reflexivity|].
      unfold uppercase. cbn [map concat app]. rewrite app_nil_r. unfold up_long.
      assert (Hu : up1 c <> 383) by (unfold up1; destruct ((97 <=? c) && (c <=? 122)) eqn:E; lia).
      replace (up1 c =? 383) with false by lia. pose proof (proj2 up0_ok c) as H. unfold uppercase, up0 in H. cbn [map concat app] in H. exact H.
  - assert (HS : forall u, sig_related u -> file_skips_verification up0 u = true \/ exists c, In c u /\ up1 c <> c).
    { intros u Hu. destruct (existsb (fun c => negb (up1 c =? c)) u) eqn:E.
      - right. apply existsb_exists in E as (c & H1 & H2). exists c. split; [exact H1|]. lia.
      - left. apply (skips_exact up0 up0_ok). replace (uppercase up0 u) with u; [exact Hu|].
        unfold uppercase, up0. clear Hu. induction u as [|c u IH]; [reflexivity|]. cbn [existsb] in E. apply orb_false_elim in E as [E1 E2].
        cbn [map concat app]. rewrite <- IH by exact E2. f_equal. lia. }
    intro H. apply HS in H as [H|(c & H1 & H2)]; [vm_compute in H; discriminate|].
    assert (HF : forallb (fun c => up1 c =? c) (map up1 (lit "META-INF/" ++ 383 :: lit "ig-payload.class")) = true) by (vm_compute; reflexivity).
    rewrite forallb_forall in HF. specialize (HF c H1). lia.
Qed.
Print Assumptions C34_unicode_refuted.

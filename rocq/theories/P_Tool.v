(** The command line tools manifest and jarutil: properties C85-C89. *)
From Verif Require Import Base ConstPool_Model Manifest_Model Manifest_Spec Manifest_Canon Glob_Spec Glob_Proofs Zip_Model Dir_Spec
  Sign_Model Sign_Spec Sign_Proofs Tool_Model Tool_Spec Tool_Create Tool_Jar Tool_Errors P_Sign.
From Coq Require Import Permutation.

(** ** A concrete environment for the examples *)
(** Regular files a.jar (an archive), with.jar (the same with the manifest), and
    directories d and e. *)
Definition jarA : zip := [(lit "META-INF/", []); (lit "META-INF/old.txt", [1]); (lit "a/", []); (lit "a/B.class", [202; 254]); (lit "a/x.tmp", [7])].
Definition dirD : node := Dir false [(lit "alpha", File false [1] 0); (lit "sub", Dir false [(lit "beta", File false [2] 0)])].
Definition fs0 (p : str) : option node :=
  if seqb p (lit "a.jar") then Some (File false [1] 0)
  else if seqb p (lit "with.jar") then Some (File false [2] 0)
  else if seqb p (lit "signed.jar") then Some (File false [3] 0)
  else if seqb p (lit "bare.jar") then Some (File false [4] 0)
  else if seqb p (lit "d") || seqb p (lit "./d/") || seqb p (lit "d/../d") then Some dirD
  else None.
Definition bareJ : zip := filter (fun e => negb (seqb (fst e) (lit "META-INF/MANIFEST.MF"))) jar1.
Definition unzipW (withM : zip) (b : bytes) : res zip :=
  match b with [1] => Ok jarA | [2] => Ok withM | [3] => Ok jar1 | [4] => Ok bareJ | _ => Err ValueError end.
Definition args0 : create_args := mkargs (lit "a.jar") false [[lit "*.tmp"]] (Some (lit "SHA-256,MD5")).
Definition dataA : bytes := Eval vm_compute in match cli_create hash0 fs0 (unzipW []) args0 with Ok d => d | Err _ => [] end.
Definition jarB : zip := (lit "META-INF/MANIFEST.MF", dataA) :: jarA.

(** ** C85 *)
(** The manifest made for an archive, when written and read back: one section for
    each file that is not ignored, with exactly the digests asked for. *)
Theorem C85_created_partial : forall hash fs unzip a asked pats l d t z, hash_text hash ->
  fs (a_content a) = Some (File l d t) -> unzip d = Ok z -> a_recursive a = false ->
  asked_for a asked -> Forall (fun A => In A algs) asked -> ignoring a pats ->
  ~ In [] (map fst z) -> (forall f, listed z pats f -> item_ok (lit "Name", f)) ->
  exists data m, cli_create hash fs unzip a = Ok data /\ man_parse (new_manifest None) data = Ok m /\
    m_main m = [(lit "Manifest-Version", lit "1.0")] /\ NoDup (map fst (m_subs m)) /\
    (forall f, In f (map fst (m_subs m)) <-> listed z pats f) /\
    (forall f s, In (f, s) (m_subs m) -> describes hash z asked f s).
Proof. exact created. Qed.
Print Assumptions C85_created_partial.
Lemma listedA : forall f, listed jarA [lit "META-INF/*"; lit "*.tmp"] f -> item_ok (lit "Name", f).
Proof.
  intros f (H & _). assert (G : forallb (fun f => val_ok f && ascii f) (map fst jarA) = true) by (vm_compute; reflexivity).
  rewrite forallb_forall in G. apply G in H. apply andb_prop in H. now apply ascii_name.
Qed.
Example C85_ex : fs0 (a_content args0) = Some (File false [1] 0) /\ unzipW [] [1] = Ok jarA /\ a_recursive args0 = false /\
  asked_for args0 [lit "SHA-256"; lit "MD5"] /\ Forall (fun A => In A algs) [lit "SHA-256"; lit "MD5"] /\
  ignoring args0 [lit "META-INF/*"; lit "*.tmp"] /\ ~ In [] (map fst jarA) /\
  (forall f, listed jarA [lit "META-INF/*"; lit "*.tmp"] f -> item_ok (lit "Name", f)) /\
  listed jarA [lit "META-INF/*"; lit "*.tmp"] (lit "a/B.class").
Proof.
  split; [reflexivity|]. split; [reflexivity|]. split; [reflexivity|]. split; [right; split; [discriminate|reflexivity]|].
  split; [constructor; [right; right; now left|constructor; [now left|constructor]]|].
  split; [right; eexists; split; reflexivity|]. split; [vm_compute; intuition discriminate|]. split; [exact listedA|].
  split; [right; right; right; now left|]. split.
  - intros x E. apply (f_equal (fun l => last l 0)) in E. rewrite last_last in E. vm_compute in E. discriminate.
  - intro H. apply fnmatches_matched in H. vm_compute in H. discriminate.
Qed.
(** An algorithm that is not supported stops the program. *)
Theorem C85_unsupported : forall hash fs unzip a asked A, asked <> [] -> a_digest a = Some (concat_with [44] asked) ->
  Forall (fun x => ~ In 44 x) asked -> In A asked -> ~ In A algs -> cli_create hash fs unzip a = Err UnsupportedDigest.
Proof.
  intros hash fs unzip a asked A Hne Hd HF HIn HA. unfold cli_create. rewrite Hd. unfold commas. rewrite split_join by assumption.
  replace (forallb (fun d => smem d java_digests) asked) with false; [reflexivity|]. symmetry. apply not_true_iff_false. intro H.
  rewrite forallb_forall in H. apply HA. apply smem_alg. now apply H.
Qed.
Print Assumptions C85_unsupported.
Example C85_unsupported_ex : exists asked A, asked <> [] /\ a_digest (mkargs (lit "a.jar") false [] (Some (lit "MD5,CRC32"))) = Some (concat_with [44] asked) /\
  Forall (fun x => ~ In 44 x) asked /\ In A asked /\ ~ In A algs.
Proof.
  exists [lit "MD5"; lit "CRC32"], (lit "CRC32"). split; [discriminate|]. split; [reflexivity|]. split.
  - constructor; [vm_compute; intuition discriminate|constructor; [vm_compute; intuition discriminate|constructor]].
  - split; [right; now left|]. vm_compute. intuition discriminate.
Qed.
(** For a directory the names are cut at the wrong place: the start of the file
    name is dropped, not that of the path. *)
Theorem C85_directory_refuted : exists hash fs unzip a n data m, fs (a_content a) = Some n /\ tree n /\ data_at n [lit "alpha"] [1] /\ data_at n [lit "sub"; lit "beta"] [2] /\
  cli_create hash fs unzip a = Ok data /\ man_parse (new_manifest None) data = Ok m /\ map fst (m_subs m) = [lit "d/pha"; lit "d/sub/ta"].
Proof.
  exists hash0, fs0, (unzipW []), (mkargs (lit "d") false [] None), dirD. eexists _, _. split; [reflexivity|]. split; [|split; [|split; [|split; [vm_compute; reflexivity|split; [vm_compute; reflexivity|reflexivity]]]]].
  - repeat first [apply tree_file | apply tree_dir | apply Forall_cons | apply Forall_nil | apply NoDup_cons | apply NoDup_nil | split]; cbn; try discriminate; intuition discriminate.
  - exists false, 0. eapply found_down; [now left|constructor].
  - exists false, 0. eapply found_down; [right; now left|]. eapply found_down; [now left|constructor].
Qed.
Print Assumptions C85_directory_refuted.
(** Two files of the same end can fall together. *)
Theorem C85_collapse_refuted : exists hash fs unzip a n data m, fs (a_content a) = Some n /\ data_at n [lit "Alpha"] [1] /\ data_at n [lit "Blpha"] [2] /\
  cli_create hash fs unzip a = Ok data /\ man_parse (new_manifest None) data = Ok m /\ length (m_subs m) = 1%nat.
Proof.
  exists hash0, (fun _ => Some (Dir false [(lit "Alpha", File false [1] 0); (lit "Blpha", File false [2] 0)])), (unzipW []), (mkargs (lit "d") false [] None).
  eexists _, _, _. split; [reflexivity|]. split; [|split; [|split; [vm_compute; reflexivity|split; [vm_compute; reflexivity|reflexivity]]]].
  - exists false, 0. eapply found_down; [now left|constructor].
  - exists false, 0. eapply found_down; [right; now left|constructor].
Qed.
Print Assumptions C85_collapse_refuted.
(** With -r the characters of the path are taken for paths. *)
Theorem C85_recursive_refuted : exists hash fs unzip a n, fs (a_content a) = Some n /\ tree n /\ a_recursive a = true /\
  cli_create hash fs unzip a = Err FileNotFoundError.
Proof.
  exists hash0, (fun p => if seqb p (lit "dir") then Some dirD else None), (unzipW []), (mkargs (lit "dir") true [] None), dirD.
  split; [reflexivity|]. split; [|split; [reflexivity|vm_compute; reflexivity]].
  repeat first [apply tree_file | apply tree_dir | apply Forall_cons | apply Forall_nil | apply NoDup_cons | apply NoDup_nil | split]; cbn; try discriminate; intuition discriminate.
Qed.
Print Assumptions C85_recursive_refuted.
(** -i "can be given more than once"; then it raises TypeError, always. *)
Theorem C85_ignore_twice_fails : forall hash fs unzip content rec l1 l2 ls, cli_create hash fs unzip (mkargs content rec (l1 :: l2 :: ls) None) = Err TypeError.
Proof. reflexivity. Qed.
Print Assumptions C85_ignore_twice_fails.

(** ** C86 *)
(** The manifest put into the archive verifies exactly when nothing was left out
    of it but files that need no checksum. *)
Theorem C86_exact : forall up hash fs unzip a asked pats l d t z data jar l' d' t' z', upper_ok up -> hash_text hash ->
  fs (a_content a) = Some (File l d t) -> unzip d = Ok z -> a_recursive a = false ->
  asked_for a asked -> Forall (fun A => In A algs) asked -> ignoring a pats ->
  ~ In [] (map fst z) -> (forall f, listed z pats f -> item_ok (lit "Name", f)) ->
  cli_create hash fs unzip a = Ok data ->
  fs jar = Some (File l' d' t') -> unzip d' = Ok z' -> jar <> lit "-h" ->
  holds z' (lit "META-INF/MANIFEST.MF") data -> same_files z z' (lit "META-INF/MANIFEST.MF") ->
  exists n, cli_verify up hash fs unzip [jar] = Ok n /\ (n = 0 \/ n = 1) /\
    (n = 0 <-> forall f, In f (map fst z) -> matched_by pats f -> sig_related (uppercase up f)).
Proof. exact create_verify. Qed.
Print Assumptions C86_exact.
Example C86_ex : cli_create hash0 fs0 (unzipW jarB) args0 = Ok dataA /\ fs0 (lit "with.jar") = Some (File false [2] 0) /\ unzipW jarB [2] = Ok jarB /\
  lit "with.jar" <> lit "-h" /\ holds jarB (lit "META-INF/MANIFEST.MF") dataA /\ same_files jarA jarB (lit "META-INF/MANIFEST.MF") /\
  cli_verify up0 hash0 fs0 (unzipW jarB) [lit "with.jar"] = Ok 1.
Proof.
  split; [vm_compute; reflexivity|]. split; [reflexivity|]. split; [reflexivity|]. split; [discriminate|].
  split; [apply zread_holds; vm_compute; reflexivity|]. split; [|vm_compute; reflexivity].
  intros f Hf b. rewrite <- !zread_holds. unfold zread, jarB. cbn [rev]. rewrite (dget_app (rev jarA)). cbn [dget].
  rewrite (proj2 (seqb_neq f (lit "META-INF/MANIFEST.MF")) Hf). destruct (dget (rev jarA) f); reflexivity.
Qed.
(** The files under META-INF/ are never given checksums, yet most of them need one:
    the manifest just made is rejected. *)
Definition jarS : zip := [(lit "META-INF/services/x", [1]); (lit "a/B.class", [202; 254])].
Theorem C86_refuted : exists up hash fs unzip a data z z', upper_ok up /\ hash_text hash /\ a_ignore a = [] /\
  cli_create hash fs unzip a = Ok data /\ z' = (lit "META-INF/MANIFEST.MF", data) :: z /\
  (exists l d t, fs (a_content a) = Some (File l d t) /\ unzip d = Ok z) /\ (exists l d t, fs (lit "b.jar") = Some (File l d t) /\ unzip d = Ok z') /\
  cli_verify up hash fs unzip [lit "b.jar"] = Ok 1.
Proof.
  set (dt := match cli_create hash0 (fun p => Some (File false (if seqb p (lit "a.jar") then [1] else [2]) 0)) (fun _ => Ok jarS) (mkargs (lit "a.jar") false [] None) with Ok d => d | Err _ => [] end).
  exists up0, hash0, (fun p => Some (File false (if seqb p (lit "a.jar") then [1] else [2]) 0)),
    (fun b => Ok (if seqb b [1] then jarS else (lit "META-INF/MANIFEST.MF", dt) :: jarS)), (mkargs (lit "a.jar") false [] None), dt, jarS, ((lit "META-INF/MANIFEST.MF", dt) :: jarS).
  split; [exact up0_ok|]. split; [exact hash0_text|]. split; [reflexivity|]. split; [vm_compute; reflexivity|]. split; [reflexivity|].
  split; [do 3 eexists; split; reflexivity|]. split; [do 3 eexists; split; reflexivity|]. vm_compute. reflexivity.
Qed.
Print Assumptions C86_refuted.

(** ** C87 *)
(** The entries of a new jar: META-INF/ and a manifest, then what is found at the
    paths given, each thing once. *)
Theorem C87_jar_partial : forall fs (args : list (str * list str * node)),
  Forall (fun a => path_to (fst (fst a)) (snd (fst a)) /\ snd (fst a) <> [] /\ fs (fst (fst a)) = Some (snd a) /\ tree (snd a)) args ->
  exists z, create_jar fs (map (fun a => fst (fst a)) args) = Ok z /\
    Permutation z ((lit "META-INF/", []) :: (lit "META-INF/MANIFEST.MF", lit "Manifest-Version: 1.0" ++ [10; 10]) ::
                   concat (map (fun a => contents (snd (fst a)) (snd a)) args)).
Proof. exact create_jar_ok. Qed.
Print Assumptions C87_jar_partial.
(** Which entries these are. *)
Theorem C87_entries_partial : forall fs (args : list (str * list str * node)) z,
  Forall (fun a => path_to (fst (fst a)) (snd (fst a)) /\ snd (fst a) <> [] /\ fs (fst (fst a)) = Some (snd a) /\ tree (snd a)) args ->
  create_jar fs (map (fun a => fst (fst a)) args) = Ok z ->
  forall f d, In (f, d) z <-> (f = lit "META-INF/" /\ d = []) \/ (f = lit "META-INF/MANIFEST.MF" /\ d = lit "Manifest-Version: 1.0" ++ [10; 10]) \/
    exists p q n r, In (p, q, n) args /\
      ((data_at n r d /\ f = concat_with [47] (q ++ r)) \/ ((exists l kids, found n r (Dir l kids)) /\ d = [] /\ f = concat_with [47] (q ++ r) ++ [47])).
Proof.
  intros fs args z HF Hz f d. destruct (create_jar_ok fs args HF) as (z' & E & HP). assert (z' = z) by congruence. subst z'.
  assert (HI : In (f, d) z <-> In (f, d) ((lit "META-INF/", []) :: (lit "META-INF/MANIFEST.MF", lit "Manifest-Version: 1.0" ++ [10; 10]) ::
                   concat (map (fun a => contents (snd (fst a)) (snd a)) args))).
  { split; apply Permutation_in; [exact HP|now apply Permutation_sym]. }
  rewrite HI. cbn [In]. rewrite in_concat. rewrite Forall_forall in HF. split.
  - intros [H|[H|(c & Hc & H)]]; [injection H as <- <-; now left|injection H as <- <-; right; left; split; reflexivity|]. right. right.
    apply in_map_iff in Hc as ([[p q] n] & <- & Ha). cbn [fst snd] in *. apply contents_spec in H as (r & H); [|apply (HF _ Ha)]. exists p, q, n, r. auto.
  - intros [[-> ->]|[[-> ->]|(p & q & n & r & Ha & H)]]; [now left|right; now left|]. right. right. exists (contents q n).
    split; [apply in_map_iff; exists (p, q, n); auto|]. apply contents_spec; [apply (HF _ Ha)|]. now exists r.
Qed.
Print Assumptions C87_entries_partial.
Lemma dirD_tree : tree dirD.
Proof. repeat first [apply tree_file | apply tree_dir | apply Forall_cons | apply Forall_nil | apply NoDup_cons | apply NoDup_nil | split]; cbn; try discriminate; intuition discriminate. Qed.
Lemma path_d : path_to (lit "./d/") [lit "d"].
Proof.
  exists [lit "."; lit "d"; []]. split; [reflexivity|]. split.
  - repeat first [apply Forall_cons | apply Forall_nil | split]; cbn; try discriminate; intuition discriminate.
  - apply picks_out; [intros [_ H]; now apply H|]. apply picks_in; [split; discriminate|]. apply picks_out; [intros [H _]; now apply H|constructor].
Qed.
Example C87_ex : Forall (fun a => path_to (fst (fst a)) (snd (fst a)) /\ snd (fst a) <> [] /\ fs0 (fst (fst a)) = Some (snd a) /\ tree (snd a))
    [(lit "./d/", [lit "d"], dirD)] /\
  create_jar fs0 [lit "./d/"] = Ok [(lit "META-INF/", []); (lit "META-INF/MANIFEST.MF", MV1); (lit "d/", []); (lit "d/sub/", []); (lit "d/alpha", [1]); (lit "d/sub/beta", [2])].
Proof.
  split; [|vm_compute; reflexivity]. constructor; [|constructor]. split; [exact path_d|]. split; [discriminate|]. split; [reflexivity|exact dirD_tree].
Qed.
(** Paths that go up give entries that go up; "/" gives an exception; "." an entry "./". *)
Theorem C87_up_refuted : exists fs z n d, fs (lit "../f") = Some n /\ tree n /\ create_jar fs [lit "../f"] = Ok z /\ In (lit "../f", d) z.
Proof.
  exists (fun _ => Some (File false [1] 0)). eexists _, _, _. split; [reflexivity|]. split; [constructor|]. split; [vm_compute; reflexivity|]. right. right. now left.
Qed.
Print Assumptions C87_up_refuted.
Theorem C87_root_refuted : exists fs n, fs (lit "/") = Some n /\ tree n /\ create_jar fs [lit "/"] = Err IndexError.
Proof. exists (fun _ => Some (Dir false [])). eexists. split; [reflexivity|]. split; [constructor; constructor|]. vm_compute. reflexivity. Qed.
Print Assumptions C87_root_refuted.
(** A manifest among the files does not replace the one made: there are two. *)
Theorem C87_two_manifests_refuted : exists fs z d, create_jar fs [lit "META-INF"] = Ok z /\ In (lit "META-INF/MANIFEST.MF", d) z /\ d = lit "Main-Class: A" ++ [10; 10] /\
  In (lit "META-INF/MANIFEST.MF", MV1) z.
Proof.
  exists (fun _ => Some (Dir false [(lit "MANIFEST.MF", File false (lit "Main-Class: A" ++ [10; 10]) 0)])). eexists _, _. split; [vm_compute; reflexivity|].
  split; [right; right; right; now left|]. split; [reflexivity|]. right. now left.
Qed.
Print Assumptions C87_two_manifests_refuted.
(** --main-class has no effect: the manifest is that of C87_jar_partial. *)
Theorem C87_main_class_refuted : exists fs z b m, cli_create_jar fs (Some (lit "app.Main")) [] = Ok (0, z) /\ holds z (lit "META-INF/MANIFEST.MF") b /\
  man_parse (new_manifest None) b = Ok m /\ dget (m_main m) (lit "Main-Class") = None.
Proof.
  exists (fun _ => None). eexists _, _, _. split; [vm_compute; reflexivity|]. split; [apply zread_holds; vm_compute; reflexivity|].
  split; [vm_compute; reflexivity|]. vm_compute. reflexivity.
Qed.
Print Assumptions C87_main_class_refuted.
(** A new jar can be signed, and verifies then. *)
Theorem C87_signable_partial : forall up hash block_ok make_block key_ext fs paths z alias alg cert,
  upper_ok up -> hash_text hash -> zip_bytes z -> In alg algs -> In key_ext [lit "RSA"; lit "DSA"; lit "EC"] ->
  (forall d, block_ok cert d (make_block alg d) = true) -> ~ In 47 (uppercase up alias) ->
  create_jar fs paths = Ok z ->
  (forall d, In (lit "META-INF/MANIFEST.MF", d) z -> d = lit "Manifest-Version: 1.0" ++ [10; 10]) ->
  (forall x y, In (lit "META-INF/" ++ x) (map fst z) -> uppercase up (lit "META-INF/" ++ x) <> y ++ lit ".SF") ->
  (forall e, In e [lit "RSA"; lit "DSA"; lit "EC"] -> ~ In (lit "META-INF/" ++ alias ++ lit "." ++ e) (map fst z)) ->
  Forall (fun f => sig_related (uppercase up f) \/ item_ok (lit "Name", f)) (map fst z) ->
  exists z', sign up hash make_block key_ext z alias alg = Ok z' /\ verify up hash block_ok cert z' None = Ok tt /\
    forall f b, uppercase up f <> lit "META-INF/MANIFEST.MF" -> holds z f b -> holds z' f b.
Proof.
  intros up hash block_ok make_block key_ext fs paths z alias alg cert Hup Ht Hb HA Hk Hblk Hal Hc Hone Hsf Hblocks Hn.
  assert (HP : man_parse (new_manifest None) MV1 = Ok (mkman K_MV [(K_MV, lit "1.0")] [] (Some lf))) by (vm_compute; reflexivity).
  eapply (C32_sign_verify_partial up hash block_ok make_block key_ext z alias alg cert MV1); try eassumption.
  - unfold create_jar in Hc. assert (E : man_data (new_manifest None) None = Ok MV1) by (vm_compute; reflexivity). rewrite E in Hc. cbn [rbind] in Hc.
    destruct (mapM _ paths) as [parts|]; [|discriminate]. cbn [rbind] in Hc. injection Hc as Hz. destruct (zread_in z (lit "META-INF/MANIFEST.MF")) as [b Hr].
    { rewrite <- Hz. right. now left. }
    apply zread_holds in Hr. assert (b = MV1); [|now subst b]. destruct Hr as (z1 & z2 & Ez & _). apply Hone. rewrite Ez. apply in_or_app. right. now left.
  - split; [exists (lit "1.0")|split; [apply NoDup_nil|apply Forall_nil]]. cbn [m_primary_key m_main]. split; [eexists; reflexivity|]. split; [apply NoDup_cons; [intros []|apply NoDup_nil]|].
    constructor; [|constructor]. split; [reflexivity|]. split; [reflexivity|]. apply ascii_no_straddle; reflexivity.
  - constructor.
Qed.
Print Assumptions C87_signable_partial.
Definition jarD : zip := [(lit "META-INF/", []); (lit "META-INF/MANIFEST.MF", MV1); (lit "d/", []); (lit "d/sub/", []); (lit "d/alpha", [1]); (lit "d/sub/beta", [2])].
Example C87_signable_ex : create_jar fs0 [lit "d"] = Ok jarD /\ zip_bytes jarD /\
  (forall d, In (lit "META-INF/MANIFEST.MF", d) jarD -> d = lit "Manifest-Version: 1.0" ++ [10; 10]) /\
  (forall x y, In (lit "META-INF/" ++ x) (map fst jarD) -> uppercase up0 (lit "META-INF/" ++ x) <> y ++ lit ".SF") /\
  (forall e, In e [lit "RSA"; lit "DSA"; lit "EC"] -> ~ In (lit "META-INF/" ++ lit "KEY" ++ lit "." ++ e) (map fst jarD)) /\
  Forall (fun f => sig_related (uppercase up0 f) \/ item_ok (lit "Name", f)) (map fst jarD).
Proof.
  split; [vm_compute; reflexivity|]. split; [|split; [|split; [|split]]].
  - unfold zip_bytes. apply Forall_forall. intros e He. apply Forall_forall. intros x Hx.
    assert (HF : forallb (fun e => forallb (fun x => (0 <=? x) && (x <? 256)) (snd e)) jarD = true) by (vm_compute; reflexivity).
    rewrite forallb_forall in HF. specialize (HF e He). rewrite forallb_forall in HF. specialize (HF x Hx). cbv beta in HF. lia.
  - intros d [H|[H|[H|[H|[H|[H|[]]]]]]]; try (apply (f_equal fst) in H; vm_compute in H; discriminate). now apply (f_equal snd) in H.
  - intros x y HI E. assert (HF : forallb (fun n => negb (ends_with (lit ".SF") (uppercase up0 n))) (map fst jarD) = true) by (vm_compute; reflexivity).
    rewrite forallb_forall in HF. specialize (HF _ HI). apply negb_true_iff in HF. rewrite E in HF.
    assert (ends_with (lit ".SF") (y ++ lit ".SF") = true) by (apply ends_with_app; now exists y). congruence.
  - intros e He HI. destruct He as [<-|[<-|[<-|[]]]]; apply smem_In in HI; vm_compute in HI; discriminate.
  - unfold jarD. cbn [map fst]. repeat (apply Forall_cons; [right; apply ascii_name; vm_compute; reflexivity|]). apply Forall_nil.
Qed.

(** ** C88 *)
(** jarutil v returns 0 only when the jar verifies, and on the evidence of C31. *)
Theorem C88_verified : forall up hash fs unzip block_ok cert args, upper_ok up ->
  cli_verify_jar up hash fs unzip block_ok cert args = Ok 0 ->
  exists jar c l d t z mfd mf, (args = [jar; c] \/ exists sf, args = [jar; c; sf] /\ In (lit "META-INF/" ++ sf) (map fst z)) /\
    fs jar = Some (File l d t) /\ unzip d = Ok z /\
    holds z (lit "META-INF/MANIFEST.MF") mfd /\ man_parse (new_manifest None) mfd = Ok mf /\
    (forall f b, ~ sig_related (uppercase up f) -> holds z f b -> exists s, dget (m_subs mf) f = Some s /\ vouched hash s b) /\
    exists x sfd e sg sf, let n := lit "META-INF/" ++ x in
      holds z n sfd /\ holds z (lit "META-INF/" ++ skipn 9 (firstn (length n - 3) n) ++ lit "." ++ e) sg /\ In e [lit "RSA"; lit "DSA"; lit "EC"] /\
      block_ok (cert c) sfd sg = true /\ man_parse (new_sigmanifest None) sfd = Ok sf /\ verify_manifest hash sf mf = Ok [] /\
      (forall s, args = [jar; c; s] -> x = s).
Proof.
  intros up hash fs unzip block_ok cert args Hup H. unfold cli_verify_jar in H.
  assert (G : exists jar c sfn z, (args = [jar; c] /\ sfn = None \/ exists sf, args = [jar; c; sf] /\ sfn = Some sf) /\
     open_zip fs unzip jar = Ok z /\ verify up hash block_ok (cert c) z sfn = Ok tt).
  { destruct args as [|jar [|c [|sf [|? ?]]]]; try discriminate.
    - exists jar, c, None. destruct (open_zip fs unzip jar) as [z|e]; cbn [rbind] in H.
      + exists z. split; [left; auto|]. split; [reflexivity|]. destruct (verify up hash block_ok (cert c) z None) as [[]|e]; [reflexivity|].
        destruct (is_verification_error e); discriminate.
      + destruct (is_verification_error e); discriminate.
    - exists jar, c, (Some sf). destruct (open_zip fs unzip jar) as [z|e]; cbn [rbind] in H.
      + exists z. split; [right; eauto|]. split; [reflexivity|]. destruct (verify up hash block_ok (cert c) z (Some sf)) as [[]|e]; [reflexivity|].
        destruct (is_verification_error e); discriminate.
      + destruct (is_verification_error e); discriminate. }
  destruct G as (jar & c & sfn & z & Hargs & Ho & Hv). unfold open_zip in Ho. destruct (fs jar) as [[l d t|l kids|l]|] eqn:Ef; try discriminate.
  destruct (Sign_C31.verify_inv up hash block_ok (cert c) z sfn Hv) as (n & sfd & blk & sg & sf & mfd & mf & H1 & H2 & H3 & H4 & H5 & H6 & H7 & H8 & H9 & H10).
  destruct (Sign_C31.choose_sf_name up z sfn n H1) as (x & -> & Hx & Hin & Hy). destruct (Sign_C31.find_block_name z _ blk H3) as (_ & e & He & Eb).
  assert (Hname : forall s, sfn = Some s -> x = s).
  { intros s Es. rewrite Es in H1. unfold choose_sf in H1. destruct (filter (file_matches_sigfile up) (namelist z)) as [|g [|h r]]; [discriminate| |].
    - destruct (seqb_spec g (META ++ s)) as [Eg|]; [|discriminate]. apply (f_equal (fun r => match r with Ok w => w | Err _ => [] end)) in H1. rewrite Eg in H1. now apply app_inv_head in H1.
    - destruct (smem (META ++ s) (g :: h :: r)); [|discriminate]. apply (f_equal (fun r => match r with Ok w => w | Err _ => [] end)) in H1. now apply app_inv_head in H1. }
  exists jar, c, l, d, t, z, mfd, mf. split.
  { destruct Hargs as [[-> _]|(s & -> & Es)]; [now left|]. right. exists s. split; [reflexivity|]. rewrite <- (Hname s Es). exact Hin. }
  split; [exact Ef|]. split; [exact Ho|]. split; [exact H7|]. split; [exact H8|]. split.
  { intros f b Hf. apply H10. destruct (file_skips_verification up f) eqn:E; [|reflexivity]. exfalso. apply Hf. now apply (C34_exact up f Hup). }
  exists x, sfd, e, sg, sf. cbv zeta. split; [exact H2|]. split; [subst blk; exact H4|]. split; [exact He|]. split; [exact H5|]. split; [exact H6|]. split; [exact H9|].
  intros s Ea. apply Hname. destruct Hargs as [[-> _]|(s' & -> & ->)]; [discriminate|]. now injection Ea as ->.
Qed.
Print Assumptions C88_verified.
Example C88_verified_ex : cli_verify_jar up0 hash0 fs0 (unzipW []) block0 (fun c => c) [lit "signed.jar"; [1; 2; 3]] = Ok 0.
Proof. vm_compute. reflexivity. Qed.
(** It returns 1 for the usage and where verification fails; the other exceptions
    are not caught. *)
Theorem C88_status : forall up hash fs unzip block_ok cert jar c l d t z sf, fs jar = Some (File l d t) -> unzip d = Ok z ->
  forall n, cli_verify_jar up hash fs unzip block_ok cert (jar :: c :: match sf with Some s => [s] | None => [] end) = Ok n ->
  (n = 0 /\ verify up hash block_ok (cert c) z sf = Ok tt) \/ (n = 1 /\ verify up hash block_ok (cert c) z sf <> Ok tt).
Proof.
  intros up hash fs unzip block_ok cert jar c l d t z sf Hf Hu n H.
  assert (E : cli_verify_jar up hash fs unzip block_ok cert (jar :: c :: match sf with Some s => [s] | None => [] end) =
     match verify up hash block_ok (cert c) z sf with Ok _ => Ok 0 | Err e => if is_verification_error e then Ok 1 else Err e end).
  { destruct sf; cbn [cli_verify_jar]; unfold open_zip; rewrite Hf, Hu; reflexivity. }
  rewrite E in H. destruct (verify up hash block_ok (cert c) z sf) as [[]|e].
  - left. split; [congruence|reflexivity].
  - right. destruct (is_verification_error e); [|discriminate]. split; [congruence|discriminate].
Qed.
Print Assumptions C88_status.
Example C88_status_ex : fs0 (lit "a.jar") = Some (File false [1] 0) /\ unzipW [] [1] = Ok jarA /\
  cli_verify_jar up0 hash0 fs0 (unzipW []) block0 (fun c => c) [lit "a.jar"; [1; 2; 3]] = Ok 1.
Proof. split; [reflexivity|]. split; [reflexivity|]. vm_compute. reflexivity. Qed.
(** Every way for verification to fail that jarutil has a class for ends with
    status 1: no or several signature files, a block that does not match, digests
    of the manifest or of the entries that do not match. *)
Theorem C88_failures : forall up hash fs unzip block_ok cert jar c l d t z sf e, fs jar = Some (File l d t) -> unzip d = Ok z ->
  verify up hash block_ok (cert c) z sf = Err e ->
  In e [VerificationError; SignatureBlockFileVerificationError; ManifestChecksumError; JarChecksumError; JarSignatureMissingError] ->
  cli_verify_jar up hash fs unzip block_ok cert (jar :: c :: match sf with Some s => [s] | None => [] end) = Ok 1.
Proof.
  intros up hash fs unzip block_ok cert jar c l d t z sf e Hf Hu HV HI.
  destruct sf; cbn [cli_verify_jar]; unfold open_zip; rewrite Hf, Hu; cbn [rbind]; rewrite HV;
    destruct HI as [<-|[<-|[<-|[<-|[<-|[]]]]]]; reflexivity.
Qed.
Print Assumptions C88_failures.
Definition jar1_mf : zip := map (fun e => if seqb (fst e) (lit "META-INF/MANIFEST.MF") then (fst e, snd e ++ lit "Name: a/B.class" ++ [10] ++ lit "X: 1" ++ [10; 10]) else e) jar1.
Example C88_failures_ex : verify up0 hash0 block0 [1; 2; 3] jarA None = Err JarSignatureMissingError /\
  verify up0 hash0 block0 [1; 2; 3] jar1_mf None = Err ManifestChecksumError /\
  verify up0 hash0 block0 [1; 2] jar1 None = Err SignatureBlockFileVerificationError /\
  verify up0 hash0 block0 [1; 2; 3] jar1 (Some (lit "B.SF")) = Err VerificationError.
Proof. vm_compute. auto. Qed.

(** Where jarutil v accepts a jar, it rejects (with status 1, and no exception) any
    jar that differs from it in the content of entries not directly in META-INF
    only, one of which now holds what none of the digests recorded for it vouches
    for. *)
Theorem C88_tampered : forall up hash fs unzip block_ok cert jar jar2 c l d t l2 d2 t2 z z2 mfd mf f b,
  upper_ok up -> fs jar = Some (File l d t) -> unzip d = Ok z -> fs jar2 = Some (File l2 d2 t2) -> unzip d2 = Ok z2 ->
  cli_verify_jar up hash fs unzip block_ok cert [jar; c] = Ok 0 ->
  map fst z2 = map fst z -> (forall n x, ~ In 47 n -> holds z (lit "META-INF/" ++ n) x -> holds z2 (lit "META-INF/" ++ n) x) ->
  holds z (lit "META-INF/MANIFEST.MF") mfd -> man_parse (new_manifest None) mfd = Ok mf -> Forall (fun ns => digests_supported (snd ns)) (m_subs mf) ->
  holds z2 f b -> ~ sig_related (uppercase up f) -> (forall s, dget (m_subs mf) f = Some s -> ~ vouched hash s b) ->
  cli_verify_jar up hash fs unzip block_ok cert [jar2; c] = Ok 1.
Proof.
  intros up hash fs unzip block_ok cert jar jar2 c l d t l2 d2 t2 z z2 mfd mf f b Hup Hf Hu Hf2 Hu2 H0 HN HSame HM HP HD HB Hs Hv.
  assert (HV : verify up hash block_ok (cert c) z None = Ok tt).
  { destruct (C88_status up hash fs unzip block_ok cert jar c l d t z None Hf Hu 0 H0) as [[_ H]|[H _]]; [exact H|discriminate H]. }
  destruct (Sign_C31.verify_inv up hash block_ok (cert c) z None HV) as (n & sfd & blk & sg & sf & mfd' & mf' & H1 & H2 & H3 & H4 & H5 & H6 & H7 & H8 & H9 & _).
  assert (Em : mfd' = mfd) by (apply zread_holds in H7; apply zread_holds in HM; change (lit "META-INF/MANIFEST.MF") with MANIFEST_NAME in HM; congruence). subst mfd'.
  assert (mf' = mf) by congruence. subst mf'.
  destruct (Sign_C31.choose_sf_name up z None n H1) as (x & En & Hx & _ & _).
  destruct (Sign_C31.find_block_name z _ blk H3) as (_ & e & He & Eb).
  assert (R1 : zread z2 n = Ok sfd). { apply zread_holds. subst n. now apply HSame. }
  assert (R2 : zread z2 blk = Ok sg).
  { apply zread_holds. subst blk. apply HSame; [|exact H4]. intro HI. apply in_app_or in HI as [HI|HI].
    - apply Hx. unfold alias_of in HI. subst n. rewrite skipn_firstn_comm in HI. change (skipn 9 (META ++ x)) with x in HI. rewrite <- (firstn_skipn (length (META ++ x) - 3 - 9) x). apply in_or_app. now left.
    - destruct He as [<-|[<-|[<-|[]]]]; cbn in HI; repeat destruct HI as [HI|HI]; try discriminate HI; contradiction. }
  assert (R3 : zread z2 MANIFEST_NAME = Ok mfd).
  { apply zread_holds. change MANIFEST_NAME with (lit "META-INF/" ++ lit "MANIFEST.MF"). apply HSame; [|exact HM]. vm_compute. intuition discriminate. }
  assert (C1 : choose_sf up z2 None = Ok n) by (rewrite <- H1; unfold choose_sf, namelist; now rewrite HN).
  assert (C2 : find_block z2 (alias_of n) = Ok blk) by (rewrite <- H3; unfold find_block, namelist; now rewrite HN).
  assert (C3 : smem MANIFEST_NAME (namelist z2) = true).
  { apply smem_In. apply zread_holds in R3 as (z3 & z4 & -> & _). unfold namelist. rewrite map_app. apply in_or_app. right. now left. }
  destruct (C27_total up hash mf z2 true HD) as ((fails & m') & HC).
  assert (HF : In f fails).
  { pose proof (C27_exact up hash mf z2 true fails m' Hup HC) as HP'.
    assert (HIn : In f (namelist z2)) by (destruct HB as (z3 & z4 & -> & _); unfold namelist; rewrite map_app; apply in_or_app; right; now left).
    assert (HQ : ~ (exists s b, dget (m_subs mf) f = Some s /\ holds z2 f b /\ vouched hash s b)).
    { intros (s & b' & Hg & Hh & Hw). apply zread_holds in Hh. apply zread_holds in HB. assert (b' = b) by congruence. subst b'. exact (Hv s Hg Hw). }
    clear - HP' HIn HQ Hs. induction HP' as [|a q r HA HP' IH|a q r HA HP' IH]; [contradiction| |].
    - destruct HIn as [->|HIn]; [now left|]. right. now apply IH.
    - destruct HIn as [->|HIn]; [|now apply IH]. exfalso. apply HA. now split. }
  assert (HV2 : verify up hash block_ok (cert c) z2 None = Err JarChecksumError).
  { unfold verify. rewrite C1. cbn [rbind]. rewrite R1. cbn [rbind]. rewrite C2. cbn [rbind]. rewrite R2. cbn [rbind]. rewrite H5. cbn [negb].
    rewrite H6. cbn [rbind]. unfold load_from_jar. rewrite C3. cbn [negb]. rewrite R3. cbn [rbind]. rewrite H8. cbn [rbind]. rewrite H9. cbn [rbind].
    rewrite HC. cbn [rbind]. destruct fails; [contradiction|reflexivity]. }
  cbn [cli_verify_jar]. unfold open_zip. rewrite Hf2, Hu2. cbn [rbind]. rewrite HV2. reflexivity.
Qed.
Print Assumptions C88_tampered.
Definition jar1_bad : zip := map (fun e => if seqb (fst e) (lit "a/B.class") then (fst e, [202; 255]) else e) jar1.
Definition unzipT (b : bytes) : res zip := match b with [1] => Ok jar1_bad | [3] => Ok jar1 | _ => Err ValueError end.
Example C88_tampered_ex : cli_verify_jar up0 hash0 fs0 unzipT block0 (fun c => c) [lit "signed.jar"; [1; 2; 3]] = Ok 0 /\
  cli_verify_jar up0 hash0 fs0 unzipT block0 (fun c => c) [lit "a.jar"; [1; 2; 3]] = Ok 1.
Proof.
  split; [vm_compute; reflexivity|].
  destruct (zread jar1 (lit "META-INF/MANIFEST.MF")) as [mfd|] eqn:E; [|vm_compute in E; discriminate E].
  destruct (man_parse (new_manifest None) mfd) as [mf|] eqn:EP; [|vm_compute in E; injection E as E; subst mfd; vm_compute in EP; discriminate EP].
  refine (C88_tampered up0 hash0 fs0 unzipT block0 (fun c => c) (lit "signed.jar") (lit "a.jar") [1; 2; 3] false [3] 0 false [1] 0 jar1 jar1_bad mfd mf (lit "a/B.class") [202; 255]
    up0_ok eq_refl eq_refl eq_refl eq_refl _ _ _ _ EP _ _ _ _).
  - vm_compute. reflexivity.
  - vm_compute. reflexivity.
  - intros n x Hn Hh. apply zread_holds. apply zread_holds in Hh. rewrite <- Hh. unfold zread, jar1_bad. rewrite <- map_rev.
    assert (G : forall y : zip, dget (map (fun e => if seqb (fst e) (lit "a/B.class") then (fst e, [202; 255]) else e) y) (lit "META-INF/" ++ n) = dget y (lit "META-INF/" ++ n)).
    { induction y as [|[k v] y IH]; [reflexivity|]. cbn [map fst]. destruct (seqb_spec k (lit "a/B.class")) as [->|Hk].
      - cbn [dget]. destruct (seqb_spec (lit "META-INF/" ++ n) (lit "a/B.class")) as [E'|_]; [discriminate E'|exact IH].
      - cbn [dget]. now rewrite IH. }
    now rewrite G.
  - apply zread_holds. exact E.
  - vm_compute in E. injection E as E. subst mfd. vm_compute in EP. injection EP as EP. subst mf. cbn [m_subs].
    assert (G : forall ns : str * section, In (lit "Name") (dkeys (snd ns)) -> dkeys (snd ns) = [lit "Name"; lit "SHA-256-Digest"] -> digests_supported (snd ns)).
    { intros ns _ Ek x Hx. rewrite Ek in Hx. destruct Hx as [Hx|[Hx|[]]].
      - exfalso. apply (f_equal (fun l => nth 0 (rev l) 0)) in Hx. rewrite rev_app_distr in Hx. vm_compute in Hx. discriminate Hx.
      - change (lit "SHA-256-Digest") with (lit "SHA-256" ++ lit "-Digest") in Hx. apply app_inv_tail in Hx. subst x. right. right. now left. }
    repeat (apply Forall_cons; [apply G; [now left|vm_compute; reflexivity]|]). apply Forall_nil.
  - apply zread_holds. vm_compute. reflexivity.
  - intro H. apply (C34_exact up0 _ up0_ok) in H. vm_compute in H. discriminate H.
  - vm_compute in E. injection E as E. subst mfd. vm_compute in EP. injection EP as EP. subst mf. intros s Hs (A & HA & HD). vm_compute in Hs.
    apply (f_equal (fun o => match o with Some v => v | None => [] end)) in Hs. subst s.
    destruct HA as [<-|[<-|[<-|[<-|[<-|[]]]]]]; vm_compute in HD; discriminate HD.
Qed.

(** A signed jar whose manifest was taken away: the exception is none of those
    the program reports as a failed verification. *)
Theorem C88_no_manifest_refuted : exists up hash fs unzip block_ok cert jar c, upper_ok up /\ hash_text hash /\
  cli_verify_jar up hash fs unzip block_ok cert [jar; c] = Err MissingManifestError.
Proof. exists up0, hash0, fs0, (unzipW []), block0, (fun c => c), (lit "bare.jar"), [1; 2; 3]. split; [exact up0_ok|]. split; [exact hash0_text|]. vm_compute. reflexivity. Qed.
Print Assumptions C88_no_manifest_refuted.

(** jarutil s writes a jar, the one asked for or else the one given, that jarutil v
    then accepts. *)
Theorem C88_sign_verify_partial : forall up hash fs unzip block_ok make_block key_ext cert c jar l d t z alias alg output mfd0 mf0,
  upper_ok up -> hash_text hash -> fs jar = Some (File l d t) -> unzip d = Ok z ->
  zip_bytes z -> In alg algs -> In key_ext [lit "RSA"; lit "DSA"; lit "EC"] ->
  (forall x, block_ok (cert c) x (make_block alg x) = true) ->
  ~ In 47 (uppercase up alias) ->
  (forall x y, In (lit "META-INF/" ++ x) (namelist z) -> uppercase up (lit "META-INF/" ++ x) <> y ++ lit ".SF") ->
  (forall e, In e [lit "RSA"; lit "DSA"; lit "EC"] -> ~ In (lit "META-INF/" ++ alias ++ lit "." ++ e) (namelist z)) ->
  holds z (lit "META-INF/MANIFEST.MF") mfd0 -> man_parse (new_manifest None) mfd0 = Ok mf0 -> manifest_ok mf0 ->
  Forall (fun f => sig_related (uppercase up f) \/ item_ok (lit "Name", f)) (namelist z) ->
  Forall (fun ns => (In (fst ns) (namelist z) /\ ~ sig_related (uppercase up (fst ns))) \/
                    (In (alg ++ lit "-Digest") (dkeys (snd ns)) /\ digests_supported (snd ns))) (m_subs mf0) ->
  exists out z', cli_sign_jar up hash fs unzip make_block (Some key_ext) jar alias alg output = Ok (0, Some (out, z')) /\
    (forall o, output = Some o -> out = o) /\ (output = None -> out = jar) /\
    (forall f b, uppercase up f <> lit "META-INF/MANIFEST.MF" -> holds z f b -> holds z' f b) /\
    forall fs' unzip' l' d' t', fs' out = Some (File l' d' t') -> unzip' d' = Ok z' -> cli_verify_jar up hash fs' unzip' block_ok cert [out; c] = Ok 0.
Proof.
  intros up hash fs unzip block_ok make_block key_ext cert c jar l d t z alias alg output mfd0 mf0 Hup Ht Hf Hu H1 H2 H3 H4 H5 H6 H7 H8 H9 H10 H11 H12.
  destruct (C32_sign_verify_partial up hash block_ok make_block key_ext z alias alg (cert c) mfd0 mf0 Hup Ht H1 H2 H3 H4 H5 H6 H7 H8 H9 H10 H11 H12)
    as (z' & Hs & Hv & Hk).
  exists (match output with Some o => o | None => jar end), z'. split; [|split; [|split; [|split]]].
  - unfold cli_sign_jar, open_zip. rewrite Hf, Hu. cbn [rbind]. pose proof Hs as Hs'. unfold sign in Hs'.
    destruct (load_from_jar (new_manifest None) z) as [m1|]; [|discriminate]. cbn [rbind] in *.
    destruct (add_jar_entries up hash m1 z alg) as [m2|]; [|discriminate]. cbn [rbind] in *.
    destruct (digest_manifest hash (new_sigmanifest (m_linesep m2)) m2 alg) as [m3|]; [|discriminate]. cbn [rbind]. rewrite Hs. reflexivity.
  - intros o ->. reflexivity.
  - intros ->. reflexivity.
  - exact Hk.
  - intros fs' unzip' l' d' t' Hf' Hu'. cbn [cli_verify_jar]. unfold open_zip. rewrite Hf', Hu'. cbn [rbind]. rewrite Hv. reflexivity.
Qed.
Print Assumptions C88_sign_verify_partial.
(** Hypotheses as in C32; the jar of C32's example, from a file. *)
Example C88_sign_ex : exists z', cli_sign_jar up0 hash0 (fun _ => Some (File false [5] 0)) (fun _ => Ok jar0) make0 (Some (lit "RSA")) (lit "a.jar") (lit "KEY") (lit "SHA-256") None
  = Ok (0, Some (lit "a.jar", z')).
Proof. eexists. vm_compute. reflexivity. Qed.
(** Nothing is written unless the status is 0; without a manifest it is 2, with a
    key of unknown type 1. *)
Theorem C88_sign_writes : forall up hash fs unzip make_block key_type jar l d t z alias alg output,
  fs jar = Some (File l d t) -> unzip d = Ok z ->
  (~ In (lit "META-INF/MANIFEST.MF") (map fst z) -> cli_sign_jar up hash fs unzip make_block key_type jar alias alg output = Ok (2, None)) /\
  (forall n w, cli_sign_jar up hash fs unzip make_block key_type jar alias alg output = Ok (n, w) ->
     (n = 0 /\ exists ext z', key_type = Some ext /\ sign up hash make_block ext z alias alg = Ok z' /\
                  w = Some (match output with Some o => o | None => jar end, z')) \/
     (n = 1 /\ key_type = None /\ w = None) \/ (n = 2 /\ ~ In (lit "META-INF/MANIFEST.MF") (map fst z) /\ w = None)).
Proof.
  intros up hash fs unzip make_block key_type jar l d t z alias alg output Hf Hu. unfold cli_sign_jar, open_zip. rewrite Hf, Hu. cbn [rbind]. split.
  - intro HM. unfold load_from_jar. replace (smem MANIFEST_NAME (namelist z)) with false; [reflexivity|].
    symmetry. apply not_true_iff_false. intro H. apply smem_In in H. now apply HM.
  - intros n w. destruct (in_dec (list_eq_dec Z.eq_dec) (lit "META-INF/MANIFEST.MF") (map fst z)) as [HM|HM].
    + pose proof (nm_from_jar (new_manifest None) z HM) as N1. destruct (load_from_jar (new_manifest None) z) as [m1|e1]; cbn [rbind];
        [|destruct e1; intro H; try discriminate; now destruct N1].
      pose proof (nm_add up hash m1 z alg) as N2. destruct (add_jar_entries up hash m1 z alg) as [m2|e1]; cbn [rbind]; [|destruct e1; intro H; try discriminate; now destruct N2].
      pose proof (nm_digest hash (new_sigmanifest (m_linesep m2)) m2 alg) as N3.
      destruct (digest_manifest hash (new_sigmanifest (m_linesep m2)) m2 alg) as [m3|e1]; cbn [rbind]; [|destruct e1; intro H; try discriminate; now destruct N3].
      destruct key_type as [ext|]; [|intro H; right; left; split; [congruence|split; [reflexivity|congruence]]].
      pose proof (nm_sign up hash make_block ext z alias alg HM) as N4.
      destruct (sign up hash make_block ext z alias alg) as [z'|e1] eqn:Es; cbn [rbind]; [|destruct e1; intro H; try discriminate; now destruct N4].
      intro H. left. split; [congruence|]. exists ext, z'. split; [reflexivity|]. split; [exact Es|congruence].
    + unfold load_from_jar. replace (smem MANIFEST_NAME (namelist z)) with false.
      * cbn [negb rbind]. intro H. right. right. split; [congruence|]. split; [exact HM|congruence].
      * symmetry. apply not_true_iff_false. intro H. apply smem_In in H. now apply HM.
Qed.
Print Assumptions C88_sign_writes.
Example C88_sign_writes_ex : fs0 (lit "a.jar") = Some (File false [1] 0) /\ unzipW [] [1] = Ok jarA /\ ~ In (lit "META-INF/MANIFEST.MF") (map fst jarA) /\
  cli_sign_jar up0 hash0 fs0 (unzipW []) make0 None (lit "signed.jar") (lit "KEY") (lit "SHA-256") None = Ok (1, None).
Proof. split; [reflexivity|]. split; [reflexivity|]. split; [|vm_compute; reflexivity]. rewrite <- smem_In. vm_compute. discriminate. Qed.
(** The command is any prefix of create, sign or view in jarutil, of create, query
    or verify in manifest; anything else gives the usage. *)
Theorem C88_commands : forall c rest,
  (jarutil_main (c :: rest) = Create rest <-> exists s, lit "create" = c ++ s) /\
  (jarutil_main (c :: rest) = Sign rest <-> c <> [] /\ exists s, lit "sign" = c ++ s) /\
  (jarutil_main (c :: rest) = Verify rest <-> c <> [] /\ exists s, lit "view" = c ++ s) /\
  (manifest_main (c :: rest) = Create rest <-> exists s, lit "create" = c ++ s) /\
  (manifest_main (c :: rest) = Query rest <-> c <> [] /\ exists s, lit "query" = c ++ s) /\
  (manifest_main (c :: rest) = Verify rest <-> c <> [] /\ exists s, lit "verify" = c ++ s).
Proof.
  assert (N : forall c a w a' w', c <> [] -> starts_with c (a :: w) = true -> starts_with c (a' :: w') = true -> a = a').
  { intros c a w a' w' Hc H1 H2. apply Manifest_Parse.starts_with_iff in H1 as [s1 H1]. apply Manifest_Parse.starts_with_iff in H2 as [s2 H2].
    destruct c as [|x c]; [now destruct Hc|]. injection H1 as -> _. now injection H2 as -> _. }
  assert (P : forall c w, (exists s, w = c ++ s) <-> starts_with c w = true) by (intros c w; now rewrite Manifest_Parse.starts_with_iff).
  intros c rest. rewrite !P. unfold jarutil_main, manifest_main.
  destruct c as [|x c].
  { cbn [starts_with]. repeat split; try reflexivity; try discriminate; intros [H _]; now destruct H. }
  assert (Hc : x :: c <> []) by discriminate. revert Hc. generalize (x :: c). clear x c. intros c Hc.
  destruct (starts_with c (lit "create")) eqn:E1, (starts_with c (lit "sign")) eqn:E2, (starts_with c (lit "view")) eqn:E3,
    (starts_with c (lit "query")) eqn:E4, (starts_with c (lit "verify")) eqn:E5;
  try (pose proof (N c _ _ _ _ Hc E1 E2); discriminate); try (pose proof (N c _ _ _ _ Hc E1 E3); discriminate);
  try (pose proof (N c _ _ _ _ Hc E1 E4); discriminate); try (pose proof (N c _ _ _ _ Hc E1 E5); discriminate);
  try (pose proof (N c _ _ _ _ Hc E2 E3); discriminate); try (pose proof (N c _ _ _ _ Hc E4 E5); discriminate);
  repeat split; try reflexivity; try discriminate; try assumption; try (intros [_ H]; discriminate).
Qed.
Print Assumptions C88_commands.
(** The word in jarutil's own usage text is verify; it is not understood. *)
Theorem C88_verify_word_refuted : exists word, word = lit "verify" /\ forall rest, jarutil_main (word :: rest) = Usage /\ manifest_main (word :: rest) = Verify rest.
Proof. exists (lit "verify"). split; [reflexivity|]. intro rest. split; reflexivity. Qed.
Print Assumptions C88_verify_word_refuted.

(** ** C89 *)
(** What manifest q prints of a jar whose manifest was written by this library. *)
Lemma queried fs unzip jar l d t z m lo ls data : fs jar = Some (File l d t) -> unzip d = Ok z -> manifest_ok m -> m_primary_key m = lit "Manifest-Version" -> writes_with m lo ls ->
  man_data m lo = Ok data -> holds z (lit "META-INF/MANIFEST.MF") data ->
  exists m', m_main m' = m_main m /\ Permutation (m_subs m') (m_subs m) /\
  forall q qs, ~ In (lit "-h") (jar :: q :: qs) -> cli_query fs unzip (jar :: q :: qs) = Ok (Some (map (fun q => (q, query1 m' q)) (q :: qs))).
Proof.
  intros Hf Hu Hok Hpk Hw Hd Hh. destruct (P_Manifest.C25_round_trip m lo ls (new_manifest None) (lit "1.0") Hok Hw) as (data' & m' & Hd' & Hp & Hm & Hs & _).
  { now rewrite Hpk. } { now rewrite Hpk. } { reflexivity. }
  assert (data' = data) by congruence. subst data'. exists m'. split; [exact Hm|]. split; [exact Hs|]. intros q qs Hq. unfold cli_query.
  destruct (smem (lit "-h") (jar :: q :: qs)) eqn:E; [apply smem_In in E; contradiction|]. unfold open_zip. rewrite Hf, Hu. cbn [rbind].
  unfold load_from_jar. pose proof Hh as Hr. apply zread_holds in Hr. assert (HI : In (lit "META-INF/MANIFEST.MF") (namelist z)).
  { destruct Hh as (z1 & z2 & -> & _). unfold namelist. rewrite map_app. apply in_or_app. right. now left. }
  apply smem_In in HI. unfold MANIFEST_NAME in *. rewrite HI. cbn [negb]. rewrite Hr. cbn [rbind]. rewrite Hp. reflexivity.
Qed.
Lemma split_colon_none q : ~ In 58 q -> split_colon q = None.
Proof.
  intro H. destruct (split_colon q) as [[a b]|] eqn:E; [|reflexivity]. apply Manifest_Parse.split_colon_iff in E as [-> _]. exfalso. apply H.
  apply in_or_app. right. now left.
Qed.
Lemma dget_iff {A} (d : list (str * A)) k v : NoDup (map fst d) -> (dget d k = Some v <-> In (k, v) d).
Proof. intro H. split; [apply dget_In|now apply dget_unique]. Qed.
Theorem C89_section : forall fs unzip jar l d t z m lo ls data, fs jar = Some (File l d t) -> unzip d = Ok z ->
  manifest_ok m -> m_primary_key m = lit "Manifest-Version" -> writes_with m lo ls -> man_data m lo = Ok data -> holds z (lit "META-INF/MANIFEST.MF") data ->
  jar <> lit "-h" -> forall sec key, ~ In 58 sec -> let q := sec ++ lit ":" ++ key in
  exists a, cli_query fs unzip [jar; q] = Ok (Some [(q, a)]) /\
    (a = NoSection <-> ~ In sec (map fst (m_subs m))) /\
    (forall v, a = Value (Some v) <-> exists s, In (sec, s) (m_subs m) /\ In (key, v) s).
Proof.
  intros fs unzip jar l d t z m lo ls data Hf Hu Hok Hpk Hw Hd Hh Hj sec key Hsec q.
  destruct (queried fs unzip jar l d t z m lo ls data Hf Hu Hok Hpk Hw Hd Hh) as (m' & Hm & Hs & HQ). exists (query1 m' q).
  assert (Hq : q <> lit "-h").
  { unfold q. intro E. apply (f_equal (fun x => In 58 x)) in E. assert (In 58 (lit "-h")) by (rewrite <- E; apply in_or_app; right; now left).
    vm_compute in H. intuition discriminate. }
  split; [rewrite HQ; [reflexivity|]; intros [H|[H|[]]]; contradiction|].
  unfold query1. replace (split_colon q) with (Some (sec, key)) by (symmetry; apply Manifest_Parse.split_colon_iff; split; [reflexivity|exact Hsec]).
  destruct Hok as (_ & HN & HF). rewrite Forall_forall in HF.
  assert (HN' : NoDup (map fst (m_subs m'))) by (eapply Permutation_NoDup; [apply Permutation_map, Permutation_sym, Hs|exact HN]).
  assert (HI : forall s, dget (m_subs m') sec = Some s <-> In (sec, s) (m_subs m)).
  { intro s. rewrite dget_iff by exact HN'. split; apply Permutation_in; [exact Hs|now apply Permutation_sym]. }
  destruct (dget (m_subs m') sec) as [s|] eqn:E.
  - pose proof (proj1 (HI s) eq_refl) as HIn. destruct (HF _ HIn) as ((rest & Es) & HNs & _). cbn [fst snd] in *. rewrite Es. rewrite <- Es. split.
    + split; [discriminate|]. intro H. exfalso. apply H. apply in_map_iff. exists (sec, s). auto.
    + intro v. split.
      * intro H. injection H as H. exists s. split; [exact HIn|]. now apply dget_In.
      * intros (s' & H1 & H2). assert (s' = s) by (apply HI in H1; congruence). subst s'. f_equal. now apply dget_unique.
  - split.
    + split; [|reflexivity]. intros _ H. apply in_map_iff in H as ([sec' s] & E' & H). cbn in E'. subst sec'. apply HI in H. discriminate.
    + intro v. split; [discriminate|]. intros (s & H & _). apply HI in H. discriminate.
Qed.
Print Assumptions C89_section.
(** Without a colon: the main section. *)
Theorem C89_main : forall fs unzip jar l d t z m lo ls data, fs jar = Some (File l d t) -> unzip d = Ok z ->
  manifest_ok m -> m_primary_key m = lit "Manifest-Version" -> writes_with m lo ls -> man_data m lo = Ok data -> holds z (lit "META-INF/MANIFEST.MF") data ->
  jar <> lit "-h" -> forall key, ~ In 58 key -> key <> lit "-h" ->
  exists r, cli_query fs unzip [jar; key] = Ok (Some [(key, Value r)]) /\ forall v, r = Some v <-> In (key, v) (m_main m).
Proof.
  intros fs unzip jar l d t z m lo ls data Hf Hu Hok Hpk Hw Hd Hh Hj key Hc Hk.
  destruct (queried fs unzip jar l d t z m lo ls data Hf Hu Hok Hpk Hw Hd Hh) as (m' & Hm & Hs & HQ). exists (dget (m_main m') key).
  split; [rewrite HQ; [|intros [H|[H|[]]]; contradiction]; unfold query1; cbn [map]; rewrite split_colon_none by exact Hc; reflexivity|].
  intro v. rewrite Hm. destruct Hok as ((v0 & _ & HN & _) & _). now apply dget_iff.
Qed.
Print Assumptions C89_main.
Definition mfq : manifest := mkman (lit "Manifest-Version") [(lit "Manifest-Version", lit "1.0"); (lit "Main-Class", lit "app.Main")]
  [(lit "a/B.class", [(lit "Name", lit "a/B.class"); (lit "Sealed", lit "true")])] None.
Definition dataQ : bytes := Eval vm_compute in match man_data mfq None with Ok d => d | Err _ => [] end.
Lemma mfq_ok : manifest_ok mfq.
Proof.
  split; [exists (lit "1.0")|split].
  - split; [eexists; reflexivity|]. split; [repeat constructor; cbn; intuition discriminate|].
    repeat (apply Forall_cons; [split; [reflexivity|split; [reflexivity|apply ascii_no_straddle; reflexivity]]|]). apply Forall_nil.
  - repeat constructor. intros [].
  - apply Forall_cons; [|apply Forall_nil]. split; [eexists; reflexivity|]. split; [repeat constructor; cbn; intuition discriminate|].
    repeat (apply Forall_cons; [split; [reflexivity|split; [reflexivity|apply ascii_no_straddle; reflexivity]]|]). apply Forall_nil.
Qed.
Example C89_ex : manifest_ok mfq /\ m_primary_key mfq = lit "Manifest-Version" /\ writes_with mfq None lf /\ man_data mfq None = Ok dataQ /\
  holds [(lit "META-INF/MANIFEST.MF", dataQ)] (lit "META-INF/MANIFEST.MF") dataQ /\
  cli_query (fun _ => Some (File false [] 0)) (fun _ => Ok [(lit "META-INF/MANIFEST.MF", dataQ)]) [lit "a.jar"; lit "a/B.class:Sealed"; lit "Main-Class"; lit "x:y"] =
  Ok (Some [(lit "a/B.class:Sealed", Value (Some (lit "true"))); (lit "Main-Class", Value (Some (lit "app.Main"))); (lit "x:y", NoSection)]).
Proof.
  split; [exact mfq_ok|]. split; [reflexivity|]. split; [split; [now left|right; right; repeat split; reflexivity]|]. split; [vm_compute; reflexivity|].
  split; [apply zread_holds; vm_compute; reflexivity|]. vm_compute. reflexivity.
Qed.
(** A section whose name has a colon cannot be asked for. *)
Theorem C89_colon_refuted : exists fs unzip jar z data m sec s v, unzip [] = Ok z /\ fs jar = Some (File false [] 0) /\ holds z (lit "META-INF/MANIFEST.MF") data /\
  man_parse (new_manifest None) data = Ok m /\ In (sec, s) (m_subs m) /\ In (lit "Sealed", v) s /\
  cli_query fs unzip [jar; sec ++ lit ":" ++ lit "Sealed"] = Ok (Some [(sec ++ lit ":" ++ lit "Sealed", NoSection)]).
Proof.
  set (data := lit "Manifest-Version: 1.0" ++ [10; 10] ++ lit "Name: http://x/" ++ [10] ++ lit "Sealed: true" ++ [10; 10]).
  exists (fun _ => Some (File false [] 0)), (fun _ => Ok [(lit "META-INF/MANIFEST.MF", data)]), (lit "a.jar"), [(lit "META-INF/MANIFEST.MF", data)], data.
  eexists _, _, _, _. split; [reflexivity|]. split; [reflexivity|]. split; [apply zread_holds; vm_compute; reflexivity|]. split; [vm_compute; reflexivity|].
  split; [now left|]. split; [right; now left|]. vm_compute. reflexivity.
Qed.
Print Assumptions C89_colon_refuted.

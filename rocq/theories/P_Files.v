(** Property C138: what signing, creating and verifying do to the files on the disk, with
    M2Crypto and without. *)
From Verif Require Import Base Pack_Model ConstPool_Model Manifest_Model Glob_Model Zip_Model.
From Verif Require Import Manifest_Spec Manifest_Canon Sign_Model Sign_Spec Tool_Model Files_Model Files_Proofs P_Sign P_Tool.

(** ** The specification *)
(** No file is made, changed or removed *)
Definition untouched (d d' : disk) := forall p, dget d' p = dget d p.
(** No file but this one is *)
Definition only (t : str) (d d' : disk) := forall p, p <> t -> dget d' p = dget d p.
(** The file that is to be written *)
Definition destination (jar : str) (output : option str) : str := match output with Some o => o | None => jar end.

(** ** Data for the examples *)
Definition c0 : crypto := mkcrypto (Done (lit "RSA")) (fun alg d => Done (make0 alg d)).
Definition disk0 : disk := [(lit "a.jar", IZip jar0); (lit "notes", IRaw); (lit "dir", IDir); (lit "old.jar", IZip jarA)].
Definition all_ (p : str) : bool := true.
Definition sha : str := lit "SHA-256".

(** ** C138 *)
(** A signing that raises, for whatever reason and at whatever step, leaves every file as
    it was: the jar, the file given with -o, and no temporary file stays behind. *)
Theorem C138_sign_failed : forall up hash may_write m2 tmp jar alias alg output d d' e, dget d tmp = None ->
  sign_files up hash may_write m2 tmp jar alias alg output d = (d', Fail e) -> untouched d d'.
Proof.
  intros up hash may_write m2 tmp jar alias alg output d d' e F H. apply sign_inv in H; [|exact F].
  destruct H as [(e' & _ & K)|(c & z & ext & sfd & sig & z' & _ & R & _)]; [exact K|discriminate].
Qed.
Print Assumptions C138_sign_failed.
(** The output is a directory; the key cannot be read; there is no manifest. *)
Example C138_sign_failed_ex : dget disk0 (lit "/tmp/x") = None /\
  snd (sign_files up0 hash0 all_ (Some c0) (lit "/tmp/x") (lit "a.jar") (lit "KEY") sha (Some (lit "dir")) disk0) = Fail OSError /\
  snd (sign_files up0 hash0 all_ (Some (mkcrypto (Fail CannotFindKeyType) (c_block c0))) (lit "/tmp/x") (lit "a.jar") (lit "KEY") sha None disk0) = Fail CannotFindKeyType /\
  snd (sign_files up0 hash0 all_ (Some c0) (lit "/tmp/x") (lit "old.jar") (lit "KEY") sha None disk0) = Fail (Raised MissingManifestError).
Proof. vm_compute. repeat split. Qed.

(** A signing that does not raise has written one file and no other, the one given with -o
    or else the jar: the jar signed as by C32, with every entry of the jar that is not its
    manifest as it was. *)
Theorem C138_sign_done : forall up hash may_write m2 tmp jar alias alg output d d' u, dget d tmp = None ->
  sign_files up hash may_write m2 tmp jar alias alg output d = (d', Done u) ->
  only (destination jar output) d d' /\
  exists c z z' ext sfd sig block, m2 = Some c /\ dget d jar = Some (IZip z) /\ dget d' (destination jar output) = Some (IZip z') /\
    c_key c = Done ext /\ In (lit "META-INF/" ++ alias ++ lit ".SF", sfd) z' /\ c_block c alg sfd = Done sig /\
    (forall b s, c_block c alg b = Done s -> block alg b = s) /\ sign up hash block ext z alias alg = Ok z' /\
    (forall n b, In n (map fst z) -> upper up n <> lit "META-INF/MANIFEST.MF" -> zread z n = Ok b -> In (n, b) z').
Proof.
  intros up hash may_write m2 tmp jar alias alg output d d' u F H. apply sign_inv in H; [|exact F].
  destruct H as [(e' & R & _)|(c & z & ext & sfd & sig & z' & M & _ & J & K & B & I & _ & _ & S & P)]; [discriminate|].
  split.
  { intros p N. rewrite P. destruct (seqb_spec p (target jar output)) as [->|]; [|reflexivity]. destruct N. reflexivity. }
  exists c, z, z', ext, sfd, sig, (block_of c). split; [exact M|]. split; [exact J|].
  split; [rewrite P; unfold destination, target; rewrite seqb_refl; reflexivity|].
  split; [exact K|]. split; [exact I|]. split; [exact B|].
  split; [intros b s Hb; unfold block_of; rewrite Hb; reflexivity|]. split; [exact S|].
  intros n b In_ U R. unfold sign in S.
  destruct (load_from_jar _ z) as [mf0|]; [|discriminate]. cbn [rbind] in S.
  destruct (add_jar_entries up hash mf0 z alg) as [mf|]; [|discriminate]. cbn [rbind] in S.
  destruct (digest_manifest hash _ mf alg) as [sf|]; [|discriminate]. cbn [rbind] in S.
  destruct (man_data sf None) as [sfd'|]; [|discriminate]. cbn [rbind] in S.
  destruct (man_data mf None) as [mfd|]; [|discriminate]. cbn [rbind] in S.
  destruct (mapM _ _) as [rest|] eqn:MM; [|discriminate]. cbn [rbind] in S. injection S as <-.
  right; right; right.
  assert (L : In n (filter (fun n => negb (seqb (upper up n) MANIFEST_NAME)) (namelist z))).
  { apply filter_In. split; [exact In_|]. apply negb_true_iff, seqb_neq. exact U. }
  clear - MM L R. revert rest MM L. induction (filter _ _) as [|x l IH]; cbn [mapM]; intros rest MM L; [destruct L|].
  destruct (zread z x) as [bx|] eqn:Z; cbn [rbind] in MM; [|discriminate].
  destruct (mapM _ l) as [r|]; cbn [rbind] in MM; [|discriminate]. injection MM as <-.
  destruct L as [->|L]; [left; congruence|right; exact (IH r eq_refl L)].
Qed.
Print Assumptions C138_sign_done.
Example C138_sign_done_ex :
  sign_files up0 hash0 all_ (Some c0) (lit "/tmp/x") (lit "a.jar") (lit "KEY") sha (Some (lit "old.jar")) disk0 =
    ([(lit "a.jar", IZip jar0); (lit "notes", IRaw); (lit "dir", IDir); (lit "old.jar", IZip jar1)], Done tt) /\
  sign_files up0 hash0 all_ (Some c0) (lit "/tmp/x") (lit "a.jar") (lit "KEY") sha None disk0 =
    ([(lit "a.jar", IZip jar1); (lit "notes", IRaw); (lit "dir", IDir); (lit "old.jar", IZip jarA)], Done tt).
Proof. vm_compute. split; reflexivity. Qed.

(** And it does not raise when the jar can be signed, the key and the certificates are good
    and both files may be written. *)
Theorem C138_sign_goes : forall up hash may_write c tmp jar alias alg output d z ext z0,
  dget d tmp = None -> dget d jar = Some (IZip z) -> c_key c = Done ext -> (forall b, exists s, c_block c alg b = Done s) ->
  may_write jar = true -> may_write tmp = true -> may_write (destination jar output) = true -> destination jar output <> tmp ->
  dget d (destination jar output) <> Some IDir -> (exists block, sign up hash block ext z alias alg = Ok z0) ->
  snd (cli_sign up hash may_write (Some c) tmp jar alias alg output d) = Done 0.
Proof.
  intros up hash may_write c tmp jar alias alg output d z ext z0 F J K B MJ MT MO NT ND S.
  pose proof (sign_go up hash may_write c tmp jar alias alg output d z ext z0 F J K B MJ MT MO NT ND S) as G.
  unfold cli_sign. destruct (sign_files _ _ _ _ _ _ _ _ _ d) as [d1 r]. cbn [snd] in *. subst r. reflexivity.
Qed.
Print Assumptions C138_sign_goes.
Example C138_sign_goes_ex : dget disk0 (lit "/tmp/x") = None /\ dget disk0 (lit "a.jar") = Some (IZip jar0) /\ c_key c0 = Done (lit "RSA") /\
  (forall b, exists s, c_block c0 sha b = Done s) /\ lit "new.jar" <> lit "/tmp/x" /\ dget disk0 (lit "new.jar") <> Some IDir /\
  (exists block, sign up0 hash0 block (lit "RSA") jar0 (lit "KEY") sha = Ok jar1).
Proof.
  split; [vm_compute; reflexivity|]. split; [reflexivity|]. split; [reflexivity|]. split; [intro b; eexists; reflexivity|].
  split; [vm_compute; discriminate|]. split; [vm_compute; discriminate|]. exists make0. vm_compute. reflexivity.
Qed.

(** With the hypotheses of C32, on the disk: jarutil s gives 0, and jarutil v gives 0 for
    the file written, whatever else is done to the other files in between. *)
Theorem C138_sign_verify_partial : forall up hash may_write block_ok c tmp jar alias alg output d z ext cert mfd0 mf0,
  dget d tmp = None -> dget d jar = Some (IZip z) -> c_key c = Done ext ->
  (forall b, exists s, c_block c alg b = Done s /\ block_ok cert b s = true) ->
  may_write jar = true -> may_write tmp = true -> may_write (destination jar output) = true -> destination jar output <> tmp ->
  dget d (destination jar output) <> Some IDir ->
  upper_ok up -> hash_text hash -> zip_bytes z -> In alg algs -> In ext [lit "RSA"; lit "DSA"; lit "EC"] ->
  ~ In 47 (uppercase up alias) ->
  (forall x y, In (lit "META-INF/" ++ x) (namelist z) -> uppercase up (lit "META-INF/" ++ x) <> y ++ lit ".SF") ->
  (forall e, In e [lit "RSA"; lit "DSA"; lit "EC"] -> ~ In (lit "META-INF/" ++ alias ++ lit "." ++ e) (namelist z)) ->
  holds z (lit "META-INF/MANIFEST.MF") mfd0 -> man_parse (new_manifest None) mfd0 = Ok mf0 -> manifest_ok mf0 ->
  Forall (fun f => sig_related (uppercase up f) \/ item_ok (lit "Name", f)) (namelist z) ->
  Forall (fun ns => (In (fst ns) (namelist z) /\ ~ sig_related (uppercase up (fst ns))) \/
                    (In (alg ++ lit "-Digest") (dkeys (snd ns)) /\ digests_supported (snd ns))) (m_subs mf0) ->
  let '(d', r) := cli_sign up hash may_write (Some c) tmp jar alias alg output d in
  r = Done 0 /\ forall d2, dget d2 (destination jar output) = dget d' (destination jar output) ->
    verify_status (snd (verify_files up hash (Some block_ok) cert (destination jar output) None d2)) = Done 0.
Proof.
  intros up hash may_write block_ok c tmp jar alias alg output d z ext cert mfd0 mf0 F J K B MJ MT MO NT ND H1 H2 H3 H4 H5 H6 H7 H8 H9 H10 H11 H12 H13.
  assert (B1 : forall x, block_ok cert x (block_of c alg x) = true).
  { intro x. unfold block_of. destruct (B x) as (s & -> & O). exact O. }
  destruct (C32_sign_verify_partial up hash block_ok (block_of c) ext z alias alg cert mfd0 mf0 H1 H2 H3 H4 H5 B1 H6 H7 H8 H9 H10 H11 H12 H13)
    as (z' & S & V & _).
  assert (G : snd (sign_files up hash may_write (Some c) tmp jar alias alg output d) = Done tt).
  { apply (sign_go up hash may_write c tmp jar alias alg output d z ext z'); try assumption.
    - intro b. destruct (B b) as (s & Hs & _). exists s. exact Hs.
    - exists (block_of c). exact S. }
  unfold cli_sign. destruct (sign_files up hash may_write (Some c) tmp jar alias alg output d) as [d1 r] eqn:E. cbn [snd] in G. subst r.
  split; [reflexivity|]. intros d2 D2.
  apply sign_inv in E; [|exact F].
  destruct E as [(e & R & _)|(c' & z1 & ext' & sfd & sig & z2 & M & _ & J' & K' & _ & _ & _ & _ & S' & P)]; [discriminate|].
  injection M as <-. rewrite J in J'. injection J' as <-. rewrite K in K'. injection K' as <-. rewrite S in S'. injection S' as <-.
  rewrite P in D2. unfold destination, target in D2. rewrite seqb_refl in D2. fold (destination jar output) in D2.
  unfold verify_files. unfold then_ at 1, open_read. rewrite D2.
  pose proof V as V'. unfold verify in V'.
  destruct (choose_sf up z' None) as [sf|]; [|discriminate]. cbn [rbind] in V'. unfold lift at 1, ret, then_ at 1.
  destruct (zread z' sf) as [sd|]; [|discriminate]. cbn [rbind] in V'. unfold lift at 1, ret, then_ at 1.
  destruct (find_block z' (alias_of sf)) as [bk|]; [|discriminate]. cbn [rbind] in V'. unfold lift at 1, ret, then_ at 1.
  destruct (zread z' bk) as [sg|]; [|discriminate]. unfold lift at 1, ret, then_ at 1.
  rewrite V. reflexivity.
Qed.
Print Assumptions C138_sign_verify_partial.
(** The hypotheses on the disk are those of C138_sign_goes_ex, the others those of the
    example of C32; here the result. *)
Example C138_sign_verify_ex : (forall b, exists s, c_block c0 sha b = Done s /\ block0 [1; 2; 3] b s = true) /\
  let '(d', r) := cli_sign up0 hash0 all_ (Some c0) (lit "/tmp/x") (lit "a.jar") (lit "KEY") sha (Some (lit "new.jar")) disk0 in
  r = Done 0 /\ verify_status (snd (verify_files up0 hash0 (Some block0) [1; 2; 3] (lit "new.jar") None d')) = Done 0.
Proof.
  split; [|vm_compute; split; reflexivity]. intro b. eexists. split; [reflexivity|]. unfold block0, make0. apply seqb_refl.
Qed.

(** The status of jarutil s: 0 exactly when nothing was raised; with any other status, or an
    exception that gets out, nothing was touched. *)
Theorem C138_sign_status : forall up hash may_write m2 tmp jar alias alg output d d' r, dget d tmp = None ->
  cli_sign up hash may_write m2 tmp jar alias alg output d = (d', r) -> r <> Done 0 -> untouched d d'.
Proof.
  intros up hash may_write m2 tmp jar alias alg output d d' r F H N. unfold cli_sign in H.
  destruct (sign_files _ _ _ _ _ _ _ _ _ d) as [d1 o] eqn:S. injection H as <- <-.
  destruct o as [u|e]; [destruct N; reflexivity|]. exact (C138_sign_failed _ _ _ _ _ _ _ _ _ _ _ _ F S).
Qed.
Print Assumptions C138_sign_status.
Example C138_sign_status_ex : dget disk0 (lit "/tmp/x") = None /\
  cli_sign up0 hash0 all_ (Some c0) (lit "/tmp/x") (lit "old.jar") (lit "KEY") sha None disk0 = (disk0, Done 2) /\
  cli_sign up0 hash0 all_ (Some c0) (lit "/tmp/x") (lit "notes") (lit "KEY") sha None disk0 = (disk0, Fail BadZipFile).
Proof. vm_compute. repeat split. Qed.

(** Without M2Crypto no jar is signed and no file is touched; the status is -1 for a jar
    that could be signed with it. *)
Theorem C138_sign_disabled : forall up hash may_write tmp jar alias alg output d,
  fst (cli_sign up hash may_write None tmp jar alias alg output d) = d /\
  snd (cli_sign up hash may_write None tmp jar alias alg output d) <> Done 0 /\
  (forall z block ext z0, dget d jar = Some (IZip z) -> sign up hash block ext z alias alg = Ok z0 ->
    snd (cli_sign up hash may_write None tmp jar alias alg output d) = Done (-1)).
Proof.
  intros. split; [|split].
  - unfold cli_sign. destruct (sign_files _ _ _ _ _ _ _ _ _ d) as [d1 o] eqn:S. apply sign_none in S. destruct S as [-> _]. reflexivity.
  - unfold cli_sign. destruct (sign_files _ _ _ _ _ _ _ _ _ d) as [d1 o] eqn:S. apply sign_none in S. destruct S as [_ [e ->]].
    cbn [snd sign_status]. destruct e as [[]| | | |]; discriminate.
  - intros z block ext z0 J S. rewrite (sign_none_status up hash may_write tmp jar alias alg output d z block ext z0 J S). reflexivity.
Qed.
Print Assumptions C138_sign_disabled.
Example C138_sign_disabled_ex : cli_sign up0 hash0 all_ None (lit "/tmp/x") (lit "a.jar") (lit "KEY") sha None disk0 = (disk0, Done (-1)).
Proof. vm_compute. reflexivity. Qed.

(** Verifying touches no file, and says "verified" only with M2Crypto and when the jar does
    verify; without M2Crypto never. *)
Theorem C138_verify : forall up hash ok cert jar sf_name d,
  fst (verify_files up hash ok cert jar sf_name d) = d /\
  (verify_status (snd (verify_files up hash ok cert jar sf_name d)) = Done 0 ->
     exists o z, ok = Some o /\ dget d jar = Some (IZip z) /\ verify up hash o cert z sf_name = Ok tt).
Proof.
  intros. split; [apply verify_quiet|]. intros H.
  destruct (snd (verify_files up hash ok cert jar sf_name d)) as [u|e] eqn:E.
  - exact (verify_done up hash ok cert jar sf_name d u E).
  - destruct e as [e| | | |]; cbn in H; try discriminate. destruct (is_verification_error e); discriminate.
Qed.
Print Assumptions C138_verify.
Example C138_verify_ex :
  let d := [(lit "s.jar", IZip jar1); (lit "u.jar", IZip jarA)] in
  verify_status (snd (verify_files up0 hash0 (Some block0) [1; 2; 3] (lit "s.jar") None d)) = Done 0 /\
  verify_status (snd (verify_files up0 hash0 None [1; 2; 3] (lit "s.jar") None d)) = Done (-1) /\
  verify_status (snd (verify_files up0 hash0 None [1; 2; 3] (lit "u.jar") None d)) = Done 1.
Proof. vm_compute. repeat split. Qed.

(** Signing into another file needs leave to write to the jar that is only read: it is
    opened for appending. *)
Theorem C138_read_only_refuted : exists may_write jar output d z, may_write output = true /\ output <> jar /\
  dget d jar = Some (IZip z) /\ dget d output = None /\
  (exists z', sign up0 hash0 make0 (lit "RSA") z (lit "KEY") sha = Ok z') /\
  cli_sign up0 hash0 may_write (Some c0) (lit "/tmp/x") jar (lit "KEY") sha (Some output) d = (d, Fail OSError).
Proof.
  exists (fun p => negb (seqb p (lit "a.jar"))), (lit "a.jar"), (lit "new.jar"), disk0, jar0.
  split; [vm_compute; reflexivity|]. split; [vm_compute; discriminate|]. split; [reflexivity|]. split; [vm_compute; reflexivity|].
  split; [exists jar1; vm_compute; reflexivity|]. vm_compute. reflexivity.
Qed.
Print Assumptions C138_read_only_refuted.

(** jarutil c touches no file but the jar.  When nothing is raised the jar has the entries
    of C87.  When something is raised, the jar has either not been touched, since it cannot
    be written, or it is an archive with the entries of the arguments before the first that
    cannot be added, and perhaps some of that one; what was there before is lost. *)
Theorem C138_create : forall may_write fs jar paths d d' r, create_files may_write fs jar paths d = (d', r) ->
  only jar d d' /\
  match r with
  | Done _ => exists z, create_jar fs paths = Ok z /\ dget d' jar = Some (IZip z)
  | Fail e =>
      (d' = d /\ e = OSError /\ (dget d jar = Some IDir \/ may_write jar = false)) \/
      (exists before p after z part e', paths = before ++ p :: after /\ e = Raised e' /\ create_jar fs paths = Err e' /\
        create_jar fs before = Ok z /\ dget d' jar = Some (IZip (z ++ part)) /\
        match fs p with None => e' = FileNotFoundError /\ part = [] | Some n => write_tree p n = Err e' end)
  end.
Proof.
  intros may_write fs jar paths d d' r H. apply create_inv in H.
  destruct H as [(-> & -> & W)|(W & P & z & J & [[-> C]|(be & q & af & z0 & part & e & -> & -> & C & -> & T & N & C2)])].
  - split; [intros p _; reflexivity|]. left. repeat split. exact W.
  - split; [exact P|]. exists z. split; assumption.
  - split; [exact P|]. right. exists be, q, af, z0, part, e. split; [reflexivity|]. split; [reflexivity|]. split; [exact C2|].
    split; [exact C|]. split; [exact J|]. unfold tree_of in T. destruct (fs q) as [n|]; [exact T|].
    split; [congruence|apply N; reflexivity].
Qed.
Print Assumptions C138_create.
Example C138_create_ex :
  create_files all_ fs0 (lit "n.jar") [lit "d"] disk0 =
    (disk0 ++ [(lit "n.jar", IZip [(lit "META-INF/", []); (lit "META-INF/MANIFEST.MF", MV1); (lit "d/", []); (lit "d/sub/", []); (lit "d/alpha", [1]); (lit "d/sub/beta", [2])])], Done tt) /\
  create_files all_ fs0 (lit "dir") [lit "d"] disk0 = (disk0, Fail OSError).
Proof. vm_compute. split; reflexivity. Qed.
(** A name mistyped: the jar that was there is gone, and one without the file is in its
    place. *)
Theorem C138_create_refuted : exists fs jar paths d z d' z' e, dget d jar = Some (IZip z) /\
  create_files all_ fs jar paths d = (d', Fail e) /\ dget d' jar = Some (IZip z') /\ z' <> z /\ ~ In (lit "a/B.class") (map fst z') /\
  In (lit "a/B.class") (map fst z).
Proof.
  exists fs0, (lit "a.jar"), [lit "d"; lit "mistyped"], disk0, jar0. eexists. eexists. eexists.
  split; [reflexivity|]. split; [vm_compute; reflexivity|]. split; [vm_compute; reflexivity|].
  split; [vm_compute; discriminate|]. split.
  - vm_compute. intros H. repeat (destruct H as [H|H]; [discriminate|]). exact H.
  - vm_compute. tauto.
Qed.
Print Assumptions C138_create_refuted.

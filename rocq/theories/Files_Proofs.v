(** Proofs about Files_Model. *)
From Verif Require Import Base Pack_Model ConstPool_Model Manifest_Model Glob_Model Zip_Model.
From Verif Require Import Sign_Model Tool_Model Files_Model.

Lemma dget_dset {V} (d : dict V) k v k' : dget (dset d k v) k' = if seqb k' k then Some v else dget d k'.
Proof.
  induction d as [|[k0 v0] d IH]; cbn.
  - reflexivity.
  - destruct (seqb_spec k k0); cbn.
    + subst. destruct (seqb_spec k' k0); reflexivity.
    + rewrite IH. destruct (seqb_spec k' k0); destruct (seqb_spec k' k); congruence.
Qed.
Lemma dget_rm p (d : disk) q : dget (rm p d) q = if seqb q p then None else dget d q.
Proof.
  unfold rm. induction d as [|[k v] d IH]; cbn; [destruct (seqb q p); reflexivity|].
  destruct (seqb_spec k p); cbn.
  - rewrite IH. subst. destruct (seqb_spec q p); reflexivity.
  - rewrite IH. destruct (seqb_spec q k); destruct (seqb_spec q p); congruence.
Qed.

Section Proofs.
Variable up : Z -> str.
Variable hash : str -> bytes -> str.
Variable may_write : str -> bool.

(** An action that leaves every file as it is *)
Definition quiet {A} (m : act A) := forall d, fst (m d) = d.
Lemma quiet_lift A (r : res A) : quiet (lift r).
Proof. intros d. destruct r; reflexivity. Qed.
Lemma quiet_crypto A (c : option (out A)) : quiet (needs_crypto c).
Proof. intros d. destruct c as [[|]|]; reflexivity. Qed.
Lemma quiet_read p : quiet (open_read p).
Proof. intros d. unfold open_read. destruct (dget d p) as [[| |]|]; reflexivity. Qed.
Lemma quiet_append p : quiet (open_append may_write p).
Proof. intros d. unfold open_append. destruct (may_write p); [apply quiet_read|reflexivity]. Qed.

Lemma then_inv A B (m : act A) (k : A -> act B) d d' r : quiet m -> then_ m k d = (d', r) ->
  (exists e, m d = (d, Fail e) /\ d' = d /\ r = Fail e) \/ (exists a, m d = (d, Done a) /\ k a d = (d', r)).
Proof.
  intros Q H. unfold then_ in H. specialize (Q d). destruct (m d) as [d1 [a|e]]; cbn in Q; subst d1.
  - right. exists a. split; [reflexivity|exact H].
  - left. exists e. injection H as <- <-. repeat split.
Qed.
Lemma lift_done A (r : res A) d d' a : lift r d = (d', Done a) -> r = Ok a.
Proof. destruct r; cbn; intros H; [injection H as _ ->; reflexivity|discriminate]. Qed.
Lemma crypto_done A (c : option (out A)) d d' a : needs_crypto c d = (d', Done a) -> c = Some (Done a).
Proof. destruct c as [[x|e]|]; cbn; intros H; try discriminate. injection H as _ ->. reflexivity. Qed.
Lemma read_done p d d' z : open_read p d = (d', Done z) -> dget d p = Some (IZip z).
Proof. unfold open_read. destruct (dget d p) as [[x| |]|]; intros H; try discriminate. injection H as _ ->. reflexivity. Qed.

(** The blocks M2Crypto makes *)
Definition block_of (c : crypto) (alg : str) (b : bytes) : bytes := match c_block c alg b with Done s => s | Fail _ => [] end.
Definition target (jar : str) (output : option str) : str := match output with Some o => o | None => jar end.

(** The body of the with block *)
Lemma body_inv tmp jar dst d d' r (mk : zip -> zip) (lst : zip -> res zip) (mfr : res bytes) (mk' : bytes -> zip -> zip) :
  dget d tmp = None ->
  with_tmp tmp
    (mfd <<- lift mfr ;;;
     z2 <<- open_append may_write jar ;;;
     rest <<- lift (lst z2) ;;;
     _ <<- write may_write tmp (IZip (mk' mfd rest)) ;;;
     copyfile may_write tmp dst) d = (d', r) ->
  (exists e, r = Fail e /\ forall p, dget d' p = dget d p) \/
  (exists mfd z2 rest, r = Done tt /\ mfr = Ok mfd /\ dget (dset d tmp IRaw) jar = Some (IZip z2) /\ may_write jar = true /\ may_write dst = true /\
     lst z2 = Ok rest /\ dst <> tmp /\
     forall p, dget d' p = if seqb p dst then Some (IZip (mk' mfd rest)) else dget d p).
Proof.
  intros F H. unfold with_tmp in H.
  destruct (then_ _ _ (dset d tmp IRaw)) as [d1 r1] eqn:E. injection H as <- <-.
  assert (K : forall p, dget (rm tmp (dset d tmp IRaw)) p = dget d p).
  { intros p. rewrite dget_rm, dget_dset. destruct (seqb_spec p tmp); congruence. }
  apply then_inv in E; [|apply quiet_lift].
  destruct E as [(e & _ & -> & ->)|(mfd & E1 & E)]; [left; exists e; split; [reflexivity|exact K]|].
  apply lift_done in E1.
  apply then_inv in E; [|apply quiet_append].
  destruct E as [(e & _ & -> & ->)|(z2 & E2 & E)]; [left; exists e; split; [reflexivity|exact K]|].
  apply then_inv in E; [|apply quiet_lift].
  destruct E as [(e & _ & -> & ->)|(rest & E3 & E)]; [left; exists e; split; [reflexivity|exact K]|].
  apply lift_done in E3.
  unfold open_append in E2. destruct (may_write jar) eqn:MJ; [|discriminate].
  apply read_done in E2.
  unfold then_, write in E. rewrite dget_dset, seqb_refl in E.
  destruct (may_write tmp) eqn:MT.
  2:{ injection E as <- <-. left. eexists. split; [reflexivity|exact K]. }
  unfold copyfile in E.
  assert (K2 : forall i p, dget (rm tmp (dset (dset d tmp IRaw) tmp i)) p = dget d p).
  { intros i p. rewrite dget_rm, !dget_dset. destruct (seqb_spec p tmp); congruence. }
  destruct (seqb_spec tmp dst) as [->|N].
  { injection E as <- <-. left. eexists. split; [reflexivity|apply K2]. }
  rewrite dget_dset, seqb_refl in E. unfold write in E.
  destruct (dget (dset (dset d tmp IRaw) tmp (IZip (mk' mfd rest))) dst) as [[| |]|] eqn:G;
    [| |injection E as <- <-; left; eexists; split; [reflexivity|apply K2]|].
  all: (destruct (may_write dst) eqn:MD; injection E as <- <-;
      [|left; eexists; split; [reflexivity|apply K2]]).
  all: (right; exists mfd, z2, rest; repeat split; try assumption; try congruence;
      intros p; rewrite dget_rm, !dget_dset;
      destruct (seqb_spec p tmp); destruct (seqb_spec p dst); congruence).
Qed.

Lemma sign_inv m2 tmp jar alias alg output d d' r :
  dget d tmp = None -> sign_files up hash may_write m2 tmp jar alias alg output d = (d', r) ->
  (exists e, r = Fail e /\ forall p, dget d' p = dget d p) \/
  (exists c z ext sfd sig z', m2 = Some c /\ r = Done tt /\ dget d jar = Some (IZip z) /\ c_key c = Done ext /\ c_block c alg sfd = Done sig /\
     In (META ++ alias ++ lit ".SF", sfd) z' /\ may_write jar = true /\ may_write (target jar output) = true /\
     sign up hash (block_of c) ext z alias alg = Ok z' /\
     forall p, dget d' p = if seqb p (target jar output) then Some (IZip z') else dget d p).
Proof.
  intros F H. unfold sign_files in H.
  apply then_inv in H; [|apply quiet_read].
  destruct H as [(e & _ & -> & ->)|(z & E1 & H)]; [left; exists e; split; reflexivity|].
  apply read_done in E1.
  apply then_inv in H; [|apply quiet_lift].
  destruct H as [(e & _ & -> & ->)|(mf0 & E2 & H)]; [left; exists e; split; reflexivity|]. apply lift_done in E2.
  apply then_inv in H; [|apply quiet_lift].
  destruct H as [(e & _ & -> & ->)|(mf & E3 & H)]; [left; exists e; split; reflexivity|]. apply lift_done in E3.
  apply then_inv in H; [|apply quiet_lift].
  destruct H as [(e & _ & -> & ->)|(sf & E4 & H)]; [left; exists e; split; reflexivity|]. apply lift_done in E4.
  apply then_inv in H; [|apply quiet_crypto].
  destruct H as [(e & _ & -> & ->)|(ext & E5 & H)]; [left; exists e; split; reflexivity|]. apply crypto_done in E5.
  apply then_inv in H; [|apply quiet_lift].
  destruct H as [(e & _ & -> & ->)|(sfd & E6 & H)]; [left; exists e; split; reflexivity|]. apply lift_done in E6.
  apply then_inv in H; [|apply quiet_crypto].
  destruct H as [(e & _ & -> & ->)|(sig & E7 & H)]; [left; exists e; split; reflexivity|]. apply crypto_done in E7.
  destruct m2 as [c|]; [|discriminate]. cbn in E5, E7.
  injection E5 as E5. injection E7 as E7.
  apply (body_inv tmp jar (target jar output) d d' r (fun x => x)
    (fun z2 => mapM (fun n => b <- zread z2 n ;; Ok (n, b)) (filter (fun n => negb (seqb (upper up n) MANIFEST_NAME)) (namelist z2)))
    (man_data mf None)
    (fun mfd rest => (MANIFEST_NAME, mfd) :: (META ++ alias ++ lit ".SF", sfd) :: (META ++ alias ++ [46] ++ ext, sig) :: rest) F) in H.
  destruct H as [H|(mfd & z2 & rest & -> & B1 & B2 & B3 & B3' & B4 & B5 & B6)]; [left; exact H|right].
  assert (Z2 : z2 = z).
  { rewrite dget_dset in B2. destruct (seqb jar tmp); congruence. }
  subst z2.
  exists c, z, ext, sfd, sig, ((MANIFEST_NAME, mfd) :: (META ++ alias ++ lit ".SF", sfd) :: (META ++ alias ++ [46] ++ ext, sig) :: rest). split; [reflexivity|]. split; [reflexivity|]. split; [exact E1|].
  split; [exact E5|]. split; [exact E7|].
  split; [right; left; reflexivity|]. split; [exact B3|]. split; [exact B3'|]. split; [|exact B6].
  unfold sign. rewrite E2. cbn [rbind]. rewrite E3. cbn [rbind]. rewrite E4. cbn [rbind]. rewrite E6. cbn [rbind].
  rewrite B1. cbn [rbind]. rewrite B4. unfold block_of. rewrite E7. reflexivity.
Qed.

(** Signing goes through when all it needs is there *)
Lemma sign_go c tmp jar alias alg output d z ext z0 :
  dget d tmp = None -> dget d jar = Some (IZip z) -> c_key c = Done ext -> (forall b, exists s, c_block c alg b = Done s) ->
  may_write jar = true -> may_write tmp = true -> may_write (target jar output) = true -> target jar output <> tmp ->
  dget d (target jar output) <> Some IDir ->
  (exists f, sign up hash f ext z alias alg = Ok z0) ->
  snd (sign_files up hash may_write (Some c) tmp jar alias alg output d) = Done tt.
Proof.
  intros F J K B MJ MT MO NT ND [f S]. unfold sign in S.
  unfold sign_files, then_ at 1, open_read. rewrite J.
  destruct (load_from_jar _ z) as [mf0|]; [|discriminate]. cbn [rbind] in S. unfold lift at 1, ret, then_ at 1.
  destruct (add_jar_entries up hash mf0 z alg) as [mf|]; [|discriminate]. cbn [rbind] in S. unfold lift at 1, ret, then_ at 1.
  destruct (digest_manifest hash _ mf alg) as [sf|]; [|discriminate]. cbn [rbind] in S. unfold lift at 1, ret, then_ at 1.
  cbn [option_map]. rewrite K. unfold needs_crypto at 1, lift_out at 1, ret, then_ at 1.
  destruct (man_data sf None) as [sfd|]; [|discriminate]. cbn [rbind] in S. unfold lift at 1, ret, then_ at 1.
  destruct (B sfd) as [s Bs]. rewrite Bs. unfold needs_crypto, lift_out, ret, then_ at 1.
  destruct (man_data mf None) as [mfd|]; [|discriminate]. cbn [rbind] in S.
  unfold with_tmp, lift at 1, ret, then_ at 1, open_append. rewrite MJ. unfold then_ at 1, open_read.
  assert (JT : seqb jar tmp = false) by (apply seqb_neq; intros ->; congruence).
  rewrite dget_dset, JT, J.
  destruct (mapM _ _) as [rest|]; [|discriminate]. cbn [rbind] in S.
  unfold lift, ret, then_ at 1. unfold then_, write at 1. rewrite dget_dset, seqb_refl, MT.
  unfold copyfile. fold (target jar output).
  assert (NT' : seqb tmp (target jar output) = false) by (apply seqb_neq; congruence).
  rewrite NT'. rewrite dget_dset, seqb_refl. unfold write. rewrite !dget_dset, (seqb_sym (target jar output)), NT', MO.
  destruct (dget d (target jar output)) as [[| |]|]; try reflexivity. congruence.
Qed.

(** Without M2Crypto *)
Lemma sign_none tmp jar alias alg output d d' r :
  sign_files up hash may_write None tmp jar alias alg output d = (d', r) -> d' = d /\ exists e, r = Fail e.
Proof.
  intros H. unfold sign_files in H.
  apply then_inv in H; [|apply quiet_read].
  destruct H as [(e & _ & -> & ->)|(z & E1 & H)]; [split; [|exists e]; reflexivity|].
  apply then_inv in H; [|apply quiet_lift].
  destruct H as [(e & _ & -> & ->)|(mf0 & E2 & H)]; [split; [|exists e]; reflexivity|].
  apply then_inv in H; [|apply quiet_lift].
  destruct H as [(e & _ & -> & ->)|(mf & E3 & H)]; [split; [|exists e]; reflexivity|].
  apply then_inv in H; [|apply quiet_lift].
  destruct H as [(e & _ & -> & ->)|(sf & E4 & H)]; [split; [|exists e]; reflexivity|].
  cbn in H. injection H as <- <-. split; [|eexists]; reflexivity.
Qed.
Lemma sign_none_status tmp jar alias alg output d z f ext z0 :
  dget d jar = Some (IZip z) -> sign up hash f ext z alias alg = Ok z0 ->
  cli_sign up hash may_write None tmp jar alias alg output d = (d, Done (-1)).
Proof.
  intros J S. unfold sign in S. unfold cli_sign, sign_files, then_ at 1, open_read. rewrite J.
  destruct (load_from_jar _ z) as [mf0|]; [|discriminate]. cbn [rbind] in S. unfold lift at 1, ret, then_ at 1.
  destruct (add_jar_entries up hash mf0 z alg) as [mf|]; [|discriminate]. cbn [rbind] in S. unfold lift at 1, ret, then_ at 1.
  destruct (digest_manifest hash _ mf alg) as [sf|]; [|discriminate]. cbn [rbind] in S. unfold lift at 1, ret, then_ at 1.
  reflexivity.
Qed.

Lemma verify_quiet ok cert jar sf_name : quiet (verify_files up hash ok cert jar sf_name).
Proof.
  intros d. destruct (verify_files up hash ok cert jar sf_name d) as [d' r] eqn:H. cbn. unfold verify_files in H.
  apply then_inv in H; [|apply quiet_read].
  destruct H as [(e & _ & -> & ->)|(z & E1 & H)]; [reflexivity|].
  apply then_inv in H; [|apply quiet_lift].
  destruct H as [(e & _ & -> & ->)|(f & E2 & H)]; [reflexivity|].
  apply then_inv in H; [|apply quiet_lift].
  destruct H as [(e & _ & -> & ->)|(sd & E3 & H)]; [reflexivity|].
  apply then_inv in H; [|apply quiet_lift].
  destruct H as [(e & _ & -> & ->)|(bk & E4 & H)]; [reflexivity|].
  apply then_inv in H; [|apply quiet_lift].
  destruct H as [(e & _ & -> & ->)|(sg & E5 & H)]; [reflexivity|].
  destruct ok as [o|].
  - pose proof (quiet_lift _ (verify up hash o cert z sf_name) d) as Q. rewrite H in Q. exact Q.
  - unfold fail in H. injection H as <- _. reflexivity.
Qed.
Lemma verify_done ok cert jar sf_name d u : snd (verify_files up hash ok cert jar sf_name d) = Done u ->
  exists o z, ok = Some o /\ dget d jar = Some (IZip z) /\ verify up hash o cert z sf_name = Ok tt.
Proof.
  destruct (verify_files up hash ok cert jar sf_name d) as [d' r] eqn:H. cbn. intros ->. unfold verify_files in H.
  apply then_inv in H; [|apply quiet_read].
  destruct H as [(e & _ & -> & K)|(z & E1 & H)]; [discriminate|]. apply read_done in E1.
  apply then_inv in H; [|apply quiet_lift].
  destruct H as [(e & _ & -> & K)|(f & E2 & H)]; [discriminate|].
  apply then_inv in H; [|apply quiet_lift].
  destruct H as [(e & _ & -> & K)|(sd & E3 & H)]; [discriminate|].
  apply then_inv in H; [|apply quiet_lift].
  destruct H as [(e & _ & -> & K)|(bk & E4 & H)]; [discriminate|].
  apply then_inv in H; [|apply quiet_lift].
  destruct H as [(e & _ & -> & K)|(sg & E5 & H)]; [discriminate|].
  destruct ok as [o|]; [|discriminate].
  exists o, z. split; [reflexivity|]. split; [exact E1|]. apply lift_done in H. rewrite H. destruct u. reflexivity.
Qed.

(** ** Creating *)
Variable fs : str -> option node.
Lemma write_all_ok l : forall z o, write_all l = (z, o) ->
  match mapM (fun pn : str * node => zip_write (fst pn) (snd pn)) l with
  | Ok z' => o = Done tt /\ z = z'
  | Err e => o = Fail (Raised e)
  end.
Proof.
  induction l as [|[p n] l IH]; cbn [write_all mapM fst snd]; intros z o H.
  - injection H as <- <-. split; reflexivity.
  - destruct (zip_write p n) as [x|e]; cbn [rbind]; [|injection H as <- <-; reflexivity].
    destruct (write_all l) as [z1 o1]. injection H as <- <-. specialize (IH z1 o1 eq_refl).
    destruct (mapM _ l) as [z'|e]; cbn [rbind]; [|exact IH]. destruct IH as [-> ->]. split; reflexivity.
Qed.
Lemma write_tree_ok p n z o : write_all ((p, n) :: below p n) = (z, o) ->
  match write_tree p n with Ok z' => o = Done tt /\ z = z' | Err e => o = Fail (Raised e) end.
Proof.
  intros H. apply write_all_ok in H. cbn [mapM fst snd] in H. unfold write_tree. fold (below p n).
  destruct (zip_write p n) as [x|e]; cbn [rbind] in *; [|exact H].
  destruct (mapM _ (below p n)) as [z'|e]; cbn [rbind] in *; exact H.
Qed.
Definition tree_of (p : str) : res zip := match fs p with Some n => write_tree p n | None => Err FileNotFoundError end.
Lemma write_args_ok paths : forall z o, write_args fs paths = (z, o) ->
  (exists parts, mapM tree_of paths = Ok parts /\ o = Done tt /\ z = concat parts) \/
  (exists before p after parts part e, paths = before ++ p :: after /\ mapM tree_of before = Ok parts /\
     tree_of p = Err e /\ o = Fail (Raised e) /\ z = concat parts ++ part /\ (fs p = None -> part = [])).
Proof.
  induction paths as [|p paths IH]; cbn [write_args]; intros z o H.
  - injection H as <- <-. left. exists []. repeat split.
  - destruct (fs p) as [n|] eqn:Fp.
    2:{ injection H as <- <-. right. exists [], p, paths, [], [], FileNotFoundError.
        unfold tree_of. rewrite Fp. repeat split. }
    destruct (write_all ((p, n) :: below p n)) as [z1 o1] eqn:W. apply write_tree_ok in W.
    destruct (write_tree p n) as [z'|e] eqn:T.
    + destruct W as [-> ->]. destruct (write_args fs paths) as [z2 o2]. injection H as <- <-.
      assert (TP : tree_of p = Ok z') by (unfold tree_of; rewrite Fp; exact T).
      destruct (IH z2 o2 eq_refl) as [(parts & M & -> & ->)|(be & q & af & parts & part & e & -> & M & TQ & -> & -> & N)].
      * left. exists (z' :: parts). cbn [mapM]. rewrite TP. cbn [rbind]. rewrite M. repeat split.
      * right. exists (p :: be), q, af, (z' :: parts), part, e. cbn [mapM]. rewrite TP. cbn [rbind]. rewrite M.
        cbn [concat]. rewrite app_assoc. repeat split; assumption.
    + subst o1. injection H as <- <-. right. exists [], p, paths, [], z1, e.
      unfold tree_of. rewrite Fp. repeat split; [exact T|discriminate].
Qed.

Lemma create_inv jar paths d d' r : create_files may_write fs jar paths d = (d', r) ->
  ((d' = d /\ r = Fail OSError /\ (dget d jar = Some IDir \/ may_write jar = false)) \/
   (may_write jar = true /\ (forall p, p <> jar -> dget d' p = dget d p) /\ exists z, dget d' jar = Some (IZip z) /\
     ((r = Done tt /\ create_jar fs paths = Ok z) \/
      exists before p after z0 part e, r = Fail (Raised e) /\ paths = before ++ p :: after /\ create_jar fs before = Ok z0 /\
        z = z0 ++ part /\ tree_of p = Err e /\ (fs p = None -> part = []) /\ create_jar fs paths = Err e))).
Proof.
  intros H. unfold create_files in H. unfold then_ at 1 in H. unfold write at 1 in H.
  destruct (dget d jar) as [[zz| |]|] eqn:G.
  3:{ injection H as <- <-. left. repeat split. left. reflexivity. }
  all: (destruct (may_write jar) eqn:W; [|injection H as <- <-; left; repeat split; right; reflexivity]; right; split; [reflexivity|]).
  all: (
    destruct (man_data (new_manifest None) None) as [mf|] eqn:M; [|vm_compute in M; discriminate];
    unfold lift, ret in H; unfold then_ at 1 in H; destruct (write_args fs paths) as [z o] eqn:A;
    unfold then_, write in H; rewrite dget_dset, seqb_refl, W in H;
    assert (R : d' = dset (dset d jar IRaw) jar (IZip ((lit "META-INF/", []) :: (MANIFEST_NAME, mf) :: z)) /\ r = o)
      by (destruct o as [[]|]; cbn in H; injection H as <- <-; split; reflexivity);
    clear H; destruct R as [-> ->];
    split; [intros p N; rewrite !dget_dset; apply seqb_neq in N; rewrite N; reflexivity|];
    eexists; split; [rewrite dget_dset, seqb_refl; reflexivity|];
    apply write_args_ok in A; destruct A as [(parts & MP & -> & ->)|(be & q & af & parts & part & e & -> & MP & TQ & -> & -> & N)];
    [left; split; [reflexivity|]; unfold create_jar; rewrite M; cbn [rbind]; unfold tree_of in MP; rewrite MP; reflexivity
    |right; exists be, q, af; eexists; exists part, e; split; [reflexivity|]; split; [reflexivity|];
     split; [unfold create_jar; rewrite M; cbn [rbind]; unfold tree_of in MP; rewrite MP; reflexivity|];
     split; [reflexivity|]; split; [exact TQ|]; split; [exact N|]]).
  all: (unfold create_jar; rewrite M; cbn [rbind];
    assert (X : mapM tree_of (be ++ q :: af) = Err e);
    [clear - MP TQ; revert parts MP; induction be as [|b be IH]; intros parts MP; cbn [app mapM] in *;
      [rewrite TQ; reflexivity
      |destruct (tree_of b) as [x|]; cbn [rbind] in *; [|discriminate]; destruct (mapM tree_of be) as [y|]; cbn [rbind] in *; [|discriminate];
       rewrite (IH y eq_refl); reflexivity]
    |unfold tree_of in X; rewrite X; reflexivity]).
Qed.
End Proofs.

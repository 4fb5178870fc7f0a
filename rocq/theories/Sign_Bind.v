(** Proofs: signature files agree with, and bind, the manifest. *)
From Verif Require Import Base ConstPool_Model Manifest_Model Manifest_Spec Manifest_Proofs Manifest_RT Manifest_Canon
  Sign_Model Sign_Spec Sign_Proofs.
From Coq Require Import Permutation.

Lemma dset_last {V} (d : dict V) k v w : ~ In k (dkeys d) -> dset (d ++ [(k, v)]) k w = d ++ [(k, w)].
Proof.
  induction d as [|[k' v'] d IH]; intro H; cbn [app dset]; [now rewrite seqb_refl|].
  destruct (seqb_spec k k') as [->|]; [exfalso; apply H; now left|]. rewrite IH; [reflexivity|].
  intro; apply H; now right.
Qed.
Lemma alg_len A suf : In A algs -> a_suffix suf -> (Z.of_nat (length (A ++ suf)) >? 68) = false.
Proof.
  intros HA Hs. assert (HL : (length A <= 7)%nat) by (destruct HA as [<-|[<-|[<-|[<-|[<-|[]]]]]]; cbn; lia).
  assert (HL2 : (length suf <= 32)%nat) by (destruct Hs as [->|[->| ->]]; cbn; lia).
  rewrite app_length. unfold str in *. lia.
Qed.
Lemma alg_not_name A suf : a_suffix suf -> In A algs -> seqb (A ++ suf) K_Name = false /\ seqb (A ++ suf) K_SV = false.
Proof. intros Hs HA. destruct HA as [<-|[<-|[<-|[<-|[<-|[]]]]]]; destruct Hs as [->|[->| ->]]; split; vm_compute; reflexivity. Qed.
Lemma alg_inj (A B suf : str) : A ++ suf = B ++ suf -> A = B.
Proof. apply app_inv_tail. Qed.

Definition sfmain (alg v h1 h2 : str) : section := [(K_SV, v); (alg ++ SUF_MAIN, h1); (alg ++ SUF_ALL, h2)].

Section Env.
Variable hash : str -> bytes -> str.

Definition sfsec (alg n : str) (d : bytes) : section := [(K_Name, n); (alg ++ SUF, hash alg d)].

Lemma set_new_section sf n alg d : In alg algs -> ~ In n (dkeys (m_subs sf)) ->
  (let '(_, sf1) := create_section sf n in set_in_section sf1 n (alg ++ SUF) (hash alg d)) =
  Ok (mkman (m_primary_key sf) (m_main sf) (m_subs sf ++ [(n, sfsec alg n d)]) (m_linesep sf)).
Proof.
  intros HA Hn. unfold create_section, set_in_section. cbn [m_subs m_primary_key m_main m_linesep].
  rewrite dget_dset, seqb_refl. unfold sec_set. rewrite alg_len by (try exact HA; now left). cbn [rbind].
  rewrite (dset_new (m_subs sf)) by exact Hn. rewrite dset_last by exact Hn. unfold new_section. cbn [dset].
  destruct (alg_not_name alg SUF) as [-> _]; [now left|exact HA|]. reflexivity.
Qed.

Lemma digest_sections_ok alg ls : In alg algs -> forall (subs : dict section) sf accum ds,
  Forall (fun ns => dget (snd ns) K_Name = Some (fst ns)) subs ->
  NoDup (dkeys (m_subs sf) ++ map fst subs) ->
  mapM (fun s => sec_data s (Some ls)) (map snd subs) = Ok ds ->
  digest_sections hash sf alg ls accum (map snd subs) =
    Ok (mkman (m_primary_key sf) (m_main sf)
          (m_subs sf ++ map (fun nd => (fst nd, sfsec alg (fst nd) (snd nd))) (combine (map fst subs) ds)) (m_linesep sf),
        accum ++ concat ds).
Proof.
  intro HA. induction subs as [|[n s] subs IH]; intros sf accum ds HF HN HM; cbn [map snd fst mapM digest_sections] in *.
  - apply ok_inj in HM. subst ds. cbn. rewrite !app_nil_r. destruct sf; reflexivity.
  - destruct (sec_data s (Some ls)) as [d|] eqn:ED; [|discriminate]. cbn [rbind] in *.
    destruct (mapM _ (map snd subs)) as [ds'|] eqn:EM; [|discriminate]. cbn [rbind] in HM. apply ok_inj in HM. subst ds.
    inversion HF as [|? ? H1 H2]; subst. cbn [fst snd] in H1. unfold primary. rewrite H1. cbn [rbind].
    assert (Hn : ~ In n (dkeys (m_subs sf))).
    { apply NoDup_remove_2 in HN. intro. apply HN. apply in_or_app. now left. }
    pose proof (set_new_section sf n alg d HA Hn) as HS. destruct (create_section sf n) as [x sf1]. rewrite HS. cbn [rbind].
    rewrite (IH _ _ ds' H2); cbn [m_subs m_main m_primary_key m_linesep].
    + cbn [combine map fst snd concat]. rewrite <- !app_assoc. reflexivity.
    + unfold dkeys. rewrite map_app. cbn [map fst]. rewrite <- app_assoc. exact HN.
    + reflexivity.
Qed.

(** What a signature file made from a manifest contains. *)
Lemma digest_manifest_ok mf alg ls lo mn ds : In alg algs -> well_named mf -> or_linesep (m_linesep mf) os_linesep = ls ->
  sec_data (m_main mf) (Some ls) = Ok mn ->
  mapM (fun s => sec_data s (Some ls)) (map snd (m_subs mf)) = Ok ds ->
  digest_manifest hash (new_sigmanifest lo) mf alg =
    Ok (mkman K_SV (sfmain alg (lit "1.0") (hash alg mn) (hash alg (mn ++ concat ds)))
          (map (fun nd => (fst nd, sfsec alg (fst nd) (snd nd))) (combine (map fst (m_subs mf)) ds)) lo).
Proof.
  intros HA (HN & HF) EL EM ED. unfold digest_manifest. cbv zeta. rewrite (proj2 (smem_alg alg) HA). cbn [negb].
  unfold get_main_section, man_linesep. cbn [or_linesep]. rewrite EL, EM. cbn [rbind]. unfold set_main at 1, sec_set at 1.
  rewrite alg_len by (try exact HA; now right; right). cbn [rbind m_main new_sigmanifest dset].
  destruct (alg_not_name alg SUF_MAIN) as [_ ->]; [now right; right|exact HA|]. cbn [m_primary_key m_subs m_linesep new_sigmanifest].
  erewrite digest_sections_ok; [|exact HA|exact HF|exact HN|exact ED]. cbn [rbind m_subs m_main m_primary_key m_linesep app].
  unfold set_main, sec_set. cbn [m_main m_subs m_primary_key m_linesep].
  rewrite alg_len by (try exact HA; now right; left). cbn [rbind dset].
  destruct (alg_not_name alg SUF_ALL) as [_ ->]; [now right; left|exact HA|].
  assert (E : seqb (alg ++ SUF_ALL) (alg ++ SUF_MAIN) = false).
  { clear -HA. destruct HA as [<-|[<-|[<-|[<-|[<-|[]]]]]]; vm_compute; reflexivity. }
  rewrite E. reflexivity.
Qed.

Lemma main_keys (alg h1 h2 v : str) : In alg algs ->
  keys_with_suffix (sfmain alg v h1 h2) SUF_ALL = [alg] /\
  keys_with_suffix (sfmain alg v h1 h2) SUF_MAIN = [alg].
Proof. intro HA. destruct HA as [<-|[<-|[<-|[<-|[<-|[]]]]]]; split; vm_compute; reflexivity. Qed.
Lemma main_get (alg h1 h2 v A suf d : str) : In alg algs -> suf = SUF_ALL \/ suf = SUF_MAIN ->
  dget (sfmain alg v h1 h2) (A ++ suf) = Some d -> In A algs ->
  A = alg /\ d = (if seqb suf SUF_ALL then h2 else h1).
Proof.
  intros HA Hs H HA'. unfold sfmain in H. cbn [dget] in H.
  assert (E1 : seqb (A ++ suf) K_SV = false) by (destruct Hs as [->| ->]; apply alg_not_name; try exact HA'; unfold a_suffix; auto).
  rewrite E1 in H. destruct Hs as [->| ->].
  - assert (E2 : seqb (A ++ SUF_ALL) (alg ++ SUF_MAIN) = false).
    { clear -HA HA'. destruct HA as [<-|[<-|[<-|[<-|[<-|[]]]]]]; destruct HA' as [<-|[<-|[<-|[<-|[<-|[]]]]]]; vm_compute; reflexivity. }
    rewrite E2 in H. rewrite seqb_refl. destruct (seqb_spec (A ++ SUF_ALL) (alg ++ SUF_ALL)) as [E|]; [|discriminate].
    apply alg_inj in E. injection H as <-. auto.
  - change (seqb SUF_MAIN SUF_ALL) with false.
    destruct (seqb_spec (A ++ SUF_MAIN) (alg ++ SUF_MAIN)) as [E|].
    + apply alg_inj in E. injection H as <-. auto.
    + assert (E2 : seqb (A ++ SUF_MAIN) (alg ++ SUF_ALL) = false).
      { clear -HA HA'. destruct HA as [<-|[<-|[<-|[<-|[<-|[]]]]]]; destruct HA' as [<-|[<-|[<-|[<-|[<-|[]]]]]]; vm_compute; reflexivity. }
      rewrite E2 in H. discriminate.
Qed.
Lemma sfsec_get alg n d A v : In A algs -> dget (sfsec alg n d) (A ++ SUF) = Some v -> A = alg /\ v = hash alg d.
Proof.
  intros HA H. unfold sfsec in H. cbn [dget] in H. destruct (alg_not_name A SUF) as [E _]; [now left|exact HA|]. rewrite E in H.
  destruct (seqb_spec (A ++ SUF) (alg ++ SUF)) as [E2|]; [|discriminate]. apply alg_inj in E2. injection H as <-. auto.
Qed.

Lemma mapM_Forall2 {A B} (f : A -> res B) : forall l r, mapM f l = Ok r -> Forall2 (fun a b => f a = Ok b) l r.
Proof.
  induction l as [|a l IH]; intros r H; cbn [mapM] in H; [apply ok_inj in H; subst; constructor|].
  destruct (f a) as [b|] eqn:E; [|discriminate]. cbn [rbind] in H. destruct (mapM f l) as [bs|]; [|discriminate].
  apply ok_inj in H. subst r. constructor; auto.
Qed.

(** The sections of the signature file, by name. *)
Definition sf_subs (alg : str) (subs : dict section) (ds : list bytes) : dict section :=
  map (fun nd => (fst nd, sfsec alg (fst nd) (snd nd))) (combine (map fst subs) ds).
Lemma sf_subs_keys alg (subs : dict section) : forall ds, length ds = length subs -> map fst (sf_subs alg subs ds) = map fst subs.
Proof.
  unfold sf_subs. induction subs as [|[n s] subs IH]; intros [|d ds] H; try discriminate; [reflexivity|].
  cbn [map fst combine]. f_equal. apply IH. now injection H.
Qed.
Lemma sf_subs_get alg ls (subs : dict section) : forall ds, NoDup (map fst subs) ->
  mapM (fun s => sec_data s (Some ls)) (map snd subs) = Ok ds ->
  forall n x, dget (sf_subs alg subs ds) n = Some x <->
    exists s d, In (n, s) subs /\ sec_data s (Some ls) = Ok d /\ x = sfsec alg n d.
Proof.
  induction subs as [|[n0 s0] subs IH]; intros ds HN HM n x.
  - cbn [map mapM] in HM. apply ok_inj in HM. subst ds. cbn. split; [discriminate|]. intros (s & d & [] & _).
  - cbn [map mapM snd] in HM. destruct (sec_data s0 (Some ls)) as [d0|] eqn:ED; [|discriminate]. cbn [rbind] in HM.
    destruct (mapM _ (map snd subs)) as [ds'|] eqn:EM; [|discriminate]. cbn [rbind] in HM. apply ok_inj in HM. subst ds.
    cbn [map fst] in HN. inversion HN as [|? ? H1 H2]; subst.
    unfold sf_subs. cbn [map fst snd combine dget]. fold (sf_subs alg subs ds').
    destruct (seqb_spec n n0) as [->|Hn].
    + split.
      * intro H. injection H as <-. exists s0, d0. split; [now left|auto].
      * intros (s & d & [E|HI] & Hd & ->).
        -- injection E as <-. rewrite ED in Hd. apply ok_inj in Hd. now subst.
        -- exfalso. apply H1. apply in_map_iff. now exists (n0, s).
    + rewrite (IH ds' H2 eq_refl). split.
      * intros (s & d & HI & Hd). exists s, d. split; [now right|exact Hd].
      * intros (s & d & [E|HI] & Hd); [congruence|]. now exists s, d.
Qed.

(** ** C29: what was digested verifies *)
Lemma verify_sections_ok sf ls : forall secs,
  (forall s, In s secs -> exists n sfs A d, dget s K_Name = Some n /\ dget (m_subs sf) n = Some sfs /\
     digests_supported s /\ In A algs /\ In (A ++ SUF) (dkeys s) /\
     sec_data s ls = Ok d /\ dget sfs (A ++ SUF) = Some (hash A d)) ->
  verify_sections hash sf ls true secs = Ok ([], sf).
Proof.
  induction secs as [|s secs IH]; intro H; [reflexivity|]. cbn [verify_sections].
  destruct (H s (or_introl eq_refl)) as (n & sfs & A & d & H1 & H2 & H3 & H4 & H5 & H6 & H7).
  unfold primary. rewrite H1. cbn [rbind]. unfold get_or_create_section. rewrite H2.
  assert (HI : In A (keys_with_suffix s SUF)) by (apply keys_alg; [now left|exact H4|exact H5]).
  assert (HE : empty (keys_with_suffix s SUF) = false) by (destruct (keys_with_suffix s SUF); [contradiction|reflexivity]).
  rewrite HE. cbn [andb]. rewrite H6. rewrite (some_match_found hash sfs SUF d _ A); [|now apply keys_supported|exact HI|exact H7].
  cbn [rbind]. rewrite IH; [reflexivity|]. intros; apply H; now right.
Qed.

Lemma man_data_parts m ls d : man_linesep m None = ls -> man_data m None = Ok d ->
  exists mn ks ds, sec_data (m_main m) (Some ls) = Ok mn /\ mapM sec_key (map snd (m_subs m)) = Ok ks /\
    mapM (fun x => sec_data (snd x) (Some ls)) (sort_secs ks) = Ok ds /\ d = mn ++ concat ds.
Proof.
  intros EL H. unfold man_data in H. cbv zeta in H. rewrite EL in H.
  destruct (sec_data (m_main m) (Some ls)) as [mn|]; [|discriminate]. cbn [rbind] in H.
  destruct (mapM sec_key (map snd (m_subs m))) as [ks|]; [|discriminate]. cbn [rbind] in H.
  destruct (mapM _ (sort_secs ks)) as [ds|] eqn:E; [|discriminate]. cbn [rbind] in H. apply ok_inj in H. subst d.
  exists mn, ks, ds. auto.
Qed.
Lemma mapM_key_snd : forall l ks, mapM sec_key l = Ok ks -> map snd ks = l.
Proof.
  induction l as [|s l IH]; intros ks H; cbn [mapM] in H; [apply ok_inj in H; now subst|].
  unfold sec_key at 1 in H. destruct (sec_data s (Some os_linesep)) as [d|]; [|discriminate]. cbn [rbind] in H.
  destruct (mapM sec_key l) as [ks'|]; [|discriminate]. apply ok_inj in H. subst ks. cbn [map snd]. f_equal. now apply IH.
Qed.
(** The sections in insertion order can be written whenever the manifest can. *)
Lemma man_data_sections m ls d : man_linesep m None = ls -> man_data m None = Ok d ->
  exists mn ds, sec_data (m_main m) (Some ls) = Ok mn /\
    mapM (fun s => sec_data s (Some ls)) (map snd (m_subs m)) = Ok ds /\
    exists ds', Permutation ds ds' /\ d = mn ++ concat ds'.
Proof.
  intros EL H. destruct (man_data_parts m ls d EL H) as (mn & ks & ds & E1 & E2 & E3 & E4).
  rewrite <- (mapM_map (fun s => sec_data s (Some ls)) snd) in E3.
  assert (HP : Permutation (map snd (sort_secs ks)) (map snd (m_subs m))).
  { rewrite sort_secs_map_snd. now rewrite (mapM_key_snd _ _ E2). }
  destruct (mapM_perm _ _ _ HP ds E3) as (ds2 & E5 & HP2). exists mn, ds2. split; [exact E1|]. split; [exact E5|].
  exists ds. split; [now symmetry|exact E4].
Qed.

Lemma man_linesep_some m ls : m_linesep m = Some ls -> ls = lf \/ ls = crlf ->
  man_linesep m None = ls /\ or_linesep (m_linesep m) os_linesep = ls.
Proof. intros E H. unfold man_linesep. cbn [or_linesep]. rewrite E. destruct H as [->| ->]; split; reflexivity. Qed.

Lemma digest_verifies mf alg ls lo data : In alg algs -> well_named mf -> m_linesep mf = Some ls -> ls = lf \/ ls = crlf ->
  man_data mf None = Ok data ->
  Forall (fun ns => In (alg ++ SUF) (dkeys (snd ns)) /\ digests_supported (snd ns)) (m_subs mf) ->
  exists sf, digest_manifest hash (new_sigmanifest lo) mf alg = Ok sf /\ verify_manifest hash sf mf = Ok [].
Proof.
  intros HA HW EL Hls HD HF. destruct (man_linesep_some mf ls EL Hls) as [EL1 EL2].
  destruct (man_data_sections mf ls data EL1 HD) as (mn & ds & E1 & E2 & _).
  rewrite (digest_manifest_ok mf alg ls lo mn ds HA HW EL2 E1 E2). eexists. split; [reflexivity|].
  fold (sf_subs alg (m_subs mf) ds).
  unfold verify_manifest, verify_manifest_main_checksum, verify_manifest_main_attributes_checksum. cbn [m_main].
  destruct (main_keys alg (hash alg mn) (hash alg (mn ++ concat ds)) (lit "1.0") HA) as [-> ->].
  rewrite HD. destruct (some_match_ok hash (sfmain alg (lit "1.0") (hash alg mn) (hash alg (mn ++ concat ds)))
    SUF_ALL data [alg]) as (r & ->). { intros A [<-|[]]; exact HA. }
  cbn [rbind]. destruct r; [reflexivity|].
  unfold get_main_section. rewrite EL1, E1.
  rewrite (some_match_found hash _ SUF_MAIN mn [alg] alg).
  - cbn [rbind negb]. unfold verify_manifest_entry_checksums. rewrite EL. rewrite verify_sections_ok; [reflexivity|].
    intros s Hs. apply in_map_iff in Hs as ([n s'] & <- & Hns). cbn [snd]. destruct HW as (HN & HNm).
    rewrite Forall_forall in HF, HNm. destruct (HF _ Hns) as [F1 F2]. cbn [snd] in *. specialize (HNm _ Hns). cbn [fst snd] in HNm.
    apply mapM_Forall2 in E2 as E2'.
    assert (exists d, sec_data s' (Some ls) = Ok d) as (d & Ed).
    { clear -E2' Hns. assert (HI : In s' (map snd (m_subs mf))) by (apply in_map_iff; now exists (n, s')).
      induction E2' as [|a b l r Hab HF IH]; [contradiction|]. destruct HI as [<-|HI]; [eauto|auto]. }
    exists n, (sfsec alg n d), alg, d. split; [exact HNm|]. split; [|split; [exact F2|split; [exact HA|split; [exact F1|split; [exact Ed|]]]]].
    + cbn [m_subs]. apply (sf_subs_get alg ls (m_subs mf) ds HN E2). exists s', d. auto.
    + unfold sfsec. cbn [dget]. destruct (alg_not_name alg SUF) as [-> _]; [now left|exact HA|]. now rewrite seqb_refl.
  - intros A [<-|[]]; exact HA.
  - now left.
  - unfold sfmain. cbn [dget]. destruct (alg_not_name alg SUF_MAIN) as [_ ->]; [now right; right|exact HA|]. now rewrite seqb_refl.
Qed.

(** When the sections already are in the order in which they are written. *)
Lemma digest_verifies_sorted mf alg ls lo mn ds : In alg algs -> well_named mf -> man_linesep mf None = ls ->
  sec_data (m_main mf) (Some ls) = Ok mn -> mapM (fun s => sec_data s (Some ls)) (map snd (m_subs mf)) = Ok ds ->
  man_data mf None = Ok (mn ++ concat ds) ->
  exists sf, digest_manifest hash (new_sigmanifest lo) mf alg = Ok sf /\ verify_manifest hash sf mf = Ok [].
Proof.
  intros HA HW EL E1 E2 HD.
  assert (EL2 : or_linesep (m_linesep mf) os_linesep = ls) by exact EL.
  rewrite (digest_manifest_ok mf alg ls lo mn ds HA HW EL2 E1 E2). eexists. split; [reflexivity|].
  unfold verify_manifest, verify_manifest_main_checksum. cbn [m_main].
  destruct (main_keys alg (hash alg mn) (hash alg (mn ++ concat ds)) (lit "1.0") HA) as [-> _].
  rewrite HD. rewrite (some_match_found hash _ SUF_ALL (mn ++ concat ds) [alg] alg); [reflexivity| |now left|].
  - intros A [<-|[]]; exact HA.
  - unfold sfmain. cbn [dget]. destruct (alg_not_name alg SUF_ALL) as [_ ->]; [now right; left|exact HA|].
    assert (E : seqb (alg ++ SUF_ALL) (alg ++ SUF_MAIN) = false).
    { clear -HA. destruct HA as [<-|[<-|[<-|[<-|[<-|[]]]]]]; vm_compute; reflexivity. }
    rewrite E. now rewrite seqb_refl.
Qed.
End Env.

(** ** What the bytes of a manifest determine *)
Definition unCR (b : bytes) : bytes := filter (fun c => negb (c =? 13)) b.
Lemma unCR_app a b : unCR (a ++ b) = unCR a ++ unCR b.
Proof. apply filter_app. Qed.
Lemma unCR_id a : ~ In 13 a -> unCR a = a.
Proof.
  unfold unCR. induction a as [|c a IH]; intro H; [reflexivity|]. cbn [filter].
  destruct (Z.eqb_spec c 13) as [->|]; [exfalso; apply H; now left|]. cbn [negb].
  f_equal. apply IH. intro; apply H; now right.
Qed.

Fixpoint grp (cur : option bytes) (sec : list bytes) (lines : list bytes) : list (list bytes) :=
  match lines with
  | [] => []
  | l :: ls =>
      match removelast l with
      | [] => rev (match cur with Some h => h :: sec | None => sec end) :: grp None [] ls
      | c :: r =>
          if c =? 32 then grp (match cur with Some h => Some (h ++ r) | None => None end) sec ls
          else grp (Some (c :: r)) (match cur with Some h => h :: sec | None => sec end) ls
      end
  end.
Definition decode (data : bytes) : list (list bytes) := grp None [] (phys_lines (unCR data)).

Lemma grp_conts : forall cs h sec more, grp (Some h) sec (map (fun c => 32 :: c ++ [10]) cs ++ more) =
  grp (Some (h ++ concat cs)) sec more.
Proof.
  induction cs as [|c cs IH]; intros h sec more; cbn [map app concat]; [now rewrite app_nil_r|].
  cbn [grp]. change (32 :: c ++ [10]) with ((32 :: c) ++ [10]). rewrite removelast_last. rewrite IH. now rewrite app_assoc.
Qed.
Lemma grp_item kv cur sec more : kv <> [] -> (forall r, kv <> 32 :: r) ->
  grp cur sec (lines_of lf kv ++ more) = grp (Some kv) (match cur with Some h => h :: sec | None => sec end) more.
Proof.
  intros Hne H32. unfold lines_of. cbn [app grp]. unfold lf. rewrite removelast_last.
  destruct kv as [|c kv]; [contradiction|].
  assert (Eq : exists r, firstn 70 (c :: kv) = c :: r) by (cbn [firstn]; eauto). destruct Eq as (r & Eq).
  pose proof (chunk69_concat (length (c :: kv)) (skipn 70 (c :: kv))) as HC. rewrite skipn_length in HC.
  specialize (HC ltac:(lia)). pose proof (firstn_skipn 70 (c :: kv)) as HFS. rewrite Eq in *.
  destruct (Z.eqb_spec c 32) as [->|Hc]; [exfalso; now apply (H32 kv)|].
  rewrite grp_conts, HC, HFS. reflexivity.
Qed.

Lemma utf8c_ascii a c : 0 <= a <= 127 -> 0 <= c -> In a (utf8c c) -> c = a.
Proof.
  intros Ha Hc. unfold utf8c.
  pose proof (Z.div_pos c 64). pose proof (Z.div_pos c 4096). pose proof (Z.div_pos c 262144).
  pose proof (Z.mod_pos_bound c 64). pose proof (Z.mod_pos_bound (c / 64) 64). pose proof (Z.mod_pos_bound (c / 4096) 64).
  destruct (Z.leb_spec c 127); [cbn [In]; lia|].
  destruct (Z.leb_spec c 2047); [cbn [In]; lia|].
  destruct (Z.leb_spec c 65535); cbn [In]; lia.
Qed.
Lemma plain_pos c : plain c = true -> 0 <= c.
Proof. intro H. apply plain_scalar, scalar_range in H. lia. Qed.
Lemma utf8_ascii a s : 0 <= a <= 127 -> forallb plain s = true -> In a (utf8 s) -> In a s.
Proof.
  intros Ha Hs HI. unfold utf8 in HI. apply in_concat in HI as (l & Hl & HI). apply in_map_iff in Hl as (c & <- & Hc).
  rewrite forallb_forall in Hs. specialize (Hs c Hc). apply utf8c_ascii in HI; [now subst|exact Ha|now apply plain_pos].
Qed.
Lemma utf8_inj s t : forallb scalar s = true -> forallb scalar t = true -> utf8 s = utf8 t -> s = t.
Proof.
  intros Hs Ht E. pose proof (ignore_utf8 s [] Hs) as H1. pose proof (ignore_utf8 t [] Ht) as H2.
  rewrite !app_nil_r in *. change (utf8_ignore []) with (@nil Z) in *. rewrite ?app_nil_r in *. congruence.
Qed.
Lemma plain_no_break a s : In a [10; 13] -> forallb plain s = true -> ~ In a s.
Proof.
  intros Ha Hs HI. rewrite forallb_forall in Hs. specialize (Hs a HI). destruct Ha as [<-|[<-|[]]]; vm_compute in Hs; discriminate.
Qed.

Definition hdr (kv : str * str) : bytes := utf8 (fst kv) ++ [58; 32] ++ utf8 (snd kv).
Lemma hdr_no a kv : In a [10; 13] -> text_item kv -> ~ In a (hdr kv).
Proof.
  intros Ha (H1 & H2 & _ & _) HI. assert (0 <= a <= 127) by (destruct Ha as [<-|[<-|[]]]; lia).
  unfold hdr in HI. apply in_app_or in HI as [HI|HI].
  - apply utf8_ascii in HI; [exact (plain_no_break a _ Ha H1 HI)|assumption..].
  - apply in_app_or in HI as [HI|HI].
    + destruct Ha as [<-|[<-|[]]]; cbn in HI; lia.
    + apply utf8_ascii in HI; [exact (plain_no_break a _ Ha H2 HI)|assumption..].
Qed.
Lemma hdr_ne kv : hdr kv <> [].
Proof. unfold hdr. intro H. apply app_eq_nil in H as [_ H]. discriminate. Qed.
Lemma hdr_no32 kv : text_item kv -> forall r, hdr kv <> 32 :: r.
Proof.
  intros (H1 & _ & _ & H4) r E. unfold hdr in E. destruct (fst kv) as [|c k] eqn:Ek; [discriminate|].
  change (utf8 (c :: k)) with (utf8c c ++ utf8 k) in E. destruct (utf8c_cons c) as (b & q & Eb). rewrite Eb in E.
  cbn [app] in E. apply cons_inj in E as [-> _]. assert (c = 32).
  { apply (utf8c_ascii 32 c); [lia| |rewrite Eb; now left]. apply plain_pos. cbn [forallb] in H1. now apply andb_prop in H1 as [H1 _]. }
  subst c. exact (H4 k eq_refl).
Qed.
Lemma split_first (a : Z) : forall x y x' y', ~ In a x -> ~ In a x' -> x ++ a :: y = x' ++ a :: y' -> x = x' /\ y = y'.
Proof.
  induction x as [|c x IH]; intros y [|c' x'] y' H H' E; cbn [app] in E; apply cons_inj in E as [E1 E2].
  - auto.
  - exfalso. apply H'. left. now symmetry.
  - exfalso. apply H. left. assumption.
  - destruct (IH y x' y') as [-> ->]; [intro; apply H; now right|intro; apply H'; now right|exact E2|]. subst. auto.
Qed.
Lemma hdr_inj kv kv' : text_item kv -> text_item kv' -> hdr kv = hdr kv' -> kv = kv'.
Proof.
  destruct kv as [k v], kv' as [k' v']. intros (H1 & H2 & H3 & _) (H1' & H2' & H3' & _). unfold hdr. cbn [fst snd] in *. intro E.
  change ([58; 32] ++ utf8 v) with (58 :: 32 :: utf8 v) in E. change ([58; 32] ++ utf8 v') with (58 :: 32 :: utf8 v') in E.
  apply split_first in E as [E1 E2].
  - apply cons_inj in E2 as [_ E2]. f_equal; apply utf8_inj; try assumption; now apply (forallb_impl plain scalar _ plain_scalar).
  - intro HI. apply H3. apply utf8_ascii; [lia|assumption..].
  - intro HI. apply H3'. apply utf8_ascii; [lia|assumption..].
Qed.

Lemma unCR_lines ls kv : a_linesep ls -> ~ In 13 kv -> unCR (concat (lines_of ls kv)) = concat (lines_of lf kv).
Proof.
  intros Hls Hkv.
  assert (G : forall q, ~ In 13 q -> unCR (q ++ ls) = q ++ lf).
  { intros q Hq. rewrite unCR_app, (unCR_id q Hq). destruct Hls as [->| ->]; reflexivity. }
  assert (G2 : forall qs, Forall (fun q => ~ In 13 q) qs ->
    unCR (concat (map (fun q => q ++ ls) qs)) = concat (map (fun q => q ++ lf) qs)).
  { induction 1 as [|q qs Hq HF IH]; [reflexivity|]. cbn [map concat]. now rewrite unCR_app, G, IH by exact Hq. }
  rewrite (lines_of_ls ls), (lines_of_ls lf). apply G2. unfold lines_of. rewrite app_nil_r. constructor.
  - intro HI. apply Hkv. rewrite <- (firstn_skipn 70 kv). apply in_or_app. now left.
  - apply Forall_forall. intros q Hq. apply in_map_iff in Hq as (c & <- & Hc). rewrite app_nil_r. intros [HI|HI]; [discriminate|].
    apply Hkv. rewrite <- (firstn_skipn 70 kv). apply in_or_app. right. eapply in_chunk69; eauto.
Qed.

Lemma items_shape ls : a_linesep ls -> forall s d, Forall text_item s -> write_items s (Some ls) = Ok d ->
  unCR d = concat (concat (map (fun kv => lines_of lf (hdr kv)) s)).
Proof.
  intros Hls. induction s as [|[k v] s IH]; intros d HF H; cbn [write_items] in H; [apply ok_inj in H; now subst|].
  destruct (write_key_val k v (Some ls)) as [b|] eqn:E; [|discriminate]. cbn [rbind] in H.
  destruct (write_items s (Some ls)) as [r|]; [|discriminate]. cbn [rbind] in H. apply ok_inj in H. subst d.
  inversion HF as [|? ? H1 H2]; subst. rewrite unCR_app, (IH r H2 eq_refl). cbn [map concat]. rewrite concat_app. f_equal.
  apply write_lines in E as (kb & vb & lsb & E1 & E2 & E3 & _ & _ & ->).
  rewrite linesep_enc in E3 by exact Hls. apply ok_inj in E3. subst lsb.
  apply utf8_encode_inv in E1, E2. subst kb vb. apply unCR_lines; [exact Hls|].
  apply (hdr_no 13 (k, v)); [cbn; auto|exact H1].
Qed.
Definition sec_lines (s : section) : list bytes := concat (map (fun kv => lines_of lf (hdr kv)) s) ++ [[10]].
Lemma sec_shape ls s d : a_linesep ls -> Forall text_item s -> sec_data s (Some ls) = Ok d -> unCR d = concat (sec_lines s).
Proof.
  intros Hls HF H. unfold sec_data in H. destruct (write_items s (Some ls)) as [b|] eqn:E; [|discriminate]. cbn [rbind] in H.
  rewrite linesep_enc in H by exact Hls. cbn [rbind] in H. apply ok_inj in H. subst d.
  unfold sec_lines. rewrite unCR_app, (items_shape ls Hls s b HF E), concat_app. f_equal. destruct Hls as [->| ->]; reflexivity.
Qed.
Definition a_line (p : bytes) : Prop := exists q, p = q ++ [10] /\ ~ In 10 q.
Lemma phys_a_lines ps : Forall a_line ps -> phys_lines (concat ps) = ps.
Proof.
  induction 1 as [|p ps (q & -> & Hq) HF IH]; [reflexivity|]. cbn [concat]. rewrite phys_line by exact Hq. now rewrite IH.
Qed.
Lemma sec_lines_ok s : Forall text_item s -> Forall a_line (sec_lines s).
Proof.
  intro HF. unfold sec_lines. apply Forall_app. split; [|constructor; [exists []; split; [reflexivity|intros []]|constructor]].
  induction HF as [|kv s Hkv HF IH]; [constructor|]. cbn [map concat]. apply Forall_app. split; [|exact IH].
  assert (H10 : ~ In 10 (hdr kv)) by (apply hdr_no; [cbn; auto|exact Hkv]).
  unfold lines_of. constructor.
  - exists (firstn 70 (hdr kv)). split; [reflexivity|]. intro HI. apply H10. rewrite <- (firstn_skipn 70 (hdr kv)). apply in_or_app. now left.
  - apply Forall_forall. intros p Hp. apply in_map_iff in Hp as (c & <- & Hc). exists (32 :: c). split; [reflexivity|].
    intros [HI|HI]; [discriminate|]. apply H10. rewrite <- (firstn_skipn 70 (hdr kv)). apply in_or_app. right. eapply in_chunk69; eauto.
Qed.
Lemma grp_section : forall s cur sec more, Forall text_item s ->
  grp cur sec (sec_lines s ++ more) =
  (rev (match cur with Some h => h :: sec | None => sec end) ++ map hdr s) :: grp None [] more.
Proof.
  induction s as [|kv s IH]; intros cur sec more HF; unfold sec_lines; cbn [map concat app].
  - cbn [grp removelast]. now rewrite app_nil_r.
  - inversion HF as [|? ? H1 H2]; subst. rewrite <- !app_assoc. rewrite grp_item; [|apply hdr_ne|now apply hdr_no32].
    specialize (IH (Some (hdr kv)) (match cur with Some h => h :: sec | None => sec end) more H2).
    unfold sec_lines in IH. rewrite <- app_assoc in IH. etransitivity; [exact IH|]. cbn [rev]. now rewrite <- app_assoc.
Qed.
Lemma decode_sections ls : a_linesep ls -> forall secs ds, Forall (Forall text_item) secs ->
  mapM (fun s => sec_data s (Some ls)) secs = Ok ds -> decode (concat ds) = map (map hdr) secs.
Proof.
  intros Hls secs ds HF HM.
  assert (E : unCR (concat ds) = concat (concat (map sec_lines secs))).
  { revert ds HM. induction HF as [|s secs Hs HF IH]; intros ds HM; cbn [mapM] in HM; [apply ok_inj in HM; now subst|].
    destruct (sec_data s (Some ls)) as [d|] eqn:E; [|discriminate]. cbn [rbind] in HM.
    destruct (mapM (fun s => sec_data s (Some ls)) secs) as [ds'|]; [|discriminate]. cbn [rbind] in HM. apply ok_inj in HM. subst ds.
    cbn [concat map]. rewrite unCR_app, (IH ds' eq_refl), (sec_shape ls s d Hls Hs E), concat_app. reflexivity. }
  unfold decode. rewrite E, phys_a_lines.
  - clear E HM. induction HF as [|s secs Hs HF IH]; [reflexivity|]. cbn [map concat]. rewrite grp_section by exact Hs.
    cbn [rev app]. now rewrite IH.
  - clear E HM. induction HF as [|s secs Hs HF IH]; [constructor|]. cbn [map concat]. apply Forall_app.
    split; [now apply sec_lines_ok|exact IH].
Qed.
Lemma hdrs_inj : forall s s', Forall text_item s -> Forall text_item s' -> map hdr s = map hdr s' -> s = s'.
Proof.
  induction s as [|a s IH]; intros [|a' s'] H H' E; try discriminate; [reflexivity|]. cbn [map] in E. apply cons_inj in E as [E1 E2].
  inversion H; inversion H'; subst. f_equal; [now apply hdr_inj|now apply IH].
Qed.
Lemma secs_inj : forall s s', Forall (Forall text_item) s -> Forall (Forall text_item) s' -> map (map hdr) s = map (map hdr) s' -> s = s'.
Proof.
  induction s as [|a s IH]; intros [|a' s'] H H' E; try discriminate; [reflexivity|]. cbn [map] in E. apply cons_inj in E as [E1 E2].
  inversion H; inversion H'; subst. f_equal; [now apply hdrs_inj|now apply IH].
Qed.
(** The written bytes determine the sections, whatever the separators. *)
Lemma data_inj ls ls' secs secs' ds ds' : a_linesep ls -> a_linesep ls' ->
  Forall (Forall text_item) secs -> Forall (Forall text_item) secs' ->
  mapM (fun s => sec_data s (Some ls)) secs = Ok ds -> mapM (fun s => sec_data s (Some ls')) secs' = Ok ds' ->
  concat ds = concat ds' -> secs = secs'.
Proof.
  intros Hl Hl' HF HF' HM HM' E. apply secs_inj; try assumption.
  rewrite <- (decode_sections ls Hl secs ds HF HM), <- (decode_sections ls' Hl' secs' ds' HF' HM'). now rewrite E.
Qed.
Lemma sec_data_inj ls ls' s s' d : a_linesep ls -> a_linesep ls' -> Forall text_item s -> Forall text_item s' ->
  sec_data s (Some ls) = Ok d -> sec_data s' (Some ls') = Ok d -> s = s'.
Proof.
  intros Hl Hl' H H' E E'. assert ([s] = [s']) as X; [|now apply cons_inj in X as [X _]].
  apply (data_inj ls ls' [s] [s'] [d] [d]); try assumption; try (constructor; [assumption|constructor]); try reflexivity; cbn [mapM].
  - now rewrite E.
  - now rewrite E'.
Qed.

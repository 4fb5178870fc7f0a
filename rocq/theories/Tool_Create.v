(** Proofs about manifest create and manifest verify. *)
From Verif Require Import Base ConstPool_Model Manifest_Model Manifest_Spec Manifest_Proofs Manifest_RT Manifest_Canon Glob_Model Glob_Spec Glob_Proofs
  Zip_Model Sign_Model Sign_Spec Sign_Proofs Sign_Parsed Sign_Names Sign_Jar Tool_Model Tool_Spec P_Manifest P_Sign.
From Coq Require Import Permutation.

(** ** Dictionaries filled in a loop *)
Lemma dset_head {V} k (v : V) d k' v' : k' <> k -> dset ((k, v) :: d) k' v' = (k, v) :: dset d k' v'.
Proof. intro H. cbn [dset]. now rewrite (proj2 (seqb_neq k' k) H). Qed.
Lemma fill_get {V} (F : str -> V) (names : list str) : forall d f,
  dget (fold_left (fun d f => dset d f (F f)) names d) f = if smem f names then Some (F f) else dget d f.
Proof.
  induction names as [|a names IH]; intros d f; [reflexivity|]. cbn [fold_left]. rewrite IH. rewrite Sign_Proofs.dget_dset. unfold smem. cbn [existsb].
  fold (smem f names). destruct (smem f names); [now rewrite orb_true_r|]. rewrite orb_false_r. destruct (seqb_spec f a) as [->|E]; [reflexivity|reflexivity].
Qed.
Lemma fill_nodup {V} (F : str -> V) (names : list str) : forall d, NoDup (map fst d) ->
  NoDup (map fst (fold_left (fun d f => dset d f (F f)) names d)).
Proof. induction names as [|a names IH]; intros d H; [exact H|]. cbn [fold_left]. apply IH. now apply nodup_dset. Qed.

(** ** Digests of one entry *)
Section Hash.
Variable hash : str -> bytes -> str.
Definition put (data : bytes) (s : section) (A : str) : section := dset s (A ++ SUF) (hash A data).
Definition sec_of (asked : list str) (f : str) (data : bytes) : section := fold_left (put data) asked (new_section f).

Lemma alg_key A : In A algs -> Z.of_nat (length (A ++ SUF)) <= 68 /\ A ++ SUF <> K_Name.
Proof.
  intros H. destruct H as [<-|[<-|[<-|[<-|[<-|[]]]]]]; (split; [vm_compute; discriminate|]); intro E; apply (f_equal (@length Z)) in E; vm_compute in E; discriminate.
Qed.
Lemma set_digests_ok name data : forall asked m s, Forall (fun A => In A algs) asked -> dget (m_subs m) name = Some s ->
  exists subs, set_digests hash m name asked data = Ok (mkman (m_primary_key m) (m_main m) subs (m_linesep m)) /\
    dget subs name = Some (fold_left (put data) asked s) /\ forall d, dset subs name d = dset (m_subs m) name d.
Proof.
  induction asked as [|A asked IH]; intros m s HA Hs.
  - exists (m_subs m). split; [destruct m; reflexivity|]. split; [exact Hs|reflexivity].
  - inversion HA as [|? ? HA1 HA2]; subst. cbn [set_digests]. unfold set_in_section. rewrite Hs. unfold sec_set.
    destruct (alg_key A HA1) as [Hlen _]. replace (Z.of_nat (length (A ++ SUF)) >? 68) with false by lia. cbn [rbind].
    set (m1 := mkman _ _ _ _). destruct (IH m1 (put data s A) HA2) as (subs & E1 & E2 & E3).
    { unfold m1. cbn [m_subs]. rewrite Sign_Proofs.dget_dset. now rewrite seqb_refl. }
    exists subs. split; [exact E1|]. split; [exact E2|]. intro d. rewrite E3. unfold m1. cbn [m_subs]. apply dset_twice.
Qed.
Lemma dset_same {V} (d : dict V) k v : NoDup (map fst d) -> dget d k = Some v -> dset d k v = d.
Proof.
  induction d as [|[k' v'] d IH]; intros Hn H; [discriminate|]. cbn in *. destruct (seqb_spec k k') as [->|E].
  - now injection H as ->.
  - inversion Hn; subst. now rewrite IH.
Qed.
Lemma put_keys data asked : forall s k, In k (map fst (fold_left (put data) asked s)) <-> In k (map fst s) \/ exists A, In A asked /\ k = A ++ SUF.
Proof.
  induction asked as [|A asked IH]; intros s k; [cbn [fold_left]; firstorder; contradiction|]. cbn [fold_left]. rewrite IH. unfold put at 1.
  fold (dkeys (dset s (A ++ SUF) (hash A data))). rewrite Sign_Parsed.dkeys_dset. fold (dkeys s).
  assert (E : In k (if smem (A ++ SUF) (dkeys s) then dkeys s else dkeys s ++ [A ++ SUF]) <-> In k (dkeys s) \/ k = A ++ SUF).
  { destruct (smem (A ++ SUF) (dkeys s)) eqn:E.
    - apply smem_In in E. split; [now left|]. intros [H|H]; [exact H|now subst].
    - rewrite in_app_iff. cbn [In]. intuition. }
  rewrite E. split.
  - intros [[H|H]|(B & HB & H)]; [now left|right; exists A; split; [now left|exact H]|right; exists B; split; [now right|exact H]].
  - intros [H|(B & [<-|HB] & H)]; [now left; left|now left; right|right; eauto].
Qed.
Lemma put_get data asked : forall s A, In A asked -> dget (fold_left (put data) asked s) (A ++ SUF) = Some (hash A data).
Proof.
  assert (G : forall asked s A, dget s (A ++ SUF) = Some (hash A data) -> dget (fold_left (put data) asked s) (A ++ SUF) = Some (hash A data)).
  { induction asked0 as [|B asked0 IH]; intros s A H; [exact H|]. cbn [fold_left]. apply IH. unfold put. rewrite Sign_Proofs.dget_dset.
    destruct (seqb_spec (A ++ SUF) (B ++ SUF)) as [E|E]; [|exact H]. apply app_inv_tail in E. now subst. }
  induction asked as [|B asked IH]; intros s A H; [destruct H|]. cbn [fold_left]. destruct H as [->|H]; [|now apply IH].
  apply G. unfold put. rewrite Sign_Proofs.dget_dset. now rewrite seqb_refl.
Qed.
Lemma put_nodup data asked : forall s, NoDup (map fst s) -> NoDup (map fst (fold_left (put data) asked s)).
Proof. induction asked as [|A asked IH]; intros s H; [exact H|]. cbn [fold_left]. apply IH. now apply nodup_dset. Qed.
Lemma put_head data asked : Forall (fun A => In A algs) asked -> forall f rest, exists rest', fold_left (put data) asked ((K_Name, f) :: rest) = (K_Name, f) :: rest'.
Proof.
  induction 1 as [|A asked HA _ IH]; intros f rest; [now exists rest|]. cbn [fold_left]. unfold put at 2. rewrite dset_head by (apply alg_key; exact HA).
  apply IH.
Qed.
Lemma sec_of_spec asked f data : Forall (fun A => In A algs) asked ->
  (exists rest, sec_of asked f data = (K_Name, f) :: rest) /\ NoDup (map fst (sec_of asked f data)) /\
  forall k v, In (k, v) (sec_of asked f data) <-> (k = K_Name /\ v = f) \/ exists A, In A asked /\ k = A ++ SUF /\ v = hash A data.
Proof.
  intro HA. destruct (put_head data asked HA f []) as [rest Hr]. assert (HN : NoDup (map fst (sec_of asked f data))).
  { apply put_nodup. cbn. constructor; [intros []|constructor]. }
  split; [exists rest; exact Hr|]. split; [exact HN|]. intros k v. split.
  - intro H. assert (Hk : In k (map fst (sec_of asked f data))) by (apply in_map_iff; exists (k, v); auto).
    pose proof (dget_unique _ _ _ HN H) as Hg. apply put_keys in Hk as [Hk|(A & HA' & ->)].
    + cbn in Hk. destruct Hk as [<-|[]]. left. split; [reflexivity|]. unfold sec_of in Hg. unfold new_section in Hg. rewrite Hr in Hg.
      cbn [dget] in Hg. rewrite seqb_refl in Hg. now injection Hg as ->.
    + right. exists A. split; [exact HA'|]. split; [reflexivity|]. unfold sec_of in Hg. rewrite put_get in Hg by exact HA'. now injection Hg as ->.
  - intros [[-> ->]|(A & HA' & -> & ->)].
    + unfold sec_of, new_section. rewrite Hr. now left.
    + apply dget_In. unfold sec_of. now apply put_get.
Qed.

(** ** The loop *)
Definition got (z : zip) (f : str) : bytes := match zread z f with Ok b => b | Err _ => [] end.
Definition wanted (pats : list str) (f : str) : bool := negb (last f 0 =? 47) && negb (fnmatches f pats).
Definition filled (z : zip) (asked pats names : list str) (d : dict section) : dict section :=
  fold_left (fun d f => dset d f (sec_of asked f (got z f))) (filter (wanted pats) names) d.

Lemma zip_entries_cons z f names : f <> [] ->
  zip_entries z (f :: names) = if last f 0 =? 47 then zip_entries z names else Ok (f, zread z f) :: zip_entries z names.
Proof. destruct f; [congruence|reflexivity]. Qed.
Lemma create_loop_zip z asked pats : Forall (fun A => In A algs) asked -> forall names m, NoDup (map fst (m_subs m)) ->
  ~ In [] names -> (forall f, In f names -> In f (namelist z)) ->
  create_loop hash pats asked m (zip_entries z names) = Ok (mkman (m_primary_key m) (m_main m) (filled z asked pats names (m_subs m)) (m_linesep m)).
Proof.
  intro HA. induction names as [|f names IH]; intros m Hm Hn Hz; [destruct m; reflexivity|].
  assert (Hf : f <> []) by (intros ->; apply Hn; now left). rewrite (zip_entries_cons z f names Hf).
  assert (Hn' : ~ In [] names) by (intro H; apply Hn; now right). assert (Hz' : forall g, In g names -> In g (namelist z)) by (intros; apply Hz; now right).
  unfold filled. cbn [filter]. unfold wanted at 1. destruct (last f 0 =? 47) eqn:El; cbn [negb andb]; [now apply IH|].
  cbn [create_loop]. destruct (fnmatches f pats) eqn:Ep; cbn [negb]; [now apply IH|]. cbn [fold_left].
  unfold create_section. destruct (zread_in z f) as [b Hb]; [apply Hz; now left|]. rewrite Hb. cbn [rbind].
  match goal with |- context[set_digests hash ?M f asked b] => destruct (set_digests_ok f b asked M (new_section f) HA) as (subs & E1 & E2 & E3) end.
  { cbn [m_subs]. rewrite Sign_Proofs.dget_dset. now rewrite seqb_refl. }
  rewrite E1. cbn [rbind m_primary_key m_main m_linesep m_subs] in *.
  assert (Es : subs = dset (m_subs m) f (sec_of asked f (got z f))).
  { assert (Hs : subs = dset subs f (sec_of asked f (got z f))).
    { unfold got. rewrite Hb. clear IH. assert (Hdef : dget subs f = Some (sec_of asked f b)) by exact E2. clear -Hdef.
      induction subs as [|[k v] subs IH]; [discriminate|]. cbn [dget dset] in *. destruct (seqb_spec f k) as [->|E]; [now injection Hdef as ->|].
      now rewrite <- IH. }
    rewrite Hs, E3, dset_twice. reflexivity. }
  rewrite IH; cbn [m_primary_key m_main m_linesep m_subs]; [|subst subs; now apply nodup_dset|exact Hn'|exact Hz'].
  subst subs. reflexivity.
Qed.
Lemma split_on_nosep sep w : ~ In sep w -> forall cur r, split_on sep cur (w ++ sep :: r) = (rev cur ++ w) :: split_on sep [] r.
Proof.
  induction w as [|c w IH]; intros H cur r; cbn [app split_on].
  - now rewrite Z.eqb_refl, app_nil_r.
  - destruct (Z.eqb_spec c sep) as [->|E]; [exfalso; apply H; now left|]. rewrite IH by (intro X; apply H; now right). cbn [rev]. now rewrite <- app_assoc.
Qed.
Lemma split_on_last sep w : ~ In sep w -> forall cur, split_on sep cur w = [rev cur ++ w].
Proof.
  induction w as [|c w IH]; intros H cur; cbn [split_on]; [now rewrite app_nil_r|].
  destruct (Z.eqb_spec c sep) as [->|E]; [exfalso; apply H; now left|]. rewrite IH by (intro X; apply H; now right). cbn [rev]. now rewrite <- app_assoc.
Qed.
Lemma split_join sep l : l <> [] -> Forall (fun w => ~ In sep w) l -> split_on sep [] (concat_with [sep] l) = l.
Proof.
  induction l as [|w [|w' l] IH]; intros H HF; [congruence| |]; inversion HF; subst.
  - cbn [concat_with]. now rewrite split_on_last.
  - change (concat_with [sep] (w :: w' :: l)) with (w ++ sep :: concat_with [sep] (w' :: l)). rewrite split_on_nosep by assumption.
    cbn [rev app]. rewrite IH; [reflexivity|discriminate|assumption].
Qed.
Lemma alg_no_comma A : In A algs -> ~ In 44 A.
Proof. intros [<-|[<-|[<-|[<-|[<-|[]]]]]]; vm_compute; intuition discriminate. Qed.

Lemma wanted_iff z pats f : In f (namelist z) -> (wanted pats f = true <-> listed z pats f).
Proof.
  intro Hf. unfold wanted, listed. rewrite andb_true_iff, !negb_true_iff. rewrite <- (fnmatches_matched f pats).
  assert (E : last f 0 =? 47 = false <-> forall x, f <> x ++ [47]).
  { split.
    - intros H x ->. rewrite last_last in H. discriminate.
    - intro H. destruct (Z.eqb_spec (last f 0) 47) as [E|]; [|reflexivity]. exfalso. destruct f as [|c f'] using rev_ind; [discriminate|].
      rewrite last_last in E. subst. now apply (H f'). }
  rewrite E. unfold namelist in Hf. split.
  - intros [H1 H2]. split; [exact Hf|]. split; [exact H1|]. rewrite H2. discriminate.
  - intros (_ & H1 & H2). split; [exact H1|]. destruct (fnmatches f pats); [exfalso; now apply H2|reflexivity].
Qed.
Lemma filled_get z asked pats f : dget (filled z asked pats (namelist z) []) f =
  if smem f (filter (wanted pats) (namelist z)) then Some (sec_of asked f (got z f)) else None.
Proof. unfold filled. now rewrite fill_get. Qed.
Lemma filled_in z asked pats f s : In (f, s) (filled z asked pats (namelist z) []) -> listed z pats f /\ s = sec_of asked f (got z f).
Proof.
  intro H. apply dget_unique in H; [|apply fill_nodup; constructor]. rewrite filled_get in H.
  destruct (smem f (filter (wanted pats) (namelist z))) eqn:E; [|discriminate]. injection H as <-. apply smem_In in E. apply filter_In in E as [E1 E2].
  split; [now apply (wanted_iff z pats f E1)|reflexivity].
Qed.
Lemma filled_listed z asked pats f : listed z pats f -> In (f, sec_of asked f (got z f)) (filled z asked pats (namelist z) []).
Proof.
  intro H. apply dget_In. rewrite filled_get. replace (smem f (filter (wanted pats) (namelist z))) with true; [reflexivity|].
  symmetry. apply smem_In. apply filter_In. assert (Hf : In f (namelist z)) by apply H. split; [exact Hf|]. now apply (wanted_iff z pats f Hf).
Qed.

Hypothesis Htext : hash_text hash.
Lemma filled_ok z asked pats : Forall (fun A => In A algs) asked -> (forall f, listed z pats f -> item_ok (lit "Name", f)) ->
  manifest_ok (mkman K_MV [(K_MV, lit "1.0")] (filled z asked pats (namelist z) []) None).
Proof.
  intros HA HI. split; [|split].
  - exists (lit "1.0"). split; [now exists []|]. split; [constructor; [intros []|constructor]|]. constructor; [|constructor].
    split; [vm_compute; reflexivity|]. split; [vm_compute; reflexivity|]. apply ascii_no_straddle; vm_compute; reflexivity.
  - apply fill_nodup. constructor.
  - rewrite Forall_forall. intros [f s] H. cbn [m_subs] in H. apply filled_in in H as [Hl ->]. cbn [fst snd].
    destruct (sec_of_spec asked f (got z f) HA) as (H1 & H2 & H3). split; [exact H1|]. split; [exact H2|]. rewrite Forall_forall. intros [k v] H.
    apply H3 in H as [[-> ->]|(A & HA' & -> & ->)]; [now apply HI|]. apply hash_item; [exact Htext| |now left]. rewrite Forall_forall in HA. now apply HA.
Qed.
End Hash.

Section Tool.
Variable up : Z -> str.
Variable hash : str -> bytes -> str.
Variable fs : str -> option node.
Variable unzip : bytes -> res zip.

Lemma requested_ok a asked : asked_for a asked -> Forall (fun A => In A algs) asked ->
  commas (match a_digest a with Some d => d | None => lit "MD5,SHA1" end) = asked.
Proof.
  intros [[-> ->]|[H1 ->]] HA; [vm_compute; reflexivity|]. unfold commas. apply split_join; [exact H1|].
  eapply Forall_impl; [|exact HA]. intros A. apply alg_no_comma.
Qed.
Lemma create_data a asked pats l d t z : hash_text hash ->
  fs (a_content a) = Some (File l d t) -> unzip d = Ok z -> a_recursive a = false ->
  asked_for a asked -> Forall (fun A => In A algs) asked -> ignoring a pats -> ~ In [] (map fst z) ->
  cli_create hash fs unzip a = man_data (mkman K_MV [(K_MV, lit "1.0")] (filled hash z asked pats (namelist z) []) None) None.
Proof.
  intros Ht Hf Hz Hr Ha HA Hi Hn. unfold cli_create. rewrite (requested_ok a asked Ha HA).
  replace (forallb (fun d => smem d java_digests) asked) with true.
  2:{ symmetry. apply forallb_forall. intros A HIn. rewrite Forall_forall in HA. apply smem_alg. now apply HA. }
  cbn [negb]. rewrite Hr.
  assert (E : match a_ignore a with [] => Ok [lit "META-INF/*"] | [l] => Ok (lit "META-INF/*" :: l) | _ => Err TypeError end = Ok pats).
  { destruct Hi as [[-> ->]|(x & -> & ->)]; reflexivity. }
  rewrite E. cbn [rbind]. unfold single_path_generator, open_zip. rewrite Hf, Hz.
  rewrite (create_loop_zip hash z asked pats HA (namelist z) (new_manifest None)); [reflexivity|constructor|exact Hn|auto].
Qed.
Lemma created a asked pats l d t z : hash_text hash ->
  fs (a_content a) = Some (File l d t) -> unzip d = Ok z -> a_recursive a = false ->
  asked_for a asked -> Forall (fun A => In A algs) asked -> ignoring a pats ->
  ~ In [] (map fst z) -> (forall f, listed z pats f -> item_ok (lit "Name", f)) ->
  exists data m, cli_create hash fs unzip a = Ok data /\ man_parse (new_manifest None) data = Ok m /\
    m_main m = [(lit "Manifest-Version", lit "1.0")] /\ NoDup (map fst (m_subs m)) /\
    (forall f, In f (map fst (m_subs m)) <-> listed z pats f) /\
    (forall f s, In (f, s) (m_subs m) -> describes hash z asked f s).
Proof.
  intros Ht Hf Hz Hr Ha HA Hi Hn HI. rewrite (create_data a asked pats l d t z Ht Hf Hz Hr Ha HA Hi Hn).
  set (M := mkman _ _ _ _). assert (HM : manifest_ok M) by (apply filled_ok; assumption).
  destruct (C25_round_trip M None lf (new_manifest None) (lit "1.0") HM) as (data & m & E1 & E2 & E3 & E4 & _).
  { split; [now left|]. right. right. auto. }
  { reflexivity. } { reflexivity. } { reflexivity. }
  exists data, m. split; [exact E1|]. split; [exact E2|]. split; [exact E3|].
  assert (HP : Permutation (map fst (m_subs m)) (map fst (m_subs M))) by now apply Permutation_map.
  split; [eapply Permutation_NoDup; [apply Permutation_sym; exact HP|]; apply fill_nodup; constructor|]. split.
  - intro f. split.
    + intro H. apply (Permutation_in _ HP) in H. apply in_map_iff in H as ([f' s] & <- & H). now apply filled_in in H.
    + intro H. apply (Permutation_in _ (Permutation_sym HP)). apply in_map_iff. exists (f, sec_of hash asked f (got z f)). split; [reflexivity|].
      now apply filled_listed.
  - intros f s H. apply (Permutation_in _ E4) in H. apply filled_in in H as [Hl ->]. destruct (sec_of_spec hash asked f (got z f) HA) as (_ & H2 & H3).
    exists (got z f). split; [|now split]. apply zread_holds. unfold got. destruct (zread_in z f) as [b Hb]; [apply Hl|]. now rewrite Hb.
Qed.

Lemma holds_in z f b : holds z f b -> In f (namelist z).
Proof. intros (z1 & z2 & -> & _). unfold namelist. rewrite map_app. apply in_or_app. right. now left. Qed.
Lemma same_files_in z z' x f : same_files z z' x -> f <> x -> (In f (namelist z) <-> In f (namelist z')).
Proof.
  intros HS Hx. split; intro H; apply zread_in in H as [b Hb]; apply zread_holds in Hb; eapply holds_in; apply (HS f Hx); exact Hb.
Qed.
Lemma describes_supported z asked f s : Forall (fun A => In A algs) asked -> describes hash z asked f s -> digests_supported s.
Proof.
  intros HA (b & _ & _ & H) x Hx. unfold dkeys in Hx. apply in_map_iff in Hx as ([k v] & Ek & Hx). cbn in Ek. subst k.
  apply H in Hx as [[E _]|(A & HA' & E & _)].
  - apply (f_equal (fun l => nth 0 (rev l) 0)) in E. rewrite rev_app_distr in E. vm_compute in E. discriminate.
  - apply app_inv_tail in E. subst. rewrite Forall_forall in HA. now apply HA.
Qed.
Lemma create_verify a asked pats l d t z data jar l' d' t' z' : upper_ok up -> hash_text hash ->
  fs (a_content a) = Some (File l d t) -> unzip d = Ok z -> a_recursive a = false ->
  asked_for a asked -> Forall (fun A => In A algs) asked -> ignoring a pats ->
  ~ In [] (map fst z) -> (forall f, listed z pats f -> item_ok (lit "Name", f)) ->
  cli_create hash fs unzip a = Ok data ->
  fs jar = Some (File l' d' t') -> unzip d' = Ok z' -> jar <> lit "-h" ->
  holds z' (lit "META-INF/MANIFEST.MF") data -> same_files z z' (lit "META-INF/MANIFEST.MF") ->
  exists n, cli_verify up hash fs unzip [jar] = Ok n /\ (n = 0 \/ n = 1) /\
    (n = 0 <-> forall f, In f (map fst z) -> matched_by pats f -> sig_related (uppercase up f)).
Proof.
  intros Hup Ht Hf Hz Hr Ha HA Hi Hn HI Hc Hf' Hz' Hh Hd HS.
  destruct (created a asked pats l d t z Ht Hf Hz Hr Ha HA Hi Hn HI) as (data' & m & E1 & E2 & _ & E4 & E5 & E6).
  assert (data' = data) by congruence. subst data'. unfold cli_verify. destruct (seqb_spec jar (lit "-h")) as [E|_]; [contradiction|].
  unfold open_zip. rewrite Hf', Hz'. cbn [rbind]. unfold load_from_jar.
  replace (smem MANIFEST_NAME (namelist z')) with true by (symmetry; apply smem_In; eapply holds_in; exact Hd). cbn [negb].
  change (zread z' MANIFEST_NAME) with (zread z' (lit "META-INF/MANIFEST.MF")). rewrite (proj2 (zread_holds _ _ _) Hd). cbn [rbind]. rewrite E2. cbn [rbind].
  destruct (C27_total up hash m z' true) as [[fails m'] HV].
  { rewrite Forall_forall. intros [f s] H. cbn [snd]. eapply describes_supported; [exact HA|]. now apply (E6 f). }
  rewrite HV. cbn [rbind]. pose proof (C27_exact up hash m z' true fails m' Hup HV) as HP.
  assert (HMF : sig_related (uppercase up (lit "META-INF/MANIFEST.MF"))).
  { left. unfold uppercase. destruct Hup as [Hup _]. transitivity (concat (map (fun c => [up1 c]) (lit "META-INF/MANIFEST.MF"))); [|reflexivity].
    f_equal. apply map_ext_in. intros c Hc'. apply Hup. revert Hc'. apply (proj1 (Forall_forall (fun c => 0 <= c <= 127) (lit "META-INF/MANIFEST.MF"))).
    apply Forall_forall. intros c' Hc''. assert (G : forallb (fun c => (0 <=? c) && (c <=? 127)) (lit "META-INF/MANIFEST.MF") = true) by reflexivity.
    rewrite forallb_forall in G. apply G in Hc''. lia. }
  assert (Hslash : forall f x, f = x ++ [47] -> sig_related (uppercase up f)).
  { intros f x ->. right. left. exists (uppercase up x). unfold uppercase. rewrite map_app, concat_app. cbn [map concat]. rewrite app_nil_r.
    f_equal. destruct Hup as [Hup _]. rewrite Hup by lia. reflexivity. }
  assert (HF : forall f, In f fails <-> In f (namelist z') /\ ~ sig_related (uppercase up f) /\
     ~ (exists s b, dget (m_subs m) f = Some s /\ holds z' f b /\ vouched hash s b)).
  { clear -HP. induction HP as [|x l r Hx _ IH|x l r Hx _ IH]; intro f; cbn [In]; [tauto| |]; rewrite IH; split.
    - intros [<-|H]; [tauto|tauto].
    - tauto.
    - tauto.
    - intros [[<-|H] H2]; [contradiction|tauto]. }
  assert (Hsome : forall f, In f (namelist z') -> ~ sig_related (uppercase up f) -> ~ matched_by pats f -> ~ In f fails).
  { intros f H1 H2 H3 H4. apply HF in H4 as (_ & _ & H4). apply H4. assert (Hx : f <> lit "META-INF/MANIFEST.MF") by (intros ->; contradiction).
    assert (Hl : listed z pats f).
    { split; [now apply (same_files_in z z' _ f HS Hx)|]. split; [|exact H3]. intros x ->. apply H2. now apply (Hslash _ x). }
    apply E5 in Hl. apply in_map_iff in Hl as ([f' s] & Ef & Hl). cbn in Ef. subst f'. destruct (E6 f s Hl) as (b & Hb & Hnd & Hs). exists s, b.
    split; [now apply dget_unique|]. split; [now apply (HS f Hx)|]. assert (HAA : exists A, In A asked).
    { destruct Ha as [[_ ->]|[Ha _]]; [eexists; now left|]. destruct asked as [|A asked]; [congruence|eexists; now left]. }
    destruct HAA as [A HIn]. exists A. split; [rewrite Forall_forall in HA; now apply HA|]. apply dget_unique; [exact Hnd|]. apply Hs. right. eauto. }
  exists (match fails with [] => 0 | _ => 1 end). split; [reflexivity|]. split; [destruct fails; auto|]. split.
  - intros H0 f Hin Hm. destruct fails as [|? ?]; [|discriminate]. destruct (file_skips_verification up f) eqn:Es; [now apply (C34_exact up f Hup)|].
    assert (Hsr : ~ sig_related (uppercase up f)) by (rewrite <- (C34_exact up f Hup); congruence).
    exfalso. apply (proj2 (HF f)). assert (Hx : f <> lit "META-INF/MANIFEST.MF") by (intros ->; contradiction).
    split; [now apply (same_files_in z z' _ f HS Hx)|]. split; [exact Hsr|]. intros (s & b & Hg & _). apply dget_In in Hg.
    assert (Hl : listed z pats f) by (apply E5; apply in_map_iff; exists (f, s); auto). now apply Hl.
  - intro H. destruct fails as [|f fails']; [reflexivity|]. exfalso. assert (Hff : In f (f :: fails')) by now left.
    pose proof (proj1 (HF f) Hff) as (H1 & H2 & _). apply (Hsome f H1 H2); [|exact Hff]. intro Hm. apply H2. apply H; [|exact Hm].
    assert (Hx : f <> lit "META-INF/MANIFEST.MF") by (intros ->; contradiction). now apply (same_files_in z z' _ f HS Hx).
Qed.
End Tool.

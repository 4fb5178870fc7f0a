(** Proofs about signing and verifying whole jars. *)
From Verif Require Import Base ConstPool_Model Manifest_Model Manifest_Spec Manifest_Proofs Manifest_RT Manifest_Canon
  Sign_Model Sign_Spec Sign_Proofs Sign_Names Sign_Bind Sign_Tamper Sign_Parsed.
From Coq Require Import Permutation.

Lemma dset_twice {V} (d : dict V) k v w : dset (dset d k v) k w = dset d k w.
Proof.
  induction d as [|[k' v'] d IH]; cbn [dset]; [now rewrite seqb_refl|].
  destruct (seqb_spec k k') as [->|Hk]; cbn [dset]; [now rewrite seqb_refl|].
  destruct (seqb_spec k k'); [contradiction|]. now rewrite IH.
Qed.
Lemma dget_perm {V} (d d' : dict V) k : NoDup (map fst d) -> Permutation d d' -> dget d k = dget d' k.
Proof.
  intros HN HP. assert (HN' : NoDup (map fst d')) by (eapply Permutation_NoDup; [|exact HN]; now apply Permutation_map).
  destruct (dget d k) as [v|] eqn:E.
  - symmetry. apply dget_unique; [exact HN'|]. apply (Permutation_in _ HP). now apply dget_In.
  - symmetry. apply dget_None. apply dget_None in E. intro HI. apply E.
    apply (Permutation_in _ (Permutation_map fst (Permutation_sym HP)) HI).
Qed.

Section Env.
Variable up : Z -> str.
Variable hash : str -> bytes -> str.
Notation skips := (file_skips_verification up).

Lemma set_section m f alg b : In alg algs ->
  (let '(_, m1) := create_section m f in set_in_section m1 f (alg ++ SUF) (hash alg b)) =
  Ok (mkman (m_primary_key m) (m_main m) (dset (m_subs m) f (sfsec hash alg f b)) (m_linesep m)).
Proof.
  intro HA. unfold create_section, set_in_section. cbn [m_subs m_primary_key m_main m_linesep].
  rewrite dget_dset, seqb_refl. unfold sec_set. rewrite alg_len by (try exact HA; now left). cbn [rbind].
  rewrite dset_twice. unfold new_section. cbn [dset].
  destruct (alg_not_name alg SUF) as [-> _]; [now left|exact HA|]. reflexivity.
Qed.

(** What add_jar_entries does to the sections. *)
Fixpoint added (z : zip) (alg : str) (names : list str) (subs : dict section) : dict section :=
  match names with
  | [] => subs
  | f :: names' =>
      if skips f then added z alg names' subs
      else match zread z f with
           | Ok b => added z alg names' (dset subs f (sfsec hash alg f b))
           | Err _ => subs
           end
  end.
Lemma add_entries_ok z alg : In alg algs -> forall names m, (forall f, In f names -> In f (namelist z)) ->
  add_entries up hash m z alg names = Ok (mkman (m_primary_key m) (m_main m) (added z alg names (m_subs m)) (m_linesep m)).
Proof.
  intro HA. induction names as [|f names IH]; intros m HN; cbn [add_entries added].
  - destruct m; reflexivity.
  - assert (HN' : forall g, In g names -> In g (namelist z)) by (intros; apply HN; now right).
    destruct (skips f); [now apply IH|].
    destruct (zread_in z f (HN f (or_introl eq_refl))) as (b & Eb). rewrite Eb.
    pose proof (set_section m f alg b HA) as HS. destruct (create_section m f) as [x m1]. cbn [rbind].
    unfold digest_of. rewrite (proj2 (smem_alg alg) HA). cbn [rbind]. rewrite HS. cbn [rbind].
    rewrite IH by exact HN'. reflexivity.
Qed.
Lemma added_get z alg : forall names subs f, (forall g, In g names -> In g (namelist z)) ->
  dget (added z alg names subs) f =
    if smem f names && negb (skips f) then match zread z f with Ok b => Some (sfsec hash alg f b) | Err _ => None end
    else dget subs f.
Proof.
  induction names as [|g names IH]; intros subs f HN; [reflexivity|]. cbn [added].
  assert (HN' : forall h, In h names -> In h (namelist z)) by (intros; apply HN; now right).
  cbn [smem existsb]. destruct (skips g) eqn:ES.
  - rewrite IH by exact HN'. destruct (seqb_spec f g) as [->|]; [|reflexivity]. rewrite ES. cbn [negb orb]. now rewrite !andb_false_r.
  - destruct (zread_in z g (HN g (or_introl eq_refl))) as (b & Eb). rewrite Eb. rewrite IH by exact HN'.
    rewrite dget_dset. destruct (seqb_spec f g) as [->|]; cbn [orb]; [|reflexivity].
    rewrite ES, Eb. cbn [negb andb]. rewrite andb_true_r. now destruct (smem g names).
Qed.
Lemma added_Forall z alg (P : str * section -> Prop) : forall names subs, (forall g, In g names -> In g (namelist z)) ->
  (forall f b, In f names -> skips f = false -> zread z f = Ok b -> P (f, sfsec hash alg f b)) ->
  Forall P subs -> Forall P (added z alg names subs).
Proof.
  induction names as [|g names IH]; intros subs HN HP HF; [exact HF|]. cbn [added].
  assert (HN' : forall h, In h names -> In h (namelist z)) by (intros; apply HN; now right).
  assert (HP' : forall f b, In f names -> skips f = false -> zread z f = Ok b -> P (f, sfsec hash alg f b)) by (intros; apply HP; auto; now right).
  destruct (skips g) eqn:ES; [now apply IH|]. destruct (zread z g) as [b|] eqn:Eb; [|exact HF].
  apply IH; try assumption. apply dset_Forall; [exact HF|]. apply HP; auto. now left.
Qed.
Lemma added_NoDup z alg : forall names subs, NoDup (map fst subs) -> NoDup (map fst (added z alg names subs)).
Proof.
  induction names as [|g names IH]; intros subs HN; [exact HN|]. cbn [added]. destruct (skips g); [now apply IH|].
  destruct (zread z g) as [b|]; [|exact HN]. apply IH. now apply nodup_dset.
Qed.
(** Sections that are not replaced come from the original. *)
Lemma added_keep z alg f s subs : NoDup (map fst subs) -> In (f, s) (added z alg (namelist z) subs) ->
  (In f (namelist z) /\ skips f = false /\ exists b, zread z f = Ok b /\ s = sfsec hash alg f b) \/
  ((~ In f (namelist z) \/ skips f = true) /\ In (f, s) subs).
Proof.
  intros HN HI. apply dget_unique in HI; [|now apply added_NoDup]. rewrite added_get in HI by auto.
  destruct (smem f (namelist z)) eqn:E1; cbn [andb] in HI.
  - apply smem_In in E1. destruct (skips f) eqn:E2; cbn [negb] in HI.
    + right. split; [now right|]. now apply dget_In.
    + left. split; [exact E1|]. split; [reflexivity|]. destruct (zread z f) as [b|]; [|discriminate]. injection HI as <-. eauto.
  - right. split; [|now apply dget_In]. left. intro H. apply smem_In in H. congruence.
Qed.

(** ** Storable signature files *)
Lemma alg_key_ok A suf : In A algs -> a_suffix suf -> key_ok (A ++ suf) = true /\ ascii (A ++ suf) = true.
Proof. intros HA Hs. destruct HA as [<-|[<-|[<-|[<-|[<-|[]]]]]]; destruct Hs as [->|[->| ->]]; split; vm_compute; reflexivity. Qed.
Hypothesis Htext : hash_text hash.
Lemma hash_item A suf B b : In A algs -> a_suffix suf -> item_ok (A ++ suf, hash B b).
Proof.
  intros HA Hs. destruct (alg_key_ok A suf HA Hs) as [H1 H2]. destruct (Htext B b) as [H3 H4].
  split; [exact H1|]. split; [exact H3|]. cbn [fst snd]. now apply ascii_no_straddle.
Qed.
Lemma sfsec_ok alg n d : In alg algs -> item_ok (K_Name, n) -> section_ok K_Name n (sfsec hash alg n d).
Proof.
  intros HA Hn. unfold sfsec. split; [eauto|]. split.
  - cbn [map fst]. destruct (alg_not_name alg SUF) as [E _]; [now left|exact HA|]. apply seqb_neq in E.
    constructor; [|constructor; [intros []|constructor]]. intros [H|[]]. now apply E.
  - constructor; [exact Hn|]. constructor; [|constructor]. apply hash_item; [exact HA|now left].
Qed.
Lemma sfmain_ok alg b b' : In alg algs -> section_ok K_SV (lit "1.0") (sfmain alg (lit "1.0") (hash alg b) (hash alg b')).
Proof.
  intro HA. unfold sfmain. split; [eauto|]. split.
  - cbn [map fst]. destruct (alg_not_name alg SUF_MAIN) as [_ E1]; [now right; right|exact HA|].
    destruct (alg_not_name alg SUF_ALL) as [_ E2]; [now right; left|exact HA|]. apply seqb_neq in E1, E2.
    constructor; [intros [H|[H|[]]]; congruence|]. constructor; [|constructor; [intros []|constructor]].
    intros [H|[]]. apply app_inv_head in H. discriminate.
  - constructor.
    + split; [reflexivity|]. split; [reflexivity|]. apply ascii_no_straddle; reflexivity.
    + constructor; [apply hash_item; [exact HA|now right; right]|]. constructor; [|constructor]. apply hash_item; [exact HA|now right; left].
Qed.

(** ** Signature files written and read back *)
Definition names_ok (subs : dict section) : Prop := Forall (fun ns => item_ok (K_Name, fst ns)) subs.
Lemma sf_round_trip mf alg ls : In alg algs -> well_named mf -> m_linesep mf = Some ls -> a_linesep ls -> names_ok (m_subs mf) ->
  forall mn ds, sec_data (m_main mf) (Some ls) = Ok mn -> mapM (fun s => sec_data s (Some ls)) (map snd (m_subs mf)) = Ok ds ->
  exists sf sfd sf', digest_manifest hash (new_sigmanifest (m_linesep mf)) mf alg = Ok sf /\ man_data sf None = Ok sfd /\
    man_parse (new_sigmanifest None) sfd = Ok sf' /\
    m_main sf' = sfmain alg (lit "1.0") (hash alg mn) (hash alg (mn ++ concat ds)) /\
    (forall n, dget (m_subs sf') n = dget (sf_subs hash alg (m_subs mf) ds) n).
Proof.
  intros HA HW EL Hls HN mn ds Em Ed. destruct (man_linesep_some mf ls EL Hls) as [_ EL2].
  pose proof (digest_manifest_ok hash mf alg ls (m_linesep mf) mn ds HA HW EL2 Em Ed) as ES.
  fold (sf_subs hash alg (m_subs mf) ds) in ES. set (sf := mkman _ _ _ _) in ES. exists sf.
  assert (HL : length ds = length (m_subs mf)).
  { apply mapM_Forall2 in Ed. clear -Ed. rewrite <- (map_length snd (m_subs mf)). induction Ed; cbn [length]; [reflexivity|]. now f_equal. }
  assert (HOK : manifest_ok sf).
  { split; [exists (lit "1.0"); cbn [m_primary_key m_main sf]; now apply sfmain_ok|]. cbn [m_subs sf]. split.
    - rewrite sf_subs_keys by exact HL. apply HW.
    - clear -HN HA Htext. unfold sf_subs, names_ok in *. apply Forall_map. apply Forall_forall. intros [n d] Hnd. cbn [fst snd].
      apply sfsec_ok; [exact HA|]. apply in_combine_l in Hnd. apply in_map_iff in Hnd as (ns & <- & Hns).
      rewrite Forall_forall in HN. now apply HN. }
  assert (HWr : writes_with sf None ls).
  { split; [exact Hls|]. right; left. split; [reflexivity|]. exact EL. }
  destruct (round_trip' sf None ls (new_sigmanifest None) (lit "1.0") HOK HWr) as (sfd & sf' & E1 & E2 & E3 & E4 & _); try reflexivity.
  exists sfd, sf'. split; [exact ES|]. split; [exact E1|]. split; [exact E2|]. split; [rewrite E3; reflexivity|].
  intro n. rewrite (dget_perm (sf_subs hash alg (m_subs mf) ds) (m_subs sf')); [reflexivity| |now symmetry].
  rewrite sf_subs_keys by exact HL. apply HW.
Qed.
End Env.

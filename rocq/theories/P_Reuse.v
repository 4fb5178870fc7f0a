(** Properties C131 and C132: what verifying and reading do to the manifest object. *)
From Verif Require Import Base Pack_Model ConstPool_Model Manifest_Model Manifest_Spec Manifest_Proofs Manifest_RT Manifest_Grammar Manifest_Parse
  Sign_Model Sign_Spec Sign_Proofs Sign_Names Reuse_Model Reuse_Spec Reuse_Verify P_Manifest2 P_Sign.

(** ** C131 *)
(** After the entries of a jar were verified, the manifest has, besides what it had, an
    empty section for every entry that should have had one; nothing else changed. *)
Lemma newly_iff (Q Q' : str -> Prop) have names new : (forall f, Q f <-> Q' f) -> newly Q have names new -> newly Q' have names new.
Proof.
  intro H. induction 1 as [have|have f l new H1 _ IH|have f l new H1 H2 _ IH]; [constructor| |].
  - apply newly_passed; [|exact IH]. destruct H1 as [H1|H1]; [left; now rewrite <- H|now right].
  - apply newly_first; [now apply H|exact H2|exact IH].
Qed.
Lemma newly_none (Q : str -> Prop) have names new : newly Q have names new -> (forall f, In f names -> Q f -> In f have) -> new = [].
Proof.
  induction 1 as [have|have f l new H1 _ IH|have f l new H1 H2 _ IH]; intro H; [reflexivity| |].
  - apply IH. intros g Hg. apply H. now right.
  - exfalso. apply H2, H; [now left|exact H1].
Qed.
Lemma newly_all (Q : str -> Prop) have names : newly Q have names [] -> forall f, In f names -> Q f -> In f have.
Proof.
  intro H. remember [] as new eqn:E. induction H as [have|have f l new H1 _ IH|have f l new H1 H2 _ IH]; intros g Hg HQ; [destruct Hg| |discriminate E].
  destruct Hg as [<-|Hg]; [destruct H1; [contradiction|assumption]|exact (IH E g Hg HQ)].
Qed.
Lemma with_same m new : with_empty m new = m -> new = [].
Proof.
  intro H. apply (f_equal (fun x => length (m_subs x))) in H. unfold with_empty in H. cbn [m_subs] in H. rewrite app_length, map_length in H. destruct new; [reflexivity|cbn [length] in H; lia].
Qed.
Theorem C131_entries_partial : forall up hash m z strict fails m', upper_ok up -> verify_jar_checksums up hash m z strict = Ok (fails, m') ->
  exists new, newly (fun f => ~ sig_related (uppercase up f)) (map fst (m_subs m)) (namelist z) new /\ m' = with_empty m new /\
  (m' = m <-> forall f, In f (namelist z) -> ~ sig_related (uppercase up f) -> In f (map fst (m_subs m))).
Proof.
  intros up hash m z strict fails m' Hup H. destruct (entries_after up hash z strict (namelist z) m fails m' H) as (new & H1 & ->).
  assert (HN : newly (fun f => ~ sig_related (uppercase up f)) (map fst (m_subs m)) (namelist z) new).
  { eapply newly_iff; [|exact H1]. intro f. rewrite <- (skips_exact up Hup f). destruct (file_skips_verification up f); split; congruence. }
  exists new. split; [exact HN|]. split; [reflexivity|]. split.
  - intro E. apply with_same in E. subst new. exact (newly_all _ _ _ HN).
  - intro HA. rewrite (newly_none _ _ _ _ HN HA). apply with_none.
Qed.
Print Assumptions C131_entries_partial.
Lemma primary_names (l : list (str * section)) : Forall (fun ns => dget (snd ns) (lit "Name") = Some (fst ns)) l -> mapM primary (map snd l) = Ok (map fst l).
Proof.
  induction 1 as [|[n s] l Hn _ IH]; [reflexivity|]. cbn [map mapM snd fst] in *. unfold primary at 1. change K_Name with (lit "Name"). rewrite Hn. cbn [rbind]. rewrite IH. reflexivity.
Qed.
(** The same for the sections of a manifest and the signature file. *)
Theorem C131_sections_partial : forall hash sf mf strict fails sf', well_named mf -> verify_manifest_entry_checksums hash sf mf strict = Ok (fails, sf') ->
  exists new, newly (fun _ => True) (map fst (m_subs sf)) (map fst (m_subs mf)) new /\ sf' = with_empty sf new /\
  (sf' = sf <-> forall n, In n (map fst (m_subs mf)) -> In n (map fst (m_subs sf))).
Proof.
  intros hash sf mf strict fails sf' [_ HW] H. destruct (sections_after hash (m_linesep mf) strict _ sf fails sf' H) as (names & new & HN & H1 & ->).
  rewrite (primary_names _ HW) in HN. injection HN as <-.
  exists new. split; [exact H1|]. split; [reflexivity|]. split.
  - intro E. apply with_same in E. subst new. intros n Hn. exact (newly_all _ _ _ H1 n Hn I).
  - intro HA. rewrite (newly_none _ _ _ _ H1 (fun f Hf _ => HA f Hf)). apply with_none.
Qed.
Print Assumptions C131_sections_partial.

(** So verifying again gives the same answer, and leaves the object as it is then. *)
Theorem C131_again : forall up hash m z strict fails m', verify_jar_checksums up hash m z strict = Ok (fails, m') ->
  verify_jar_checksums up hash m' z strict = Ok (fails, m').
Proof. intros up hash m z strict fails m'. exact (entries_again up hash z strict (namelist z) m fails m'). Qed.
Print Assumptions C131_again.
Theorem C131_sections_again : forall hash sf mf strict fails sf', verify_manifest_entry_checksums hash sf mf strict = Ok (fails, sf') ->
  verify_manifest_entry_checksums hash sf' mf strict = Ok (fails, sf').
Proof. intros hash sf mf strict fails sf'. exact (sections_again hash (m_linesep mf) strict _ sf fails sf'). Qed.
Print Assumptions C131_sections_again.

(** A jar that is found to be in order leaves the manifest as it was. *)
Lemma picks_nil_none {A} (Q : A -> Prop) l : picks Q l [] -> forall a, In a l -> ~ Q a.
Proof. intro H. remember [] as r eqn:E. induction H as [|a l r H HP IH|a l r H HP IH]; intros x Hx; [destruct Hx|discriminate E|]. destruct Hx as [<-|Hx]; [exact H|exact (IH E x Hx)]. Qed.
Theorem C131_success : forall up hash m z strict m', upper_ok up -> verify_jar_checksums up hash m z strict = Ok ([], m') -> m' = m.
Proof.
  intros up hash m z strict m' Hup H. destruct (C131_entries_partial up hash m z strict [] m' Hup H) as (new & _ & _ & [_ HI]). apply HI. intros f Hf HS.
  pose proof (picks_nil_none _ _ (C27_exact up hash m z strict [] m' Hup H) f Hf) as HP.
  destruct (dget (m_subs m) f) as [s|] eqn:E; [exact (dget_present _ _ _ E)|]. exfalso. apply HP. split; [exact HS|]. intros (s & b & Hs & _). congruence.
Qed.
Print Assumptions C131_success.

(** A signed jar with one more entry: the signature vouches for the manifest as it was
    read; once the entries have been verified, it does not, and the manifest is written
    differently. *)
Definition more_jar : zip := jar1 ++ [(lit "a/D.class", [1])].
Definition sf_of (z : zip) : manifest := match zread z (lit "META-INF/KEY.SF") with Ok d => match man_parse (new_sigmanifest None) d with Ok m => m | Err _ => new_manifest None end | Err _ => new_manifest None end.
Theorem C131_refuted : exists m m' fails d d', load_from_jar (new_manifest None) more_jar = Ok m /\
  verify_manifest hash0 (sf_of more_jar) m = Ok [] /\ man_data m None = Ok d /\
  verify_jar_checksums up0 hash0 m more_jar true = Ok (fails, m') /\ fails = [lit "a/D.class"] /\
  man_data m' None = Ok d' /\ d' = d ++ lit "Name: a/D.class" ++ [10; 10] /\
  verify_manifest_main_checksum hash0 (sf_of more_jar) m' = Ok false /\ verify_manifest hash0 (sf_of more_jar) m' = Ok [lit "a/D.class"].
Proof.
  eexists _, _, _, _, _. split; [vm_compute; reflexivity|]. split; [vm_compute; reflexivity|]. split; [vm_compute; reflexivity|]. split; [vm_compute; reflexivity|]. repeat (split; [vm_compute; reflexivity|]). vm_compute. reflexivity.
Qed.
Print Assumptions C131_refuted.
Definition mf1 : manifest := match load_from_jar (new_manifest None) jar1 with Ok m => m | Err _ => new_manifest None end.
Example C131_ex : upper_ok up0 /\ length (m_subs mf1) = 2%nat /\ verify_jar_checksums up0 hash0 mf1 jar1 true = Ok ([], mf1) /\
  exists m', verify_jar_checksums up0 hash0 mf1 more_jar true = Ok ([lit "a/D.class"], m') /\ m' = with_empty mf1 [lit "a/D.class"].
Proof. split; [exact up0_ok|]. split; [reflexivity|]. split; [vm_compute; reflexivity|]. eexists. split; vm_compute; reflexivity. Qed.
Example C131_sections_ex : well_named mf_ex2 /\ exists sf', verify_manifest_entry_checksums hash0 (new_sigmanifest None) mf_ex2 true = Ok ([lit "a/B.class"; lit "a/C.class"], sf') /\
  sf' = with_empty (new_sigmanifest None) [lit "a/B.class"; lit "a/C.class"].
Proof.
  split; [split|].
  - cbn [m_subs mf_ex2 map fst]. constructor; [intros [H|[]]; discriminate H|]. constructor; [intros []|constructor].
  - constructor; [reflexivity|]. constructor; [reflexivity|constructor].
  - eexists. split; vm_compute; reflexivity.
Qed.

(** ** C132 *)
(** A manifest that was used and cleared reads a text as a new one does, if the text
    starts with the version. *)
Theorem C132_cleared_partial : forall m fresh ls t vs main subs, fresh = new_manifest ls \/ fresh = new_sigmanifest ls -> m_primary_key m = m_primary_key fresh ->
  forallb scalar t = true -> Sections t (((m_primary_key m, vs) :: main) :: subs) ->
  man_parse (man_clear m) (utf8 t) = man_parse fresh (utf8 t).
Proof.
  intros m fresh ls t vs main subs HF HK HT HS. apply parse_sections_iff in HS. unfold man_parse. rewrite (decode_utf8 t HT), HS. cbn [man_clear m_main m_subs m_primary_key]. rewrite HK.
  destruct HF as [-> | ->]; reflexivity.
Qed.
Print Assumptions C132_cleared_partial.
Example C132_cleared_ex : forallb scalar m_text = true /\ Sections m_text m_secs /\ (exists vs main subs, m_secs = ((m_primary_key mf_ex2, vs) :: main) :: subs) /\
  exists m, man_parse (man_clear mf_ex2) (utf8 m_text) = Ok m /\ dkeys (m_subs m) = [lit "x/A.class"; lit "b"].
Proof. split; [reflexivity|]. split; [exact m_text_sections|]. split; [eexists _, _, _; reflexivity|]. eexists. split; [reflexivity|reflexivity]. Qed.

(** Without clear, what was there before is forgotten exactly if the new text has every
    attribute and every section that was there. *)
Definition look (m : manifest) (n k : str) : option (option str) := option_map (fun s => dget s k) (dget (m_subs m) n).
Lemma last_value_in items k b b' a : In k (map fst items) -> last_value items k b a -> last_value items k b' a.
Proof. intros H [HL|[HN _]]; [now left|contradiction]. Qed.
Lemma last_section_fun secs n b b' a a' : (exists it, In it secs /\ section_name it n) -> last_section secs n b a -> last_section secs n b' a' ->
  forall k, option_map (fun s => dget s k) a = option_map (fun s => dget s k) a'.
Proof.
  assert (D : forall (P : list (str * list str) -> Prop) (xs xs' : list (list (str * list str))) it it' ys ys', xs ++ it :: ys = xs' ++ it' :: ys' -> P it -> P it' ->
    (forall x, In x ys -> ~ P x) -> (forall x, In x ys' -> ~ P x) -> it = it').
  { intros P xs. induction xs as [|x xs IH]; intros [|x' xs'] it it' ys ys' E H1 H2 H3 H4; cbn [app] in E; injection E as E1 E2.
    - exact E1.
    - exfalso. apply (H3 it'); [rewrite E2; apply in_app_iff; right; now left|exact H2].
    - exfalso. apply (H4 it); [rewrite <- E2; apply in_app_iff; right; now left|exact H1].
    - exact (IH xs' it it' ys ys' E2 H1 H2 H3 H4). }
  intros (it0 & Hi & H0) [(xs & it & ys & s & E & N & L & -> & V)|[HN _]] [(xs' & it' & ys' & s' & E' & N' & L' & -> & V')|[HN' _]] k; try (exfalso; first [exact (HN it0 Hi H0)|exact (HN' it0 Hi H0)]).
  rewrite E in E'. pose proof (D (fun x => section_name x n) xs xs' it it' ys ys' E' N N' L L') as <-. cbn [option_map]. f_equal. exact (last_value_fun _ _ _ _ _ (V k) (V' k)).
Qed.
Lemma in_dec_str (k : str) l : In k l \/ ~ In k l.
Proof. destruct (in_dec (list_eq_dec Z.eq_dec) k l); auto. Qed.
Theorem C132_forgets : forall m0 t main subs m m1, forallb scalar t = true -> Sections t (main :: subs) ->
  man_parse m0 (utf8 t) = Ok m -> man_parse (man_clear m0) (utf8 t) = Ok m1 ->
  ((forall k, dget (m_main m) k = dget (m_main m1) k) <-> (forall k, In k (map fst (m_main m0)) -> In k (map fst main))) /\
  ((forall n k, look m n k = look m1 n k) <-> (forall n, In n (map fst (m_subs m0)) -> exists items, In items subs /\ section_name items n)).
Proof.
  intros m0 t main subs m m1 HT HS H H1.
  destruct (man_parse_ok m0 t m HT H) as (mn & sb & S1 & _ & V & L & _). destruct (man_parse_ok (man_clear m0) t m1 HT H1) as (mn' & sb' & S2 & _ & V1 & L1 & _).
  apply parse_sections_iff in HS, S1, S2. rewrite HS in S1, S2. injection S1 as <- <-. injection S2 as <- <-. cbn [man_clear m_main m_subs] in V1, L1. split; split.
  - intros HE k Hk. destruct (in_dec_str k (map fst main)) as [Hi|Hn]; [exact Hi|exfalso]. destruct (V k) as [(xs & vs & ys & E & _)|[_ E]]; [apply Hn; rewrite E, map_app; apply in_app_iff; right; now left|].
    destruct (V1 k) as [(xs & vs & ys & E' & _)|[_ E']]; [apply Hn; rewrite E', map_app; apply in_app_iff; right; now left|]. specialize (HE k). rewrite E, E' in HE. exact (dget_absent _ _ HE Hk).
  - intros HA k. destruct (in_dec_str k (map fst main)) as [Hi|Hn].
    + exact (last_value_fun _ _ _ _ _ (V k) (last_value_in _ _ _ _ _ Hi (V1 k))).
    + destruct (V k) as [(xs & vs & ys & E & _)|[_ ->]]; [exfalso; apply Hn; rewrite E, map_app; apply in_app_iff; right; now left|].
      destruct (V1 k) as [(xs & vs & ys & E & _)|[_ ->]]; [exfalso; apply Hn; rewrite E, map_app; apply in_app_iff; right; now left|].
      destruct (dget (m_main m0) k) eqn:E; [|reflexivity]. exfalso. apply Hn, HA. exact (dget_present _ _ _ E).
  - intros HE n Hn. destruct (L n) as [(xs & it & ys & s & -> & N & _)|[Hno E]]; [exists it; split; [apply in_app_iff; right; now left|exact N]|]. exfalso.
    destruct (L1 n) as [(xs & it & ys & s & -> & N & _)|[_ E']]; [apply (Hno it); [apply in_app_iff; right; now left|exact N]|].
    specialize (HE n []). unfold look in HE. rewrite E, E' in HE. destruct (dget (m_subs m0) n) eqn:EG; [discriminate HE|]. exact (dget_absent _ _ EG Hn).
  - intros HA n k. unfold look. destruct (L n) as [HL|[Hno E]].
    + destruct HL as (xs & it & ys & s & E0 & N & R). apply (last_section_fun subs n (dget (m_subs m0) n) None); [exists it; split; [rewrite E0; apply in_app_iff; right; now left|exact N]|exact (L n)|exact (L1 n)].
    + destruct (L1 n) as [(xs & it & ys & s & -> & N & _)|[_ E']]; [exfalso; apply (Hno it); [apply in_app_iff; right; now left|exact N]|]. rewrite E, E'.
      destruct (dget (m_subs m0) n) eqn:EG; [|reflexivity]. exfalso. destruct (HA n (dget_present _ _ _ EG)) as (it & Hi & Ni). exact (Hno it Hi Ni).
Qed.
Print Assumptions C132_forgets.

(** A second text read into the same object: a section of the first is still there. *)
Definition text_one : str := lit "Manifest-Version: 1.0" ++ [10] ++ lit "Main-Class: a.B" ++ [10; 10] ++ lit "Name: x" ++ [10] ++ lit "Sealed: true" ++ [10; 10].
Definition text_two : str := lit "Manifest-Version: 1.0" ++ [10; 10] ++ lit "Name: y" ++ [10; 10].
Theorem C132_stale_refuted : exists m1 m2 m, man_parse (new_manifest None) (utf8 text_one) = Ok m1 /\ man_parse m1 (utf8 text_two) = Ok m2 /\
  man_parse (new_manifest None) (utf8 text_two) = Ok m /\ dget (m_main m2) (lit "Main-Class") = Some (lit "a.B") /\ dget (m_main m) (lit "Main-Class") = None /\
  dkeys (m_subs m2) = [lit "x"; lit "y"] /\ dkeys (m_subs m) = [lit "y"].
Proof. eexists _, _, _. split; [vm_compute; reflexivity|]. split; [vm_compute; reflexivity|]. split; [vm_compute; reflexivity|]. repeat split. Qed.
Print Assumptions C132_stale_refuted.

(** A manifest that was cleared has no version any more; if a section is then added and
    the manifest written and read again, that section has become the main one. *)
Theorem C132_version_refuted : exists m d m', man_parse (new_manifest None) (utf8 text_one) = Ok m /\
  man_data (snd (create_section (man_clear m) (lit "y"))) None = Ok d /\ man_parse (new_manifest None) d = Ok m' /\
  dkeys (m_subs (snd (create_section (man_clear m) (lit "y")))) = [lit "y"] /\ m_subs m' = [] /\ dget (m_main m') (lit "Name") = Some (lit "y").
Proof. eexists _, _, _. split; [vm_compute; reflexivity|]. split; [vm_compute; reflexivity|]. split; [vm_compute; reflexivity|]. repeat split. Qed.
Print Assumptions C132_version_refuted.
Example C132_forgets_ex : exists m0 m m1, man_parse (new_manifest None) (utf8 text_one) = Ok m0 /\ man_parse m0 (utf8 m_text) = Ok m /\ man_parse (man_clear m0) (utf8 m_text) = Ok m1 /\
  look m (lit "b") (lit "K") = Some (Some []) /\ look m (lit "x") (lit "Sealed") = Some (Some (lit "true")) /\ look m1 (lit "x") (lit "Sealed") = None.
Proof. eexists _, _, _. split; [vm_compute; reflexivity|]. split; [vm_compute; reflexivity|]. split; [vm_compute; reflexivity|]. repeat split. Qed.

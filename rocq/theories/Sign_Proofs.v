(** Proofs about digests in manifests and signature files. *)
From Verif Require Import Base ConstPool_Model Manifest_Model Manifest_Spec Manifest_Proofs Manifest_RT Manifest_Canon
  Sign_Model Sign_Spec.
From Coq Require Import Permutation.

(** ** Dictionaries *)
Lemma dget_In {V} (d : dict V) k v : dget d k = Some v -> In (k, v) d.
Proof.
  induction d as [|[k' v'] d IH]; cbn [dget]; [discriminate|]. destruct (seqb_spec k k') as [->|].
  - intro H. injection H as ->. now left.
  - intro H. right. now apply IH.
Qed.
Lemma dget_None {V} (d : dict V) k : dget d k = None <-> ~ In k (map fst d).
Proof.
  induction d as [|[k' v'] d IH]; cbn [dget map fst In]; [tauto|]. destruct (seqb_spec k k') as [->|Hk].
  - split; [discriminate|]. intro H. exfalso. apply H. now left.
  - rewrite IH. split; intros H; [intros [?|?]; [congruence|contradiction]|tauto].
Qed.
Lemma dget_unique {V} (d : dict V) k v : NoDup (map fst d) -> In (k, v) d -> dget d k = Some v.
Proof.
  induction d as [|[k' v'] d IH]; cbn [dget map fst In]; [contradiction|]. intros HN [E|HI].
  - injection E as -> ->. now rewrite seqb_refl.
  - inversion HN as [|? ? H1 H2]; subst. destruct (seqb_spec k k') as [->|]; [|now apply IH].
    exfalso. apply H1. apply in_map_iff. now exists (k', v).
Qed.
Lemma dget_dset {V} (d : dict V) k v k' : dget (dset d k v) k' = if seqb k' k then Some v else dget d k'.
Proof.
  induction d as [|[k0 v0] d IH]; cbn [dset dget].
  - reflexivity.
  - destruct (seqb_spec k k0) as [<-|Hk]; cbn [dget].
    + now destruct (seqb k' k).
    + rewrite IH. destruct (seqb_spec k' k0) as [->|]; [|reflexivity].
      destruct (seqb_spec k0 k) as [->|]; [contradiction|reflexivity].
Qed.
Lemma dget_app {V} (a b : dict V) k : dget (a ++ b) k = match dget a k with Some v => Some v | None => dget b k end.
Proof. induction a as [|[k' v'] a IH]; [reflexivity|]. cbn [app dget]. now destruct (seqb k k'). Qed.

(** ** Archives *)
Lemma zread_holds z f b : zread z f = Ok b <-> holds z f b.
Proof.
  unfold zread, holds. split.
  - destruct (dget (rev z) f) as [b'|] eqn:E; [|discriminate]. intro H. apply ok_inj in H. subst b'.
    assert (G : forall y, dget y f = Some b -> exists y1 y2, y = y1 ++ (f, b) :: y2 /\ ~ In f (map fst y1)).
    { induction y as [|[k v] y IH]; cbn [dget]; [discriminate|]. destruct (seqb_spec f k) as [<-|Hk].
      - intro H. injection H as ->. exists [], y. split; [reflexivity|intros []].
      - intro H. destruct (IH H) as (y1 & y2 & -> & Hn). exists ((k, v) :: y1), y2. split; [reflexivity|].
        cbn [map fst In]. intros [?|?]; [congruence|contradiction]. }
    destruct (G _ E) as (y1 & y2 & Er & Hn). exists (rev y2), (rev y1). split.
    + rewrite <- (rev_involutive z), Er, rev_app_distr. cbn [rev]. now rewrite <- app_assoc.
    + rewrite map_rev, <- in_rev. exact Hn.
  - intros (z1 & z2 & -> & Hn). rewrite rev_app_distr. cbn [rev]. rewrite <- app_assoc. rewrite dget_app.
    replace (dget (rev z2) f) with (@None bytes).
    + cbn [dget app]. now rewrite seqb_refl.
    + symmetry. apply dget_None. now rewrite map_rev, <- in_rev.
Qed.
Lemma zread_in z f : In f (namelist z) -> exists b, zread z f = Ok b.
Proof.
  intro H. unfold zread. destruct (dget (rev z) f) as [b|] eqn:E; [eauto|]. apply dget_None in E.
  exfalso. apply E. rewrite map_rev, <- in_rev. exact H.
Qed.

(** ** Digest names *)
Lemma algs_eq : algs = java_digests.
Proof. reflexivity. Qed.
Lemma alg_last A : In A algs -> exists x c, A = x ++ [c] /\ 48 <= c <= 57.
Proof.
  intros [<-|[<-|[<-|[<-|[<-|[]]]]]].
  - exists (lit "MD"), 53. split; [reflexivity|lia].
  - exists (lit "SHA"), 49. split; [reflexivity|lia].
  - exists (lit "SHA-25"), 54. split; [reflexivity|lia].
  - exists (lit "SHA-38"), 52. split; [reflexivity|lia].
  - exists (lit "SHA-51"), 50. split; [reflexivity|lia].
Qed.
Definition a_suffix (suf : str) : Prop := suf = SUF \/ suf = SUF_ALL \/ suf = SUF_MAIN.
Lemma suffix_no_digit suf c : a_suffix suf -> 48 <= c <= 57 -> ~ In c suf.
Proof.
  intros Hs Hc HI. assert (HA : forallb (fun y => (y <? 48) || (57 <? y)) suf = true).
  { destruct Hs as [->|[->| ->]]; vm_compute; reflexivity. }
  rewrite forallb_forall in HA. specialize (HA c HI). lia.
Qed.
Lemma rstrip_alg A suf : a_suffix suf -> In A algs -> rstrip suf (A ++ suf) = A.
Proof.
  intros Hs HA. destruct (alg_last A HA) as (x & c & E & Hc). apply (rstrip_suffix A suf c x E).
  now apply suffix_no_digit.
Qed.
Lemma keys_alg s A suf : a_suffix suf -> In A algs -> In (A ++ suf) (dkeys s) -> In A (keys_with_suffix s suf).
Proof.
  intros Hs HA HI. unfold keys_with_suffix. rewrite <- (rstrip_alg A suf Hs HA). apply in_map. apply filter_In.
  split; [exact HI|]. apply ends_with_app. now exists A.
Qed.
Lemma smem_alg A : smem A java_digests = true <-> In A algs.
Proof. apply smem_In. Qed.

Section Env.
Variable up : Z -> str.
Variable hash : str -> bytes -> str.
Notation digest_of := (digest_of hash).
Notation some_match := (some_match hash).
Notation skips := (file_skips_verification up).

Lemma digest_of_ok A b d : digest_of A b = Ok d <-> In A algs /\ d = hash A b.
Proof.
  unfold Sign_Model.digest_of. destruct (smem A java_digests) eqn:E.
  - apply smem_alg in E. split; [intro H; apply ok_inj in H; auto|]. intros (_ & ->). reflexivity.
  - split; [discriminate|]. intros (H & _). apply smem_alg in H. congruence.
Qed.

Lemma some_match_true s suf b ds : some_match s suf (Ok b) ds = Ok true ->
  exists A, In A ds /\ In A algs /\ dget s (A ++ suf) = Some (hash A b).
Proof.
  induction ds as [|j ds IH]; cbn [Sign_Model.some_match]; [discriminate|]. cbn [rbind].
  destruct (digest_of j b) as [d|] eqn:E; [|discriminate]. cbn [rbind]. apply digest_of_ok in E as (Hj & ->).
  destruct (dget s (j ++ suf)) as [v|] eqn:Ev.
  - destruct (seqb_spec (hash j b) v) as [<-|Hv].
    + intros _. exists j. split; [now left|auto].
    + intro H. destruct (IH H) as (A & H1 & H2). exists A. split; [now right|exact H2].
  - intro H. destruct (IH H) as (A & H1 & H2). exists A. split; [now right|exact H2].
Qed.
Lemma some_match_false s suf b ds : some_match s suf (Ok b) ds = Ok false ->
  forall A, In A ds -> In A algs /\ dget s (A ++ suf) <> Some (hash A b).
Proof.
  induction ds as [|j ds IH]; cbn [Sign_Model.some_match]; intros H A HA; [contradiction|]. cbn [rbind] in H.
  destruct (digest_of j b) as [d|] eqn:E; [|discriminate]. cbn [rbind] in H. apply digest_of_ok in E as (Hj & ->).
  assert (HN : dget s (j ++ suf) <> Some (hash j b) /\ some_match s suf (Ok b) ds = Ok false).
  { destruct (dget s (j ++ suf)) as [v|] eqn:Ev.
    - destruct (seqb_spec (hash j b) v) as [<-|Hv]; [discriminate|]. split; [congruence|exact H].
    - split; [discriminate|exact H]. }
  destruct HN as [H1 H2]. destruct HA as [<-|HA]; [auto|]. now apply IH.
Qed.
Lemma some_match_ok s suf b ds : (forall A, In A ds -> In A algs) -> exists r, some_match s suf (Ok b) ds = Ok r.
Proof.
  induction ds as [|j ds IH]; intro H; [now exists false|]. cbn [Sign_Model.some_match rbind].
  assert (E : digest_of j b = Ok (hash j b)) by (apply digest_of_ok; split; [apply H; now left|reflexivity]).
  rewrite E. cbn [rbind]. destruct (IH (fun A HA => H A (or_intror HA))) as (r & Er).
  destruct (dget s (j ++ suf)) as [v|]; [destruct (seqb _ v)|]; eauto.
Qed.
Lemma some_match_err s suf b ds e : some_match s suf (Ok b) ds = Err e -> e = UnsupportedDigest.
Proof.
  induction ds as [|j ds IH]; cbn [Sign_Model.some_match rbind]; [discriminate|].
  unfold Sign_Model.digest_of. destruct (smem j java_digests); cbn [rbind]; [|intro H; injection H as <-; reflexivity].
  destruct (dget s (j ++ suf)) as [v|]; [destruct (seqb _ v)|]; [discriminate|exact IH|exact IH].
Qed.
(** A match is found as soon as one of the names matches and none is unsupported. *)
Lemma some_match_found s suf b ds A : (forall A, In A ds -> In A algs) -> In A ds ->
  dget s (A ++ suf) = Some (hash A b) -> some_match s suf (Ok b) ds = Ok true.
Proof.
  intros Hs HA HD. destruct (some_match_ok s suf b ds Hs) as ([|] & E); [exact E|].
  exfalso. destruct (some_match_false s suf b ds E A HA) as [_ H]. contradiction.
Qed.

(** ** C27 *)
Definition extends (m m' : manifest) : Prop :=
  forall f, dget (m_subs m') f = dget (m_subs m) f \/
            (dget (m_subs m) f = None /\ dget (m_subs m') f = Some (new_section f)).
Lemma extends_refl m : extends m m.
Proof. intro f. now left. Qed.
Lemma extends_goc m m' f s m1 : extends m m' -> get_or_create_section m' f = (s, m1) ->
  extends m m1 /\ (dget (m_subs m) f = Some s \/ (dget (m_subs m) f = None /\ s = new_section f)).
Proof.
  intros HE H. unfold get_or_create_section in H. destruct (dget (m_subs m') f) as [s'|] eqn:E.
  - injection H as -> ->. split; [exact HE|]. destruct (HE f) as [H|(H1 & H2)].
    + left. congruence.
    + right. split; [exact H1|congruence].
  - unfold create_section in H. injection H as <- <-. split.
    + intro g. cbn [m_subs]. rewrite dget_dset. destruct (seqb_spec g f) as [->|]; [|apply HE].
      right. split; [|reflexivity]. destruct (HE f) as [H|(H1 & H2)]; congruence.
    + right. split; [|reflexivity]. destruct (HE f) as [H|(H1 & H2)]; congruence.
Qed.
Lemma new_section_no_digest f : keys_with_suffix (new_section f) SUF = [].
Proof. reflexivity. Qed.
Lemma new_section_get f A : dget (new_section f) (A ++ SUF) = None.
Proof.
  unfold new_section. cbn [dget]. destruct (seqb_spec (A ++ SUF) K_Name) as [E|]; [|reflexivity].
  exfalso. apply (f_equal (fun l => nth 0 (rev l) 0)) in E. rewrite rev_app_distr in E. vm_compute in E. discriminate.
Qed.

Definition bad (m : manifest) (z : zip) (f : str) : Prop :=
  skips f = false /\ ~ (exists s b, dget (m_subs m) f = Some s /\ holds z f b /\ vouched hash s b).

Lemma keys_nil_not_vouched s b : keys_with_suffix s SUF = [] -> ~ vouched hash s b.
Proof.
  intros E (A & HA & HD). apply dget_In in HD. assert (HI : In A (keys_with_suffix s SUF)).
  { apply keys_alg; [now left|exact HA|]. unfold dkeys. apply in_map_iff. eexists. split; [|exact HD]. reflexivity. }
  rewrite E in HI. contradiction.
Qed.

Lemma verify_entries_exact m z strict : forall names m0 fails m', (forall f, In f names -> In f (namelist z)) ->
  extends m m0 -> verify_entries up hash m0 z strict names = Ok (fails, m') -> picks (bad m z) names fails.
Proof.
  induction names as [|f names IH]; intros m0 fails m' HN HE H; cbn [verify_entries] in H.
  - injection H as <- _. constructor.
  - assert (HN' : forall g, In g names -> In g (namelist z)) by (intros; apply HN; now right).
    destruct (skips f) eqn:ES.
    { apply picks_out; [|eapply IH; eauto]. unfold bad. rewrite ES. intros [? _]. discriminate. }
    destruct (get_or_create_section m0 f) as [s m1] eqn:EG. destruct (extends_goc m m0 f s m1 HE EG) as [HE1 HS].
    destruct (zread_in z f (HN f (or_introl eq_refl))) as (b & Eb). apply zread_holds in Eb as Hb.
    assert (HB : bad m z f <-> ~ vouched hash s b).
    { split.
      - intros [_ Hn] Hv. apply Hn. destruct HS as [HS|[HS ->]]; [exists s, b; auto|].
        exfalso. exact (keys_nil_not_vouched _ b (new_section_no_digest f) Hv).
      - intro Hn. split; [exact ES|]. intros (s' & b' & H1 & H2 & H3). destruct HS as [HS|[HS ->]]; [|congruence].
        assert (s' = s) by congruence. apply zread_holds in H2. assert (b' = b) by congruence. subst. contradiction. }
    destruct (empty (keys_with_suffix s SUF) && strict) eqn:EE.
    + destruct (verify_entries up hash m1 z strict names) as [[l m2]|] eqn:EV; [|discriminate]. cbn [rbind] in H.
      injection H as <- _. apply picks_in; [|eapply IH; eauto]. apply HB.
      apply keys_nil_not_vouched. destruct (keys_with_suffix s SUF); [reflexivity|discriminate].
    + rewrite Eb in H. destruct (some_match s SUF (Ok b) (keys_with_suffix s SUF)) as [r|] eqn:EM; [|discriminate].
      cbn [rbind] in H. destruct (verify_entries up hash m1 z strict names) as [[l m2]|] eqn:EV; [|discriminate].
      cbn [rbind] in H. injection H as H _. destruct r; subst fails.
      * apply picks_out; [|eapply IH; eauto]. rewrite HB. intro Hn. apply Hn.
        apply some_match_true in EM as (A & _ & H2 & H3). now exists A.
      * apply picks_in; [|eapply IH; eauto]. apply HB. intros (A & HA & HD).
        assert (HI : In A (keys_with_suffix s SUF)).
        { apply keys_alg; [now left|exact HA|]. unfold dkeys. apply in_map_iff. apply dget_In in HD.
          eexists. split; [|exact HD]. reflexivity. }
        destruct (some_match_false _ _ _ _ EM A HI) as [_ Hx]. apply Hx. exact HD.
Qed.
Lemma verify_jar_exact m z strict fails m' : verify_jar_checksums up hash m z strict = Ok (fails, m') ->
  picks (bad m z) (namelist z) fails.
Proof. intro H. eapply verify_entries_exact; eauto using extends_refl. Qed.

Lemma verify_entries_err z strict e : forall names m, (forall f, In f names -> In f (namelist z)) ->
  verify_entries up hash m z strict names = Err e -> e = UnsupportedDigest.
Proof.
  induction names as [|f names IH]; intros m HN H; cbn [verify_entries] in H; [discriminate|].
  assert (HN' : forall g, In g names -> In g (namelist z)) by (intros; apply HN; now right).
  destruct (skips f); [eapply IH; eauto|].
  destruct (get_or_create_section m f) as [s m1].
  destruct (zread_in z f (HN f (or_introl eq_refl))) as (b & Eb).
  destruct (empty _ && strict).
  - destruct (verify_entries up hash m1 z strict names) as [[l m2]|] eqn:EV; [discriminate|]. injection H as <-. eapply IH; eauto.
  - rewrite Eb in H. destruct (some_match s SUF (Ok b) (keys_with_suffix s SUF)) as [r|] eqn:EM.
    + cbn [rbind] in H. destruct (verify_entries up hash m1 z strict names) as [[l m2]|] eqn:EV; [discriminate|].
      injection H as <-. eapply IH; eauto.
    + injection H as <-. eapply some_match_err; eauto.
Qed.

Lemma keys_supported s : digests_supported s -> forall A, In A (keys_with_suffix s SUF) -> In A algs.
Proof.
  intros H A HA. unfold keys_with_suffix in HA. apply in_map_iff in HA as (k & <- & Hk).
  apply filter_In in Hk as [H1 H2]. apply ends_with_app in H2 as (x & ->). specialize (H x H1).
  rewrite (rstrip_alg x SUF); [exact H|now left|exact H].
Qed.
Lemma new_section_supported f : digests_supported (new_section f).
Proof.
  intros x Hx. exfalso. cbn in Hx. destruct Hx as [Hx|[]].
  apply (f_equal (fun l => nth 0 (rev l) 0)) in Hx. rewrite rev_app_distr in Hx. vm_compute in Hx. discriminate.
Qed.
Lemma verify_entries_ok m z strict : Forall (fun ns => digests_supported (snd ns)) (m_subs m) ->
  forall names m0, (forall f, In f names -> In f (namelist z)) -> extends m m0 ->
  exists r, verify_entries up hash m0 z strict names = Ok r.
Proof.
  intros HS. induction names as [|f names IH]; intros m0 HN HE; cbn [verify_entries]; [eauto|].
  assert (HN' : forall g, In g names -> In g (namelist z)) by (intros; apply HN; now right).
  destruct (skips f); [now apply IH|].
  destruct (get_or_create_section m0 f) as [s m1] eqn:EG. destruct (extends_goc m m0 f s m1 HE EG) as [HE1 Hs].
  destruct (zread_in z f (HN f (or_introl eq_refl))) as (b & Eb). rewrite Eb.
  destruct (IH m1 HN' HE1) as ([l m2] & EV). rewrite EV. cbn [rbind].
  destruct (empty _ && strict); [eauto|].
  assert (HD : digests_supported s).
  { destruct Hs as [Hs|[_ ->]]; [|apply new_section_supported]. apply dget_In in Hs. rewrite Forall_forall in HS.
    exact (HS _ Hs). }
  destruct (some_match_ok s SUF b _ (keys_supported s HD)) as (r & ->). cbn [rbind]. destruct r; eauto.
Qed.

(** ** C28 *)
Lemma strict_entries z : forall names m, (forall f, In f names -> In f (namelist z)) ->
  verify_entries up hash m z false names = verify_entries up hash m z true names.
Proof.
  induction names as [|f names IH]; intros m HN; [reflexivity|]. cbn [verify_entries].
  assert (HN' : forall g, In g names -> In g (namelist z)) by (intros; apply HN; now right).
  destruct (skips f); [now apply IH|]. destruct (get_or_create_section m f) as [s m1].
  destruct (keys_with_suffix s SUF) as [|j js]; cbn [empty andb Sign_Model.some_match rbind]; rewrite IH by exact HN'; [|reflexivity].
  destruct (verify_entries up hash m1 z true names) as [[l m2]|]; reflexivity.
Qed.
Lemma strict_sections ls : forall secs sf,
  verify_sections hash sf ls false secs = verify_sections hash sf ls true secs.
Proof.
  induction secs as [|s secs IH]; intro sf; [reflexivity|]. cbn [verify_sections].
  destruct (primary s) as [n|]; [|reflexivity]. cbn [rbind]. destruct (get_or_create_section sf n) as [sfs sf1].
  destruct (keys_with_suffix s SUF) as [|j js]; cbn [empty andb Sign_Model.some_match rbind]; rewrite IH; [|reflexivity].
  destruct (verify_sections hash sf1 ls true secs) as [[l m2]|]; reflexivity.
Qed.
End Env.

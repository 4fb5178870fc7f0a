(** Proofs about what verifying does to the manifest object. *)
From Verif Require Import Base ConstPool_Model Manifest_Model Manifest_Spec Manifest_RT Manifest_Parse Sign_Model Sign_Spec Sign_Proofs Sign_Names Reuse_Spec.

Lemma with_none m : with_empty m [] = m.
Proof. destruct m. unfold with_empty. cbn. now rewrite app_nil_r. Qed.
Lemma with_cons m f l : with_empty (with_empty m [f]) l = with_empty m (f :: l).
Proof. unfold with_empty. cbn [m_primary_key m_main m_subs m_linesep map]. now rewrite <- app_assoc. Qed.
Lemma dget_absent {V} (d : dict V) k : dget d k = None -> ~ In k (map fst d).
Proof.
  induction d as [|[k' v] d IH]; intro H; [intros []|]. cbn [dget] in H. destruct (seqb k k') eqn:E; [discriminate|]. intros [Hk|Hk]; [|exact (IH H Hk)].
  cbn [fst] in Hk. subst k'. rewrite (proj2 (seqb_eq k k) eq_refl) in E. discriminate.
Qed.
Lemma dget_present {V} (d : dict V) k v : dget d k = Some v -> In k (map fst d).
Proof.
  induction d as [|[k' v'] d IH]; intro H; [discriminate|]. cbn [dget] in H. destruct (seqb k k') eqn:E; [apply seqb_eq in E; subst; now left|right; exact (IH H)].
Qed.
Lemma dget_front {V} (d d' : dict V) k v : dget d k = Some v -> dget (d ++ d') k = Some v.
Proof. induction d as [|[k' v'] d IH]; [discriminate|]. cbn [dget app]. now destruct (seqb k k'). Qed.
Lemma section_then m f s m1 : get_or_create_section m f = (s, m1) ->
  (In f (map fst (m_subs m)) /\ m1 = m /\ dget (m_subs m) f = Some s \/
   ~ In f (map fst (m_subs m)) /\ m1 = with_empty m [f] /\ s = [(lit "Name", f)]) /\ dget (m_subs m1) f = Some s.
Proof.
  unfold get_or_create_section. destruct (dget (m_subs m) f) as [s'|] eqn:E.
  - intro H. injection H as <- <-. split; [left|exact E]. split; [exact (dget_present _ _ _ E)|]. auto.
  - unfold create_section. intro H. injection H as <- <-. cbn [m_subs]. pose proof (dget_absent _ _ E) as HN. split.
    + right. split; [exact HN|]. split; [|reflexivity]. unfold with_empty. cbn [map]. now rewrite (dset_new _ _ _ HN).
    + rewrite dget_dset, (proj2 (seqb_eq f f) eq_refl). reflexivity.
Qed.
Lemma names_with m l : map fst (m_subs (with_empty m l)) = map fst (m_subs m) ++ l.
Proof. unfold with_empty. cbn [m_subs]. rewrite map_app, map_map. cbn [fst]. now rewrite map_id. Qed.

Section Env.
Variables (up : Z -> str) (hash : str -> bytes -> str).
Lemma entries_after z strict names : forall m fails m', verify_entries up hash m z strict names = Ok (fails, m') ->
  exists new, newly (fun f => file_skips_verification up f = false) (map fst (m_subs m)) names new /\ m' = with_empty m new.
Proof.
  induction names as [|f names IH]; intros m fails m' H; cbn [verify_entries] in H.
  - injection H as <- <-. exists []. split; [constructor|now rewrite with_none].
  - destruct (file_skips_verification up f) eqn:ES.
    + destruct (IH m fails m' H) as (new & H1 & H2). exists new. split; [|exact H2]. apply newly_passed; [left; congruence|exact H1].
    + destruct (get_or_create_section m f) as [s m1] eqn:EG.
      assert (HM : exists fails', verify_entries up hash m1 z strict names = Ok (fails', m')).
      { destruct (empty (keys_with_suffix s SUF) && strict); [|destruct (some_match hash s SUF (zread z f) (keys_with_suffix s SUF)); [cbn [rbind] in H|discriminate]];
        destruct (verify_entries up hash m1 z strict names) as [[l m2]|]; try discriminate; cbn [rbind] in H; injection H as _ <-; now exists l. }
      destruct HM as (fails' & HM). destruct (IH m1 fails' m' HM) as (new & H1 & H2). destruct (section_then m f s m1 EG) as [[(Hi & -> & _)|(Hn & -> & _)] _].
      * exists new. split; [|exact H2]. apply newly_passed; [now right|exact H1].
      * exists (f :: new). rewrite names_with in H1. split; [apply newly_first; [exact ES|exact Hn|exact H1]|]. now rewrite H2, with_cons.
Qed.
Lemma entries_again z strict names : forall m fails m', verify_entries up hash m z strict names = Ok (fails, m') ->
  verify_entries up hash m' z strict names = Ok (fails, m').
Proof.
  induction names as [|f names IH]; intros m fails m' H; cbn [verify_entries] in *.
  - injection H as <- <-. reflexivity.
  - destruct (file_skips_verification up f) eqn:ES; [exact (IH m fails m' H)|].
    destruct (get_or_create_section m f) as [s m1] eqn:EG. destruct (section_then m f s m1 EG) as [_ Hs].
    assert (G : forall l, verify_entries up hash m1 z strict names = Ok (l, m') -> get_or_create_section m' f = (s, m') /\ verify_entries up hash m' z strict names = Ok (l, m')).
    { intros l Hl. split; [|exact (IH m1 l m' Hl)]. destruct (entries_after z strict names m1 l m' Hl) as (new & _ & ->). unfold get_or_create_section, with_empty. cbn [m_subs]. now rewrite (dget_front _ _ _ _ Hs). }
    destruct (empty (keys_with_suffix s SUF) && strict) eqn:EE.
    + destruct (verify_entries up hash m1 z strict names) as [[l m2]|] eqn:EV; [|discriminate]. cbn [rbind] in H. injection H as <- <-. destruct (G l eq_refl) as [G1 G2]. rewrite G1, EE, G2. reflexivity.
    + destruct (some_match hash s SUF (zread z f) (keys_with_suffix s SUF)) as [ok|] eqn:EM; [|discriminate]. cbn [rbind] in H.
      destruct (verify_entries up hash m1 z strict names) as [[l m2]|] eqn:EV; [|discriminate]. cbn [rbind] in H. injection H as <- <-. destruct (G l eq_refl) as [G1 G2]. rewrite G1, EE, EM. cbn [rbind]. rewrite G2. reflexivity.
Qed.
End Env.

Section Sections.
Variable hash : str -> bytes -> str.
Lemma sections_after ls strict secs : forall sf fails sf', verify_sections hash sf ls strict secs = Ok (fails, sf') ->
  exists names new, mapM primary secs = Ok names /\ newly (fun _ => True) (map fst (m_subs sf)) names new /\ sf' = with_empty sf new.
Proof.
  induction secs as [|s0 secs IH]; intros m fails m' H; cbn [verify_sections] in H.
  - injection H as <- <-. exists [], []. split; [reflexivity|]. split; [constructor|now rewrite with_none].
  - cbn [mapM]. destruct (primary s0) as [f|]; [|discriminate]. cbn [rbind] in *. destruct (get_or_create_section m f) as [s m1] eqn:EG.
    assert (HM : exists fails', verify_sections hash m1 ls strict secs = Ok (fails', m')).
    { destruct (empty (keys_with_suffix s0 SUF) && strict); [|destruct (some_match hash s SUF (sec_data s0 ls) (keys_with_suffix s0 SUF)); [cbn [rbind] in H|discriminate]];
      destruct (verify_sections hash m1 ls strict secs) as [[l m2]|]; try discriminate; cbn [rbind] in H; injection H as _ <-; now exists l. }
    destruct HM as (fails' & HM). destruct (IH m1 fails' m' HM) as (names & new & -> & H1 & H2). cbn [rbind]. exists (f :: names). destruct (section_then m f s m1 EG) as [[(Hi & -> & _)|(Hn & -> & _)] _].
    + exists new. split; [reflexivity|]. split; [|exact H2]. apply newly_passed; [now right|exact H1].
    + exists (f :: new). rewrite names_with in H1. split; [reflexivity|]. split; [apply newly_first; [exact I|exact Hn|exact H1]|]. now rewrite H2, with_cons.
Qed.
Lemma sections_again ls strict secs : forall sf fails sf', verify_sections hash sf ls strict secs = Ok (fails, sf') ->
  verify_sections hash sf' ls strict secs = Ok (fails, sf').
Proof.
  induction secs as [|s0 secs IH]; intros m fails m' H; cbn [verify_sections] in *.
  - injection H as <- <-. reflexivity.
  - destruct (primary s0) as [f|]; [|discriminate]. cbn [rbind] in *. destruct (get_or_create_section m f) as [s m1] eqn:EG. destruct (section_then m f s m1 EG) as [_ Hs].
    assert (G : forall l, verify_sections hash m1 ls strict secs = Ok (l, m') -> get_or_create_section m' f = (s, m') /\ verify_sections hash m' ls strict secs = Ok (l, m')).
    { intros l Hl. split; [|exact (IH m1 l m' Hl)]. destruct (sections_after ls strict secs m1 l m' Hl) as (names & new & _ & _ & ->). unfold get_or_create_section, with_empty. cbn [m_subs]. now rewrite (dget_front _ _ _ _ Hs). }
    destruct (empty (keys_with_suffix s0 SUF) && strict) eqn:EE.
    + destruct (verify_sections hash m1 ls strict secs) as [[l m2]|] eqn:EV; [|discriminate]. cbn [rbind] in H. injection H as <- <-. destruct (G l eq_refl) as [G1 G2]. rewrite G1, G2. reflexivity.
    + destruct (some_match hash s SUF (sec_data s0 ls) (keys_with_suffix s0 SUF)) as [ok|] eqn:EM; [|discriminate]. cbn [rbind] in H.
      destruct (verify_sections hash m1 ls strict secs) as [[l m2]|] eqn:EV; [|discriminate]. cbn [rbind] in H. injection H as <- <-. destruct (G l eq_refl) as [G1 G2]. rewrite G1, EM. cbn [rbind]. rewrite G2. reflexivity.
Qed.
End Sections.

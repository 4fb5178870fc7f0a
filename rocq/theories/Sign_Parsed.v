(** Proofs: what the parser accepts, and manifests written and read back. *)
From Verif Require Import Base ConstPool_Model Manifest_Model Manifest_Spec Manifest_Proofs Manifest_RT Manifest_Canon
  Sign_Model Sign_Spec Sign_Proofs Sign_Bind Sign_Tamper.
From Coq Require Import Permutation.

Lemma cont_range b : is_cont b = true -> 128 <= b < 192.
Proof. unfold is_cont. lia. Qed.
Lemma step_scalar b0 r0 : all_bytes (b0 :: r0) ->
  match utf8_step b0 r0 with UChar c r => scalar c = true /\ all_bytes r | UBad r => all_bytes r end.
Proof.
  intro H. inversion H as [|? ? Hb Hr]; subst. unfold utf8_step.
  destruct (Z.ltb_spec b0 128); [split; [unfold scalar; lia|exact Hr]|].
  destruct (Z.leb_spec 194 b0); destruct (Z.ltb_spec b0 224); cbn [andb].
  { destruct r0 as [|b1 r1]; [constructor|]. inversion Hr as [|? ? Hb1 Hr1]; subst.
    destruct (is_cont b1) eqn:E2; [|exact Hr]. apply cont_range in E2. split; [unfold scalar; lia|exact Hr1]. }
  { destruct (Z.leb_spec 224 b0); [|lia]. destruct (Z.ltb_spec b0 240); cbn [andb].
    { destruct r0 as [|b1 r1]; [constructor|]. inversion Hr as [|? ? Hb1 Hr1]; subst.
      destruct (is_cont b1) eqn:E3; [|exact Hr]. cbn [negb orb]. apply cont_range in E3.
      destruct (if b1 <? 160 then b0 =? 224 else b0 =? 237) eqn:E5; [exact Hr|].
      destruct r1 as [|b2 r2]; [constructor|]. inversion Hr1 as [|? ? Hb2 Hr2]; subst.
      destruct (is_cont b2) eqn:E4; [|exact Hr1]. apply cont_range in E4. split; [|exact Hr2].
      unfold scalar. destruct (Z.ltb_spec b1 160); lia. }
    destruct (Z.leb_spec 240 b0); [|lia]. destruct (Z.ltb_spec b0 245); cbn [andb]; [|exact Hr].
    destruct r0 as [|b1 r1]; [constructor|]. inversion Hr as [|? ? Hb1 Hr1]; subst.
    destruct (is_cont b1) eqn:E3; [|exact Hr]. cbn [negb orb]. apply cont_range in E3.
    destruct (if b1 <? 144 then b0 =? 240 else b0 =? 244) eqn:E5; [exact Hr|].
    destruct r1 as [|b2 r2]; [constructor|]. inversion Hr1 as [|? ? Hb2 Hr2]; subst.
    destruct (is_cont b2) eqn:E4; [|exact Hr1]. apply cont_range in E4.
    destruct r2 as [|b3 r3]; [constructor|]. inversion Hr2 as [|? ? Hb3 Hr3]; subst.
    destruct (is_cont b3) eqn:E6; [|exact Hr2]. apply cont_range in E6. split; [|exact Hr3].
    unfold scalar. destruct (Z.ltb_spec b1 144); lia. }
  { destruct (Z.leb_spec 224 b0); [lia|]. cbn [andb]. destruct (Z.leb_spec 240 b0); [lia|]. cbn [andb]. exact Hr. }
  { lia. }
Qed.
Lemma ignore_scalar data : all_bytes data -> forallb scalar (utf8_ignore data) = true.
Proof.
  unfold utf8_ignore. generalize (length data). intro n. revert data. induction n as [|n IH]; intros [|b r] H; try reflexivity.
  cbn [utf8_ignore_f]. pose proof (step_scalar b r H) as HS. destruct (utf8_step b r) as [c r'|r'].
  - destruct HS as [H1 H2]. cbn [forallb]. now rewrite H1, IH.
  - now apply IH.
Qed.

(** ** Lines *)
Definition in_line (c : Z) : bool := scalar c && negb (line_break c).
Lemma splitlines_in : forall fuel cur s, forallb scalar s = true -> forallb in_line cur = true ->
  Forall (fun l => forallb in_line l = true) (splitlines_f fuel cur s).
Proof.
  assert (HR : forall l, forallb in_line l = true -> forallb in_line (rev l) = true).
  { intros l H. rewrite forallb_forall in *. intros x Hx. apply H. now apply in_rev. }
  induction fuel as [|fu IH]; intros cur [|c s] Hs Hc; cbn [splitlines_f].
  - destruct cur; constructor; [now apply HR|constructor].
  - constructor.
  - destruct cur; constructor; [now apply HR|constructor].
  - cbn [forallb] in Hs. apply andb_prop in Hs as [H1 H2]. destruct (line_break c) eqn:E.
    + constructor; [now apply HR|]. apply IH; [|reflexivity]. destruct (c =? 13); [|exact H2].
      destruct s as [|d s']; [exact H2|]. destruct (d =? 10); [|exact H2]. cbn [forallb] in H2. now apply andb_prop in H2 as [_ H2].
    + apply IH; [exact H2|]. cbn [forallb]. unfold in_line at 1. now rewrite H1, E.
Qed.
Lemma plain_in_line c : in_line c = true -> c <> 0 -> plain c = true.
Proof.
  unfold in_line, plain. intros H H0. apply andb_prop in H as [-> H]. unfold line_break in H. unfold breaks. cbn [existsb].
  replace (c =? 0) with false by lia. cbn [negb andb]. lia.
Qed.
Lemma clean_plain l : forallb in_line l = true -> forallb plain (clean l) = true.
Proof.
  unfold clean. induction l as [|c l IH]; [reflexivity|]. cbn [forallb filter]. intro H. apply andb_prop in H as [H1 H2].
  destruct (Z.eqb_spec c 0); cbn [negb]; [now apply IH|]. cbn [forallb]. rewrite IH by exact H2. now rewrite plain_in_line.
Qed.
Lemma split_colon_inv : forall s a b, split_colon s = Some (a, b) -> s = a ++ 58 :: b /\ ~ In 58 a.
Proof.
  induction s as [|c s IH]; intros a b H; cbn [split_colon] in H; [discriminate|].
  destruct (Z.eqb_spec c 58) as [->|Hc]; [injection H as <- <-; split; [reflexivity|intros []]|].
  destruct (split_colon s) as [[a' b']|]; [|discriminate]. injection H as <- <-. destruct (IH a' b' eq_refl) as [-> Hn].
  split; [reflexivity|]. intros [?|?]; [congruence|contradiction].
Qed.

(** ** Items *)
Definition raw_ok (i : str * list str) : Prop :=
  forallb plain (fst i) = true /\ Forall (fun v => forallb plain v = true) (snd i) /\ ~ In 58 (fst i) /\ (forall k, fst i <> 32 :: k).
Lemma raw_text i : raw_ok i -> text_item (fst i, concat (snd i)).
Proof.
  intros (H1 & H2 & H3 & H4). split; [exact H1|]. split; [|split; [exact H3|exact H4]]. cbn [snd].
  induction H2 as [|v vs Hv HF IH]; [reflexivity|]. cbn [concat]. now rewrite forallb_app, Hv, IH.
Qed.
Lemma finish_ok c : Forall raw_ok c -> Forall raw_ok (finish c).
Proof.
  intro H. unfold finish. apply Forall_rev. apply Forall_map. eapply Forall_impl; [|exact H].
  intros [k vs] (H1 & H2 & H3). split; [exact H1|]. split; [|exact H3]. cbn [snd]. now apply Forall_rev.
Qed.
Lemma skipn1_plain v : forallb plain v = true -> forallb plain (skipn 1 v) = true.
Proof. destruct v; [reflexivity|]. cbn [forallb skipn]. intro H. now apply andb_prop in H as [_ H]. Qed.

Lemma parse_lines_ok : forall lines curr, Forall (fun l => forallb in_line l = true) lines ->
  Forall raw_ok (opt_items curr) -> Forall (Forall raw_ok) (fst (parse_lines curr lines)).
Proof.
  induction lines as [|l lines IH]; intros curr HF HC; cbn [parse_lines].
  - destruct curr as [[|i c]|]; cbn [fst]; try constructor; [|constructor]. now apply finish_ok.
  - inversion HF as [|? ? Hl HF']; subst. pose proof (clean_plain l Hl) as HP. destruct (clean l) as [|x rest].
    + destruct curr as [[|i c]|]; [now apply IH| |now apply IH].
      specialize (IH None HF' (Forall_nil _)). destruct (parse_lines None lines) as [q e]. cbn [fst] in *. constructor; [|exact IH].
      now apply finish_ok.
    + destruct (Z.eqb_spec x 32) as [->|Hx].
      * destruct curr as [[|[k vals] c]|]; cbn [fst]; try constructor. apply IH; [exact HF'|]. cbn [opt_items] in *.
        inversion HC as [|? ? (H1 & H2 & H3) HC']; subst. constructor; [|exact HC']. split; [exact H1|]. split; [|exact H3].
        cbn [snd] in *. constructor; [|exact H2]. cbn [forallb] in HP. now apply andb_prop in HP as [_ HP].
      * destruct (split_colon (x :: rest)) as [[k v]|] eqn:ES; cbn [fst]; [|constructor]. apply split_colon_inv in ES as [ES Hn].
        rewrite ES in HP. rewrite forallb_app in HP. apply andb_prop in HP as [HP1 HP2]. cbn [forallb] in HP2. apply andb_prop in HP2 as [_ HP2].
        apply IH; [exact HF'|]. cbn [opt_items]. constructor; [|destruct curr; [exact HC|constructor]].
        split; [exact HP1|]. split; [constructor; [now apply skipn1_plain|constructor]|]. split; [exact Hn|].
        cbn [fst]. intros k' ->. cbn [app] in ES. apply cons_inj in ES as [ES _]. contradiction.
Qed.

(** ** Sections and manifests *)
Lemma dset_text (s : section) k v : Forall text_item s -> text_item (k, v) -> Forall text_item (dset s k v).
Proof.
  intros HF Hkv. induction HF as [|[k' v'] s H HF IH]; cbn [dset]; [constructor; [assumption|constructor]|].
  destruct (seqb_spec k k') as [->|]; constructor; assumption.
Qed.
Lemma sec_load_text : forall items s s', Forall raw_ok items -> Forall text_item s -> sec_load s items = Ok s' -> Forall text_item s'.
Proof.
  induction items as [|[k vals] items IH]; intros s s' HR HF H; cbn [sec_load] in H; [apply ok_inj in H; now subst|].
  inversion HR as [|? ? H1 H2]; subst. unfold sec_set in H. destruct (_ >? 68); [discriminate|]. cbn [rbind] in H.
  eapply IH; [exact H2| |exact H]. apply dset_text; [exact HF|]. exact (raw_text (k, vals) H1).
Qed.
Lemma dkeys_dset {V} (d : dict V) k v : dkeys (dset d k v) = if smem k (dkeys d) then dkeys d else dkeys d ++ [k].
Proof.
  induction d as [|[k' v'] d IH]; [reflexivity|]. cbn [dset dkeys map fst smem existsb].
  destruct (seqb_spec k k') as [->|]; [reflexivity|]. cbn [map fst orb].
  change (k' :: dkeys (dset d k v) = if smem k (dkeys d) then k' :: dkeys d else (k' :: dkeys d) ++ [k]). rewrite IH.
  now destruct (smem k (dkeys d)).
Qed.
Lemma nodup_dset {V} (d : dict V) k v : NoDup (map fst d) -> NoDup (map fst (dset d k v)).
Proof.
  intro H. change (NoDup (dkeys (dset d k v))). rewrite dkeys_dset. destruct (smem k (dkeys d)) eqn:E; [exact H|].
  apply (Permutation_NoDup (Permutation_cons_append (dkeys d) k)). constructor; [|exact H].
  intro HI. apply smem_In in HI. congruence.
Qed.
Definition named (ns : str * section) : Prop := dget (snd ns) K_Name = Some (fst ns).
Lemma dset_Forall {V} (P : str * V -> Prop) (d : dict V) k v : Forall P d -> P (k, v) -> Forall P (dset d k v).
Proof.
  intros HF Hkv. induction HF as [|[k' v'] d H HF IH]; cbn [dset]; [constructor; [assumption|constructor]|].
  destruct (seqb_spec k k') as [->|]; constructor; assumption.
Qed.
Lemma load_subs_inv : forall l subs subs', Forall (Forall raw_ok) l ->
  NoDup (map fst subs) -> Forall named subs -> Forall (fun ns => Forall text_item (snd ns)) subs ->
  load_subs subs l = Ok subs' ->
  NoDup (map fst subs') /\ Forall named subs' /\ Forall (fun ns => Forall text_item (snd ns)) subs'.
Proof.
  induction l as [|items l IH]; intros subs subs' HR HN HM HT H; cbn [load_subs] in H; [apply ok_inj in H; subst; auto|].
  inversion HR as [|? ? H1 H2]; subst. destruct (sec_load (new_section S_None) items) as [s|] eqn:E; [|discriminate]. cbn [rbind] in H.
  destruct (dget s K_Name) as [n|] eqn:En; [|discriminate]. eapply IH; [exact H2| | | |exact H].
  - now apply nodup_dset.
  - now apply dset_Forall.
  - apply dset_Forall; [exact HT|]. cbn [snd]. eapply sec_load_text; [exact H1| |exact E].
    constructor; [|constructor]. split; [reflexivity|]. split; [reflexivity|]. split; [cbn; lia|]. cbn [fst]. intros k Hk. discriminate.
Qed.
Lemma parsed_clean m data m' : all_bytes data -> text_manifest m -> well_named m -> man_parse m data = Ok m' ->
  text_manifest m' /\ well_named m' /\ (m_linesep m' = Some lf \/ m_linesep m' = Some crlf).
Proof.
  intros HB [HT1 HT2] [HN HW] H. unfold man_parse in H.
  assert (HR : Forall (Forall raw_ok) (fst (parse_sections (utf8_ignore data)))).
  { unfold parse_sections. pose proof (ignore_scalar data HB) as HS. destruct (utf8_ignore data) as [|c t]; [constructor|].
    apply parse_lines_ok; [|constructor]. apply splitlines_in; [exact HS|reflexivity]. }
  destruct (parse_sections (utf8_ignore data)) as [secs e]. cbn [fst] in HR. destruct secs as [|mn subs]; [discriminate|].
  inversion HR as [|? ? H1 H2]; subst.
  destruct (sec_load (m_main m) mn) as [main'|] eqn:E1; [|discriminate]. cbn [rbind] in H.
  destruct (load_subs (m_subs m) subs) as [subs'|] eqn:E2; [|discriminate]. cbn [rbind] in H.
  destruct e; [discriminate|]. apply ok_inj in H. subst m'.
  destruct (load_subs_inv subs (m_subs m) subs' H2 HN HW HT2 E2) as (X1 & X2 & X3).
  split; [split; [eapply sec_load_text; eauto|exact X3]|]. split; [split; [exact X1|exact X2]|].
  cbn [m_linesep]. unfold detect_linesep. destruct (contains _ _); [now right|now left].
Qed.
Lemma parsed_new lo data m' : all_bytes data -> man_parse (new_manifest lo) data = Ok m' ->
  text_manifest m' /\ well_named m' /\ (m_linesep m' = Some lf \/ m_linesep m' = Some crlf).
Proof.
  intros HB H. apply (parsed_clean (new_manifest lo) data m' HB); [| |exact H].
  - split; [|constructor]. constructor; [|constructor]. split; [reflexivity|]. split; [reflexivity|].
    split; [cbn; lia|]. cbn [fst]. intros k Hk. discriminate.
  - split; constructor.
Qed.

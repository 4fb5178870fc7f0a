(** Proofs: the serialised form does not depend on the order of the sections. *)
From Verif Require Import Base ConstPool_Model Manifest_Model Manifest_Spec Manifest_Proofs Manifest_RT.
From Coq Require Import Permutation Sorted.

Lemma slt_irrefl a : slt a a = false.
Proof. induction a as [|x a IH]; [reflexivity|]. cbn [slt]. rewrite IH, Z.ltb_irrefl. apply andb_false_r. Qed.
Lemma slt_total : forall a b, slt a b = false -> slt b a = false -> a = b.
Proof.
  induction a as [|x a IH]; intros [|y b]; cbn [slt]; try discriminate; [reflexivity|]. intros H1 H2.
  assert (x = y) as -> by lia. rewrite Z.eqb_refl, Z.ltb_irrefl in H1. rewrite Z.eqb_refl, Z.ltb_irrefl in H2.
  cbn [orb andb] in H1, H2. f_equal. now apply IH.
Qed.
Lemma slt_trans : forall a b c, slt a b = true -> slt b c = true -> slt a c = true.
Proof.
  induction a as [|x a IH]; intros [|y b] [|z c]; cbn [slt]; try discriminate; try reflexivity. intros H1 H2.
  apply orb_prop in H1. apply orb_prop in H2.
  destruct H1 as [H1|H1]; [|apply andb_prop in H1 as [H1 H3]]; (destruct H2 as [H2|H2]; [|apply andb_prop in H2 as [H2 H4]]).
  - now replace (x <? z) with true by lia.
  - now replace (x <? z) with true by lia.
  - now replace (x <? z) with true by lia.
  - rewrite (IH b c H3 H4). replace (x =? z) with true by lia. apply orb_true_r.
Qed.
Definition ge (a b : bytes) : Prop := slt b a = false.
Lemma ge_trans a b c : ge a b -> ge b c -> ge a c.
Proof.
  unfold ge. intros H1 H2. destruct (slt c a) eqn:E; [|reflexivity].
  destruct (slt b c) eqn:E2.
  - rewrite (slt_trans b c a E2 E) in H1. discriminate.
  - assert (b = c) by (apply slt_total; assumption). subst. congruence.
Qed.
Lemma sorted_unique : forall l l', Permutation l l' -> StronglySorted ge l -> StronglySorted ge l' -> l = l'.
Proof.
  induction l as [|x l IH]; intros l' HP H1 H2.
  - apply Permutation_nil in HP. now subst.
  - destruct l' as [|y l']; [symmetry in HP; apply Permutation_nil in HP; discriminate|].
    inversion H1 as [|? ? S1 F1]; subst. inversion H2 as [|? ? S2 F2]; subst. rewrite Forall_forall in F1, F2.
    assert (x = y) as ->.
    { assert (Hx : In x (y :: l')) by (eapply Permutation_in; [exact HP|now left]).
      assert (Hy : In y (x :: l)) by (eapply Permutation_in; [symmetry; exact HP|now left]).
      destruct Hx as [->|Hx]; [reflexivity|]. destruct Hy as [->|Hy]; [reflexivity|].
      apply slt_total; [apply F2 in Hx; exact Hx|apply F1 in Hy; exact Hy]. }
    f_equal. apply IH; try assumption. eapply Permutation_cons_inv; exact HP.
Qed.
Lemma sort_secs_sorted l : StronglySorted ge (map fst (sort_secs l)).
Proof.
  assert (HI : forall x l, StronglySorted ge (map fst l) -> StronglySorted ge (map fst (insert_sec x l))).
  { intro x. induction l0 as [|y l0 IH]; intro H; [repeat constructor|]. cbn [insert_sec].
    inversion H as [|? ? S F]; subst. destruct (slt (fst x) (fst y)) eqn:E; cbn [map].
    - constructor; [exact H|]. assert (HG : ge (fst x) (fst y)).
      { unfold ge. destruct (slt (fst y) (fst x)) eqn:E2; [|reflexivity].
        pose proof (slt_trans _ _ _ E E2) as H3. rewrite slt_irrefl in H3. discriminate. }
      constructor; [exact HG|]. eapply Forall_impl; [|exact F]. intros a Ha. eapply ge_trans; eauto.
    - constructor; [now apply IH|]. rewrite Forall_forall in *. intros a Ha.
      assert (In a (map fst (x :: l0))) as [<-|H'].
      { eapply Permutation_in; [|exact Ha]. apply Permutation_map.
        clear. induction l0 as [|y l0 IH]; [reflexivity|]. cbn [insert_sec]. destruct (slt _ _); [reflexivity|].
        rewrite IH. apply perm_swap. }
      + exact E.
      + now apply F. }
  unfold sort_secs. assert (G : forall l acc, StronglySorted ge (map fst acc) ->
    StronglySorted ge (map fst (fold_left (fun acc x => insert_sec x acc) l acc))).
  { induction l0 as [|x l0 IH]; intros acc H; [exact H|]. cbn [fold_left]. apply IH. now apply HI. }
  apply G. constructor.
Qed.

Lemma mapM_perm {A B} (f : A -> res B) : forall l l', Permutation l l' -> forall r, mapM f l = Ok r ->
  exists r', mapM f l' = Ok r' /\ Permutation r r'.
Proof.
  induction 1 as [|x l l' HP IH|x y l|l l' l'' HP1 IH1 HP2 IH2]; intros r H.
  - exists r. split; [exact H|reflexivity].
  - cbn [mapM] in *. destruct (f x) as [b|]; [|discriminate]. cbn [rbind] in *.
    destruct (mapM f l) as [bs|]; [|discriminate]. apply ok_inj in H. subst r.
    destruct (IH bs eq_refl) as (r' & -> & HP'). exists (b :: r'). split; [reflexivity|now constructor].
  - cbn [mapM] in *. destruct (f y) as [b|]; [|discriminate]. cbn [rbind] in *. destruct (f x) as [c|]; [|discriminate].
    cbn [rbind] in *. destruct (mapM f l) as [bs|]; [|discriminate]. apply ok_inj in H. subst r.
    eexists. split; [reflexivity|apply perm_swap].
  - destruct (IH1 r H) as (r1 & E1 & P1). destruct (IH2 r1 E1) as (r2 & E2 & P2). exists r2. split; [exact E2|].
    etransitivity; eauto.
Qed.
Lemma mapM_In {A B} (f : A -> res B) : forall l r b, mapM f l = Ok r -> In b r -> exists a, In a l /\ f a = Ok b.
Proof.
  induction l as [|a l IH]; intros r b H HI; cbn [mapM] in H.
  - apply ok_inj in H. subst r. contradiction.
  - destruct (f a) as [x|] eqn:E; [|discriminate]. cbn [rbind] in H. destruct (mapM f l) as [xs|]; [|discriminate].
    apply ok_inj in H. subst r. destruct HI as [<-|HI]; [exists a; split; [now left|exact E]|].
    destruct (IH xs b eq_refl HI) as (a' & Ha & E'). exists a'. split; [now right|exact E'].
Qed.

(** CRLF output is the LF output with its separators replaced. *)
Definition repl (b : bytes) : bytes := concat (map (fun c => if c =? 10 then [13; 10] else [c]) b).
Lemma repl_app a b : repl (a ++ b) = repl a ++ repl b.
Proof. unfold repl. now rewrite map_app, concat_app. Qed.
Lemma repl_id a : ~ In 10 a -> repl a = a.
Proof.
  induction a as [|c a IH]; intro H; [reflexivity|]. unfold repl in *. cbn [map concat].
  rewrite IH by (intro; apply H; now right). destruct (Z.eqb_spec c 10) as [->|]; [exfalso; apply H; now left|reflexivity].
Qed.
Lemma repl_lines kv : ~ In 10 kv -> repl (concat (lines_of lf kv)) = concat (lines_of crlf kv).
Proof.
  intro H. unfold lines_of. cbn [concat]. rewrite !repl_app.
  assert (H1 : ~ In 10 (firstn 70 kv)).
  { intro HI. apply H. rewrite <- (firstn_skipn 70 kv). apply in_or_app. now left. }
  assert (H2 : forall c, In c (chunk69 (length kv) (skipn 70 kv)) -> ~ In 10 c).
  { intros c Hc HI. apply H. rewrite <- (firstn_skipn 70 kv). apply in_or_app. right. eapply in_chunk69; eauto. }
  rewrite repl_id by exact H1. f_equal.
  induction (chunk69 (length kv) (skipn 70 kv)) as [|c cs IH]; [reflexivity|]. cbn [map concat].
  rewrite repl_app, IH by (intros; apply H2; now right). f_equal.
  change (32 :: c ++ lf) with ((32 :: c) ++ lf). rewrite repl_app, repl_id; [reflexivity|].
  intros [?|HI]; [lia|]. apply (H2 c); [now left|exact HI].
Qed.
Lemma write_crlf k v : ~ In 10 k -> ~ In 10 v ->
  write_key_val k v (Some crlf) = (b <- write_key_val k v (Some lf) ;; Ok (repl b)).
Proof.
  intros Hk Hv. destruct (write_key_val k v (Some lf)) as [b|e] eqn:E.
  - apply write_lines in E as (kb & vb & lsb & E1 & E2 & E3 & H1 & H2 & ->).
    rewrite linesep_enc in E3 by now left. apply ok_inj in E3. subst lsb. cbn [rbind].
    rewrite (write_ok k v crlf kb vb crlf E1 E2 eq_refl H1 H2). f_equal. symmetry. apply repl_lines.
    apply utf8_encode_inv in E1. apply utf8_encode_inv in E2. subst kb vb. rewrite !in_app_iff. cbn [In].
    intros [?|[[?|[?|[]]]|?]]; try lia; [now apply (utf8_no10 k)|now apply (utf8_no10 v)].
  - cbn [rbind]. unfold write_key_val in *. destruct (utf8_encode k) as [kb|]; [|exact E]. cbn [rbind] in *.
    destruct (utf8_encode v) as [vb|]; [|exact E]. cbn [rbind] in *. change (utf8_encode crlf) with (@Ok bytes crlf).
    change (utf8_encode lf) with (@Ok bytes lf) in E. cbn [rbind] in *. destruct (negb _); [exact E|].
    destruct (_ >? 68); [discriminate|]. destruct vb; [exact E|discriminate].
Qed.
Lemma items_crlf s : no_newline s -> write_items s (Some crlf) = (b <- write_items s (Some lf) ;; Ok (repl b)).
Proof.
  intro H. induction H as [|[k v] s [Hk Hv] HF IH]; [reflexivity|]. cbn [write_items fst snd] in *.
  rewrite write_crlf by assumption. destruct (write_key_val k v (Some lf)) as [b|]; [|reflexivity]. cbn [rbind].
  rewrite IH. destruct (write_items s (Some lf)) as [r|]; [|reflexivity]. cbn [rbind]. now rewrite repl_app.
Qed.
Lemma sec_crlf s : no_newline s -> sec_data s (Some crlf) = (b <- sec_data s (Some lf) ;; Ok (repl b)).
Proof.
  intro H. unfold sec_data. rewrite items_crlf by exact H. destruct (write_items s (Some lf)) as [b|]; [|reflexivity].
  cbn [rbind]. change (utf8_encode crlf) with (@Ok bytes crlf). change (utf8_encode lf) with (@Ok bytes lf). cbn [rbind].
  now rewrite repl_app.
Qed.

Definition sep_safe (ls : str) (m : manifest) : Prop :=
  ls = lf \/ (ls = crlf /\ Forall (fun ns => no_newline (snd ns)) (m_subs m)).
Definition conv (ls : str) (b : bytes) : bytes := if seqb ls lf then b else repl b.

Lemma sorted_data ls m ks : sep_safe ls m -> mapM sec_key (map snd (m_subs m)) = Ok ks ->
  mapM (fun x => sec_data (snd x) (Some ls)) (sort_secs ks) = Ok (map (conv ls) (map fst (sort_secs ks))).
Proof.
  intros Hs EK. rewrite map_map.
  apply (mapM_ok _ (fun x : bytes * section => conv ls (fst x))). intros [d s] Hin.
  assert (HI : In (d, s) ks) by (eapply Permutation_in; [apply sort_secs_perm|exact Hin]).
  destruct (mapM_In _ _ _ _ EK HI) as (s' & Hs' & E). unfold sec_key in E.
  destruct (sec_data s' (Some os_linesep)) as [d'|] eqn:ED; [|discriminate]. cbn [rbind] in E. apply ok_inj in E.
  apply pair_equal_spec in E as [-> ->]. cbn [fst snd]. unfold conv. destruct Hs as [->|(-> & HN)].
  - rewrite seqb_refl. exact ED.
  - change (seqb crlf lf) with false. rewrite sec_crlf; [change lf with os_linesep; rewrite ED; reflexivity|].
    apply in_map_iff in Hs' as (ns & <- & Hns). rewrite Forall_forall in HN. now apply HN.
Qed.

Lemma canonical m m' lo d :
  m_main m' = m_main m -> m_linesep m' = m_linesep m -> Permutation (m_subs m') (m_subs m) ->
  sep_safe (man_linesep m lo) m -> man_data m lo = Ok d -> man_data m' lo = Ok d.
Proof.
  intros E1 E2 HP Hs H.
  assert (EL : man_linesep m' lo = man_linesep m lo) by (unfold man_linesep; now rewrite E2).
  unfold man_data in *. cbv zeta in *. rewrite EL, E1. destruct (sec_data (m_main m) _) as [mn|]; [|discriminate].
  cbn [rbind] in *. destruct (mapM sec_key (map snd (m_subs m))) as [ks|] eqn:EK; [|discriminate].
  destruct (mapM_perm sec_key _ (map snd (m_subs m')) (Permutation_map snd (Permutation_sym HP)) ks EK) as (ks' & EK' & PK).
  rewrite EK'. cbn [rbind] in *.
  assert (Hs' : sep_safe (man_linesep m lo) m').
  { destruct Hs as [Hs|(Hs & HF)]; [now left|right]. split; [exact Hs|]. rewrite Forall_forall in *.
    intros x Hx. apply HF. eapply Permutation_in; eauto. }
  rewrite (sorted_data _ m ks Hs EK) in H. rewrite (sorted_data _ m' ks' Hs' EK').
  assert (EF : map fst (sort_secs ks') = map fst (sort_secs ks)).
  { apply sorted_unique; try apply sort_secs_sorted. apply Permutation_map.
    rewrite !sort_secs_perm. now symmetry. }
  rewrite EF. exact H.
Qed.

(** ** ASCII text is never cut inside a character *)
Lemma utf8_ascii s : ascii s = true -> utf8 s = s.
Proof.
  induction s as [|c s IH]; [reflexivity|]. unfold ascii in *. cbn [forallb]. intro H. apply andb_prop in H as [H1 H2].
  change (utf8 (c :: s)) with (utf8c c ++ utf8 s). rewrite IH by exact H2. unfold utf8c.
  now replace (c <=? 127) with true by lia.
Qed.
Lemma ascii_app a b : ascii (a ++ b) = ascii a && ascii b.
Proof. apply forallb_app. Qed.
Lemma ascii_no_straddle k v : ascii k = true -> ascii v = true -> no_straddle k v.
Proof.
  intros Hk Hv s c s' E j Hj.
  assert (HA : ascii (s ++ c :: s') = true).
  { rewrite <- E. unfold header. rewrite !ascii_app, Hk, Hv. reflexivity. }
  change (c :: s') with ([c] ++ s') in HA. rewrite app_assoc, ascii_app in HA. apply andb_prop in HA as [HA _].
  rewrite (utf8_ascii (s ++ [c])) by exact HA. rewrite ascii_app in HA. apply andb_prop in HA as [HA _].
  rewrite (utf8_ascii s) by exact HA. rewrite app_length. cbn [length]. lia.
Qed.

(** ** One attribute, written and parsed *)
Lemma fold_undone k v ls : a_linesep ls -> key_ok k = true -> val_ok v = true -> no_straddle k v ->
  exists data vals, write_key_val k v (Some ls) = Ok data /\
    parse_sections (utf8_ignore data) = ([[(k, vals)]], None) /\ concat vals = v.
Proof.
  intros Hls HK HV HN. destruct (write_item k v ls Hls (conj HK (conj HV HN))) as (v0 & ps & Ev & EW).
  assert (HC : clear_line v) by (unfold val_ok in HV; apply andb_prop in HV as [HV' _]; exact HV').
  pose proof HC as HC'. rewrite Ev in HC'. apply clear_concat in HC' as [C1 C2].
  assert (HL : Forall clear_line (item_lines v0 k ps)).
  { unfold item_lines. constructor.
    - apply key_ok_facts in HK as (K1 & _). unfold clear_line. rewrite forallb_app, K1. cbn [forallb]. now rewrite C1.
    - rewrite Forall_map. eapply Forall_impl; [|exact C2]. intros p Hp. unfold clear_line in *. cbn [forallb]. now rewrite Hp. }
  exists (utf8 (joined ls (item_lines v0 k ps))), (v0 :: ps). split; [exact EW|]. split; [|now cbn].
  assert (EU : utf8_ignore (utf8 (joined ls (item_lines v0 k ps))) = joined ls (item_lines v0 k ps)).
  { pose proof (ignore_utf8 (joined ls (item_lines v0 k ps)) [] (scalar_joined ls _ Hls HL)) as H. rewrite app_nil_r in H.
    etransitivity; [exact H|]. apply app_nil_r. }
  rewrite EU.
  assert (ES : splitlines (joined ls (item_lines v0 k ps)) = item_lines v0 k ps).
  { pose proof (splitlines_joined ls (item_lines v0 k ps) [] Hls HL) as H. rewrite app_nil_r in H.
    etransitivity; [exact H|]. apply app_nil_r. }
  unfold parse_sections. destruct (joined ls (item_lines v0 k ps)) as [|z j] eqn:EJ.
  { exfalso. cbn in ES. discriminate. }
  rewrite ES. rewrite <- (app_nil_r (item_lines v0 k ps)). rewrite parse_item by assumption.
  cbn [parse_lines opt_items finish map fst snd rev app]. rewrite rev_app_distr, rev_involutive. reflexivity.
Qed.

(** ** keys_with_suffix *)
Lemma lstrip_all chars a b : Forall (fun c => existsb (Z.eqb c) chars = true) a -> lstrip chars (a ++ b) = lstrip chars b.
Proof. intro H. induction H as [|c a Hc H IH]; [reflexivity|]. cbn [app lstrip]. now rewrite Hc. Qed.
Lemma rstrip_suffix x suf c x' : x = x' ++ [c] -> ~ In c suf -> rstrip suf (x ++ suf) = x.
Proof.
  intros -> Hc. unfold rstrip. rewrite rev_app_distr, lstrip_all.
  - rewrite rev_app_distr. cbn [rev app lstrip]. replace (existsb (Z.eqb c) suf) with false.
    + cbn [rev]. now rewrite rev_involutive.
    + symmetry. apply not_true_iff_false. intro H. apply existsb_exists in H as (y & Hy & E). apply Z.eqb_eq in E. now subst.
  - apply Forall_forall. intros y Hy. apply existsb_exists. exists y. split; [now apply in_rev|apply Z.eqb_refl].
Qed.
Lemma rstrip_suffix_conv x suf c x' : x = x' ++ [c] -> rstrip suf (x ++ suf) = x -> ~ In c suf.
Proof.
  intros -> H Hc. unfold rstrip in H. rewrite rev_app_distr, lstrip_all in H.
  - rewrite rev_app_distr in H. cbn [rev app lstrip] in H.
    assert (E : existsb (Z.eqb c) suf = true) by (apply existsb_exists; exists c; split; [exact Hc|apply Z.eqb_refl]).
    rewrite E in H. cbn iota in H. apply (f_equal (@length Z)) in H. rewrite app_length in H.
    assert (HL : forall s, (length (lstrip suf s) <= length s)%nat).
    { induction s as [|y s IH]; [reflexivity|]. cbn [lstrip]. destruct (existsb (Z.eqb y) suf); [|apply Nat.le_refl].
      cbn [length]. apply Nat.le_le_succ_r. exact IH. }
    rewrite rev_length in H. specialize (HL (rev x')). rewrite rev_length in HL. cbn [length] in H. unfold str in *. lia.
  - apply Forall_forall. intros y Hy. apply existsb_exists. exists y. split; [now apply in_rev|apply Z.eqb_refl].
Qed.
Lemma starts_with_app p s : starts_with p s = true <-> exists r, s = p ++ r.
Proof.
  revert s. induction p as [|x p IH]; intro s; cbn [starts_with app].
  - split; [intros _; now exists s|reflexivity].
  - destruct s as [|y s]; [split; [discriminate|intros (r & H); discriminate]|]. split.
    + intro H. apply andb_prop in H as [H1 H2]. apply IH in H2 as (r & ->). exists r. f_equal. lia.
    + intros (r & H). injection H as -> ->. rewrite Z.eqb_refl. apply IH. now exists r.
Qed.
Lemma ends_with_app p s : ends_with p s = true <-> exists r, s = r ++ p.
Proof.
  unfold ends_with. rewrite starts_with_app. split; intros (r & H).
  - exists (rev r). rewrite <- (rev_involutive s), H, rev_app_distr, rev_involutive. reflexivity.
  - exists (rev r). rewrite H, rev_app_distr. reflexivity.
Qed.

Lemma keys_strips s suf : (forall x c, In (x ++ c :: suf) (dkeys s) -> ~ In c suf) ->
  strips suf (dkeys s) (keys_with_suffix s suf).
Proof.
  unfold keys_with_suffix. induction (dkeys s) as [|k ks IH]; intro H; [constructor|]. cbn [filter].
  specialize (IH (fun x c Hx => H x c (or_intror Hx))).
  destruct (ends_with suf k) eqn:E.
  - apply ends_with_app in E as (x & ->). cbn [map].
    replace (rstrip suf (x ++ suf)) with x; [now constructor|]. symmetry.
    destruct x as [|y x] using rev_ind.
    + cbn [app]. unfold rstrip. pose proof (lstrip_all suf (rev suf) []) as HL. rewrite app_nil_r in HL. rewrite HL; [reflexivity|].
      apply Forall_forall. intros y Hy. apply existsb_exists. exists y. split; [now apply in_rev|apply Z.eqb_refl].
    + apply (rstrip_suffix _ _ y x eq_refl). apply (H x y). left. exact (eq_sym (app_assoc x [y] suf)).
  - apply strips_skip; [|exact IH]. intros x ->. assert (ends_with suf (x ++ suf) = true) by (apply ends_with_app; now exists x).
    congruence.
Qed.

Lemma writes_with_eq m lo ls : writes_with m lo ls -> man_linesep m lo = ls /\ a_linesep ls.
Proof.
  intros (Hl & H). split; [|exact Hl]. unfold man_linesep, or_linesep.
  destruct H as [->|[(-> & ->)|(-> & -> & ->)]]; [| |reflexivity]; destruct Hl as [->| ->]; reflexivity.
Qed.
Lemma plain_no10 s : forallb plain s = true -> ~ In 10 s.
Proof. intros H HI. rewrite forallb_forall in H. specialize (H 10 HI). discriminate. Qed.
Lemma item_no_newline s : Forall item_ok s -> no_newline s.
Proof.
  intro H. eapply Forall_impl; [|exact H]. intros [k v] (HK & HV & _). cbn [fst snd] in *.
  apply key_ok_facts in HK as (K1 & _). unfold val_ok in HV. apply andb_prop in HV as [HV _].
  split; now apply plain_no10.
Qed.
Lemma reserialise m lo ls m0 old data : manifest_ok m -> writes_with m lo ls ->
  m_primary_key m0 = m_primary_key m -> m_main m0 = [(m_primary_key m, old)] -> m_subs m0 = [] ->
  man_data m lo = Ok data ->
  exists m', man_parse m0 data = Ok m' /\ man_data m' None = Ok data.
Proof.
  intros HM HW E1 E2 E3 HD. apply writes_with_eq in HW as [EL Hls].
  destruct (round_trip m lo m0 old HM) as (data' & subs & D1 & D2 & D3); try assumption.
  { now rewrite EL. }
  rewrite HD in D1. apply ok_inj in D1. subst data'. eexists. split; [exact D3|]. rewrite EL.
  set (m2 := mkman (m_primary_key m) (m_main m) (m_subs m) (Some ls)).
  assert (EL2 : man_linesep m2 None = ls).
  { unfold man_linesep, m2. cbn [m_linesep or_linesep]. destruct Hls as [->| ->]; reflexivity. }
  apply (canonical m2); try reflexivity; [exact D2| |].
  - rewrite EL2. destruct Hls as [->| ->]; [now left|right]. split; [reflexivity|]. cbn [m_subs m2].
    destruct HM as (_ & _ & HS). eapply Forall_impl; [|exact HS]. intros ns (_ & _ & HF). now apply item_no_newline.
  - rewrite <- HD. unfold man_data. cbv zeta. rewrite EL2, EL. reflexivity.
Qed.
Lemma canonical' m m' lo ls d :
  m_main m' = m_main m -> m_linesep m' = m_linesep m -> Permutation (m_subs m') (m_subs m) ->
  writes_with m lo ls -> (ls = crlf -> Forall (fun ns => no_newline (snd ns)) (m_subs m)) ->
  man_data m lo = Ok d -> man_data m' lo = Ok d.
Proof.
  intros E1 E2 HP HW HN. apply writes_with_eq in HW as [EL Hls]. apply canonical; try assumption.
  rewrite EL. destruct Hls as [->| ->]; [now left|right]. split; [reflexivity|now apply HN].
Qed.
Lemma round_trip' m lo ls m0 old : manifest_ok m -> writes_with m lo ls ->
  m_primary_key m0 = m_primary_key m -> m_main m0 = [(m_primary_key m, old)] -> m_subs m0 = [] ->
  exists data m', man_data m lo = Ok data /\ man_parse m0 data = Ok m' /\
    m_main m' = m_main m /\ Permutation (m_subs m') (m_subs m) /\ m_linesep m' = Some ls.
Proof.
  intros HM HW E1 E2 E3. apply writes_with_eq in HW as [EL Hls].
  destruct (round_trip m lo m0 old HM) as (data & subs & D1 & D2 & D3); try assumption.
  { now rewrite EL. }
  rewrite EL in D3. eexists data, _. split; [exact D1|]. split; [exact D3|]. cbn. auto.
Qed.
Lemma short_lines m lo ls data : writes_with m lo ls -> man_data m lo = Ok data ->
  Forall (fun l => Z.of_nat (length l) <= 72) (phys_lines data).
Proof.
  intros HW H. apply writes_with_eq in HW as [EL Hls]. apply short_phys. apply (short_manifest m lo); [now rewrite EL|exact H].
Qed.
Lemma write_total k v ls : a_linesep ls -> forallb scalar k = true -> forallb scalar v = true ->
  1 <= Z.of_nat (length (utf8 k)) <= 68 -> v <> [] -> exists data, write_key_val k v (Some ls) = Ok data.
Proof.
  intros Hls Hk Hv Hl Hne. eexists. apply write_ok.
  - now apply utf8_encode_ok.
  - now apply utf8_encode_ok.
  - now apply linesep_enc.
  - lia.
  - now apply utf8_nonempty.
Qed.

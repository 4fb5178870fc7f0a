(** The parser of manifests against the grammar of Manifest_Grammar.v. *)
From Verif Require Import Base Pack_Model ConstPool_Model Manifest_Model Manifest_Spec Manifest_Proofs Manifest_RT Manifest_Grammar.

(** ** Lines *)
Lemma line_break_iff c : line_break c = true <-> In c breaks.
Proof.
  unfold line_break, breaks. cbn [In]. rewrite !orb_true_iff, !andb_true_iff, !Z.eqb_eq, !Z.leb_le. split; [|intuition lia].
  intros [[[[H|H]|H]|H]|H]; [| |intuition..]; [assert (c = 10 \/ c = 11 \/ c = 12 \/ c = 13) by lia|assert (c = 28 \/ c = 29 \/ c = 30) by lia]; intuition.
Qed.
Lemma split_run : forall l fuel cur rest, unbroken l -> (length (l ++ rest) <= fuel)%nat ->
  splitlines_f fuel cur (l ++ rest) = splitlines_f (fuel - length l) (rev l ++ cur) rest.
Proof.
  induction l as [|c l IH]; intros fuel cur rest HU HF; cbn [app length rev].
  - now rewrite Nat.sub_0_r.
  - cbn [app length] in HF. destruct fuel as [|fu]; [lia|]. cbn [splitlines_f].
    destruct (line_break c) eqn:E; [exfalso; apply (HU c); [now left|now apply line_break_iff]|].
    rewrite IH by (try lia; intros x Hx; apply HU; now right). cbn [Nat.sub]. now rewrite <- app_assoc.
Qed.
Lemma splitlines_unbroken l : unbroken l -> splitlines l = match l with [] => [] | _ => [l] end.
Proof.
  intro H. unfold splitlines. pose proof (split_run l (length l) [] [] H) as E. rewrite !app_nil_r in E. rewrite E by lia.
  assert (G : forall r : str, match r with [] => [] | _ => [rev r] end = match rev r with [] => [] | _ => [rev r] end).
  { intros [|x r]; [reflexivity|]. destruct (rev (x :: r)) eqn:R; [|reflexivity]. apply (f_equal (@length Z)) in R. rewrite rev_length in R. discriminate. }
  rewrite Nat.sub_diag. cbn [splitlines_f]. rewrite G, rev_involutive. reflexivity.
Qed.
Lemma splitlines_crlf l d : unbroken l -> splitlines (l ++ 13 :: 10 :: d) = l :: splitlines d.
Proof.
  intro H. unfold splitlines. rewrite split_run by (auto; lia). rewrite app_length. cbn [length].
  replace (length l + S (S (length d)) - length l)%nat with (S (S (length d))) by lia.
  remember (S (length d)) as n eqn:En. cbn [splitlines_f].
  change (line_break 13) with true. cbn iota. change (13 =? 13) with true. change (10 =? 10) with true. cbn iota. rewrite app_nil_r, rev_involutive. f_equal. apply splitlines_fuel; lia.
Qed.
Lemma splitlines_break l b d : unbroken l -> In b breaks -> ~ (b = 13 /\ exists d', d = 10 :: d') ->
  splitlines (l ++ b :: d) = l :: splitlines d.
Proof.
  intros H HB HN. unfold splitlines. rewrite split_run by (auto; lia). rewrite app_length. cbn [length].
  replace (length l + S (length d) - length l)%nat with (S (length d)) by lia. cbn [splitlines_f].
  rewrite (proj2 (line_break_iff b) HB). rewrite app_nil_r, rev_involutive. f_equal.
  destruct (Z.eqb_spec b 13) as [->|]; [|reflexivity]. destruct d as [|x d]; [reflexivity|].
  destruct (Z.eqb_spec x 10) as [->|]; [exfalso; apply HN; eauto|reflexivity].
Qed.
Lemma first_break s : unbroken s \/ exists l b d, s = l ++ b :: d /\ unbroken l /\ In b breaks.
Proof.
  induction s as [|c s IH]; [left; intros x []|]. destruct (line_break c) eqn:E.
  - right. exists [], c, s. split; [reflexivity|]. split; [intros x []|now apply line_break_iff].
  - assert (Hc : ~ In c breaks) by (rewrite <- line_break_iff; congruence). destruct IH as [HU|(l & b & d & -> & HU & HB)].
    + left. intros x [<-|Hx]; [exact Hc|now apply HU].
    + right. exists (c :: l), b, d. split; [reflexivity|]. split; [|exact HB]. intros x [<-|Hx]; [exact Hc|now apply HU].
Qed.
Lemma splitlines_Lines s : Lines s (splitlines s).
Proof.
  remember (length s) as n eqn:E. assert (Hn : (length s <= n)%nat) by lia. clear E. revert s Hn. induction n as [|n IH]; intros s Hn.
  - destruct s; [constructor|cbn [length] in Hn; lia].
  - destruct (first_break s) as [HU|(l & b & d & -> & HU & HB)].
    + rewrite splitlines_unbroken by exact HU. destruct s; [constructor|]. apply lines_last; [discriminate|exact HU].
    + rewrite app_length in Hn. cbn [length] in Hn. destruct (Z.eq_dec b 13) as [->|Hb].
      * destruct d as [|x d].
        -- rewrite splitlines_break by (auto; intros [_ (? & ?)]; discriminate). apply lines_break; auto; [intros [_ (? & ?)]; discriminate|]. apply IH. cbn [length]. lia.
        -- destruct (Z.eq_dec x 10) as [->|Hx].
           ++ rewrite splitlines_crlf by exact HU. apply lines_crlf; [exact HU|]. apply IH. cbn [length] in Hn. lia.
           ++ rewrite splitlines_break by (auto; intros [_ (? & E)]; congruence). apply lines_break; auto; [intros [_ (? & E)]; congruence|]. apply IH. cbn [length] in *. lia.
      * rewrite splitlines_break by (auto; intros [? _]; congruence). apply lines_break; auto; [intros [? _]; congruence|]. apply IH. lia.
Qed.
Lemma Lines_splitlines s ls : Lines s ls -> splitlines s = ls.
Proof.
  induction 1.
  - reflexivity.
  - rewrite splitlines_unbroken by assumption. destruct l; [contradiction|reflexivity].
  - rewrite splitlines_crlf by assumption. now f_equal.
  - rewrite splitlines_break by assumption. now f_equal.
Qed.

(** ** NUL characters *)
Lemma Cleaned_iff l l' : Cleaned l l' <-> l' = clean l.
Proof.
  split.
  - induction 1; cbn [clean filter]; [reflexivity|exact IHCleaned|]. destruct (Z.eqb_spec c 0); [contradiction|]. cbn [negb]. now f_equal.
  - intros ->. induction l as [|c l IH]; [constructor|]. cbn [clean filter]. destruct (Z.eqb_spec c 0) as [->|]; cbn [negb]; now constructor.
Qed.
Lemma Cleaned_map ls cs : Forall2 Cleaned ls cs <-> cs = map clean ls.
Proof.
  split.
  - induction 1; cbn [map]; [reflexivity|]. apply Cleaned_iff in H as ->. now f_equal.
  - intros ->. induction ls; cbn [map]; constructor; [now apply Cleaned_iff|assumption].
Qed.
Lemma clean_clean l : clean (clean l) = clean l.
Proof.
  unfold clean. induction l as [|c l IH]; [reflexivity|]. cbn [filter]. destruct (c =? 0) eqn:E; cbn [negb]; [exact IH|].
  cbn [filter]. rewrite E. cbn [negb]. now f_equal.
Qed.
Lemma parse_clean : forall lines curr, parse_lines curr (map clean lines) = parse_lines curr lines.
Proof.
  induction lines as [|l lines IH]; intro curr; [reflexivity|]. cbn [map parse_lines]. rewrite clean_clean.
  destruct (clean l) as [|x rest].
  - destruct curr as [[|]|]; now rewrite ?IH.
  - destruct (x =? 32); [destruct curr as [[|[]]|]; now rewrite ?IH|]. destruct (split_colon (x :: rest)) as [[]|]; [apply IH|reflexivity].
Qed.

(** ** Sections *)
Lemma finish_cons k vals c : finish ((k, vals) :: c) = finish c ++ [(k, rev vals)].
Proof. unfold finish. reflexivity. Qed.
Lemma group_snoc g is ls i : Group g is -> Item ls i -> Group (g ++ ls) (is ++ [i]).
Proof.
  intro H. induction H; intro HI.
  - cbn [app]. apply group_more; [assumption|now constructor].
  - rewrite <- app_assoc. cbn [app]. apply group_more; auto.
Qed.
Lemma group_cont g is : Group g is -> forall is' k vs r, is = is' ++ [(k, vs)] -> Group (g ++ [32 :: r]) (is' ++ [(k, vs ++ [r])]).
Proof.
  assert (IC : forall ls k vs r, Item ls (k, vs) -> Item (ls ++ [32 :: r]) (k, vs ++ [r])).
  { intros ls k vs r H. inversion H; subst. cbn [app]. change [32 :: r] with (map (cons 32) [r]). rewrite <- map_app. now constructor. }
  intro H. induction H; intros is' k vs r E.
  - destruct is' as [|j [|]]; try discriminate. injection E as ->. constructor. now apply IC.
  - destruct is' as [|j is']; cbn [app] in E.
    + injection E as -> ->. inversion H0.
    + apply cons_inj in E as [-> ->]. rewrite <- app_assoc. cbn [app]. apply group_more; [assumption|]. now apply IHGroup.
Qed.
Lemma split_colon_iff l k v : split_colon l = Some (k, v) <-> l = k ++ 58 :: v /\ ~ In 58 k.
Proof.
  split.
  - revert k v. induction l as [|c l IH]; intros k v H; [discriminate|]. cbn [split_colon] in H. destruct (Z.eqb_spec c 58) as [->|Hc].
    + injection H as <- <-. split; [reflexivity|intros []].
    + destruct (split_colon l) as [[a b]|]; [|discriminate]. injection H as <- <-. destruct (IH a b eq_refl) as [-> Hn].
      split; [reflexivity|]. intros [?|?]; [congruence|contradiction].
  - intros [-> H]. now apply split_colon_key.
Qed.
Lemma header_item x rest k v : split_colon (x :: rest) = Some (k, v) -> x <> 32 -> Item [x :: rest] (k, [skipn 1 v]).
Proof.
  intros H Hx. apply split_colon_iff in H as [E Hn].
  assert (E2 : x :: rest = k ++ 58 :: firstn 1 v ++ skipn 1 v) by (now rewrite firstn_skipn).
  rewrite E2. apply (item_lines k (firstn 1 v) (skipn 1 v) []); [exact Hn| |].
  - destruct k as [|y k]; cbn [hd]; [lia|]. cbn [app] in E. apply cons_inj in E as [<- _]. exact Hx.
  - destruct v as [|y v]; [right; auto|left; reflexivity].
Qed.

Lemma parse_sound : forall lines curr secs, parse_lines curr lines = (secs, None) ->
  match curr with
  | None => Doc (map clean lines) secs
  | Some [] => Doc (map clean lines) secs
  | Some (i :: c) => forall g, Group g (finish (i :: c)) -> Doc (g ++ map clean lines) secs
  end.
Proof.
  induction lines as [|l lines IH]; intros curr secs H; cbn [parse_lines map] in *.
  - destruct curr as [[|i c]|]; injection H as <-; [constructor| |constructor]. intros g HG. rewrite app_nil_r. now constructor.
  - destruct (clean l) as [|x rest] eqn:EC.
    + destruct curr as [[|i c]|].
      * apply (IH (Some [])) in H. now constructor.
      * destruct (parse_lines None lines) as [l' e] eqn:EP. injection H as <- ->. intros g HG. apply doc_section; [exact HG|]. exact (IH None l' EP).
      * apply (IH None) in H. now constructor.
    + destruct (Z.eqb_spec x 32) as [->|Hx].
      * destruct curr as [[|[k vals] c]|]; try discriminate. pose proof (IH (Some ((k, rest :: vals) :: c)) _ H) as H'. cbn iota in H'. clear H. rename H' into H. intros g HG.
        cut (Doc ((g ++ [32 :: rest]) ++ map clean lines) secs); [now rewrite <- app_assoc|].
        apply H. rewrite finish_cons in *. cbn [rev]. now apply (group_cont g _ HG).
      * destruct (split_colon (x :: rest)) as [[k v]|] eqn:ES; [|discriminate]. pose proof (header_item _ _ _ _ ES Hx) as HI.
        pose proof (IH (Some ((k, [skipn 1 v]) :: match curr with Some c => c | None => [] end)) _ H) as H'. cbn iota in H'. clear H. rename H' into H.
        assert (HN : Doc ([x :: rest] ++ map clean lines) secs \/ exists i c, curr = Some (i :: c)).
        { destruct curr as [[|i c]|]; [left|right; eauto|left]; apply H; rewrite finish_cons; cbn [rev app finish map]; now constructor. }
        destruct curr as [[|i c]|]; [destruct HN as [HN|(? & ? & ?)]; [exact HN|discriminate]| |destruct HN as [HN|(? & ? & ?)]; [exact HN|discriminate]].
        intros g HG. cut (Doc ((g ++ [x :: rest]) ++ map clean lines) secs); [now rewrite <- app_assoc|].
        apply H. rewrite finish_cons. cbn [rev app]. now apply group_snoc.
Qed.

Definition cleanl (l : str) : Prop := clean l = l.
Lemma parse_conts_lines : forall conts k vals c rest, Forall cleanl (map (cons 32) conts) ->
  parse_lines (Some ((k, vals) :: c)) (map (cons 32) conts ++ rest) = parse_lines (Some ((k, rev conts ++ vals) :: c)) rest.
Proof.
  induction conts as [|r conts IH]; intros k vals c rest HF; [reflexivity|]. cbn [map app] in *. apply Forall_cons_iff in HF as [H1 H2].
  cbn [parse_lines]. rewrite H1. change (32 =? 32) with true. cbn iota. rewrite IH by exact H2. cbn [rev]. now rewrite <- app_assoc.
Qed.
Lemma parse_item_lines ls k vs curr rest : Item ls (k, vs) -> Forall cleanl ls ->
  parse_lines curr (ls ++ rest) = parse_lines (Some ((k, rev vs) :: match curr with Some c => c | None => [] end)) rest.
Proof.
  intros H HF. inversion H as [k' sep v conts Hk Hh Hs E1 E2]; subst. apply Forall_cons_iff in HF as [H1 H2]. cbn [app parse_lines]. rewrite H1.
  destruct (k ++ 58 :: sep ++ v) as [|x r] eqn:EX; [destruct k; discriminate|].
  assert (Hx : x <> 32). { destruct k as [|y k]; cbn [app] in EX; apply cons_inj in EX as [<- _]; [lia|exact Hh]. }
  apply Z.eqb_neq in Hx. rewrite Hx. rewrite <- EX, split_colon_key by exact Hk.
  assert (ESV : skipn 1 (sep ++ v) = v). { destruct Hs as [Hs|[-> ->]]; [|reflexivity]. destruct sep as [|? [|]]; try discriminate. reflexivity. }
  rewrite ESV. rewrite parse_conts_lines by exact H2. cbn [rev]. reflexivity.
Qed.
Lemma parse_group g is : Group g is -> forall curr rest, Forall cleanl g ->
  exists c, c <> [] /\ finish c = finish (match curr with Some c => c | None => [] end) ++ is /\
    parse_lines curr (g ++ rest) = parse_lines (Some c) rest.
Proof.
  intro H. induction H; intros curr rest HF.
  - destruct i as [k vs]. exists ((k, rev vs) :: match curr with Some c => c | None => [] end).
    split; [discriminate|]. split; [now rewrite finish_cons, rev_involutive|now apply parse_item_lines].
  - destruct i as [k vs]. apply Forall_app in HF as [HF1 HF2]. rewrite <- app_assoc, (parse_item_lines ls k vs) by assumption.
    destruct (IHGroup (Some ((k, rev vs) :: match curr with Some c => c | None => [] end)) rest HF2) as (c & Hc & E & EP).
    exists c. split; [exact Hc|]. split; [|exact EP]. rewrite E, finish_cons, rev_involutive, <- app_assoc. reflexivity.
Qed.
Lemma parse_complete cs secs : Doc cs secs -> Forall cleanl cs -> parse_lines None cs = (secs, None).
Proof.
  intro H. induction H; intro HF.
  - reflexivity.
  - apply Forall_cons_iff in HF as [_ HF]. cbn [parse_lines]. change (clean []) with (@nil Z). cbn iota. auto.
  - rewrite <- (app_nil_r g). destruct (parse_group g sec H None [] HF) as (c & Hc & E & ->). cbn [parse_lines]. destruct c; [contradiction|]. now rewrite E.
  - apply Forall_app in HF as [HF1 HF2]. apply Forall_cons_iff in HF2 as [_ HF2].
    destruct (parse_group g sec H None ([] :: ls) HF1) as (c & Hc & E & ->). cbn [parse_lines]. change (clean []) with (@nil Z). cbn iota.
    destruct c; [contradiction|]. rewrite IHDoc by exact HF2. now rewrite E.
Qed.
Lemma cleaned_cleanl ls : Forall cleanl (map clean ls).
Proof. induction ls; cbn [map]; constructor; [apply clean_clean|assumption]. Qed.

Lemma parse_sections_iff t secs : parse_sections t = (secs, None) <-> Sections t secs.
Proof.
  assert (E0 : parse_sections t = parse_lines None (splitlines t)) by (destruct t; reflexivity). rewrite E0. unfold Sections. split.
  - intro H. exists (splitlines t), (map clean (splitlines t)). split; [apply splitlines_Lines|]. split; [now apply Cleaned_map|]. exact (parse_sound _ None _ H).
  - intros (ls & cs & HL & HC & HD). apply Lines_splitlines in HL as ->. apply Cleaned_map in HC as ->.
    rewrite <- parse_clean. apply parse_complete; [exact HD|apply cleaned_cleanl].
Qed.
Lemma parse_err : forall lines curr secs e, parse_lines curr lines = (secs, Some e) -> e = MalformedManifest.
Proof.
  induction lines as [|l lines IH]; intros curr secs e H; cbn [parse_lines] in H.
  - destruct curr as [[|]|]; discriminate.
  - destruct (clean l) as [|x rest].
    + destruct curr as [[|]|]; [eauto| |eauto]. destruct (parse_lines None lines) as [l' e'] eqn:E. injection H as _ ->. eauto.
    + destruct (x =? 32).
      * destruct curr as [[|[]]|]; [now injection H|eauto|now injection H].
      * destruct (split_colon (x :: rest)) as [[]|]; [eauto|now injection H].
Qed.
Lemma parse_sections_malformed t : (~ exists secs, Sections t secs) <-> exists secs, parse_sections t = (secs, Some MalformedManifest).
Proof.
  split.
  - intro H. destruct (parse_sections t) as [secs [e|]] eqn:E.
    + exists secs. unfold parse_sections in E. destruct t; [discriminate|]. apply parse_err in E as E2. now rewrite E2.
    + exfalso. apply H. exists secs. now apply parse_sections_iff.
  - intros (secs & E) (secs' & H). apply parse_sections_iff in H. congruence.
Qed.

(** ** Loading *)
Lemma seqb_neq a b : seqb a b = false <-> a <> b.
Proof. destruct (seqb_spec a b); split; congruence. Qed.
Lemma dget_dset {V} (d : dict V) k v k' : dget (dset d k v) k' = if seqb k' k then Some v else dget d k'.
Proof.
  induction d as [|[q w] d IH]; cbn [dset dget].
  - reflexivity.
  - destruct (seqb_spec k q) as [<-|Hq]; cbn [dget].
    + destruct (seqb k' k) eqn:E; reflexivity.
    + destruct (seqb_spec k' q) as [->|Hq'].
      * destruct (seqb_spec q k) as [->|]; [congruence|reflexivity].
      * exact IH.
Qed.
Lemma sec_set_iff s k v s' : sec_set s k v = Ok s' <-> Z.of_nat (length k) <= 68 /\ s' = dset s k v.
Proof.
  unfold sec_set. rewrite Z.gtb_ltb. destruct (Z.ltb_spec 68 (Z.of_nat (length k))); split.
  - discriminate.
  - intros [H1 _]. lia.
  - intro E. injection E as <-. split; [lia|reflexivity].
  - intros [_ ->]. reflexivity.
Qed.
Lemma sec_set_err s k v e : sec_set s k v = Err e -> e = ManifestKeyException.
Proof. unfold sec_set. destruct (_ >? _); congruence. Qed.
Lemma sec_load_err : forall items s e, sec_load s items = Err e -> e = ManifestKeyException.
Proof.
  induction items as [|[k vs] items IH]; intros s e H; cbn [sec_load] in H; [discriminate|].
  destruct (sec_set s k (concat vs)) eqn:E; cbn [rbind] in H; [eauto|]. injection H as <-. eapply sec_set_err; eauto.
Qed.
Lemma sec_load_iff : forall items s, (exists s', sec_load s items = Ok s') <-> keys_fit items.
Proof.
  unfold keys_fit. induction items as [|[k vs] items IH]; intro s; cbn [sec_load].
  - split; [constructor|eauto].
  - rewrite Forall_cons_iff. cbn [fst]. split.
    + intros (s' & H). destruct (sec_set s k (concat vs)) eqn:E; [|discriminate]. cbn [rbind] in H. apply sec_set_iff in E as [Hk ->]. split; [exact Hk|].
      apply (IH (dset s k (concat vs))). eauto.
    + intros [Hk HF]. assert (E : sec_set s k (concat vs) = Ok (dset s k (concat vs))) by (apply sec_set_iff; auto). rewrite E. cbn [rbind]. now apply IH.
Qed.
Lemma sec_load_value : forall items s s' k, sec_load s items = Ok s' -> last_value items k (dget s k) (dget s' k).
Proof.
  induction items as [|[q vs] items IH]; intros s s' k H; cbn [sec_load] in H.
  - injection H as ->. right. auto.
  - destruct (sec_set s q (concat vs)) eqn:E; [|discriminate]. cbn [rbind] in H. apply sec_set_iff in E as [_ ->].
    specialize (IH _ _ k H). destruct IH as [(xs & us & ys & -> & Hn & ->)|[Hn ->]].
    + left. exists ((q, vs) :: xs), us, ys. auto.
    + rewrite dget_dset. destruct (seqb_spec k q) as [->|Hk].
      * left. exists [], vs, items. auto.
      * right. split; [|reflexivity]. cbn [map fst]. intros [?|?]; [congruence|contradiction].
Qed.
Lemma last_value_fun items k b a a' : last_value items k b a -> last_value items k b a' -> a = a'.
Proof.
  assert (D : forall (xs xs' ys ys' : list (str * list str)) vs vs', xs ++ (k, vs) :: ys = xs' ++ (k, vs') :: ys' -> ~ In k (map fst ys) -> ~ In k (map fst ys') -> vs = vs').
  { induction xs as [|x xs IH]; intros xs' ys ys' vs vs' E H1 H2; destruct xs' as [|x' xs']; cbn [app] in E.
    - apply cons_inj in E as [E _]. congruence.
    - apply cons_inj in E as [_ ->]. exfalso. apply H1. rewrite map_app. apply in_or_app. right. now left.
    - apply cons_inj in E as [_ <-]. exfalso. apply H2. rewrite map_app. apply in_or_app. right. now left.
    - apply cons_inj in E as [_ E]. eauto. }
  intros [(xs & vs & ys & E & Hn & ->)|[Hn ->]] [(xs' & vs' & ys' & E' & Hn' & ->)|[Hn' ->]]; subst; try reflexivity.
  - do 2 f_equal. eapply D; eauto.
  - exfalso. apply Hn'. rewrite map_app. apply in_or_app. right. now left.
  - exfalso. apply Hn. rewrite map_app. apply in_or_app. right. now left.
Qed.
Lemma load_subs_spec : forall l subs subs', load_subs subs l = Ok subs' ->
  Forall keys_fit l /\ forall n, last_section l n (dget subs n) (dget subs' n).
Proof.
  induction l as [|items l IH]; intros subs subs' H; cbn [load_subs] in H.
  - injection H as ->. split; [constructor|]. intro n. right. split; [intros ? []|reflexivity].
  - destruct (sec_load (new_section S_None) items) as [s|] eqn:E; [|discriminate]. cbn [rbind] in H.
    assert (LV : forall k, last_value items k (if seqb k (lit "Name") then Some (lit "None") else None) (dget s k)) by (intro k; exact (sec_load_value items (new_section S_None) s k E)).
    destruct (dget s K_Name) as [n0|] eqn:EN; [|discriminate]. apply IH in H as [HF HS].
    split; [constructor; [apply (sec_load_iff items (new_section S_None)); eauto|exact HF]|]. intro n. specialize (HS n).
    assert (SN : section_name items n0) by (unfold section_name; rewrite <- EN; exact (LV (lit "Name"))).
    destruct HS as [(xs & it & ys & s1 & -> & A & B & C & D)|[A ->]].
    + left. exists (items :: xs), it, ys, s1. auto.
    + rewrite dget_dset. destruct (seqb_spec n n0) as [->|Hn].
      * left. exists [], items, l, s. auto.
      * right. split; [|reflexivity]. intros it [<-|Hi]; [|now apply A]. intro SN'. pose proof (last_value_fun _ _ _ _ _ SN SN') as X. congruence.
Qed.
Lemma load_subs_total : forall l subs, Forall keys_fit l -> exists subs', load_subs subs l = Ok subs'.
Proof.
  induction l as [|items l IH]; intros subs HF; cbn [load_subs]; [eauto|]. apply Forall_cons_iff in HF as [H1 H2].
  destruct (proj2 (sec_load_iff items (new_section S_None)) H1) as (s & E). rewrite E. cbn [rbind].
  destruct (dget s K_Name) as [n|] eqn:EN; [now apply IH|]. exfalso.
  pose proof (sec_load_value items (new_section S_None) s K_Name E) as L. rewrite EN in L. destruct L as [(? & ? & ? & _ & _ & ?)|[_ L]]; [discriminate|]. cbn in L. discriminate.
Qed.
Lemma load_subs_err : forall l subs e, load_subs subs l = Err e -> e = ManifestKeyException.
Proof.
  induction l as [|items l IH]; intros subs e H; cbn [load_subs] in H; [discriminate|].
  destruct (sec_load (new_section S_None) items) as [s|] eqn:E; cbn [rbind] in H.
  - destruct (dget s K_Name) as [n|] eqn:EN; [eauto|]. exfalso.
    pose proof (sec_load_value items (new_section S_None) s K_Name E) as L. rewrite EN in L. destruct L as [(? & ? & ? & _ & _ & ?)|[_ L]]; [discriminate|]. cbn in L. discriminate.
  - injection H as <-. eapply sec_load_err; eauto.
Qed.

(** ** The line separator *)
Lemma starts_with_iff p s : starts_with p s = true <-> exists r, s = p ++ r.
Proof.
  revert s. induction p as [|c p IH]; intro s; cbn [starts_with]; [split; [intros _; now exists s|reflexivity]|]. destruct s as [|x s].
  - split; [discriminate|]. intros (r & E). cbn [app] in E. discriminate E.
  - rewrite andb_true_iff, IH, Z.eqb_eq. split.
    + intros [-> (r & ->)]. now exists r.
    + intros (r & E). cbn [app] in E. apply cons_inj in E as [-> ->]. eauto.
Qed.
Lemma contains_iff sub s : contains sub s = true <-> exists a b, s = a ++ sub ++ b.
Proof.
  induction s as [|c s IH]; cbn [contains]; rewrite orb_true_iff, starts_with_iff.
  - split.
    + intros [(r & E)|H]; [now exists [], r|discriminate].
    + intros (a & b & E). destruct a; [left; eauto|discriminate].
  - rewrite IH. split.
    + intros [(r & E)|(a & b & ->)]; [now exists [], r|now exists (c :: a), b].
    + intros (a & b & E). destruct a as [|y a]; [left; eauto|]. right. cbn [app] in E. apply cons_inj in E as [_ ->]. eauto.
Qed.

(** ** Manifests *)
Lemma decode_utf8 t : forallb scalar t = true -> utf8_ignore (utf8 t) = t.
Proof. intro H. pose proof (ignore_utf8 t [] H) as E. rewrite !app_nil_r in E. exact E. Qed.

Definition uses_linesep (t : str) (m : manifest) : Prop :=
  ((exists a b, t = a ++ crlf ++ b) /\ m_linesep m = Some crlf) \/ ((~ exists a b, t = a ++ crlf ++ b) /\ m_linesep m = Some lf).
Lemma man_parse_ok m0 t m : forallb scalar t = true -> man_parse m0 (utf8 t) = Ok m ->
  exists main subs, Sections t (main :: subs) /\ Forall keys_fit (main :: subs) /\
    (forall k, last_value main k (dget (m_main m0) k) (dget (m_main m) k)) /\
    (forall n, last_section subs n (dget (m_subs m0) n) (dget (m_subs m) n)) /\
    uses_linesep t m /\ m_primary_key m = m_primary_key m0.
Proof.
  intros HT H. unfold man_parse in H. rewrite decode_utf8 in H by exact HT.
  destruct (parse_sections t) as [secs e] eqn:EP. destruct secs as [|main subs]; [discriminate|].
  destruct (sec_load (m_main m0) main) as [mn|] eqn:E1; [|discriminate]. cbn [rbind] in H.
  destruct (load_subs (m_subs m0) subs) as [sb|] eqn:E2; [|discriminate]. cbn [rbind] in H. destruct e; [discriminate|]. injection H as <-. cbn [m_main m_subs m_linesep m_primary_key].
  apply parse_sections_iff in EP. exists main, subs. split; [exact EP|]. apply load_subs_spec in E2 as [HF HS].
  split; [constructor; [apply (sec_load_iff main (m_main m0)); eauto|exact HF]|]. split; [intro k; now apply sec_load_value|]. split; [exact HS|]. split; [|reflexivity].
  unfold uses_linesep, detect_linesep. cbn [m_linesep]. destruct (contains [13; 10] t) eqn:EC.
  - left. split; [now apply contains_iff|reflexivity].
  - right. split; [|reflexivity]. intro X. apply contains_iff in X. unfold crlf in X. congruence.
Qed.
Lemma man_parse_total m0 t main subs : forallb scalar t = true -> Sections t (main :: subs) -> Forall keys_fit (main :: subs) ->
  exists m, man_parse m0 (utf8 t) = Ok m.
Proof.
  intros HT HS HF. unfold man_parse. rewrite decode_utf8 by exact HT. apply parse_sections_iff in HS as ->. apply Forall_cons_iff in HF as [H1 H2].
  destruct (proj2 (sec_load_iff main (m_main m0)) H1) as (mn & ->). cbn [rbind]. destruct (load_subs_total subs (m_subs m0) H2) as (sb & ->). cbn [rbind]. eauto.
Qed.
Lemma man_parse_malformed m0 t : forallb scalar t = true -> (~ exists secs, Sections t secs) ->
  exists e, man_parse m0 (utf8 t) = Err e /\ (e = MalformedManifest \/ e = ManifestKeyException).
Proof.
  intros HT HN. unfold man_parse. rewrite decode_utf8 by exact HT. apply parse_sections_malformed in HN as (secs & ->).
  destruct secs as [|main subs]; [eauto|]. destruct (sec_load (m_main m0) main) as [mn|e1] eqn:E1; cbn [rbind].
  - destruct (load_subs (m_subs m0) subs) as [sb|e2] eqn:E2; cbn [rbind]; [eauto|]. exists e2. split; [reflexivity|right]. eapply load_subs_err; eauto.
  - exists e1. split; [reflexivity|right]. eapply sec_load_err; eauto.
Qed.
Lemma man_parse_long m0 t main subs : forallb scalar t = true -> Sections t (main :: subs) -> ~ Forall keys_fit (main :: subs) ->
  man_parse m0 (utf8 t) = Err ManifestKeyException.
Proof.
  intros HT HS HF. unfold man_parse. rewrite decode_utf8 by exact HT. apply parse_sections_iff in HS as ->.
  destruct (sec_load (m_main m0) main) as [mn|e1] eqn:E1; cbn [rbind].
  - destruct (load_subs (m_subs m0) subs) as [sb|e2] eqn:E2; cbn [rbind].
    + exfalso. apply HF. constructor; [apply (sec_load_iff main (m_main m0)); eauto|]. now apply load_subs_spec in E2 as [? _].
    + f_equal. eapply load_subs_err; eauto.
  - f_equal. eapply sec_load_err; eauto.
Qed.
Lemma man_parse_none m0 t : forallb scalar t = true -> Sections t [] -> man_parse m0 (utf8 t) = Err StopIteration.
Proof. intros HT HS. unfold man_parse. rewrite decode_utf8 by exact HT. apply parse_sections_iff in HS as ->. reflexivity. Qed.

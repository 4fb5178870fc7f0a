(** Proofs about reading texts that are no manifests. *)
From Verif Require Import Base ConstPool_Model Manifest_Model Manifest_Spec Manifest_Proofs Manifest_RT Manifest_Grammar Manifest_Parse Upto_Model Upto_Spec.

(** ** The text *)
Lemma no_colon l : split_colon l = None <-> ~ In 58 l.
Proof.
  split.
  - intros H Hi. apply in_split in Hi as (a & b & ->). revert H. induction a as [|x a IH]; cbn [app split_colon]; [discriminate|].
    destruct (x =? 58); [discriminate|]. destruct (split_colon (a ++ 58 :: b)) as [[? ?]|]; [discriminate|]. intros _. exact (IH eq_refl).
  - induction l as [|x l IH]; intro H; [reflexivity|]. cbn [split_colon]. destruct (Z.eqb_spec x 58) as [->|Hx]; [exfalso; apply H; now left|].
    rewrite IH; [reflexivity|]. intro Hi. apply H. now right.
Qed.
Lemma broken_sound : forall lines curr secs e, parse_lines curr lines = (secs, Some e) ->
  match curr with
  | None => Broken (map clean lines) secs
  | Some [] => Broken (map clean lines) secs
  | Some (i :: c) => forall g, Group g (finish (i :: c)) -> Broken (g ++ map clean lines) secs
  end.
Proof.
  induction lines as [|l lines IH]; intros curr secs e H; cbn [parse_lines map] in *.
  - destruct curr as [[|i c]|]; discriminate H.
  - destruct (clean l) as [|x rest] eqn:EC.
    + destruct curr as [[|i c]|].
      * apply (IH (Some [])) in H. now constructor.
      * destruct (parse_lines None lines) as [l' e'] eqn:EP. injection H as <- ->. intros g HG. apply broken_later; [exact HG|]. exact (IH None l' e EP).
      * apply (IH None) in H. now constructor.
    + destruct (Z.eqb_spec x 32) as [->|Hx].
      * assert (HB : forall ls, Broken ((32 :: rest) :: ls) []) by (intro ls; apply (broken_here [] (32 :: rest) ls); [now left|discriminate|right; split; reflexivity]).
        destruct curr as [[|[k vals] c]|]; [injection H as <- _; apply HB| |injection H as <- _; apply HB].
        pose proof (IH (Some ((k, rest :: vals) :: c)) _ _ H) as H'. cbn iota in H'. intros g HG.
        cut (Broken ((g ++ [32 :: rest]) ++ map clean lines) secs); [now rewrite <- app_assoc|].
        apply H'. rewrite finish_cons in *. cbn [rev]. now apply (group_cont g _ HG).
      * destruct (split_colon (x :: rest)) as [[k v]|] eqn:ES.
        -- pose proof (header_item _ _ _ _ ES Hx) as HI.
           pose proof (IH (Some ((k, [skipn 1 v]) :: match curr with Some c => c | None => [] end)) _ _ H) as H'. cbn iota in H'.
           assert (HN : Broken ([x :: rest] ++ map clean lines) secs \/ exists i c, curr = Some (i :: c)).
           { destruct curr as [[|i c]|]; [left|right; eauto|left]; apply H'; rewrite finish_cons; cbn [rev app finish map]; now constructor. }
           destruct curr as [[|i c]|]; [destruct HN as [HN|(? & ? & ?)]; [exact HN|discriminate]| |destruct HN as [HN|(? & ? & ?)]; [exact HN|discriminate]].
           intros g HG. cut (Broken ((g ++ [x :: rest]) ++ map clean lines) secs); [now rewrite <- app_assoc|].
           apply H'. rewrite finish_cons. cbn [rev app]. now apply group_snoc.
        -- injection H as <- _. apply no_colon in ES.
           assert (HB : forall g, g = [] \/ (exists sec, Group g sec) -> Broken (g ++ (x :: rest) :: map clean lines) []).
           { intros g Hg. apply broken_here; [exact Hg|discriminate|left; split; [exact Hx|exact ES]]. }
           destruct curr as [[|i c]|]; [exact (HB [] (or_introl eq_refl))| |exact (HB [] (or_introl eq_refl))]. intros g HG. apply HB. right. eauto.
Qed.
Lemma broken_complete cs secs : Broken cs secs -> Forall cleanl cs -> parse_lines None cs = (secs, Some MalformedManifest).
Proof.
  intro H. induction H as [g bad rest Hg Hb HC|ls secs H IH|g sec ls secs HG H IH]; intro HF.
  - apply Forall_app in HF as [HF1 HF2]. apply Forall_cons_iff in HF2 as [HF2 _].
    assert (E : forall curr, (g = [] -> curr = None \/ curr = Some []) -> parse_lines curr (bad :: rest) = ([], Some MalformedManifest)).
    { intros curr Hc. cbn [parse_lines]. rewrite HF2. destruct bad as [|x bad]; [congruence|]. destruct HC as [[H1 H2]|[H1 H2]]; cbn [hd] in *.
      - apply Z.eqb_neq in H1. rewrite H1. apply no_colon in H2. now rewrite H2.
      - rewrite H2. change (32 =? 32) with true. cbn iota. destruct (Hc H1) as [-> | ->]; reflexivity. }
    destruct Hg as [-> | (sec & HG)]; [exact (E None (fun _ => or_introl eq_refl))|].
    destruct (parse_group g sec HG None (bad :: rest) HF1) as (c & Hc & _ & ->). apply E. intros ->. exfalso. inversion HG as [? ? HI E1|? ? ? ? HI _ E1]; subst; inversion HI; subst; discriminate.
  - apply Forall_cons_iff in HF as [_ HF]. cbn [parse_lines]. change (clean []) with (@nil Z). cbn iota. auto.
  - apply Forall_app in HF as [HF1 HF2]. apply Forall_cons_iff in HF2 as [_ HF2].
    destruct (parse_group g sec HG None ([] :: ls) HF1) as (c & Hc & E & ->). cbn [parse_lines]. change (clean []) with (@nil Z). cbn iota.
    destruct c; [contradiction|]. rewrite IH by exact HF2. now rewrite E.
Qed.
Lemma broken_iff t secs e : parse_sections t = (secs, Some e) <-> BrokenText t secs /\ e = MalformedManifest.
Proof.
  assert (E0 : parse_sections t = parse_lines None (splitlines t)) by (destruct t; reflexivity). rewrite E0. unfold BrokenText. split.
  - intro H. split; [|exact (parse_err _ _ _ _ H)]. exists (splitlines t), (map clean (splitlines t)). split; [apply splitlines_Lines|]. split; [now apply Cleaned_map|]. exact (broken_sound _ None _ _ H).
  - intros [(ls & cs & HL & HC & HD) ->]. apply Lines_splitlines in HL as ->. apply Cleaned_map in HC as ->.
    rewrite <- parse_clean. apply broken_complete; [exact HD|apply cleaned_cleanl].
Qed.

(** ** Loading *)
Lemma sec_upto items : forall s, match sec_load_upto s items with
  | (s', None) => sec_load s items = Ok s'
  | (s', Some e) => sec_load s items = Err e /\ e = ManifestKeyException /\ exists xs k vs ys, items = xs ++ (k, vs) :: ys /\ keys_fit xs /\ 68 < Z.of_nat (length k) /\ sec_load s xs = Ok s'
  end.
Proof.
  induction items as [|[k vs] items IH]; intro s; cbn [sec_load_upto sec_load]; [reflexivity|].
  destruct (sec_set s k (concat vs)) as [s1|e] eqn:E; cbn [rbind].
  - specialize (IH s1). destruct (sec_load_upto s1 items) as [s' [e|]]; [|exact IH]. destruct IH as (H1 & H2 & xs & k' & vs' & ys & -> & HF & HL & HS). split; [exact H1|]. split; [exact H2|].
    exists ((k, vs) :: xs), k', vs', ys. split; [reflexivity|]. apply sec_set_iff in E as E'. split; [constructor; [exact (proj1 E')|exact HF]|]. split; [exact HL|]. cbn [sec_load]. rewrite E. exact HS.
  - split; [reflexivity|]. unfold sec_set in E. destruct (Z.of_nat (length k) >? 68) eqn:EL; [|discriminate]. injection E as <-. split; [reflexivity|].
    exists [], k, vs, items. split; [reflexivity|]. split; [constructor|]. split; [lia|reflexivity].
Qed.
Lemma subs_upto l : forall subs, match load_subs_upto subs l with
  | (sb, None) => load_subs subs l = Ok sb
  | (sb, Some e) => load_subs subs l = Err e /\ e = ManifestKeyException /\ exists xs items ys, l = xs ++ items :: ys /\ ~ keys_fit items /\ load_subs subs xs = Ok sb
  end.
Proof.
  induction l as [|items l IH]; intro subs; cbn [load_subs_upto load_subs]; [reflexivity|]. pose proof (sec_upto items (new_section S_None)) as HU.
  destruct (sec_load_upto (new_section S_None) items) as [s [e|]].
  - destruct HU as (H1 & H2 & xs & k & vs & ys & E & _ & HL & _). rewrite H1. cbn [rbind]. split; [reflexivity|]. split; [exact H2|]. exists [], items, l. split; [reflexivity|]. split; [|reflexivity].
    intro HF. rewrite E in HF. apply Forall_app in HF as [_ HF]. apply Forall_inv in HF. cbn [fst] in HF. lia.
  - rewrite HU. cbn [rbind]. destruct (dget s K_Name) as [n|] eqn:EN.
    + specialize (IH (dset subs n s)). destruct (load_subs_upto (dset subs n s) l) as [sb [e|]]; [|exact IH]. destruct IH as (H1 & H2 & xs & it & ys & -> & HF & HS). split; [exact H1|]. split; [exact H2|].
      exists (items :: xs), it, ys. split; [reflexivity|]. split; [exact HF|]. cbn [load_subs]. rewrite HU. cbn [rbind]. rewrite EN. exact HS.
    + exfalso. pose proof (sec_load_value items (new_section S_None) s K_Name HU) as L. rewrite EN in L. destruct L as [(? & ? & ? & _ & _ & ?)|[_ L]]; [discriminate|]. cbn in L. discriminate.
Qed.

(** ** The object *)
Lemma upto_agrees m data : match parse_upto m data with
  | (m', None) => man_parse m data = Ok m'
  | (_, Some e) => man_parse m data = Err e
  end.
Proof.
  unfold parse_upto, man_parse. destruct (parse_sections (utf8_ignore data)) as [[|main subs] e]; [reflexivity|].
  pose proof (sec_upto main (m_main m)) as H1. destruct (sec_load_upto (m_main m) main) as [mn [x|]]; [destruct H1 as [-> _]; reflexivity|]. rewrite H1. cbn [rbind].
  pose proof (subs_upto subs (m_subs m)) as H2. destruct (load_subs_upto (m_subs m) subs) as [sb [x|]]; [destruct H2 as [-> _]; reflexivity|]. rewrite H2. cbn [rbind]. now destruct e.
Qed.
Lemma upto_reached m0 t m r : forallb scalar t = true -> parse_upto m0 (utf8 t) = (m, r) ->
  exists secs early, ((Sections t secs /\ early = None) \/ (BrokenText t secs /\ early = Some MalformedManifest)) /\
    Reached (m_main m0) (m_subs m0) early secs (m_main m) (m_subs m) r /\ uses_linesep t m /\ m_primary_key m = m_primary_key m0.
Proof.
  intros HT H. unfold parse_upto in H. rewrite decode_utf8 in H by exact HT.
  assert (HL : forall pk mn sb, uses_linesep t (mkman pk mn sb (Some (detect_linesep t)))).
  { intros pk mn sb. unfold uses_linesep, detect_linesep. cbn [m_linesep]. destruct (contains [13; 10] t) eqn:EC.
    - left. split; [now apply contains_iff|reflexivity].
    - right. split; [|reflexivity]. intro X. apply contains_iff in X. unfold crlf in X. congruence. }
  destruct (parse_sections t) as [secs e] eqn:EP. exists secs, e.
  split. { destruct e as [e|]; [right; apply broken_iff in EP as [? ->]; auto|left; apply parse_sections_iff in EP; auto]. } clear EP.
  destruct secs as [|main subs]; [injection H as <- <-; split; [constructor|split; [apply HL|reflexivity]]|].
  pose proof (sec_upto main (m_main m0)) as H1. destruct (sec_load_upto (m_main m0) main) as [mn [x|]].
  - injection H as <- <-. destruct H1 as (_ & -> & xs & k & vs & ys & -> & HF & HK & HS). split; [|split; [apply HL|reflexivity]].
    cbn [m_main m_subs]. apply reached_main; [exact HF|exact HK|]. intro q. now apply sec_load_value.
  - assert (HK : keys_fit main) by (apply (sec_load_iff main (m_main m0)); eauto). assert (HV : forall q, last_value main q (dget (m_main m0) q) (dget mn q)) by (intro q; now apply sec_load_value).
    pose proof (subs_upto subs (m_subs m0)) as H2. destruct (load_subs_upto (m_subs m0) subs) as [sb [x|]]; injection H as <- <-; (split; [|split; [apply HL|reflexivity]]); cbn [m_main m_subs].
    + destruct H2 as (_ & -> & xs & it & ys & -> & HB & HS). apply load_subs_spec in HS as [HF HS]. now apply reached_sub.
    + apply load_subs_spec in H2 as [HF HS]. now apply reached_end.
Qed.
Lemma upto_malformed m0 t secs : forallb scalar t = true -> BrokenText t secs -> Forall keys_fit secs ->
  exists m, parse_upto m0 (utf8 t) = (m, Some MalformedManifest) /\
    match secs with
    | [] => m_main m = m_main m0 /\ m_subs m = m_subs m0
    | main :: subs => (forall k, last_value main k (dget (m_main m0) k) (dget (m_main m) k)) /\ (forall n, last_section subs n (dget (m_subs m0) n) (dget (m_subs m) n))
    end.
Proof.
  intros HT HB HF. unfold parse_upto. rewrite decode_utf8 by exact HT. rewrite (proj2 (broken_iff t secs MalformedManifest) (conj HB eq_refl)).
  destruct secs as [|main subs]; [eexists; split; [reflexivity|split; reflexivity]|]. apply Forall_cons_iff in HF as [H1 H2].
  pose proof (sec_upto main (m_main m0)) as U. destruct (sec_load_upto (m_main m0) main) as [mn [x|]].
  - exfalso. destruct U as (U & _). destruct (proj2 (sec_load_iff main (m_main m0)) H1) as (? & E). congruence.
  - pose proof (subs_upto subs (m_subs m0)) as V. destruct (load_subs_upto (m_subs m0) subs) as [sb [x|]].
    + exfalso. destruct V as (V & _). destruct (load_subs_total subs (m_subs m0) H2) as (? & E). congruence.
    + eexists. split; [reflexivity|]. cbn [m_main m_subs]. split; [intro k; now apply sec_load_value|]. now apply load_subs_spec.
Qed.
Lemma broken_or_not t : (exists secs, Sections t secs) \/ (exists secs, BrokenText t secs).
Proof. destruct (parse_sections t) as [secs [e|]] eqn:E; [right; apply broken_iff in E as [? _]|left; apply parse_sections_iff in E]; eauto. Qed.
Lemma broken_not_both t secs secs' : Sections t secs -> BrokenText t secs' -> False.
Proof. intros H1 H2. apply parse_sections_iff in H1. pose proof (proj2 (broken_iff t secs' MalformedManifest) (conj H2 eq_refl)). congruence. Qed.
Lemma broken_unique t secs secs' : BrokenText t secs -> BrokenText t secs' -> secs = secs'.
Proof. intros H1 H2. pose proof (proj2 (broken_iff t secs MalformedManifest) (conj H1 eq_refl)). pose proof (proj2 (broken_iff t secs' MalformedManifest) (conj H2 eq_refl)). congruence. Qed.

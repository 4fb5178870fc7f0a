(** The pages of jars and distributions are well-formed. *)
From Verif Require Import Base Change_Model Change_Proofs Report_Model Html_Model Html_Spec Html_Wf Jardiff_Jar Page_Model.

Lemma ok_inj {A} (a b : A) : Ok a = Ok b -> a = b.
Proof. intro H. now injection H. Qed.
Lemma state_words_attr (w : str) : distinct_names [(lit "class", w)] = true.
Proof. reflexivity. Qed.
Lemma wf_label c : wf_part (label_div c).
Proof. apply wf_el; [reflexivity|apply wf_txt]. Qed.
Lemma wf_description t c h : description_html t c = Ok h -> wf_part h.
Proof.
  unfold description_html. destruct (existsb _ _); [intro H; apply ok_inj in H; subst h; apply wf_label|]. destruct (existsb _ _).
  - destruct (entry_of c); cbn [rbind]; [|discriminate]. intro H. apply ok_inj in H. subst h. apply wf_txt.
  - destruct (seqb t _); [|discriminate]. intro H. apply ok_inj in H. subst h. apply wf_el; [reflexivity|apply wf_txt].
Qed.
Lemma wf_squashed o c h : squashed_html o c = Ok h -> wf_part h.
Proof.
  unfold squashed_html. destruct (k_orig (k_of c)); [|discriminate]. destruct (if is_change c then _ else _) as [st|]; cbn [rbind]; [|discriminate]. destruct (details_href c); cbn [rbind]; [|discriminate]. destruct (entry_of c); cbn [rbind]; [|discriminate]. intro H. apply ok_inj in H. subst h.
  apply wf_el; [reflexivity|]. apply wf_app; [apply wf_txt|]. apply wf_el; [reflexivity|]. apply wf_app; [apply wf_txt|]. apply wf_app; [|apply wf_txt]. apply wf_el; [reflexivity|apply wf_txt].
Qed.
Lemma wf_concat l : Forall wf_part l -> wf_part (concat l).
Proof. induction 1; [apply wf_nil|]. cbn [concat]. now apply wf_app. Qed.
Definition sound_kid (x : kid) : Prop := forall h, snd x = Ok h -> wf_part h.
Lemma wf_mapM {A} (f : A -> res (list html)) l hs : (forall x h, In x l -> f x = Ok h -> wf_part h) -> mapM f l = Ok hs -> Forall wf_part hs.
Proof.
  intros HF HM. apply mapM_Forall2 in HM. induction HM as [|x y l hs Hxy _ IH]; [constructor|]. constructor; [apply (HF x); [now left|exact Hxy]|]. apply IH. intros z h Hz. apply HF. now right.
Qed.
Lemma fold_dset_in {V} (es : list (str * V)) (Q : V -> Prop) : forall d, Forall (fun kv => Q (snd kv)) d -> Forall (fun kv => Q (snd kv)) es -> Forall (fun kv => Q (snd kv)) (fold_left (fun d ex => dset d (fst ex) (snd ex)) es d).
Proof.
  induction es as [|[k v] es IH]; intros d HD HE; [exact HD|]. cbn [fold_left fst snd]. inversion HE as [|? ? H1 H2]; subst. apply IH; [|exact H2]. clear -HD H1. induction HD as [|[k' v'] d H HD IH]; cbn [dset]; [repeat constructor; exact H1|]. destruct (seqb k k'); constructor; auto.
Qed.
Lemma wf_category b lb h : Forall sound_kid b -> category b lb = Ok h -> wf_part h.
Proof.
  intros HB. unfold category. destruct b as [|x b]; [intro H; apply ok_inj in H; subst h; apply wf_nil|]. set (B := x :: b) in *. unfold by_entry. match goal with |- context [mapM ?f B] => destruct (mapM f B) as [es|] eqn:EM end; cbn [rbind]; [|intro HX; discriminate HX].
  match goal with |- context [mapM ?f (Zip_Model.sort_names ?d)] => destruct (mapM f (Zip_Model.sort_names d)) as [hs|] eqn:EH end; cbn [rbind]; [|discriminate]. intro H. apply ok_inj in H. subst h. apply wf_el; [reflexivity|]. apply wf_app; [apply wf_el; [reflexivity|apply wf_txt]|]. apply wf_concat. revert EH. apply wf_mapM. intros e h _ HD.
  assert (FE : Forall (fun kv : str * kid => sound_kid (snd kv)) es).
  { apply mapM_Forall2 in EM. clear -EM HB. revert HB. induction EM as [|y [k v] l es H _ IH]; intro HB; [constructor|]. inversion HB; subst. constructor; [|auto]. destruct (entry_of (fst y)); cbn [rbind] in H; [|discriminate]. injection H as <- <-. assumption. }
  pose proof (fold_dset_in es sound_kid [] (Forall_nil _) FE) as FF. match type of HD with match dget ?d e with _ => _ end = _ => set (D := d) in * end. clearbody D. match type of HD with match ?X with _ => _ end = _ => destruct X as [y|] eqn:EG end; [|discriminate HD]. assert (H : In (e, y) D).
  { clear -EG. induction D as [|[k v] D IH]; [discriminate|]. cbn [dget] in EG. destruct (seqb_spec e k) as [->|]; [injection EG as ->; now left|right; auto]. }
  rewrite Forall_forall in FF. exact (FF _ H h HD).
Qed.
Definition sound_map (m : dict (list kid)) : Prop := Forall (fun tb => Forall sound_kid (snd tb)) m.
Lemma dget_sound m k : sound_map m -> Forall sound_kid (match dget m k with Some b => b | None => [] end).
Proof. induction 1 as [|[k' b] m H _ IH]; [constructor|]. cbn [dget]. destruct (seqb k k'); auto. Qed.
Lemma dset_sound m k b : sound_map m -> Forall sound_kid b -> sound_map (dset m k b).
Proof. intros H HB. induction H as [|[k' b'] m H HM IH]; cbn [dset]; [repeat constructor; exact HB|]. destruct (seqb k k'); constructor; auto. Qed.
Lemma ddel_sound m k : sound_map m -> sound_map (ddel m k).
Proof. induction 1 as [|[k' b'] m H HM IH]; cbn [ddel]; [constructor|]. destruct (seqb k k'); [exact HM|constructor; auto]. Qed.
Lemma collect_sound kids : Forall sound_kid kids -> sound_map (collect_by_type kid_type kids).
Proof.
  intro H. unfold collect_by_type. assert (G : forall l m, Forall sound_kid l -> sound_map m -> sound_map (fold_left (fun d x => match dget d (kid_type x) with Some b => dset d (kid_type x) (b ++ [x]) | None => dset d (kid_type x) [x] end) l m)).
  { clear. induction l as [|x l IH]; intros m HL HM; [exact HM|]. cbn [fold_left]. inversion HL; subst. apply IH; [assumption|]. pose proof (dget_sound m (kid_type x) HM) as G. destruct (dget m (kid_type x)); (apply dset_sound; [exact HM|]); [apply Forall_app; split; [exact G|]|]; repeat constructor; assumption. }
  apply G; [exact H|constructor].
Qed.
Lemma gather_sound al sqs : forall m m', Forall sound_kid sqs -> sound_map m -> gather al m sqs = Ok m' -> sound_map m'.
Proof.
  induction sqs as [|x sqs IH]; intros m m' HS HM H; cbn [gather] in H; [now injection H as <-|]. destruct (original al x) as [oc|]; cbn [rbind] in H; [|discriminate]. inversion HS; subst. revert H. apply IH; [assumption|]. apply dset_sound; [exact HM|]. apply Forall_app. split; [now apply dget_sound|]. repeat constructor. assumption.
Qed.
Lemma pop_sound ts : forall m, sound_map m -> sound_map (pop_each m ts).
Proof. induction ts as [|t ts IH]; intros m HM; cbn [pop_each]; [exact HM|]. constructor; [now apply dget_sound|]. apply IH. now apply ddel_sound. Qed.
Lemma wf_listing ts al kids h : Forall sound_kid kids -> listing ts al kids = Ok h -> wf_part h.
Proof.
  intros HK. unfold listing. destruct (gather _ _ _) as [m|] eqn:EG; cbn [rbind]; [|discriminate]. destruct (mapM _ (pop_each m ts)) as [hs|] eqn:EM; cbn [rbind]; [|discriminate]. intro H. apply ok_inj in H. subst h. apply wf_concat.
  pose proof (collect_sound kids HK) as SC. apply (gather_sound al _ _ m) in EG; [|now apply dget_sound|now apply ddel_sound]. pose proof (pop_sound ts m EG) as SP. revert EM. apply wf_mapM. intros [t b] h' HI H. cbn [fst snd] in H. destruct (class_label t) as [lb|]; cbn [rbind] in H; [|discriminate].
  unfold sound_map in SP. rewrite Forall_forall in SP. exact (wf_category b lb h' (SP _ HI) H).
Qed.
Lemma wf_render o c : forall h, render o c = Ok h -> wf_part h.
Proof.
  induction c as [k ch d cs im I1 I2] using change_rect'. intros h H. cbn [render] in H. destruct (template (k_name k)) as [t|]; cbn [rbind] in H; [|discriminate].
  destruct (seqb t (lit "change_SquashedChange")); [exact (wf_squashed _ _ _ H)|].
  assert (KS : forall kids, pick false k ch (map (fun x => (x, render o x)) cs) (map (fun x => (x, render o x)) im) = Ok kids -> Forall sound_kid kids).
  { intros kids HP. assert (F1 : Forall sound_kid (map (fun x => (x, render o x)) cs)) by (rewrite Forall_map; revert I1; apply Forall_impl; intros a Ha h0 Hh; now apply Ha). assert (F2 : Forall sound_kid (map (fun x => (x, render o x)) im)) by (rewrite Forall_map; revert I2; apply Forall_impl; intros a Ha h0 Hh; now apply Ha).
    exact (pick_Forall _ _ _ _ _ _ _ F1 F2 HP). }
  destruct (seqb t (lit "jardiff_JarContentsReport")).
  - destruct (pick _ _ _ _ _) as [kids|]; cbn [rbind] in H; [|discriminate]. specialize (KS kids eq_refl). destruct (listing _ _ _) as [b|] eqn:EL; cbn [rbind] in H; [|discriminate]. apply ok_inj in H. subst h.
    match goal with |- wf_part (?a :: ?b) => change (wf_part ([a] ++ b)) end. apply wf_app; [apply wf_comment|]. apply wf_app; [|apply wf_comment]. apply wf_el; [reflexivity|]. exact (wf_listing _ _ _ _ KS EL).
  - destruct (state_words o _) as [w|]; cbn [rbind] in H; [|discriminate]. destruct (description_html t _) as [de|] eqn:ED; cbn [rbind] in H; [|discriminate]. destruct (pick _ _ _ _ _) as [kids|]; cbn [rbind] in H; [|discriminate]. specialize (KS kids eq_refl).
    destruct kids as [|x kids]; cbn [rbind] in H.
    + apply ok_inj in H. subst h. apply wf_el; [reflexivity|]. apply wf_app; [exact (wf_description _ _ _ ED)|apply wf_nil].
    + destruct (mapM snd (x :: kids)) as [hs|] eqn:EM; cbn [rbind] in H; [|discriminate]. apply ok_inj in H. subst h. apply wf_el; [reflexivity|]. apply wf_app; [exact (wf_description _ _ _ ED)|]. apply wf_el; [reflexivity|]. apply wf_concat.
      revert EM. apply wf_mapM. intros y h' HI Hy. rewrite Forall_forall in KS. exact (KS y HI h' Hy).
Qed.
Lemma wf_page_with e t b : e_nojquery e = true -> wf_part b -> wf_part (page_with e t b).
Proof.
  intros J HB. unfold page_with. match goal with |- wf_part (?a :: ?b) => change (wf_part ([a] ++ b)) end. apply wf_app; [apply wf_prolog|]. apply wf_el; [reflexivity|]. apply wf_app.
  - unfold head_html. rewrite J. apply wf_el; [reflexivity|]. apply wf_app; [apply wf_el; [reflexivity|apply wf_txt]|]. apply wf_app; [|apply wf_app; [apply wf_nil|]].
    + induction (e_styles e) as [|s l IH]; [apply wf_nil|]. cbn [map]. match goal with |- wf_part (?a :: ?b) => change (wf_part ([a] ++ b)) end. apply wf_app; [now apply wf_single|exact IH].
    + induction (e_scripts e) as [|s l IH]; [apply wf_nil|]. cbn [flat_map]. apply wf_app; [|exact IH]. apply wf_el; [reflexivity|apply wf_nil].
  - apply wf_el; [reflexivity|]. apply wf_app; [|apply wf_app; [apply wf_el; [reflexivity|apply wf_nil]|apply wf_app; [exact HB|apply wf_el; [reflexivity|apply wf_nil]]]].
    unfold heading_html. apply wf_el; [reflexivity|]. apply wf_app; [|apply wf_el; [reflexivity|apply wf_txt]]. apply wf_el; [reflexivity|]. apply wf_app; [|apply wf_el; [reflexivity|apply wf_txt]].
    induction (e_crumbs e) as [|s l IH]; [apply wf_nil|]. cbn [flat_map]. apply wf_app; [|exact IH]. apply wf_el; [reflexivity|]. apply wf_el; [reflexivity|apply wf_txt].
Qed.
Theorem page_well_formed e o c h : page e o c = Ok h -> e_nojquery e = true -> well_formed h [] = true.
Proof.
  intros H J. apply wf_done. unfold page in H. destruct (template _) as [t|]; cbn [rbind] in H; [|discriminate]. destruct (collect c) as [kids|]; cbn [rbind] in H; [|discriminate]. destruct (seqb t (lit "jardiff_JarReport")).
  - destruct (mapM _ kids) as [hs|] eqn:EM; cbn [rbind] in H; [|discriminate]. apply ok_inj in H. subst h. apply wf_page_with; [exact J|]. apply wf_el; [reflexivity|]. apply wf_concat. revert EM. apply wf_mapM. intros x h' _. apply wf_render.
  - destruct (seqb t (lit "distdiff_DistReport")); [|discriminate]. destruct (listing _ _ _) as [b|] eqn:EL; cbn [rbind] in H; [|discriminate]. apply ok_inj in H. subst h. apply wf_page_with; [exact J|]. revert EL. apply wf_listing. rewrite Forall_map. apply Forall_forall. intros x _ h' Hx. exact (wf_render o x h' Hx).
Qed.
(** With jQuery, the script element has an attribute twice. *)
Lemma ill_in h x y t a : forall st, h = x ++ Open t a :: y -> distinct_names a = false -> well_formed h st = false.
Proof.
  intros st -> D. revert st. induction x as [|b x IH]; intro st; cbn [app well_formed]; [now rewrite D|].
  destruct b; try apply IH; try (rewrite IH, andb_false_r; reflexivity); try reflexivity. destruct st; [reflexivity|]. rewrite IH. apply andb_false_r.
Qed.
Theorem page_ill_formed e o c h : page e o c = Ok h -> e_nojquery e = false -> well_formed h [] = false.
Proof.
  intros H J. assert (PW : exists t b, h = page_with e t b).
  { unfold page in H. destruct (template _) as [t|]; cbn [rbind] in H; [|discriminate]. destruct (collect c) as [kids|]; cbn [rbind] in H; [|discriminate]. destruct (seqb t _); [destruct (mapM _ kids); cbn [rbind] in H; [|discriminate]; apply ok_inj in H; subst h; eauto|].
    destruct (seqb t _); [|discriminate]. destruct (listing _ _ _); cbn [rbind] in H; [|discriminate]. apply ok_inj in H. subst h. eauto. }
  destruct PW as (t & b & ->). unfold page_with, head_html, el at 1 2. rewrite J. unfold el at 1 2.
  match goal with |- well_formed ?H [] = false => assert (E : exists x y, H = x ++ Open (lit "script") [(lit "type", lit "text/javascript"); (lit "src", jquery); (lit "type", lit "text/javascript")] :: y) end.
  { eexists (Prolog :: Open (lit "html") [(lit "xmlns", lit "http://www.w3.org/1999/xhtml"); (lit "xml:lang", lit "en"); (lit "lang", lit "en")] :: Open (lit "head") [] :: Open (lit "title") [] :: (txt t ++ [Close (lit "title")]) ++ map (fun ss => Single (lit "link") [(lit "rel", lit "stylesheet"); (lit "type", lit "text/css"); (lit "href", ss)]) (e_styles e)), _.
    cbn [app]. do 4 f_equal. cbn [txt app]. do 2 f_equal. rewrite <- !app_assoc. f_equal. cbn [el app]. reflexivity. }
  destruct E as (x & y & E). eapply ill_in; [exact E|]. vm_compute. reflexivity.
Qed.

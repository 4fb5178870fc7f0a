(** The JSON document of two classes: leaves, composites and members. *)
From Verif Require Import Base Pack_Model ConstPool_Model ClassFile_Model Descr_Model Descr_Spec Descr_Proofs Opcodes_Model Opcodes_Spec Opcodes_Proofs Anno_Model
  Change_Model Change_Spec Change_Proofs Change_Report Classdiff_Model Classdiff_Spec Classdiff_Members Classdiff_Code Classdiff_Class Classdiff_Merge
  Info_Model Info_Spec Print_Spec Print_Decl Html_Spec Html_Page Html_Values Html_Class Text_Spec Text_Proofs Doc_Spec.

(** What becomes of the change, and what its object is if it has one *)
Definition shows (o : options) (c : change) (p : piece) : Prop :=
  (exists b, is_ignored o c = Ok b /\ fst p = standing_of (is_change c) b) /\ forall j, json_of o c = Ok j -> snd p j.

Lemma keep_is o c p : shows o c p -> keep o (is_change c) (is_ignored o c) = Ok (listed_too o (fst p)).
Proof. intros ((b & HB & ->) & _). unfold keep. rewrite HB. destruct (is_change c), b; cbn; destruct (show_ignored o); reflexivity. Qed.
Lemma kept_shows o kids ps : Forall2 (shows o) kids ps -> exists marks, mapM (fun kid => keep o (is_change kid) (is_ignored o kid)) kids = Ok marks /\
  forall js, mapM (json_of o) (map fst (filter snd (combine kids marks))) = Ok js -> Forall2 (fun (p : piece) j => snd p j) (filter (fun p => listed_too o (fst p)) ps) js.
Proof.
  induction 1 as [|c p kids ps H HF (marks & M1 & M2)]; [exists []; split; [reflexivity|]; intros js HJ; apply ok_inj in HJ; subst js; constructor|].
  exists (listed_too o (fst p) :: marks). cbn [mapM]. rewrite (keep_is _ _ _ H), M1. split; [reflexivity|]. intros js HJ. cbn [combine filter snd] in HJ |- *.
  destruct (listed_too o (fst p)); [|now apply M2]. cbn [map fst mapM] in HJ. destruct (json_of o c) as [j|] eqn:EJ; [|discriminate HJ]. cbn [rbind] in HJ. destruct (mapM (json_of o) _) as [js'|] eqn:EM; [|discriminate HJ].
  apply ok_inj in HJ. subst js. constructor; [now apply (proj2 H)|now apply M2].
Qed.
Lemma differs_of b i : differs (standing_of b i) = b.
Proof. now destruct b, i. Qed.

(** A composite *)
Lemma node_shows o c ig cl lb s u kids ps : is_ignored o c = Ok ig -> (is_change c = false -> ig = false) -> get_description c = Ok (if is_change c then s else u) -> collect c = Ok kids ->
  k_super (k_of c) = true -> k_name (k_of c) = lit cl -> k_label (k_of c) = lit lb -> k_addition (k_of c) = false -> k_removal (k_of c) = false -> k_entry (k_of c) = None -> k_orig (k_of c) = None ->
  k_old (k_of c) = no_data -> k_new (k_of c) = no_data ->
  Forall2 (shows o) kids ps -> shows o c (group_as o cl lb s u (standing_of (is_change c) ig) ps).
Proof.
  intros HI HG HD HC KS KN KL KA KR KE KO K1 K2 HF. split; [exists ig; split; [exact HI|reflexivity]|]. destruct (kept_shows o kids ps HF) as (marks & M1 & M2).
  destruct c as [k ch d cs im]. cbn [k_of] in *. intros j HJ. rewrite json_of_eq in HJ. cbv zeta in HJ. rewrite HD, HI in HJ. cbn [rbind] in HJ. rewrite K1, K2 in HJ. unfold no_data in HJ. cbn [rbind] in HJ. rewrite KS, HC in HJ. cbn [rbind] in HJ. rewrite M1 in HJ. cbn [rbind] in HJ.
  destruct (mapM (json_of o) _) as [js|] eqn:EM; [|discriminate HJ]. cbn [rbind] in HJ. apply ok_inj in HJ. subst j. exists js. split; [exact (M2 js eq_refl)|]. rewrite KN, KL, KA, KR, KE, KO, differs_of. f_equal.
  revert HG. generalize (is_change (Node k ch d cs im)). intros [] HG; destruct ig; try reflexivity. discriminate (HG eq_refl).
Qed.
Lemma super_shows o nm lb tx rs kids c h u : check (super nm lb tx rs kids) = Ok c ->
  match tx with None => h = lit lb ++ lit " changed" /\ u = stays lb | Some f => h = u /\ forall b, f b = Ok h end ->
  exists kids', Forall2 (fun a b => check a = Ok b) kids kids' /\
  forall ps, Forall2 (shows o) kids' ps -> shows o c (group o nm lb h u ps).
Proof.
  intros HC HT. pose proof HC as HC0. apply check_super in HC as (_ & kids' & HF & HK & HO & HX). exists kids'. split; [exact HF|]. intros ps HS.
  assert (HB : Forall (fun kid => exists b, is_ignored o kid = Ok b) kids') by (clear -HS; induction HS as [|a p l ps ((b & Hb & _) & _) HS IH]; constructor; [now exists b|exact IH]).
  destruct (all_ignored_spec o kids' HB) as (b & Hb & HA).
  assert (HG : together (map fst ps) = standing_of (existsb is_change kids') b).
  { clear -HS HB Hb HA. revert b Hb HA. induction HS as [|a p l ps ((i & Hi & HP) & _) HS IH]; intros b Hb HA; [cbn in Hb; apply ok_inj in Hb; now subst b|].
    inversion HB as [|? ? B1 B2]; subst. destruct (all_ignored_spec o l B2) as (x & Hx & HX). specialize (IH B2 x Hx HX). cbn [map together fold_right existsb all_ignored] in *. change (fold_right worse Same (map fst ps)) with (together (map fst ps)) in *.
    rewrite IH, HP. rewrite Hx, Hi in Hb. clear IH HP Hx Hi. destruct (is_change a); cbn [orb rbind standing_of].
    - destruct i; cbn [rbind] in Hb; apply ok_inj in Hb; subst b; [|now destruct (existsb is_change l), x]. destruct (existsb is_change l) eqn:E; [now destruct x|]. assert (x = true) as ->; [|reflexivity]. apply HX. apply Forall_forall. intros k Hk Ek.
      assert (existsb is_change l = true) by (apply existsb_exists; now exists k). congruence.
    - apply ok_inj in Hb. subst b. now destruct (existsb is_change l), x. }
  unfold group. rewrite HG, <- HX.
  destruct c as [k ch d cs im]. cbn [k_of] in HO.
  assert (HD : d = None) by (apply check_parts in HC0; [|reflexivity]; destruct HC0 as (? & ? & _ & _ & E); now injection E). subst d.
  assert (KO : k_own k o = false) by (rewrite HO; reflexivity). assert (KP : k_parts k = true) by (rewrite HO; reflexivity).
  assert (GD : get_description (Node k ch None cs im) = Ok (if is_change (Node k ch None cs im) then h else u)).
  { unfold get_description. generalize (is_change (Node k ch None cs im)). intro ic. rewrite HO. cbn [super k_of k_text k_label]. destruct tx as [f|].
    - destruct HT as [-> HT]. rewrite HT. now destruct ic.
    - destruct HT as [-> ->]. unfold stays. now destruct ic. }
  assert (HI : exists ig, is_ignored o (Node k ch None cs im) = Ok ig /\ (is_change (Node k ch None cs im) = false -> ig = false) /\ standing_of (is_change (Node k ch None cs im)) b = standing_of (is_change (Node k ch None cs im)) ig).
  { rewrite is_ignored_eq, KO, KP. cbn [negb]. destruct (is_change (Node k ch None cs im)) eqn:E; cbn [negb]; [|exists false; repeat split].
    rewrite HK. cbn [rbind]. destruct kids' as [|k0 kids']; [discriminate HX|]. exists b. split; [exact Hb|]. split; [discriminate|reflexivity]. }
  destruct HI as (ig & HI & HN & ->). eapply node_shows; [exact HI|exact HN|exact GD|exact HK|..|exact HS]; cbn [k_of]; rewrite HO; reflexivity.
Qed.

(** A leaf *)
Definition plain_leaf (c : change) (cl lb : String.string) : Prop :=
  k_super (k_of c) = false /\ k_name (k_of c) = lit cl /\ k_label (k_of c) = lit lb /\ k_addition (k_of c) = false /\ k_removal (k_of c) = false /\ k_entry (k_of c) = None /\ k_orig (k_of c) = None.
Lemma single_shows o c cl lb (D : option pyobj -> option pyobj -> Prop) ig s j : plain_leaf c cl lb -> (forall x y, k_old (k_of c) = Ok x -> k_new (k_of c) = Ok y -> D x y) ->
  is_ignored o c = Ok ig -> get_description c = Ok s -> json_of o c = Ok j -> single (mkdatum cl lb D) (is_change c) ig s j.
Proof.
  destruct c as [k ch d cs im]. intros (KS & KN & KL & KA & KR & KE & KO) HD HI HT HJ. cbn [k_of] in *. rewrite json_of_eq in HJ. cbv zeta in HJ. rewrite HT, HI in HJ. cbn [rbind] in HJ.
  destruct (k_old k) as [x|] eqn:E1; [|discriminate HJ]. destruct (k_new k) as [y|] eqn:E2; [|discriminate HJ]. cbn [rbind] in HJ. rewrite KS in HJ. apply ok_inj in HJ. subst j.
  exists x, y. cbn [q_data q_class q_label]. split; [now apply HD|]. rewrite KN, KL, KA, KR, KE, KO. reflexivity.
Qed.
Lemma item_shows o c cl lb (D : option pyobj -> option pyobj -> Prop) own s u same hidden x : check x = Ok c -> (quiet x <-> same) -> is_ignored o c = Ok own -> (own = true <-> hidden) ->
  get_description c = Ok (if is_change c then s else u) -> plain_leaf c cl lb -> (forall x y, k_old (k_of c) = Ok x -> k_new (k_of c) = Ok y -> D x y) ->
  exists p, item (mkdatum cl lb D) (mksays s u same hidden) p /\ shows o c p.
Proof.
  intros HC Q HI HO HD HP HV. pose proof (changed_iff _ _ _ HC Q) as CI. pose proof (quiet_dec _ _ _ HC Q) as QD.
  exists (standing_of (is_change c) own, single (mkdatum cl lb D) (is_change c) own (if is_change c then s else u)). split.
  - destruct (is_change c) eqn:E; unfold standing_of.
    + destruct own.
      * apply (item_aside _ (mksays s u same hidden)); cbn [s_same s_hidden]; [now apply CI|now apply HO].
      * apply (item_told _ (mksays s u same hidden)); cbn [s_same s_hidden]; [now apply CI|]. intro X. apply HO in X. discriminate.
    + apply (item_same _ (mksays s u same hidden)); cbn [s_same s_hidden]; [|exact HO]. destruct QD as [S|S]; [exact S|]. apply CI in S. discriminate.
  - split; [exists own; split; [exact HI|reflexivity]|]. intros j HJ. exact (single_shows o c cl lb D own _ j HP HV HI HD HJ).
Qed.
Lemma leaf_shows {A} o n lb own (ld rd : res A) eqf lt rt lp rp c a b same hidden (D : option pyobj -> option pyobj -> Prop) :
  check (leaf_text n lb own ld rd eqf lt rt lp rp) = Ok c -> lt = Ok a -> rt = Ok b -> (forall x y, not_none lp = Ok x -> not_none rp = Ok y -> D x y) ->
  (quiet (leaf_text n lb own ld rd eqf lt rt lp rp) <-> same) -> (own o = true <-> hidden) ->
  exists p, item (mkdatum n lb D) (may_move lb a b same hidden) p /\ shows o c p.
Proof.
  intros HC -> -> HV Q HO. pose proof HC as HC0. unfold leaf_text, leaf in HC. cbn [check k_check] in HC. unfold generic_check in HC.
  destruct ld as [x|] eqn:EL; [|discriminate HC]. destruct rd as [y|] eqn:ER; [|discriminate HC]. cbn [rbind] in HC. destruct (eqf x y) as [e|] eqn:EE; [|discriminate HC]. cbn [rbind] in HC.
  destruct e; apply ok_inj in HC; subst c; unfold may_move; refine (item_shows o _ n lb D (own o) _ _ _ _ _ HC0 Q _ HO _ _ HV); try reflexivity; try (repeat split; reflexivity).
  - cbn [is_ignored k_own k_parts]. now destruct (own o).
  - cbn [is_ignored k_own k_parts]. now destruct (own o).
  - cbn [get_description k_text is_change k_always]. fold (turns lb a b). destruct (turns_ne lb a b) as (z & s & ->). reflexivity.
Qed.

(** ** Members *)
Lemma Forall2_shows {A} o (f : A -> change) (P : A -> piece -> Prop) l kids : Forall2 (fun a b => check a = Ok b) (map f l) kids ->
  (forall x c, In x l -> check (f x) = Ok c -> exists t, P x t /\ shows o c t) -> exists ts, Forall2 P l ts /\ Forall2 (shows o) kids ts.
Proof.
  revert kids. induction l as [|x l IH]; intros kids HF HT; inversion HF as [|? c ? kids' HC HF']; subst.
  - exists []. split; constructor.
  - destruct (HT x c (or_introl eq_refl) HC) as (t & T1 & T2). destruct (IH kids' HF') as (ts & S1 & S2); [intros y d HI; apply HT; now right|].
    exists (t :: ts). split; constructor; assumption.
Qed.
Lemma members_show fmt o nm what lp rp ls rs ev (node : mevent -> change) tA tR tC c same added removed changed :
  check (super nm what None None (iterate_by_type (fun c => k_name (k_of c)) (map node ev) [tA; tR; tC])) = Ok c ->
  collect_members fmt lp rp ls rs = Ok ev -> distinct_ids fmt lp ls -> distinct_ids fmt rp rs ->
  (forall r, k_name (k_of (node (MAdded r))) = tA) -> (forall l, k_name (k_of (node (MRemoved l))) = tR) -> (forall l r, k_name (k_of (node (MChanged l r))) = tC) ->
  tA <> tR -> tA <> tC -> tR <> tC ->
  (forall l r, In l ls -> In r rs -> (same_identity fmt lp rp l r <-> same l r)) ->
  (forall r c, In r rs -> check (node (MAdded r)) = Ok c -> exists t, added r t /\ shows o c t) ->
  (forall l c, In l ls -> check (node (MRemoved l)) = Ok c -> exists t, removed l t /\ shows o c t) ->
  (forall l r c, In l ls -> In r rs -> check (node (MChanged l r)) = Ok c -> exists t, changed l r t /\ shows o c t) ->
  exists t, members_doc o nm what same added removed changed ls rs t /\ shows o c t.
Proof.
  intros HC HE DL DR HA HR HX N1 N2 N3 HS TA TR TC. rewrite (sorted_kids node tA tR tC ev HA HR HX N1 N2 N3) in HC.
  destruct (super_shows o _ _ _ _ _ _ (lit what ++ lit " changed") (stays what) HC (conj eq_refl eq_refl)) as (kids & HF & HT).
  apply Forall2_app_inv_l in HF as (k1 & k2 & HF1 & HF2 & ->). apply Forall2_app_inv_l in HF2 as (k2' & k3 & HF2 & HF3 & ->).
  destruct (members_chosen fmt lp rp ls rs ev HE DL DR) as (P1 & P2 & P3).
  destruct (Forall2_shows o _ added _ _ HF1) as (ta & A1 & A2); [intros x c0 Hx; apply TA; exact (picks_in _ _ _ P1 x Hx)|].
  destruct (Forall2_shows o _ removed _ _ HF2) as (tr & R1 & R2); [intros x c0 Hx; apply TR; exact (picks_in _ _ _ P2 x Hx)|].
  destruct (Forall2_shows o _ (fun ab => changed (fst ab) (snd ab)) _ _ HF3) as (tc & C1 & C2).
  { intros [a b] c0 Hx. destruct (pairing_in _ _ _ _ P3 a b Hx). now apply TC. }
  exists (plain_group o nm what (ta ++ tr ++ tc)). split.
  - exists (e_added ev), (e_removed ev), (e_pairs ev), ta, tr, tc. split; [|split; [|split; [|repeat split; assumption]]].
    + eapply picks_ext; [|exact P1]. intros r Hr. cbv beta. split; intros X l Hl Y; apply (X l Hl); now apply HS.
    + eapply picks_ext; [|exact P2]. intros l Hl. cbv beta. split; intros X r Hr Y; apply (X r Hr); now apply HS.
    + eapply pairing_ext; [|exact P3]. intros l r Hl Hr. now apply HS.
  - apply HT. apply Forall2_app; [exact A2|]. now apply Forall2_app.
Qed.

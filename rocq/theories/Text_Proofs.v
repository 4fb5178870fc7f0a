(** The text of reports: leaves, composites and members. *)
From Verif Require Import Base Pack_Model ConstPool_Model ClassFile_Model Descr_Model Descr_Spec Descr_Proofs Opcodes_Model Opcodes_Spec Opcodes_Proofs Anno_Model
  Change_Model Change_Spec Change_Proofs Change_Report Classdiff_Model Classdiff_Spec Classdiff_Members Classdiff_Code Classdiff_Class Classdiff_Merge
  Info_Model Info_Spec Print_Spec Print_Decl Html_Spec Html_Page Html_Values Html_Class Text_Spec.
From Coq Require Import Permutation.

(** ** Reports of one change *)
Definition standing_of (changed ignored : bool) : standing := if changed then if ignored then Aside else Told else Same.
(** The report of the change and what becomes of it *)
Definition tells (o : options) (n : nat) (c : change) (t : standing * str) : Prop :=
  indent_change o n c = Ok (snd t) /\ exists b, is_ignored o c = Ok b /\ fst t = standing_of (is_change c) b.

Lemma line_is n s : indent_line n [s] = text_line n s.
Proof. apply indent_line_1. Qed.
Lemma marked_is n s : indent_line n [s; lit " [IGNORED]"] = marked_line n s.
Proof. apply indent_line_2. exact escape_ignored. Qed.

Lemma node_tells o n c ig s u kids ts : is_ignored o c = Ok ig -> get_description c = Ok (if is_change c then s else u) -> collect c = Ok kids ->
  Forall2 (tells o (S n)) kids ts -> tells o n c (written o n (standing_of (is_change c) ig) s u (concat (map snd ts))).
Proof.
  intros HI HD HC HS. split; [|exists ig; split; [exact HI|reflexivity]].
  assert (HM : mapM (indent_change o (S n)) kids = Ok (map snd ts)) by (clear -HS; induction HS as [|a t l ts (H & _) HS IH]; [reflexivity|]; cbn [mapM map]; now rewrite H, IH).
  destruct c as [k ch d0 cs im]. rewrite indent_change_eq. cbv zeta. rewrite HC, HI, HD. cbn [rbind]. rewrite HM. cbn [rbind]. rewrite marked_is, !line_is. unfold written, standing_of. cbn [snd].
  destruct (is_change _); [destruct ig; [destruct (show_ignored o)|]|destruct (show_unchanged o)]; reflexivity.
Qed.
Lemma plain_tells o n c ig s u : is_ignored o c = Ok ig -> get_description c = Ok (if is_change c then s else u) -> collect c = Ok [] ->
  tells o n c (written o n (standing_of (is_change c) ig) s u []).
Proof. intros HI HD HC. exact (node_tells o n c ig s u [] [] HI HD HC (Forall2_nil _)). Qed.
Lemma says_tells o n c own s u same hidden x : check x = Ok c -> (quiet x <-> same) -> is_ignored o c = Ok own -> (own = true <-> hidden) ->
  get_description c = Ok (if is_change c then s else u) -> collect c = Ok [] ->
  exists t, entry o n (mksays s u same hidden) t /\ tells o n c t.
Proof.
  intros HC Q HI HO HD HK. pose proof (changed_iff _ _ _ HC Q) as CI. pose proof (quiet_dec _ _ _ HC Q) as QD.
  eexists. split; [|exact (plain_tells o n c own s u HI HD HK)]. destruct (is_change c) eqn:E; unfold standing_of.
  - destruct own.
    + apply (entry_aside o n (mksays s u same hidden)); cbn [s_same s_hidden]; [now apply CI|now apply HO].
    + apply (entry_told o n (mksays s u same hidden)); cbn [s_same s_hidden]; [now apply CI|]. intro X. apply HO in X. discriminate.
  - apply (entry_same o n (mksays s u same hidden)). cbn [s_same]. destruct QD as [S|S]; [exact S|]. apply CI in S. discriminate.
Qed.
Lemma turns_ne lb a b : exists x s, turns lb a b = x :: s.
Proof. unfold turns. destruct (lit lb); [|eexists; eexists; reflexivity]. eexists. eexists. reflexivity. Qed.
Lemma leaf_tells {A} o dep n lb own (ld rd : res A) eqf lt rt lp rp c a b same hidden :
  check (leaf_text n lb own ld rd eqf lt rt lp rp) = Ok c -> lt = Ok a -> rt = Ok b ->
  (quiet (leaf_text n lb own ld rd eqf lt rt lp rp) <-> same) -> (own o = true <-> hidden) ->
  exists t, entry o dep (may_move lb a b same hidden) t /\ tells o dep c t.
Proof.
  intros HC -> -> Q HO. pose proof HC as HC0. unfold leaf_text, leaf in HC. cbn [check k_check] in HC. unfold generic_check in HC.
  destruct ld as [x|] eqn:EL; [|discriminate HC]. destruct rd as [y|] eqn:ER; [|discriminate HC]. cbn [rbind] in HC. destruct (eqf x y) as [e|] eqn:EE; [|discriminate HC]. cbn [rbind] in HC.
  destruct e; apply ok_inj in HC; subst c; unfold may_move; refine (says_tells o dep _ (own o) _ _ _ _ _ HC0 Q _ HO _ _); try reflexivity.
  - cbn [is_ignored k_own k_parts]. now destruct (own o).
  - cbn [is_ignored k_own k_parts]. now destruct (own o).
  - cbn [get_description k_text is_change k_always]. fold (turns lb a b). destruct (turns_ne lb a b) as (z & s & ->). reflexivity.
Qed.
Lemma never_hidden o : never o = true <-> False.
Proof. unfold never. split; [discriminate|contradiction]. Qed.

Lemma together_is o n kids ts : Forall2 (tells o n) kids ts -> Forall (fun kid => exists b, is_ignored o kid = Ok b) kids /\
  together (map fst ts) = standing_of (existsb is_change kids) (match all_ignored (map (fun kid => (is_change kid, is_ignored o kid)) kids) with Ok b => b | Err _ => false end).
Proof.
  induction 1 as [|a t l ts (_ & b & Hb & HT) HS [IH1 IH2]]; [split; [constructor|reflexivity]|]. split; [constructor; [now exists b|exact IH1]|].
  cbn [map together fold_right existsb all_ignored]. change (fold_right worse Same (map fst ts)) with (together (map fst ts)). rewrite HT, IH2, Hb. clear HT IH2 Hb.
  destruct (all_ignored_spec o l IH1) as (x & -> & HX). unfold standing_of. destruct (is_change a); cbn [orb rbind]; [destruct b|].
  - destruct (existsb is_change l) eqn:E; [now destruct x|]. assert (x = true) as ->; [|reflexivity]. apply HX. apply Forall_forall. intros k Hk Ek.
    assert (existsb is_change l = true) by (apply existsb_exists; now exists k). congruence.
  - destruct (existsb is_change l), x; reflexivity.
  - destruct (existsb is_change l), x; reflexivity.
Qed.
Lemma super_tells o n nm lb tx rs kids c h u : check (super nm lb tx rs kids) = Ok c ->
  match tx with None => h = lit lb ++ lit " changed" /\ u = stays lb | Some f => h = u /\ forall b, f b = Ok h end ->
  exists kids', Forall2 (fun a b => check a = Ok b) kids kids' /\
  forall ts, Forall2 (tells o (S n)) kids' ts -> tells o n c (block_text o n h u ts).
Proof.
  intros HC HT. pose proof HC as HC0. apply check_super in HC as (_ & kids' & HF & HK & HO & HX). exists kids'. split; [exact HF|]. intros ts HS.
  destruct (together_is o (S n) kids' ts HS) as [HB HG]. unfold block_text. rewrite HG, <- HX. destruct (all_ignored_spec o kids' HB) as (b & Hb & _). rewrite Hb.
  destruct c as [k ch d cs im]. cbn [k_of] in HO.
  assert (HD : d = None) by (apply check_parts in HC0; [|reflexivity]; destruct HC0 as (? & ? & _ & _ & E); now injection E). subst d.
  assert (KO : k_own k o = false) by (rewrite HO; reflexivity). assert (KP : k_parts k = true) by (rewrite HO; reflexivity).
  assert (GD : get_description (Node k ch None cs im) = Ok (if is_change (Node k ch None cs im) then h else u)).
  { unfold get_description. generalize (is_change (Node k ch None cs im)). intro ic. rewrite HO. cbn [super k_of k_text k_label]. destruct tx as [f|].
    - destruct HT as [-> HT]. rewrite HT. now destruct ic.
    - destruct HT as [-> ->]. unfold stays. now destruct ic. }
  assert (HI : exists ig, is_ignored o (Node k ch None cs im) = Ok ig /\ standing_of (is_change (Node k ch None cs im)) b = standing_of (is_change (Node k ch None cs im)) ig).
  { rewrite is_ignored_eq, KO, KP. cbn [negb]. destruct (is_change (Node k ch None cs im)) eqn:E; cbn [negb]; [|exists false; split; reflexivity].
    rewrite HK. cbn [rbind]. destruct kids' as [|k0 kids']; [discriminate HX|]. exists b. split; [exact Hb|reflexivity]. }
  destruct HI as (ig & HI & ->). exact (node_tells o n _ ig h u kids' ts HI GD HK HS).
Qed.

Lemma Forall2_tells {A} o n (f : A -> change) (P : A -> standing * str -> Prop) l kids : Forall2 (fun a b => check a = Ok b) (map f l) kids ->
  (forall x c, In x l -> check (f x) = Ok c -> exists t, P x t /\ tells o n c t) -> exists ts, Forall2 P l ts /\ Forall2 (tells o n) kids ts.
Proof.
  revert kids. induction l as [|x l IH]; intros kids HF HT; inversion HF as [|? c ? kids' HC HF']; subst.
  - exists []. split; constructor.
  - destruct (HT x c (or_introl eq_refl) HC) as (t & T1 & T2). destruct (IH kids' HF') as (ts & S1 & S2); [intros y d HI; apply HT; now right|].
    exists (t :: ts). split; constructor; assumption.
Qed.

(** ** Choosing members *)
Definition e_added (ev : list mevent) : list member := flat_map (fun e => match e with MAdded r => [r] | _ => [] end) ev.
Definition e_removed (ev : list mevent) : list member := flat_map (fun e => match e with MRemoved l => [l] | _ => [] end) ev.
Definition e_pairs (ev : list mevent) : list (member * member) := flat_map (fun e => match e with MChanged l r => [(l, r)] | _ => [] end) ev.

Lemma picks_ext {A} (P Q : A -> Prop) l k : (forall x, In x l -> (P x <-> Q x)) -> picks P l k -> picks Q l k.
Proof.
  intros H HP. induction HP as [|x l k Hx HP IH|x l k Hx HP IH]; [constructor| |].
  - apply picks_take; [apply H; [now left|exact Hx]|apply IH; intros y Hy; apply H; now right].
  - apply picks_skip; [intro X; apply Hx, H; [now left|exact X]|apply IH; intros y Hy; apply H; now right].
Qed.
Lemma picks_insert {A} (P : A -> Prop) x a b : forall k, ~ P x -> picks P (a ++ b) k -> picks P (a ++ x :: b) k.
Proof.
  induction a as [|y a IH]; intros k Hx H; cbn [app] in *; [now apply picks_skip|].
  inversion H as [|? ? k' Hy H'|? ? k' Hy H']; subst; [apply picks_take|apply picks_skip]; auto.
Qed.
Lemma picks_all {A} (P : A -> Prop) l : (forall x, In x l -> P x) -> picks P l l.
Proof. induction l as [|x l IH]; intro H; [constructor|]. apply picks_take; [apply H; now left|]. apply IH. intros y Hy. apply H. now right. Qed.
Lemma picks_in {A} (P : A -> Prop) l k : picks P l k -> forall x, In x k -> In x l.
Proof. induction 1 as [|x l k Hx HP IH|x l k Hx HP IH]; intros y Hy; [destruct Hy| |right; auto]. destruct Hy as [<-|Hy]; [now left|right; auto]. Qed.
Lemma pairing_ext {A} (R S : A -> A -> Prop) ls rs ps : (forall l r, In l ls -> In r rs -> (R l r <-> S l r)) -> pairing R ls rs ps -> pairing S ls rs ps.
Proof.
  intros H HP. induction HP as [|l r rs ps HI HR HP IH|r rs ps HN HP IH]; [constructor| |].
  - apply pairing_take; [exact HI|apply H; [exact HI|now left|exact HR]|apply IH; intros x y Hx Hy; apply H; [exact Hx|now right]].
  - apply pairing_skip; [intros l Hl X; apply (HN l Hl), H; [exact Hl|now left|exact X]|apply IH; intros x y Hx Hy; apply H; [exact Hx|now right]].
Qed.
Lemma pairing_in {A} (R : A -> A -> Prop) ls rs ps : pairing R ls rs ps -> forall l r, In (l, r) ps -> In l ls /\ In r rs.
Proof.
  induction 1 as [|l r rs ps HI HR HP IH|r rs ps HN HP IH]; intros x y Hxy; [destruct Hxy| |].
  - destruct Hxy as [E|Hxy]; [injection E as <- <-; split; [exact HI|now left]|]. destruct (IH _ _ Hxy). split; [assumption|now right].
  - destruct (IH _ _ Hxy). split; [assumption|now right].
Qed.

Section Members.
Variable fmt : pyval -> str.
Notation ident := (get_identifier fmt).

Lemma mset_new d k v : key_in k d = false -> mset d k v = d ++ [(k, v)].
Proof.
  induction d as [|[k' v'] d IH]; [reflexivity|]. cbn [mset key_in existsb fst app]. intro H. apply orb_false_iff in H as [E H]. rewrite E. f_equal. now apply IH.
Qed.
Lemma left_in_order ks : ForallOrdPairs (fun a b => ~ pyeq a b) ks -> forall (ls : list member) d, Forall (fun k => key_in k d = false) ks ->
  fold_left (fun d km => mset d (fst km) (snd km)) (combine ks ls) d = d ++ combine ks ls.
Proof.
  induction ks as [|k ks IH]; intros HO ls d HD; [cbn [combine fold_left]; now rewrite app_nil_r|]. destruct ls as [|m ls]; [cbn [combine fold_left]; now rewrite app_nil_r|].
  cbn [combine fold_left fst snd]. apply FOP_inv in HO as [O1 O2]. inversion HD as [|? ? D1 D2]; subst. rewrite (mset_new _ _ _ D1), IH; [now rewrite <- app_assoc|exact O2|].
  rewrite Forall_forall in O1, D2 |- *. intros x Hx. unfold key_in. rewrite existsb_app. fold (key_in x d). rewrite (D2 x Hx). cbn [orb existsb fst]. rewrite orb_false_r.
  destruct (py_eq x k) eqn:E; [|reflexivity]. exfalso. apply (O1 x Hx). now apply pyeq_sym.
Qed.
Lemma map_snd_combine {A B} (ks : list A) : forall (ls : list B), length ks = length ls -> map snd (combine ks ls) = ls.
Proof. induction ks as [|k ks IH]; intros [|m ls] H; try discriminate; [reflexivity|]. cbn. f_equal. apply IH. now injection H. Qed.

Lemma removed_picks lp rp rs : forall li ev, keys_distinct li -> Forall (key_of fmt lp) li -> members_right fmt rp rs li = Ok ev ->
  picks (fun l => forall r, In r rs -> ~ same_identity fmt lp rp l r) (map snd li) (e_removed ev).
Proof.
  induction rs as [|m rs IH]; intros li ev HD HF H; cbn [members_right] in H.
  - apply ok_inj in H. subst ev. replace (e_removed _) with (map snd li) by (clear; induction li as [|a li IHli]; [reflexivity|]; cbn; now f_equal).
    apply picks_all. intros x _ r [].
  - destruct (ident rp m) as [k|] eqn:Ek; [|discriminate]. cbn [rbind] in H. pose proof (mget_split li k) as HG. destruct (mget li k) as [lf|].
    + destruct HG as (d1 & k' & d2 & -> & Hkk & Hdel). rewrite Hdel in H. destruct (members_right fmt rp rs (d1 ++ d2)) as [ev'|] eqn:E; [|discriminate].
      apply ok_inj in H. subst ev. destruct (distinct_middle _ _ _ HD) as [HD' HK']. cbn [fst] in HK'.
      assert (HF' : Forall (key_of fmt lp) (d1 ++ d2)). { apply Forall_app in HF as [F1 F2]. inversion F2; subst. apply Forall_app. now split. }
      assert (Hlf : key_of fmt lp (k', lf)). { apply Forall_app in HF as [F1 F2]. now inversion F2. }
      specialize (IH _ _ HD' HF' E). change (e_removed (MChanged lf m :: ev')) with (e_removed ev'). rewrite map_app in IH |- *. cbn [map snd].
      apply picks_insert.
      * intro X. apply (X m (or_introl eq_refl)). destruct Hlf as (kl & Hkl & Hcong). exists kl, k. split; [exact Hkl|]. split; [exact Ek|]. apply pyeq_sym. unfold pyeq. cbn [fst] in Hcong. now rewrite <- Hcong.
      * eapply picks_ext; [|exact IH]. intros x Hx. cbv beta. split; intros X r; [intros [<-|Hr]; [|now apply X]|intro Hr; apply X; now right].
        rewrite <- map_app in Hx. apply in_map_iff in Hx as ([kl l] & <- & Hin). rewrite Forall_forall in HF'. destruct (HF' _ Hin) as (y & Hy & Hc). cbn [fst snd] in Hy, Hc |- *.
        intros (a & b & Ha & Hb & Hab). rewrite Hy in Ha. injection Ha as <-. rewrite Ek in Hb. injection Hb as <-.
        assert (key_in k' (d1 ++ d2) = true); [|congruence]. apply existsb_exists. exists (kl, l). split; [exact Hin|]. cbn [fst].
        rewrite Hc. apply pyeq_sym. eapply pyeq_trans; [exact Hab|exact Hkk].
    + destruct (members_right fmt rp rs li) as [ev'|] eqn:E; [|discriminate]. apply ok_inj in H. subst ev. specialize (IH _ _ HD HF E). change (e_removed (MAdded m :: ev')) with (e_removed ev').
      eapply picks_ext; [|exact IH]. intros x Hx. cbv beta. split; intros X r; [intros [<-|Hr]; [|now apply X]|intro Hr; apply X; now right].
      apply in_map_iff in Hx as ([kl l] & <- & Hin). rewrite Forall_forall in HF. destruct (HF _ Hin) as (y & Hy & Hc). cbn [fst snd] in Hy, Hc |- *.
      intros (a & b & Ha & Hb & Hab). rewrite Hy in Ha. injection Ha as <-. rewrite Ek in Hb. injection Hb as <-.
      assert (key_in k li = true); [|congruence]. apply existsb_exists. exists (kl, l). split; [exact Hin|]. cbn [fst]. rewrite Hc. now apply pyeq_sym.
Qed.

Lemma members_chosen lp rp ls rs ev : collect_members fmt lp rp ls rs = Ok ev -> distinct_ids fmt lp ls -> distinct_ids fmt rp rs ->
  picks (fun r => forall l, In l ls -> ~ same_identity fmt lp rp l r) rs (e_added ev) /\
  picks (fun l => forall r, In r rs -> ~ same_identity fmt lp rp l r) ls (e_removed ev) /\
  pairing (same_identity fmt lp rp) ls rs (e_pairs ev).
Proof.
  intros H HL HR. pose proof (collect_members_complete _ _ _ _ _ _ H HL) as HC. destruct (collect_members_facts _ _ _ _ _ _ H) as (F1 & _ & F3 & _ & F5). specialize (F5 HR).
  assert (HI : forall l r, In (MChanged l r) ev -> In l ls) by (intros l r X; eapply Permutation_in; [exact HC|apply In_lefts; right; now exists r]).
  assert (HA : forall r, In (MAdded r) ev -> forall l, In l ls -> ~ same_identity fmt lp rp l r) by (intros r X l Hl; now apply F5).
  split; [|split].
  - rewrite <- F1. clear -HI HA F3. induction ev as [|e ev IH]; [constructor|].
    assert (G : picks (fun r => forall l, In l ls -> ~ same_identity fmt lp rp l r) (rights ev) (e_added ev)) by (apply IH; [intros l r X; apply F3; now right|intros l r X; apply (HI l r); now right|intros r X; apply HA; now right]).
    destruct e as [r|l|l r].
    + apply (picks_take _ r (rights ev) (e_added ev)); [|exact G]. apply HA. now left.
    + exact G.
    + apply (picks_skip _ r (rights ev) (e_added ev)); [|exact G]. intro X. apply (X l); [apply (HI l r); now left|apply F3; now left].
  - unfold collect_members in H. destruct HL as (ks & K1 & K2). rewrite (members_left_fold _ _ _ _ K1) in H. cbn [rbind] in H.
    assert (HO : forall ks, ForallOrdPairs (fun a b => ~ pyeq a b) ks -> forall ls, idents fmt lp ls ks -> keys_distinct (combine ks ls)).
    { clear. induction ks as [|k ks IH]; intros HO ls HI; [constructor|]. inversion HI as [|m ? ls' ? Hm HI']; subst. cbn [combine]. apply FOP_inv in HO as [O1 O2]. apply keys_cons. split; [|now apply IH].
      cbn [fst]. destruct (key_in k (combine ks ls')) eqn:E; [|reflexivity]. exfalso. apply existsb_exists in E as ([k' m'] & Hin & E). rewrite Forall_forall in O1. apply in_combine_l in Hin. now apply (O1 _ Hin). }
    rewrite (left_in_order ks K2 ls []) in H by (apply Forall_forall; reflexivity). cbn [app] in H.
    assert (LE : length ks = length ls) by (clear -K1; induction K1; cbn; congruence). rewrite <- (map_snd_combine ks ls LE) at 1.
    eapply removed_picks; [now apply HO| |exact H]. apply Forall_forall. intros km Hk. exists (fst km). split; [now apply (idents_combine fmt lp ls ks K1)|reflexivity].
  - rewrite <- F1. clear -HI HA F3. induction ev as [|e ev IH]; [constructor|].
    assert (G : pairing (same_identity fmt lp rp) ls (rights ev) (e_pairs ev)) by (apply IH; [intros l r X; apply F3; now right|intros l r X; apply (HI l r); now right|intros r X; apply HA; now right]).
    destruct e as [r|l|l r].
    + apply (pairing_skip _ ls r (rights ev) (e_pairs ev)); [|exact G]. apply HA. now left.
    + exact G.
    + apply (pairing_take _ ls l r (rights ev) (e_pairs ev)); [apply (HI l r); now left|apply F3; now left|exact G].
Qed.
End Members.

(** ** The order of members *)
Lemma ranked_split {A} (f : A -> nat) l : (forall i j a b, (i <= j)%nat -> nth_error l i = Some a -> nth_error l j = Some b -> (f a <= f b)%nat) -> Forall (fun x => (f x <= 2)%nat) l ->
  l = filter (fun x => Nat.eqb (f x) 0) l ++ filter (fun x => Nat.eqb (f x) 1) l ++ filter (fun x => Nat.eqb (f x) 2) l.
Proof.
  induction l as [|x l IH]; intros HO HL; [reflexivity|]. inversion HL as [|? ? L1 L2]; subst.
  assert (G : Forall (fun y => (f x <= f y)%nat) l).
  { apply Forall_forall. intros y Hy. apply In_nth_error in Hy as (i & Hi). apply (HO 0%nat (S i) x y); [lia|reflexivity|exact Hi]. }
  assert (N : forall k, (k < f x)%nat -> filter (fun y => Nat.eqb (f y) k) l = []).
  { intros k Hk. clear -G Hk. induction G as [|y l Hy G IHG]; [reflexivity|]. cbn [filter]. destruct (Nat.eqb_spec (f y) k); [lia|exact IHG]. }
  specialize (IH ltac:(intros i j a b Hij Ha Hb; apply (HO (S i) (S j) a b); [lia|exact Ha|exact Hb]) L2).
  cbn [filter]. destruct (f x) as [|[|[|?]]] eqn:E; cbn [Nat.eqb]; [| | |lia].
  - cbn [app]. now f_equal.
  - rewrite (N 0%nat) in IH |- * by lia. cbn [app] in IH |- *. now f_equal.
  - rewrite (N 0%nat), (N 1%nat) in IH |- * by lia. cbn [app] in IH |- *. now f_equal.
Qed.
Lemma sorted_kids (node : mevent -> change) tA tR tC ev :
  (forall r, k_name (k_of (node (MAdded r))) = tA) -> (forall l, k_name (k_of (node (MRemoved l))) = tR) -> (forall l r, k_name (k_of (node (MChanged l r))) = tC) ->
  tA <> tR -> tA <> tC -> tR <> tC ->
  iterate_by_type (fun c => k_name (k_of c)) (map node ev) [tA; tR; tC] =
  map (fun r => node (MAdded r)) (e_added ev) ++ map (fun l => node (MRemoved l)) (e_removed ev) ++ map (fun ab => node (MChanged (fst ab) (snd ab))) (e_pairs ev).
Proof.
  intros HA HR HC N1 N2 N3. set (ty := fun c => k_name (k_of c)).
  destruct (iterate_spec ty (map node ev) [tA; tR; tC]) as (P & T & O & _). set (l := iterate_by_type ty (map node ev) [tA; tR; tC]) in *.
  assert (RA : rank [tA; tR; tC] tA = 0%nat) by (cbn [rank]; now rewrite seqb_refl).
  assert (RR : rank [tA; tR; tC] tR = 1%nat) by (cbn [rank]; rewrite seqb_refl; destruct (seqb_spec tR tA); [congruence|reflexivity]).
  assert (RC : rank [tA; tR; tC] tC = 2%nat) by (cbn [rank]; rewrite seqb_refl; destruct (seqb_spec tC tA); [congruence|]; destruct (seqb_spec tC tR); [congruence|reflexivity]).
  assert (TY : forall c, In c l -> ty c = tA \/ ty c = tR \/ ty c = tC).
  { intros c Hc. apply (Permutation_in _ P) in Hc. apply in_map_iff in Hc as (e & <- & _). unfold ty. destruct e; [left; apply HA|right; left; apply HR|right; right; apply HC]. }
  assert (S : l = filter (fun c => Nat.eqb (rank [tA; tR; tC] (ty c)) 0) l ++ filter (fun c => Nat.eqb (rank [tA; tR; tC] (ty c)) 1) l ++ filter (fun c => Nat.eqb (rank [tA; tR; tC] (ty c)) 2) l).
  { apply ranked_split; [exact O|]. apply Forall_forall. intros c Hc. destruct (TY c Hc) as [->|[->| ->]]; rewrite ?RA, ?RR, ?RC; lia. }
  rewrite S. clear S.
  assert (FE : forall (f g : change -> bool) (m : list change), (forall c, In c m -> f c = g c) -> filter f m = filter g m).
  { clear. intros f g m H. induction m as [|c m IH]; [reflexivity|]. cbn [filter]. rewrite (H c (or_introl eq_refl)), IH by (intros d Hd; apply H; now right). reflexivity. }
  rewrite (FE (fun c => Nat.eqb (rank [tA; tR; tC] (ty c)) 0) (fun c => seqb (ty c) tA) l), (FE (fun c => Nat.eqb (rank [tA; tR; tC] (ty c)) 1) (fun c => seqb (ty c) tR) l), (FE (fun c => Nat.eqb (rank [tA; tR; tC] (ty c)) 2) (fun c => seqb (ty c) tC) l).
  2:{ intros c Hc. destruct (TY c Hc) as [->|[->| ->]]; rewrite ?RA, ?RR, ?RC, ?seqb_refl; cbn [Nat.eqb]; try reflexivity; match goal with |- context[seqb ?a ?b] => destruct (seqb_spec a b); [congruence|reflexivity] end. }
  2:{ intros c Hc. destruct (TY c Hc) as [->|[->| ->]]; rewrite ?RA, ?RR, ?RC, ?seqb_refl; cbn [Nat.eqb]; try reflexivity; match goal with |- context[seqb ?a ?b] => destruct (seqb_spec a b); [congruence|reflexivity] end. }
  2:{ intros c Hc. destruct (TY c Hc) as [->|[->| ->]]; rewrite ?RA, ?RR, ?RC, ?seqb_refl; cbn [Nat.eqb]; try reflexivity; match goal with |- context[seqb ?a ?b] => destruct (seqb_spec a b); [congruence|reflexivity] end. }
  change (of_type ty tA l ++ of_type ty tR l ++ of_type ty tC l = map (fun r => node (MAdded r)) (e_added ev) ++ map (fun x => node (MRemoved x)) (e_removed ev) ++ map (fun ab => node (MChanged (fst ab) (snd ab))) (e_pairs ev)).
  rewrite !T. f_equal; [|f_equal]; clear -HA HR HC N1 N2 N3; unfold of_type; (induction ev as [|e ev IH]; [reflexivity|]); cbn [map filter]; destruct e as [r|x|x r]; unfold ty at 1; rewrite ?HA, ?HR, ?HC, ?seqb_refl.
  - cbn. now f_equal.
  - destruct (seqb_spec tR tA); [congruence|exact IH].
  - destruct (seqb_spec tC tA); [congruence|exact IH].
  - destruct (seqb_spec tA tR); [congruence|exact IH].
  - cbn. now f_equal.
  - destruct (seqb_spec tC tR); [congruence|exact IH].
  - destruct (seqb_spec tA tC); [congruence|exact IH].
  - destruct (seqb_spec tR tC); [congruence|exact IH].
  - cbn. now f_equal.
Qed.

(** ** The members of two classes *)
Lemma members_tell fmt o d nm what lp rp ls rs ev (node : mevent -> change) tA tR tC c same added removed changed :
  check (super nm what None None (iterate_by_type (fun c => k_name (k_of c)) (map node ev) [tA; tR; tC])) = Ok c ->
  collect_members fmt lp rp ls rs = Ok ev -> distinct_ids fmt lp ls -> distinct_ids fmt rp rs ->
  (forall r, k_name (k_of (node (MAdded r))) = tA) -> (forall l, k_name (k_of (node (MRemoved l))) = tR) -> (forall l r, k_name (k_of (node (MChanged l r))) = tC) ->
  tA <> tR -> tA <> tC -> tR <> tC ->
  (forall l r, In l ls -> In r rs -> (same_identity fmt lp rp l r <-> same l r)) ->
  (forall r c, In r rs -> check (node (MAdded r)) = Ok c -> exists t, added r t /\ tells o (S (S d)) c t) ->
  (forall l c, In l ls -> check (node (MRemoved l)) = Ok c -> exists t, removed l t /\ tells o (S (S d)) c t) ->
  (forall l r c, In l ls -> In r rs -> check (node (MChanged l r)) = Ok c -> exists t, changed l r t /\ tells o (S (S d)) c t) ->
  exists t, members_block o d what same added removed changed ls rs t /\ tells o (S d) c t.
Proof.
  intros HC HE DL DR HA HR HX N1 N2 N3 HS TA TR TC. rewrite (sorted_kids node tA tR tC ev HA HR HX N1 N2 N3) in HC.
  destruct (super_tells o (S d) _ _ _ _ _ _ (lit what ++ lit " changed") (stays what) HC (conj eq_refl eq_refl)) as (kids & HF & HT).
  apply Forall2_app_inv_l in HF as (k1 & k2 & HF1 & HF2 & ->). apply Forall2_app_inv_l in HF2 as (k2' & k3 & HF2 & HF3 & ->).
  destruct (members_chosen fmt lp rp ls rs ev HE DL DR) as (P1 & P2 & P3).
  destruct (Forall2_tells o (S (S d)) _ added _ _ HF1) as (ta & A1 & A2); [intros x c0 Hx; apply TA; exact (picks_in _ _ _ P1 x Hx)|].
  destruct (Forall2_tells o (S (S d)) _ removed _ _ HF2) as (tr & R1 & R2); [intros x c0 Hx; apply TR; exact (picks_in _ _ _ P2 x Hx)|].
  destruct (Forall2_tells o (S (S d)) _ (fun ab => changed (fst ab) (snd ab)) _ _ HF3) as (tc & C1 & C2).
  { intros [a b] c0 Hx. destruct (pairing_in _ _ _ _ P3 a b Hx). now apply TC. }
  exists (block_text o (S d) (lit what ++ lit " changed") (stays what) (ta ++ tr ++ tc)). split.
  - exists (e_added ev), (e_removed ev), (e_pairs ev), ta, tr, tc. split; [|split; [|split; [|repeat split; assumption]]].
    + eapply picks_ext; [|exact P1]. intros r Hr. cbv beta. split; intros X l Hl Y; apply (X l Hl); now apply HS.
    + eapply picks_ext; [|exact P2]. intros l Hl. cbv beta. split; intros X r Hr Y; apply (X r Hr); now apply HS.
    + eapply pairing_ext; [|exact P3]. intros l r Hl Hr. now apply HS.
  - apply HT. apply Forall2_app; [exact A2|]. now apply Forall2_app.
Qed.

(** Proofs about reports, squashing and grouping. *)
From Verif Require Import Base Change_Model Change_Spec Change_Proofs.
From Coq Require Import Permutation.

Lemma ignored_ok o c b : is_ignored o c = Ok b -> ignored o c = b.
Proof. intro H. unfold ignored. now rewrite H. Qed.
Lemma indent_line_1 n s : indent_line n [s] = concat (repeat (lit "  ") n) ++ escape s ++ [10].
Proof. unfold indent_line. cbn [map concat]. now rewrite app_nil_r. Qed.
Lemma indent_line_2 n s t : escape t = t -> indent_line n [s; t] = concat (repeat (lit "  ") n) ++ escape s ++ t ++ [10].
Proof. intro H. unfold indent_line. cbn [map concat]. rewrite app_nil_r, <- app_assoc, H. reflexivity. Qed.
Lemma escape_ignored : escape (lit " [IGNORED]") = lit " [IGNORED]".
Proof. reflexivity. Qed.

Lemma filter_cons_map {A} (f : A -> bool) (g : list A -> bool) c (l : list (list A)) :
  (forall x, g x = forallb f x) -> filter g (map (cons c) l) = if f c then map (cons c) (filter g l) else [].
Proof.
  intro Hg. induction l as [|x l IH]; cbn [map filter]; [now destruct (f c)|]. rewrite IH, !Hg. cbn [forallb]. destruct (f c); cbn [andb]; [|reflexivity].
  destruct (forallb f x); reflexivity.
Qed.
Lemma filter_concat {A} (g : A -> bool) ls : filter g (concat ls) = concat (map (filter g) ls).
Proof. induction ls as [|l ls IH]; [reflexivity|]. cbn [concat map]. now rewrite filter_app, IH. Qed.
Lemma chains_nonempty t ch : In ch (chains t) -> exists p, ch = top t :: p.
Proof.
  destruct t as [c subs]. cbn [chains top]. intros [<-|H]; [now exists []|]. apply in_concat in H as (l & Hl & H).
  apply in_map_iff in Hl as (s & <- & _). apply in_map_iff in H as (p & <- & _). now exists p.
Qed.

(** A line at depth n for a chain. *)
Definition lineat (o : options) (n : nat) (ch : list change) : str :=
  concat (repeat (lit "  ") n) ++ line o ch.
Lemma repeat_add {A} (x : A) n m : repeat x (n + m) = repeat x n ++ repeat x m.
Proof. induction n as [|n IH]; [reflexivity|]. cbn. now rewrite IH. Qed.
Lemma lineat_cons o n c p : p <> [] -> lineat o n (c :: p) = lineat o (S n) p.
Proof.
  intro Hp. unfold lineat, line. destruct p as [|x p]; [congruence|]. cbv zeta. change (tip (c :: x :: p)) with (tip (x :: p)). cbn [length].
  rewrite !app_assoc. f_equal. f_equal. f_equal. rewrite <- !concat_app, <- !repeat_add. f_equal. f_equal. lia.
Qed.

Lemma chains_sub c subs s ch : In s subs -> In ch (chains s) -> In (c :: ch) (chains (R c subs)).
Proof. intros H1 H2. cbn [chains]. right. apply in_concat. exists (map (cons c) (chains s)). split; [apply in_map_iff; now exists s|now apply in_map]. Qed.
Lemma visited_cons o c ch : ch <> [] -> visited o (c :: ch) = visible o c && visited o ch.
Proof. intro H. destruct ch as [|x ch]; [congruence|]. reflexivity. Qed.
Lemma tip_cons c ch : ch <> [] -> tip (c :: ch) = tip ch.
Proof. intro H. destruct ch as [|x ch]; [congruence|]. reflexivity. Qed.
Lemma chain_ne t ch : In ch (chains t) -> ch <> [].
Proof. intro H. apply chains_nonempty in H as (p & ->). discriminate. Qed.
Lemma tellable_inv o c subs : tellable o (R c subs) <-> speaks c /\ (visible o c = true -> Forall (tellable o) subs).
Proof.
  split.
  - intro H. split; [exact (H [c] (or_introl eq_refl) eq_refl)|]. intro HV. apply Forall_forall. intros s Hs ch Hc Hv. rewrite <- (tip_cons c) by exact (chain_ne _ _ Hc).
    apply H; [exact (chains_sub c subs s ch Hs Hc)|]. rewrite visited_cons by exact (chain_ne _ _ Hc). now rewrite HV, Hv.
  - intros [H1 H2] ch Hc Hv. cbn [chains] in Hc. destruct Hc as [<-|Hc]; [exact H1|]. apply in_concat in Hc as (l & Hl & Hc). apply in_map_iff in Hl as (s & <- & Hs).
    apply in_map_iff in Hc as (p & <- & Hp). rewrite visited_cons in Hv by exact (chain_ne _ _ Hp). apply andb_true_iff in Hv as [Hv Hw]. rewrite tip_cons by exact (chain_ne _ _ Hp).
    specialize (H2 Hv). rewrite Forall_forall in H2. exact (H2 s Hs p Hp Hw).
Qed.
Lemma report_spec o t : forall n c, unfolds c t -> tellable o t ->
  indent_change o n c = Ok (concat (map (lineat o n) (filter (shown o) (chains t)))).
Proof.
  induction t as [c0 subs IH] using rose_rect'. intros n c HU HT. pose proof (is_ignored_total o _ _ HU) as (b & Hb).
  apply unfolds_inv in HU as (ks & subs' & E & H1 & H2 & H3). injection E as -> <-. apply tellable_inv in HT as [[de HD] HT].
  assert (HR : visible o c = true -> (kids <- collect c ;; ls <- mapM (indent_change o (S n)) kids ;; Ok (concat ls)) =
    Ok (concat (map (lineat o n) (filter (shown o) (concat (map (fun s => map (cons c) (chains s)) subs)))))).
  { intro HV. rewrite H1. cbn [rbind]. clear H1 H2. rewrite filter_concat, map_map.
    assert (HM : mapM (indent_change o (S n)) ks = Ok (map (fun s => concat (map (lineat o (S n)) (filter (shown o) (chains s)))) subs)).
    { specialize (HT HV). clear -IH H3 HT. induction H3 as [|a s l l' Ha H3 IH3]; [reflexivity|]. inversion IH as [|? ? I1 I2]; subst. inversion HT as [|? ? T1 T2]; subst. cbn [mapM map]. rewrite (I1 (S n) a Ha T1). cbn [rbind].
      rewrite IH3 by assumption. reflexivity. }
    rewrite HM. cbn [rbind]. f_equal. clear -HV. rewrite concat_map, map_map, <- flat_map_concat_map, <- !flat_map_concat_map.
    induction subs as [|s subs IH]; [reflexivity|]. cbn [flat_map]. rewrite concat_app, IH. f_equal.
    rewrite (filter_cons_map (visible o)) by reflexivity. rewrite HV, map_map. f_equal. apply map_ext_in. intros p Hp.
    rewrite lineat_cons; [reflexivity|]. apply filter_In in Hp as [Hp _]. apply chains_nonempty in Hp as (q & ->). discriminate. }
  assert (HN : visible o c = false -> filter (shown o) (chains (R c subs)) = []).
  { intro HV. cbn [chains filter]. unfold shown at 1. cbn [forallb]. rewrite HV. cbn [andb]. rewrite filter_concat, map_map. clear -HV.
    induction subs as [|s subs IH]; [reflexivity|]. cbn [map concat]. rewrite IH, app_nil_r. rewrite (filter_cons_map (visible o)) by reflexivity. now rewrite HV. }
  assert (HL : visible o c = true -> concat (map (lineat o n) (filter (shown o) (chains (R c subs)))) =
    (concat (repeat (lit "  ") n) ++ escape de ++ (if is_change c && ignored o c then lit " [IGNORED]" else []) ++ [10]) ++
     concat (map (lineat o n) (filter (shown o) (concat (map (fun s => map (cons c) (chains s)) subs))))).
  { intro HV. cbn [chains filter]. unfold shown at 1. cbn [forallb]. rewrite HV. cbn [andb map concat]. f_equal. unfold lineat, line, said. cbn [tip last]. now rewrite HD. }
  pose proof (ignored_ok _ _ _ Hb) as HI. unfold visible in *. rewrite HI in *.
  destruct c as [k ch d cs im]. rewrite indent_change_eq. cbv zeta. set (c := Node k ch d cs im) in *. rewrite HD. cbn [rbind].
  destruct (is_change c); cbn [andb] in *.
  - rewrite Hb. cbn [rbind]. destruct b; cbn [negb orb] in *.
    + destruct (show_ignored o); cbn [orb] in *; [|now rewrite HN by reflexivity]. rewrite HL, HR by reflexivity. cbn [rbind]. now rewrite (indent_line_2 _ _ _ escape_ignored).
    + rewrite HL, HR by reflexivity. cbn [rbind]. now rewrite indent_line_1.
  - destruct (show_unchanged o); [|now rewrite HN by reflexivity]. rewrite HL, HR by reflexivity. cbn [rbind]. now rewrite indent_line_1.
Qed.

(** The report is written only if every node come to can be described. *)
Lemma report_tells o t : forall n c out, unfolds c t -> indent_change o n c = Ok out -> tellable o t.
Proof.
  induction t as [c0 subs IH] using rose_rect'. intros n c out HU HR. pose proof (is_ignored_total o _ _ HU) as (b & Hb).
  apply unfolds_inv in HU as (ks & subs' & E & H1 & H2 & H3). injection E as -> <-. apply tellable_inv.
  pose proof (ignored_ok _ _ _ Hb) as HI. unfold visible. rewrite HI. destruct c as [k ch d cs im]. rewrite indent_change_eq in HR. cbv zeta in HR. set (c := Node k ch d cs im) in *.
  destruct (get_description c) as [de|] eqn:HD; [|discriminate HR]. split; [now exists de|]. cbn [rbind] in HR. rewrite H1, Hb in HR. cbn [rbind] in HR. intro HV.
  assert (HM : exists ls, mapM (indent_change o (S n)) ks = Ok ls).
  { destruct (mapM (indent_change o (S n)) ks) as [ls|]; [now exists ls|]. exfalso. destruct (is_change c), b, (show_ignored o), (show_unchanged o); try discriminate HR; discriminate HV. }
  destruct HM as [ls HM]. clear -IH H3 HM. revert ls HM. induction H3 as [|a s l l' Ha H3 IH3]; intros ls HM; [constructor|]. inversion IH as [|? ? I1 I2]; subst.
  cbn [mapM] in HM. destruct (indent_change o (S n) a) as [x|] eqn:Ex; [|discriminate HM]. cbn [rbind] in HM. destruct (mapM (indent_change o (S n)) l) as [xs|] eqn:El; [|discriminate HM].
  constructor; [exact (I1 (S n) a x Ha Ex)|exact (IH3 I2 xs eq_refl)].
Qed.

Lemma hexpad_ascii n c : Forall (fun x => 0 <= x < 128 /\ x <> 10) (hexpad n c).
Proof.
  revert c. induction n as [|n IH]; intro c; [constructor|]. cbn [hexpad]. apply Forall_app. split; [apply IH|]. constructor; [|constructor].
  pose proof (Z.mod_pos_bound c 16 ltac:(lia)). unfold hexdigit. destruct (c mod 16 <? 10) eqn:E; lia.
Qed.
Lemma escape1_ascii c : 0 <= c -> Forall (fun x => 0 <= x < 128) (escape1 c) /\ (c <> 10 -> Forall (fun x => x <> 10) (escape1 c)).
Proof.
  intro Hc. unfold escape1. assert (G : forall n a, 0 <= a < 128 /\ a <> 10 -> Forall (fun x => 0 <= x < 128) (92 :: a :: hexpad n c) /\ (c <> 10 -> Forall (fun x => x <> 10) (92 :: a :: hexpad n c))).
  { intros n a Ha. pose proof (hexpad_ascii n c) as H. split; [|intros _]; constructor; try lia; constructor; try lia; eapply Forall_impl; try exact H; intros x Hx; cbn beta in *; lia. }
  destruct (c <? 128) eqn:E; [split; [|intro]; constructor; try lia; constructor|].
  destruct (c <? 256); [apply G; lia|]. destruct (c <? 65536); apply G; lia.
Qed.
Lemma escape_ascii s : Forall (fun c => 0 <= c) s -> Forall (fun x => 0 <= x < 128) (escape s) /\ (~ In 10 s -> ~ In 10 (escape s)).
Proof.
  induction 1 as [|c s Hc H [I1 I2]]; [split; [constructor|auto]|]. unfold escape in *. cbn [map concat]. destruct (escape1_ascii c Hc) as [E1 E2]. split.
  - apply Forall_app. split; assumption.
  - intros HN HI. apply in_app_or in HI as [HI|HI].
    + assert (Hc0 : c <> 10) by (intros ->; apply HN; now left). specialize (E2 Hc0). rewrite Forall_forall in E2. now apply (E2 10).
    + apply I2; [|exact HI]. intro. apply HN. now right.
Qed.
Lemma escape_id s : Forall (fun c => c < 128) s -> escape s = s.
Proof. induction 1 as [|c s Hc H IH]; [reflexivity|]. unfold escape in *. cbn [map concat]. rewrite IH. unfold escape1. now replace (c <? 128) with true by lia. Qed.

(** Number of line ends. *)
Definition newlines (s : str) : nat := length (filter (Z.eqb 10) s).
Lemma newlines_app a b : newlines (a ++ b) = (newlines a + newlines b)%nat.
Proof. unfold newlines. now rewrite filter_app, app_length. Qed.
Lemma newlines_none s : ~ In 10 s -> newlines s = 0%nat.
Proof.
  intro H. unfold newlines. induction s as [|c s IH]; [reflexivity|]. cbn [filter]. destruct (Z.eqb_spec 10 c) as [<-|Hc]; [exfalso; apply H; now left|].
  apply IH. intro. apply H. now right.
Qed.
Lemma newlines_blank n : newlines (concat (repeat (lit "  ") n)) = 0%nat.
Proof. induction n as [|n IH]; [reflexivity|]. cbn [repeat concat]. rewrite newlines_app, IH. reflexivity. Qed.
Lemma newlines_line o ch : (forall c, In c ch -> Forall (fun x => 0 <= x) (said c) /\ ~ In 10 (said c)) -> ch <> [] -> newlines (line o ch) = 1%nat.
Proof.
  intros H Hn. unfold line. cbv zeta. set (c := tip ch). assert (Hc : In c ch).
  { subst c. unfold tip. destruct ch as [|x ch]; [congruence|]. clear. generalize x. induction ch as [|y ch IH]; intro z; [now left|]. right. apply IH. }
  destruct (H c Hc) as [H1 H2]. destruct (escape_ascii _ H1) as [_ H3]. rewrite !newlines_app, newlines_blank, (newlines_none _ (H3 H2)).
  destruct (is_change c && ignored o c); reflexivity.
Qed.
Lemma report_lines o t c out : unfolds c t -> (forall ch x, In ch (chains t) -> In x ch -> Forall (fun y => 0 <= y) (said x) /\ ~ In 10 (said x)) ->
  text_report o c = Ok out -> newlines out = length (filter (shown o) (chains t)).
Proof.
  intros HU HD H. unfold text_report in H. rewrite (report_spec o t 0 c HU (report_tells _ _ _ _ _ HU H)) in H. injection H as <-.
  assert (HA : forall ch, In ch (filter (shown o) (chains t)) -> newlines (lineat o 0 ch) = 1%nat).
  { intros ch Hi. apply filter_In in Hi as [Hi _]. unfold lineat. cbn [repeat concat app]. apply newlines_line; [intros x Hx; now apply (HD ch)|].
    apply chains_nonempty in Hi as (p & ->). discriminate. }
  induction (filter (shown o) (chains t)) as [|ch l IH]; [reflexivity|]. cbn [map concat length]. rewrite newlines_app, (HA ch (or_introl eq_refl)), IH; [reflexivity|].
  intros ch' Hi. apply HA. now right.
Qed.

(** ** JSON *)
Lemma keep_visible o c b : is_ignored o c = Ok b -> keep o (is_change c) (is_ignored o c) = Ok (visible o c).
Proof.
  intro H. unfold keep, visible, ignored. rewrite H. destruct (is_change c); [|reflexivity]. destruct (show_ignored o), b; reflexivity.
Qed.
Definition jshown (o : options) (ch : list change) : bool := shown o (tl ch).
Lemma jshown_cons o c ch : ch <> [] -> jshown o (c :: ch) = shown o ch.
Proof. reflexivity. Qed.
Lemma storable_inv o c subs : storable o (R c subs) <-> recordable c /\ Forall (fun s => visible o (top s) = true -> storable o s) subs.
Proof.
  split.
  - intro H. split; [exact (H [c] (or_introl eq_refl) eq_refl)|]. apply Forall_forall. intros s Hs HV ch Hc Hv. rewrite <- (tip_cons c) by exact (chain_ne _ _ Hc).
    apply H; [exact (chains_sub c subs s ch Hs Hc)|]. apply chains_nonempty in Hc as (p & ->). cbn [tl] in Hv |- *. unfold shown in *. cbn [forallb]. rewrite HV. exact Hv.
  - intros [H1 H2] ch Hc Hv. cbn [chains] in Hc. destruct Hc as [<-|Hc]; [exact H1|]. apply in_concat in Hc as (l & Hl & Hc). apply in_map_iff in Hl as (s & <- & Hs).
    apply in_map_iff in Hc as (p & <- & Hp). cbn [tl] in Hv. rewrite tip_cons by exact (chain_ne _ _ Hp). rewrite Forall_forall in H2. specialize (H2 s Hs). pose proof (chains_nonempty _ _ Hp) as (q & ->).
    unfold shown in Hv. cbn [forallb] in Hv. apply andb_true_iff in Hv as [Hv Hw]. exact (H2 Hv _ Hp Hw).
Qed.
Lemma json_spec o t : forall c, unfolds c t -> storable o t ->
  exists j, json_of o c = Ok j /\ jchains j = map (map (jnode o)) (filter (jshown o) (chains t)).
Proof.
  induction t as [c0 subs IH] using rose_rect'. intros c HU HT. pose proof (is_ignored_total o _ _ HU) as (b & Hb).
  apply unfolds_inv in HU as (ks & subs' & E & H1 & H2 & H3). injection E as -> <-. apply storable_inv in HT as [([de HD] & [old HO] & [new HN]) HT].
  destruct c as [k ch d cs im]. rewrite json_of_eq. cbv zeta. set (c := Node k ch d cs im) in *. rewrite HD, Hb. cbn [k_of c] in HO, HN. rewrite HO, HN. cbn [rbind].
  assert (EN : jnode o c = J (k_name k) (is_change c) de (k_label k) b (k_addition k) (k_removal k)
              (match k_entry k with Some (x :: s) => Some (x :: s) | _ => None end) (k_orig k) old new (if k_super k then Some [] else None)).
  { unfold jnode. cbv zeta. rewrite (ignored_ok _ _ _ Hb). unfold said. rewrite HD. cbn [k_of c]. unfold c. cbn [k_of]. rewrite HO, HN. cbn [kept]. destruct (k_entry k) as [[|x s]|]; reflexivity. }
  destruct (k_super k) eqn:Es.
  - rewrite H1. cbn [rbind].
    assert (HM : mapM (fun kid => keep o (is_change kid) (is_ignored o kid)) ks = Ok (map (visible o) ks)).
    { clear - H3. induction H3 as [|a s l l' Ha H3 IH3]; [reflexivity|]. destruct (is_ignored_total o _ _ Ha) as (b & Hb).
      cbn [mapM map]. rewrite (keep_visible _ _ _ Hb). cbn [rbind]. now rewrite IH3. }
    rewrite HM. cbn [rbind].
    assert (HS : exists js, mapM (json_of o) (map fst (filter snd (combine ks (map (visible o) ks)))) = Ok js /\
      concat (map jchains js) = map (map (jnode o)) (filter (shown o) (concat (map chains subs)))).
    { clear - IH H3 HT. induction H3 as [|a s l l' Ha H3 IH3]; [exists []; split; reflexivity|]. inversion IH as [|? ? I1 I2]; subst. inversion HT as [|? ? T1 T2]; subst.
      destruct (IH3 I2 T2) as (js & J1 & J2). cbn [map combine filter snd].
      cbn [concat]. rewrite filter_app, map_app.
      assert (Et : top s = a) by (destruct Ha; reflexivity).
      assert (EF : filter (shown o) (chains s) = if visible o a then filter (jshown o) (chains s) else []).
      { destruct (visible o a) eqn:Ev.
        - apply filter_ext_in. intros p Hp. apply chains_nonempty in Hp as (q & ->). unfold jshown, shown. cbn [tl forallb]. rewrite Et, Ev. reflexivity.
        - assert (G : forall l, (forall p, In p l -> shown o p = false) -> filter (shown o) l = []).
          { intro q. induction q as [|p q IHq]; [reflexivity|]. intro G. cbn [filter]. rewrite (G p (or_introl eq_refl)). apply IHq. intros p' Hp'. apply G. now right. }
          apply G. intros p Hp. apply chains_nonempty in Hp as (q & ->). unfold shown. cbn [forallb]. now rewrite Et, Ev. }
      rewrite EF. rewrite Et in T1. destruct (visible o a).
      - destruct (I1 a Ha (T1 eq_refl)) as (j & K1 & K2). cbn [map fst mapM]. rewrite K1. cbn [rbind]. rewrite J1. cbn [rbind]. exists (j :: js). split; [reflexivity|]. cbn [map concat]. now rewrite K2, J2.
      - exists js. split; [exact J1|]. exact J2. }
    destruct HS as (js & J1 & J2). rewrite J1. cbn [rbind]. eexists. split; [reflexivity|]. cbn [jchains jhead]. rewrite <- EN.
    cbn [chains filter]. unfold jshown at 1. cbn [tl shown forallb map]. f_equal.
    assert (HC1 : concat (map (fun s => map (cons (jnode o c)) (jchains s)) js) = map (cons (jnode o c)) (concat (map jchains js))) by (now rewrite concat_map, map_map).
    assert (HC2 : concat (map (fun s => map (cons c) (chains s)) subs) = map (cons c) (concat (map chains subs))) by (now rewrite concat_map, map_map).
    rewrite HC1, HC2, J2. clear. induction (concat (map chains subs)) as [|p l IHl]; [reflexivity|]. cbn [map filter]. unfold jshown at 1. cbn [tl].
    destruct (shown o p); [|exact IHl]. cbn [map]. f_equal. exact IHl.
  - specialize (H2 Es). subst ks. inversion H3; subst. eexists. split; [reflexivity|]. cbn [jchains jhead]. rewrite <- EN. reflexivity.
Qed.
Lemma json_stores o t : forall c j, unfolds c t -> json_of o c = Ok j -> storable o t.
Proof.
  induction t as [c0 subs IH] using rose_rect'. intros c j HU HJ. apply unfolds_inv in HU as (ks & subs' & E & H1 & H2 & H3). injection E as -> <-. apply storable_inv.
  destruct c as [k ch d cs im]. rewrite json_of_eq in HJ. cbv zeta in HJ. set (c := Node k ch d cs im) in *.
  destruct (get_description c) as [de|] eqn:HD; [|discriminate HJ]. cbn [rbind] in HJ. destruct (is_ignored o c) as [b|]; [|discriminate HJ]. cbn [rbind] in HJ.
  destruct (k_old k) as [old|] eqn:HO; [|discriminate HJ]. destruct (k_new k) as [new|] eqn:HN; [|discriminate HJ]. cbn [rbind] in HJ.
  split; [split; [now exists de|split; [now exists old|now exists new]]|]. destruct (k_super k) eqn:Es; [|specialize (H2 Es); subst ks; inversion H3; constructor].
  rewrite H1 in HJ. cbn [rbind] in HJ.
  assert (HM : mapM (fun kid => keep o (is_change kid) (is_ignored o kid)) ks = Ok (map (visible o) ks)).
  { clear - H3. induction H3 as [|a s l l' Ha H3 IH3]; [reflexivity|]. destruct (is_ignored_total o _ _ Ha) as (b & Hb).
    cbn [mapM map]. rewrite (keep_visible _ _ _ Hb). cbn [rbind]. now rewrite IH3. }
  rewrite HM in HJ. cbn [rbind] in HJ. destruct (mapM (json_of o) _) as [js|] eqn:EJ; [|discriminate HJ]. clear - IH H3 EJ.
  revert js EJ. induction H3 as [|a s l l' Ha H3 IH3]; intros js EJ; [constructor|]. inversion IH as [|? ? I1 I2]; subst. assert (Et : top s = a) by (destruct Ha; reflexivity).
  cbn [map combine filter snd] in EJ. destruct (visible o a) eqn:Ev.
  - cbn [map fst mapM] in EJ. destruct (json_of o a) as [x|] eqn:Ex; [|discriminate EJ]. cbn [rbind] in EJ. destruct (mapM (json_of o) _) as [xs|] eqn:Exs; [|discriminate EJ].
    constructor; [intros _; exact (I1 a x Ha Ex)|exact (IH3 I2 xs eq_refl)].
  - constructor; [rewrite Et, Ev; discriminate|exact (IH3 I2 js EJ)].
Qed.

(** ** Squashing *)
Lemma squash_facts c o ig s : is_ignored o c = Ok ig -> squash c false (Some o) = Ok s ->
  is_change s = is_change c /\ (forall o', is_ignored o' s = Ok ig) /\ k_label (k_of s) = k_label (k_of c) /\
  (get_description c <> Ok [] -> get_description s = get_description c) /\ k_entry (k_of s) = k_entry (k_of c) /\ refs s = [] /\ collect s = Ok [] /\
  k_removal (k_of s) = k_removal (k_of c) /\ k_addition (k_of s) = (k_addition (k_of c) && negb (k_removal (k_of c))) /\
  k_orig (k_of s) = Some (k_name (k_of c)) /\ check s = Ok s.
Proof.
  intros Hi H. unfold squash in H. rewrite Hi in H. cbn [rbind] in H. destruct (get_description c) as [de|] eqn:HD; [|discriminate H]. cbn [rbind] in H. injection H as <-.
  assert (G : forall n a r, is_change (squashed n a r c de ig) = is_change c /\ (forall o', is_ignored o' (squashed n a r c de ig) = Ok ig) /\
    k_label (k_of (squashed n a r c de ig)) = k_label (k_of c) /\ (Ok de <> Ok [] -> get_description (squashed n a r c de ig) = Ok de) /\
    k_entry (k_of (squashed n a r c de ig)) = k_entry (k_of c) /\ refs (squashed n a r c de ig) = [] /\ collect (squashed n a r c de ig) = Ok [] /\
    k_orig (k_of (squashed n a r c de ig)) = Some (k_name (k_of c)) /\ check (squashed n a r c de ig) = Ok (squashed n a r c de ig)).
  { intros n a r. unfold squashed. split; [reflexivity|]. split; [intro o'; cbn; destruct ig; reflexivity|]. split; [reflexivity|]. split.
    - intro Hd. cbn. destruct de; [now destruct Hd|reflexivity].
    - repeat split; reflexivity. }
  destruct (k_removal (k_of c)) eqn:Er; [|destruct (k_addition (k_of c)) eqn:Ea].
  - destruct (G N_SquashedRemoval false true) as (G1 & G2 & G3 & G4 & G5 & G6 & G7 & G8 & G9). rewrite andb_false_r. repeat (split; [assumption || reflexivity|]). assumption.
  - destruct (G N_SquashedAddition true false) as (G1 & G2 & G3 & G4 & G5 & G6 & G7 & G8 & G9). repeat (split; [assumption || reflexivity|]). assumption.
  - destruct (G N_Squashed false false) as (G1 & G2 & G3 & G4 & G5 & G6 & G7 & G8 & G9). repeat (split; [assumption || reflexivity|]). assumption.
Qed.
Lemma squash_children_facts c o s ks : collect c = Ok ks -> ks <> [] -> Forall (fun kid => exists b, is_ignored o kid = Ok b) ks ->
  squash_children c o = Ok s ->
  is_change s = is_change c /\ is_ignored o s = is_ignored o c /\ get_description s = get_description c /\
  exists ks', collect s = Ok ks' /\ Forall2 (fun a b => squash a false (Some o) = Ok b) ks ks'.
Proof.
  destruct c as [k ch d cs im]. intros Hc Hne HT H. cbn [squash_children] in H. rewrite Hc in H. cbn [rbind] in H.
  destruct (mapM (fun kid => squash kid false (Some o)) ks) as [ks'|] eqn:EM; [|discriminate]. injection H as <-.
  rewrite <- sequence_map in EM. apply sequence_Forall2 in EM.
  assert (HC' : collect (Node k ch d ks' im) = Ok ks').
  { inversion EM; subst; [congruence|reflexivity]. }
  split; [reflexivity|]. split; [|split; [reflexivity|exists ks'; split; [exact HC'|exact EM]]].
  rewrite !is_ignored_eq, Hc, HC'. destruct (k_own k o); [reflexivity|]. destruct (negb (k_parts k)); [reflexivity|].
  change (is_change (Node k ch d ks' im)) with (is_change (Node k ch d cs im)). destruct (negb _); [reflexivity|]. cbn [rbind].
  assert (HA : map (fun kid => (is_change kid, is_ignored o kid)) ks' = map (fun kid => (is_change kid, is_ignored o kid)) ks).
  { clear - EM HT. induction EM as [|a b l l' Hab EM IH]; [reflexivity|]. inversion HT as [|? ? (r & Hr) HT']; subst. cbn [map]. rewrite (IH HT').
    destruct (squash_facts _ _ _ _ Hr Hab) as (S1 & S2 & _). now rewrite S1, S2, Hr. }
  destruct EM; [congruence|]. now rewrite HA.
Qed.

(** ** Grouping by type *)
Section Grouping.
Context {A : Type}.
Variable tyof : A -> str.
Notation cbt := (collect_by_type tyof).

Definition step (cache : dict (list A)) (v : A) : dict (list A) :=
  match dget cache (tyof v) with Some bucket => dset cache (tyof v) (bucket ++ [v]) | None => dset cache (tyof v) [v] end.
Lemma dget_dset_same {V} (d : dict V) k v : dget (dset d k v) k = Some v.
Proof. induction d as [|[k' v'] d IH]; cbn [dset dget]; [now rewrite seqb_refl|]. destruct (seqb k k') eqn:E; cbn [dget]; rewrite E; [reflexivity|exact IH]. Qed.
Lemma dget_dset_other {V} (d : dict V) k k' v : k' <> k -> dget (dset d k v) k' = dget d k'.
Proof.
  intro H. induction d as [|[k0 v0] d IH]; cbn [dset dget]; [destruct (seqb_spec k' k); [contradiction|reflexivity]|].
  destruct (seqb_spec k k0) as [->|]; cbn [dget]; destruct (seqb k' k0) eqn:E; try reflexivity; [apply seqb_eq in E; contradiction|exact IH].
Qed.
Lemma dkeys_dset {V} (d : dict V) k v : dkeys (dset d k v) = if dhas d k then dkeys d else dkeys d ++ [k].
Proof.
  unfold dhas. induction d as [|[k' v'] d IH]; cbn [dset dget dkeys map fst]; [reflexivity|]. destruct (seqb k k'); cbn [map fst]; [reflexivity|].
  unfold dkeys in IH. rewrite IH. destruct (dget d k); reflexivity.
Qed.
Lemma NoDup_dset {V} (d : dict V) k v : NoDup (dkeys d) -> NoDup (dkeys (dset d k v)).
Proof.
  intro H. rewrite dkeys_dset. unfold dhas. destruct (dget d k) eqn:E; [exact H|].
  assert (G : ~ In k (dkeys d)).
  { clear H. induction d as [|[k' v'] d IH]; [intros []|]. cbn [dget] in E. destruct (seqb_spec k k') as [->|Hk]; [discriminate|]. intros [<-|HI]; [now apply Hk|now apply IH]. }
  revert H G. generalize (dkeys d) as l. induction l as [|x l IH]; intros H G; cbn [app]; [constructor; [intros []|constructor]|]. inversion H; subst. constructor.
  - intro HI. apply in_app_or in HI as [HI|[HI|[]]]; [contradiction|]. subst. apply G. now left.
  - apply IH; [assumption|]. intro. apply G. now right.
Qed.

(** The cache holds each type's objects in order. *)
Definition good (objs : list A) (cache : dict (list A)) : Prop :=
  NoDup (dkeys cache) /\ forall t, (dget cache t = None /\ of_type tyof t objs = []) \/ (dget cache t = Some (of_type tyof t objs) /\ of_type tyof t objs <> []).
Lemma good_step objs cache v : good objs cache -> good (objs ++ [v]) (step cache v).
Proof.
  intros [H1 H2]. unfold step. assert (EO : forall t, of_type tyof t (objs ++ [v]) = of_type tyof t objs ++ (if seqb (tyof v) t then [v] else [])).
  { intro t. unfold of_type. rewrite filter_app. reflexivity. }
  assert (G : forall b, b = of_type tyof (tyof v) objs ++ [v] -> good (objs ++ [v]) (dset cache (tyof v) b)).
  { intros b ->. split; [now apply NoDup_dset|]. intro t. rewrite EO. destruct (seqb_spec (tyof v) t) as [<-|Ht].
    - right. rewrite dget_dset_same. split; [reflexivity|]. destruct (of_type tyof (tyof v) objs); discriminate.
    - rewrite app_nil_r, dget_dset_other by congruence. apply H2. }
  destruct (H2 (tyof v)) as [[E1 E2]|[E1 E2]]; rewrite E1; apply G; [now rewrite E2|reflexivity].
Qed.
Lemma good_collect objs : good objs (cbt objs).
Proof.
  unfold collect_by_type. change (fun (cache : dict (list A)) (v : A) => match dget cache (tyof v) with Some bucket => dset cache (tyof v) (bucket ++ [v]) | None => dset cache (tyof v) [v] end) with step.
  assert (G : forall l pre cache, good pre cache -> good (pre ++ l) (fold_left step l cache)).
  { induction l as [|v l IH]; intros pre cache H; [now rewrite app_nil_r|]. cbn [fold_left]. change (pre ++ v :: l) with (pre ++ [v] ++ l). rewrite app_assoc. apply IH. now apply good_step. }
  apply (G objs [] []). split; [constructor|]. intro t. now left.
Qed.

(** Blocks: what a dict of buckets is made of. *)
Definition blocks (d : dict (list A)) : Prop := NoDup (dkeys d) /\ Forall (fun tb => Forall (fun v => tyof v = fst tb) (snd tb)) d.
Lemma blocks_collect objs : blocks (cbt objs) /\ Permutation (concat (map snd (cbt objs))) objs.
Proof.
  pose proof (good_collect objs) as [H1 H2]. split.
  - split; [exact H1|]. apply Forall_forall. intros [t b] Hi. cbn [fst snd].
    assert (HG : dget (cbt objs) t = Some b).
    { clear H2. revert H1 Hi. generalize (cbt objs) as d. induction d as [|[k v] d IH]; intros HN Hi; [destruct Hi|]. cbn [dget]. inversion HN as [|? ? N1 N2]; subst.
      destruct Hi as [E|Hi]; [injection E as -> ->; now rewrite seqb_refl|]. destruct (seqb_spec t k) as [->|]; [|now apply IH].
      exfalso. apply N1. apply in_map_iff. now exists (k, b). }
    destruct (H2 t) as [[E _]|[E _]]; [congruence|]. rewrite HG in E. injection E as ->. apply Forall_forall. intros v Hv. unfold of_type in Hv. apply filter_In in Hv as [_ Hv].
    now apply seqb_eq.
  - unfold collect_by_type. change (fun (cache : dict (list A)) (v : A) => match dget cache (tyof v) with Some bucket => dset cache (tyof v) (bucket ++ [v]) | None => dset cache (tyof v) [v] end) with step.
    assert (GS : forall d v, Permutation (concat (map snd (step d v))) (v :: concat (map snd d))).
    { intros d v. unfold step. assert (G : forall d k, match dget d k with
          | Some b => Permutation (concat (map snd (dset d k (b ++ [v])))) (v :: concat (map snd d))
          | None => Permutation (concat (map snd (dset d k [v]))) (v :: concat (map snd d)) end).
      { clear. induction d as [|[k' b'] d IH]; intro k; cbn [dget dset]; [reflexivity|]. destruct (seqb k k') eqn:E.
        - cbn [map concat snd]. rewrite <- app_assoc. cbn [app]. symmetry. apply Permutation_middle.
        - specialize (IH k). destruct (dget d k); cbn [map concat snd]; (etransitivity; [apply Permutation_app_head; exact IH|]; symmetry; apply Permutation_middle). }
      specialize (G d (tyof v)). destruct (dget d (tyof v)); exact G. }
    assert (G : forall l d, Permutation (concat (map snd (fold_left step l d))) (concat (map snd d) ++ l)).
    { induction l as [|v l IH]; intro d; cbn [fold_left]; [now rewrite app_nil_r|]. etransitivity; [apply IH|]. etransitivity; [apply Permutation_app_tail; apply GS|].
      cbn [app]. apply Permutation_middle. }
    apply G.
Qed.

Lemma dget_split {V} (d : dict V) k v : dget d k = Some v -> exists d1 d2, d = d1 ++ (k, v) :: d2 /\ ddel d k = d1 ++ d2.
Proof.
  induction d as [|[k' v'] d IH]; cbn [dget ddel]; [discriminate|]. destruct (seqb_spec k k') as [->|H]; intro E.
  - injection E as ->. exists [], d. split; reflexivity.
  - destruct (IH E) as (d1 & d2 & -> & ->). exists ((k', v') :: d1), d2. split; reflexivity.
Qed.
Lemma ddel_none {V} (d : dict V) k : dget d k = None -> ddel d k = d /\ ~ In k (dkeys d).
Proof.
  induction d as [|[k' v'] d IH]; cbn [dget ddel]; [intros _; split; [reflexivity|intros []]|]. destruct (seqb_spec k k') as [->|H]; [discriminate|].
  intro E. destruct (IH E) as [-> HN]. split; [reflexivity|]. intros [<-|HI]; [now apply H|now apply HN].
Qed.

(** The popped buckets followed by the rest are the buckets, sorted by rank. *)
Lemma pop_sorted ts : forall d, blocks d -> exists d', Permutation d d' /\ blocks d' /\
  (let (r, c) := pop_types d ts in r ++ concat (map snd c)) = concat (map snd d') /\
  (forall i j x y, (i <= j)%nat -> nth_error (dkeys d') i = Some x -> nth_error (dkeys d') j = Some y -> (rank ts x <= rank ts y)%nat).
Proof.
  induction ts as [|t ts IH]; intros d HB.
  - exists d. cbn. repeat (split; [auto|]). intros; lia.
  - cbn [pop_types]. destruct (dget d t) as [b|] eqn:E.
    + destruct (dget_split _ _ _ E) as (d1 & d2 & -> & Ed). rewrite Ed. destruct HB as [B1 B2].
      assert (Bd : blocks (d1 ++ d2) /\ ~ In t (dkeys (d1 ++ d2)) /\ Forall (fun v => tyof v = t) b).
      { unfold dkeys in *. rewrite map_app in B1. cbn [map fst] in B1. split; [split|].
        - unfold dkeys. rewrite map_app. now apply NoDup_remove_1 in B1.
        - apply Forall_app in B2 as [B2 B3]. apply Forall_app. split; [exact B2|]. now inversion B3.
        - split; [rewrite map_app; now apply NoDup_remove_2 in B1|]. apply Forall_app in B2 as [_ B3]. inversion B3; assumption. }
      destruct Bd as (Bd & Nt & Hb). destruct (IH _ Bd) as (d' & P & B' & EQ & SO). destruct (pop_types (d1 ++ d2) ts) as [r c]. cbv iota in EQ |- *.
      assert (Nt' : ~ In t (dkeys d')).
      { intro HI. apply Nt. unfold dkeys in *. eapply Permutation_in; [apply Permutation_map; symmetry; exact P|exact HI]. }
      exists ((t, b) :: d'). split; [|split; [|split]].
      * etransitivity; [symmetry; apply Permutation_middle|]. now constructor.
      * split; [constructor; [exact Nt'|apply B']|]. constructor; [exact Hb|apply B'].
      * cbn [map concat snd]. rewrite <- app_assoc. now rewrite EQ.
      * intros i j x y Hij Hx Hy. cbn [rank]. destruct i as [|i], j as [|j]; cbn [dkeys map fst nth_error] in Hx, Hy.
        -- injection Hx as <-. injection Hy as <-. lia.
        -- injection Hx as <-. rewrite seqb_refl. lia.
        -- lia.
        -- assert (x <> t) by (intros ->; apply Nt'; eapply nth_error_In; exact Hx). assert (y <> t) by (intros ->; apply Nt'; eapply nth_error_In; exact Hy).
           destruct (seqb_spec x t); [contradiction|]. destruct (seqb_spec y t); [contradiction|]. apply le_n_S. apply (SO i j); [lia|exact Hx|exact Hy].
    + destruct (ddel_none _ _ E) as [-> Nt]. destruct (IH _ HB) as (d' & P & B' & EQ & SO). destruct (pop_types d ts) as [r c]. cbv iota in EQ |- *.
      exists d'. split; [exact P|]. split; [exact B'|]. split; [exact EQ|].
      assert (Nt' : ~ In t (dkeys d')).
      { intro HI. apply Nt. unfold dkeys in *. eapply Permutation_in; [apply Permutation_map; symmetry; exact P|exact HI]. }
      intros i j x y Hij Hx Hy. cbn [rank].
      assert (x <> t) by (intros ->; apply Nt'; eapply nth_error_In; exact Hx). assert (y <> t) by (intros ->; apply Nt'; eapply nth_error_In; exact Hy).
      destruct (seqb_spec x t); [contradiction|]. destruct (seqb_spec y t); [contradiction|]. apply le_n_S. now apply (SO i j).
Qed.

(** Position in a concatenation of blocks. *)
Lemma block_of d : blocks d -> forall i v, nth_error (concat (map snd d)) i = Some v -> exists q, nth_error (dkeys d) q = Some (tyof v).
Proof.
  intros [_ H]. induction H as [|[t b] d Hb H IH]; intros i v Hi; [destruct i; discriminate|]. cbn [map concat snd fst dkeys] in *.
  destruct (Nat.lt_ge_cases i (length b)) as [L|L].
  - rewrite nth_error_app1 in Hi by exact L. exists 0%nat. cbn. rewrite Forall_forall in Hb. f_equal. symmetry. apply Hb. eapply nth_error_In; exact Hi.
  - rewrite nth_error_app2 in Hi by exact L. destruct (IH _ _ Hi) as (q & Hq). now exists (S q).
Qed.
Lemma ordered_blocks ts d : blocks d -> (forall i j x y, (i <= j)%nat -> nth_error (dkeys d) i = Some x -> nth_error (dkeys d) j = Some y -> (rank ts x <= rank ts y)%nat) ->
  ordered tyof ts (concat (map snd d)) /\ grouped tyof (concat (map snd d)).
Proof.
  induction d as [|[t b] d IH]; intros HB HS.
  - split; [intros i j a b _ Hi|intros i j k a b c _ Hi]; destruct i; discriminate.
  - destruct HB as [B1 B2]. inversion B1 as [|? ? N1 N2]; subst. inversion B2 as [|? ? Hb B3]; subst. cbn [fst snd] in *.
    assert (HBd : blocks d) by (split; assumption).
    destruct IH as [IO IG]; [exact HBd| |].
    { intros i j x y Hij Hx Hy. apply (HS (S i) (S j)); [lia|exact Hx|exact Hy]. }
    rewrite Forall_forall in Hb. cbn [map concat snd]. split.
    + intros i j a c Hij Ha Hc. destruct (Nat.lt_ge_cases i (length b)) as [Li|Li].
      * rewrite nth_error_app1 in Ha by exact Li. rewrite (Hb a) by (eapply nth_error_In; exact Ha).
        destruct (Nat.lt_ge_cases j (length b)) as [Lj|Lj].
        -- rewrite nth_error_app1 in Hc by exact Lj. rewrite (Hb c) by (eapply nth_error_In; exact Hc). lia.
        -- rewrite nth_error_app2 in Hc by exact Lj. destruct (block_of d HBd _ _ Hc) as (q & Hq). apply (HS 0%nat (S q)); [lia|reflexivity|exact Hq].
      * rewrite nth_error_app2 in Ha by exact Li. rewrite nth_error_app2 in Hc by lia. apply (IO (i - length b)%nat (j - length b)%nat); [lia|exact Ha|exact Hc].
    + intros i j k a c e Hijk Ha Hc He Hac. destruct (Nat.lt_ge_cases i (length b)) as [Li|Li].
      * rewrite nth_error_app1 in Ha by exact Li. pose proof (Hb a ltac:(eapply nth_error_In; exact Ha)) as Ta.
        destruct (Nat.lt_ge_cases k (length b)) as [Lk|Lk].
        -- rewrite nth_error_app1 in Hc by lia. rewrite (Hb c) by (eapply nth_error_In; exact Hc). now rewrite Ta.
        -- rewrite nth_error_app2 in He by exact Lk. destruct (block_of d HBd _ _ He) as (q & Hq). exfalso. apply N1. rewrite <- Ta, Hac. eapply nth_error_In; exact Hq.
      * rewrite nth_error_app2 in Ha by exact Li. rewrite nth_error_app2 in Hc by lia. rewrite nth_error_app2 in He by lia.
        apply (IG (i - length b)%nat (j - length b)%nat (k - length b)%nat a c e); [lia|exact Ha|exact Hc|exact He|exact Hac].
Qed.
Lemma of_type_none t l : Forall (fun v => tyof v <> t) l -> of_type tyof t l = [].
Proof. induction 1 as [|v l Hv H IH]; [reflexivity|]. unfold of_type in *. cbn [filter]. destruct (seqb_spec (tyof v) t); [contradiction|exact IH]. Qed.
Lemma of_type_all t l : Forall (fun v => tyof v = t) l -> of_type tyof t l = l.
Proof. induction 1 as [|v l Hv H IH]; [reflexivity|]. unfold of_type in *. cbn [filter]. rewrite Hv, seqb_refl. now rewrite IH. Qed.
Lemma of_type_app t a b : of_type tyof t (a ++ b) = of_type tyof t a ++ of_type tyof t b.
Proof. apply filter_app. Qed.
Lemma of_type_blocks d t : blocks d -> of_type tyof t (concat (map snd d)) = match dget d t with Some b => b | None => [] end.
Proof.
  intros [B1 B2]. induction d as [|[k b] d IH]; [reflexivity|]. inversion B1 as [|? ? N1 N2]; subst. inversion B2 as [|? ? Hb B3]; subst. cbn [fst snd] in *.
  cbn [map concat snd dget]. rewrite of_type_app, (IH N2 B3). destruct (seqb_spec t k) as [->|Hk].
  - rewrite (of_type_all _ _ Hb). destruct (dget d k) as [b'|] eqn:E; [|apply app_nil_r]. exfalso. apply N1. destruct (dget_split _ _ _ E) as (d1 & d2 & -> & _).
    unfold dkeys. rewrite map_app. apply in_or_app. right. now left.
  - rewrite of_type_none; [reflexivity|]. eapply Forall_impl; [|exact Hb]. intros v Hv. cbn beta in Hv. congruence.
Qed.
Lemma dget_perm_nodup {V} (d d' : dict V) t : NoDup (dkeys d) -> Permutation d d' -> dget d t = dget d' t.
Proof.
  intros HN HP. assert (HN' : NoDup (dkeys d')) by (eapply Permutation_NoDup; [apply Permutation_map; exact HP|exact HN]).
  assert (G : forall (e : dict V) v, NoDup (dkeys e) -> (dget e t = Some v <-> In (t, v) e)).
  { clear. induction e as [|[k v'] e IH]; intros v HN; [split; [discriminate|intros []]|]. inversion HN as [|? ? N1 N2]; subst. cbn [dget]. destruct (seqb_spec t k) as [->|Hk].
    - split; [intro E; injection E as ->; now left|]. intros [E|HI]; [now injection E as ->|]. exfalso. apply N1. apply in_map_iff. now exists (k, v).
    - rewrite (IH v N2). split; [now right|]. intros [E|HI]; [congruence|exact HI]. }
  destruct (dget d t) as [v|] eqn:E.
  - symmetry. apply G; [exact HN'|]. eapply Permutation_in; [exact HP|]. now apply G.
  - destruct (dget d' t) as [v|] eqn:E'; [|reflexivity]. apply G in E'; [|exact HN']. symmetry in HP. apply (Permutation_in _ HP) in E'. apply G in E'; [congruence|exact HN].
Qed.

Theorem iterate_spec objs ts : let l := iterate_by_type tyof objs ts in
  Permutation l objs /\ (forall t, of_type tyof t l = of_type tyof t objs) /\ ordered tyof ts l /\ grouped tyof l.
Proof.
  cbv zeta. unfold iterate_by_type. destruct (blocks_collect objs) as [HB HP]. destruct (pop_sorted ts _ HB) as (d' & P & B' & EQ & SO).
  destruct (pop_types (cbt objs) ts) as [r c]. cbv iota in EQ. rewrite EQ. split; [|split].
  - etransitivity; [|exact HP]. rewrite <- !flat_map_concat_map. symmetry. now apply Permutation_flat_map.
  - intro t. rewrite (of_type_blocks _ _ B'). rewrite <- (dget_perm_nodup _ _ t (proj1 HB) P). destruct (proj2 (good_collect objs) t) as [[E1 E2]|[E1 E2]]; rewrite E1; [now rewrite E2|reflexivity].
  - now apply ordered_blocks.
Qed.
End Grouping.

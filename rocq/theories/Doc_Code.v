(** The data of code in JSON documents. *)
From Verif Require Import Base Pack_Model ConstPool_Model ConstPool_Spec ClassFile_Model Descr_Model Descr_Spec Descr_Proofs Opcodes_Model Opcodes_Spec Opcodes_Proofs Anno_Model
  Change_Model Change_Spec Change_Proofs Change_Report Classdiff_Model Classdiff_Spec Classdiff_Members Classdiff_Code Classdiff_Class Classdiff_Merge
  Info_Model Info_Spec Print_Spec Print_Decl Print_List Html_Spec Html_Page Html_Values Html_Class Text_Spec Text_Proofs Text_Class Doc_Spec Doc_Proofs.

(** ** Places of instructions *)
Lemma align_forward n : (n <= align4 n)%nat.
Proof. unfold align4. destruct (_ =? _)%nat; lia. Qed.
Lemma dis_args_forward c bc off a o : dis_args c bc off = Ok (a, o) -> (off <= o)%nat.
Proof.
  unfold dis_args. destruct (get_arg_format c) as [[[f| | |]|]|]; cbn [rbind]; try discriminate.
  - destruct (unpack_at f bc off) as [[v p]|] eqn:E; [|discriminate]. cbn [rbind]. intro H. injection H as <- <-. apply unpack_at_end in E. lia.
  - unfold unpack_lookupswitch. pose proof (align_forward off) as AF. destruct (unpack_at [ci; ci] bc (align4 off)) as [[v p]|] eqn:E; [|discriminate]. cbn [rbind]. destruct v as [|d [|n [|? ?]]]; try discriminate.
    destruct (read_pairs _ n bc p) as [[l q]|] eqn:R; [|discriminate]. cbn [rbind]. intro H. injection H as <- <-. apply unpack_at_end in E. apply read_pairs_end in R. lia.
  - unfold unpack_tableswitch. pose proof (align_forward off) as AF. destruct (unpack_at [ci; ci; ci] bc (align4 off)) as [[v p]|] eqn:E; [|discriminate]. cbn [rbind]. destruct v as [|d [|n [|m [|? ?]]]]; try discriminate.
    destruct (read_offs _ (m - n + 1) bc p) as [[l q]|] eqn:R; [|discriminate]. cbn [rbind]. intro H. injection H as <- <-. apply unpack_at_end in E. apply read_offs_end in R. lia.
  - unfold unpack_wide. destruct (nth_error bc off) as [k|]; [|discriminate]. destruct (k =? OP_iinc); [|destruct (existsb _ _); [|discriminate]].
    + destruct (unpack_at [cB; cH; ch] bc off) as [[v p]|] eqn:E; [|discriminate]. cbn [rbind]. intro H. injection H as <- <-. apply unpack_at_end in E. lia.
    + destruct (unpack_at [cB; cH] bc off) as [[v p]|] eqn:E; [|discriminate]. cbn [rbind]. intro H. injection H as <- <-. apply unpack_at_end in E. lia.
  - intro H. injection H as <- <-. lia.
Qed.
Lemma dis_places fuel : forall bc off l e, dis_loop fuel bc off = (l, e) -> Forall (fun i => (off <= i_off i)%nat) l /\ NoDup (map i_off l).
Proof.
  induction fuel as [|fuel IH]; intros bc off l e H; cbn [dis_loop] in H; (destruct (nth_error bc off) as [c|]; [|injection H as <- _; split; constructor]); [injection H as <- _; split; constructor|].
  destruct (dis_args c bc (S off)) as [[a o]|] eqn:E; [|injection H as <- _; split; constructor]. destruct (dis_loop fuel bc o) as [m x] eqn:EL. injection H as <- _. apply dis_args_forward in E.
  destruct (IH _ _ _ _ EL) as [H1 H2]. assert (H3 : Forall (fun i => (S off <= i_off i)%nat) m) by (eapply Forall_impl; [|exact H1]; cbv beta; lia). split.
  - constructor; [cbn [i_off]; lia|]. eapply Forall_impl; [|exact H3]. cbv beta. lia.
  - cbn [map i_off]. constructor; [|exact H2]. intro X. apply in_map_iff in X as (i & X & HI). rewrite Forall_forall in H3. specialize (H3 i HI). cbv beta in H3. lia.
Qed.
Lemma places bc l e : disassemble bc = (l, e) -> NoDup (map i_off l).
Proof. intro H. exact (proj2 (dis_places _ _ _ _ _ H)). Qed.
Lemma place_index l i j (a b : insn) : NoDup (map i_off l) -> nth_error l i = Some a -> nth_error l j = Some b -> i_off a = i_off b -> i = j.
Proof.
  intros ND HA HB E. rewrite NoDup_nth_error in ND. apply ND.
  - rewrite map_length. apply nth_error_Some. congruence.
  - rewrite !nth_error_map, HA, HB. cbn. congruence.
Qed.

(** ** Mnemonics *)
Lemma mnemonic_is c n : get_opname_by_code c = Ok n -> mnemonic c n.
Proof.
  unfold mnemonic. destruct (Z.eqb_spec c 194) as [->|N]; [intro H; vm_compute in H; apply ok_inj in H; now subst n|]. rewrite (names_jvm c N). destruct (jvm_name c) as [m|]; [|discriminate]. intro H. apply ok_inj in H. now subst m.
Qed.
Lemma operands_are a : obj_args a = operands a.
Proof. destruct a; reflexivity. Qed.
Lemma body_is k x : body_obj (Some k) = Ok x -> body_shown (k_code k) x.
Proof.
  unfold body_obj. destruct (disassemble_all (k_code k)) as [ds|] eqn:E; [|discriminate]. apply disassemble_all_iff in E. cbn [rbind]. destruct (mapM _ ds) as [rows|] eqn:EM; [|discriminate]. cbn [rbind]. intro H. apply ok_inj in H. subst x.
  exists ds, rows. split; [exact E|]. split; [|reflexivity]. clear E. revert rows EM. induction ds as [|i ds IH]; intros rows EM; cbn [mapM] in EM; [apply ok_inj in EM; subst rows; constructor|].
  destruct (get_opname_by_code (i_code i)) as [n|] eqn:EN; [|discriminate EM]. cbn [rbind] in EM. destruct (mapM _ ds) as [rows'|]; [|discriminate EM]. cbn [rbind] in EM. apply ok_inj in EM. subst rows.
  constructor; [|now apply IH]. exists n. split; [now apply mnemonic_is|]. now rewrite operands_are.
Qed.

(** ** Constants *)
Lemma loop_none lp rp l : forall r, const_loop lp rp l r = Ok None -> ~ same_ops l r.
Proof.
  induction l as [|a l IH]; intros [|b r] H; cbn [const_loop] in H; try discriminate H.
  destruct (Nat.eqb_spec (i_off a) (i_off b)) as [E1|E1], (Z.eqb_spec (i_code a) (i_code b)) as [E2|E2]; cbn [andb negb] in H;
    try (intro S; destruct (S 0%nat a b eq_refl eq_refl); contradiction).
  destruct (args_eq _ _ _ _ _) as [e|]; [|discriminate H]. cbn [rbind] in H. destruct (const_loop lp rp l r) as [[|]|] eqn:EL; try discriminate H.
  intro HS. apply (IH r EL). intros i x y. exact (HS (S i) x y).
Qed.
Lemma loop_some lp rp l : forall r os, Forall listed l -> Forall listed r -> const_loop lp rp l r = Ok (Some os) -> same_ops l r /\
  forall n, In n os <-> exists i a b, nth_error l i = Some a /\ nth_error r i = Some b /\ i_off a = n /\ ~ same_insn tool_resolved lp rp a b.
Proof.
  induction l as [|a l IH]; intros [|b r] os HL HR H; cbn [const_loop] in H; try (apply ok_inj in H; injection H as <-; split; [intros [|i] ? ? X Y; discriminate|]; intro n; split; [intros []|intros ([|i] & ? & ? & X & Y & _); discriminate]).
  inversion HL as [|? ? La HL']; subst. inversion HR as [|? ? Lb HR']; subst.
  destruct (Nat.eqb_spec (i_off a) (i_off b)) as [E1|E1], (Z.eqb_spec (i_code a) (i_code b)) as [E2|E2]; cbn [andb negb] in H; try discriminate H.
  pose proof (args_eq_iff lp rp a b La Lb E1 E2) as AI. destruct (args_eq _ _ _ _ _) as [e|]; [|discriminate H]. cbn [rbind] in H. destruct (const_loop lp rp l r) as [[os'|]|] eqn:EL; try discriminate H. cbn [rbind] in H.
  apply ok_inj in H. injection H as <-. destruct (IH r os' HL' HR' EL) as [S1 S2]. split; [intros [|i] x y HX HY; [cbn in HX, HY; injection HX as <-; injection HY as <-; now split|exact (S1 i x y HX HY)]|].
  intro n. assert (G : In n os' <-> exists i x y, nth_error (a :: l) (S i) = Some x /\ nth_error (b :: r) (S i) = Some y /\ i_off x = n /\ ~ same_insn tool_resolved lp rp x y) by exact (S2 n).
  destruct e.
  - rewrite G. split; [intros (i & X); now exists (S i)|]. intros ([|i] & x & y & HX & HY & HN & N); [|exists i, x, y; auto]. cbn in HX, HY. injection HX as <-. injection HY as <-. exfalso. apply N. now apply AI.
  - cbn [In]. rewrite G. split.
    + intros [<-|(i & X)]; [|now exists (S i)]. exists 0%nat, a, b. repeat split. intro X. apply AI in X. discriminate.
    + intros ([|i] & x & y & HX & HY & HN & N); [left|right; exists i, x, y; auto]. cbn in HX. injection HX as <-. exact HN.
Qed.

Section Data.
Variable fmt : pyval -> str.
Variable reprs : str -> str.
Variable ffmt : pyval -> str.

Lemma rows_chosen p os ds : Forall listed ds -> forall rows,
  mapM (fun i => if existsb (Nat.eqb (i_off i)) os then
          h <- has_const_arg (i_code i) ;;
          if h : bool then
            n <- get_opname_by_code (i_code i) ;;
            match i_args i with
            | AInts (a :: _) => v <- pretty_deref_const fmt (fun v => repr_o reprs (obj fmt v)) p a ;; Ok [OTuple [OInt (Z.of_nat (i_off i)); OStr n; obj fmt v]]
            | _ => Err IndexError
            end
          else Ok []
        else Ok []) ds = Ok rows ->
  exists is, picks (fun i => In (i_off i) os /\ tool_resolved (i_code i) = true) ds is /\ Forall2 (constant_row fmt reprs p) is (concat rows).
Proof.
  induction 1 as [|i ds [HI _] HL IH]; intros rows H; cbn [mapM] in H; [apply ok_inj in H; subst rows; exists []; split; constructor|].
  match type of H with rbind ?m _ = _ => destruct m as [row|] eqn:ER; [|discriminate H] end. cbn [rbind] in H. destruct (mapM _ ds) as [rows'|] eqn:EM; [|discriminate H]. cbn [rbind] in H. apply ok_inj in H. subst rows.
  destruct (IH rows' eq_refl) as (is & P & F). rewrite (has_const_tool _ HI) in ER. cbn [concat].
  assert (XI : existsb (Nat.eqb (i_off i)) os = true <-> In (i_off i) os).
  { rewrite existsb_exists. split; [intros (x & X & E); apply Nat.eqb_eq in E; now subst x|intro X; exists (i_off i); split; [exact X|apply Nat.eqb_refl]]. }
  destruct (existsb (Nat.eqb (i_off i)) os) eqn:EX; [cbn [rbind] in ER; destruct (tool_resolved (i_code i)) eqn:ET|].
  - destruct (get_opname_by_code (i_code i)) as [n|] eqn:EN; [|discriminate ER]. cbn [rbind] in ER. destruct (i_args i) as [[|k rest]| |] eqn:EA; try discriminate ER. destruct (pretty_deref_const _ _ p k) as [v|] eqn:EV; [|discriminate ER].
    cbn [rbind] in ER. apply ok_inj in ER. subst row. exists (i :: is). split; [apply picks_take; [|exact P]; split; [now apply XI|exact ET]|]. constructor; [|exact F].
    exists n, k, rest, v. split; [now apply mnemonic_is|]. auto.
  - apply ok_inj in ER. subst row. exists is. split; [|exact F]. apply picks_skip; [|exact P]. intros [_ X]. congruence.
  - apply ok_inj in ER. subst row. exists is. split; [|exact F]. apply picks_skip; [|exact P]. intros [X _]. apply XI in X. discriminate.
Qed.
Lemma constants_are lp rp l r x a b : code_offsets lp rp (Some l) (Some r) = Ok x ->
  not_none (constants_obj fmt reprs (Ok x) lp (Some l)) = Ok a -> not_none (constants_obj fmt reprs (Ok x) rp (Some r)) = Ok b ->
  constants_data fmt reprs lp rp (k_code l) (k_code r) a b.
Proof.
  intros HO HA HB. pose proof (code_constants_iff lp rp l r) as CI. unfold code_constants_check in CI. rewrite HO in CI. cbn [rbind] in CI. unfold code_offsets in HO.
  destruct (Nat.eqb_spec (length (k_code l)) (length (k_code r))) as [HL|HL]; cbn [negb] in HO.
  2:{ apply ok_inj in HO. subst x. apply ok_inj in HA, HB. subst a b. now apply constants_length. }
  destruct (disassemble_all (k_code l)) as [dl|] eqn:E1; [|discriminate HO]. destruct (disassemble_all (k_code r)) as [dr|] eqn:E2; [|discriminate HO]. cbn [rbind] in HO. pose proof E1 as D1. pose proof E2 as D2. apply disassemble_all_iff in D1, D2.
  destruct x as [[|n ns]|].
  - apply ok_inj in HA, HB. subst a b. apply constants_same. apply CI. now exists None.
  - assert (LL : Forall listed dl) by (eapply dis_loop_listed; exact D1). assert (LR : Forall listed dr) by (eapply dis_loop_listed; exact D2).
    destruct (loop_some lp rp dl dr _ LL LR HO) as [S1 S2]. pose proof (places _ _ _ D1) as NL. pose proof (places _ _ _ D2) as NR.
    unfold constants_obj in HA, HB. rewrite E1 in HA. rewrite E2 in HB. cbn [rbind] in HA, HB.
    destruct (mapM _ dl) as [ra|] eqn:EA in HA; [|discriminate HA]. destruct (mapM _ dr) as [rb|] eqn:EB in HB; [|discriminate HB]. cbn [rbind not_none] in HA, HB. apply ok_inj in HA, HB. subst a b.
    apply (rows_chosen lp (n :: ns) dl LL) in EA as (ia & PA & FA). apply (rows_chosen rp (n :: ns) dr LR) in EB as (ib & PB & FB).
    assert (AT : forall i j u v, nth_error dl i = Some u -> nth_error dr j = Some v -> i_off u = i_off v -> i = j).
    { intros i j u v HU HV E. destruct (Nat.lt_total i j) as [L|[L|L]]; [|exact L|].
      - destruct (nth_error dr i) as [w|] eqn:HW; [|apply nth_error_None in HW; assert (j < length dr)%nat by (apply nth_error_Some; congruence); lia].
        destruct (S1 i u w HU HW) as [E3 _]. apply (place_index dr i j w v NR HW HV). congruence.
      - destruct (nth_error dl j) as [w|] eqn:HW; [|apply nth_error_None in HW; assert (i < length dl)%nat by (apply nth_error_Some; congruence); lia].
        destruct (S1 j w v HW HV) as [E3 _]. apply (place_index dl i j u w NL HU HW). congruence. }
    apply (constants_other fmt reprs lp rp _ _ dl dr); [exact HL|exact D1|exact D2|exact S1|intro X; apply CI in X as (d & X); discriminate X| |].
    + exists ia, (concat ra). split; [|split; [exact FA|reflexivity]]. eapply picks_ext; [|exact PA]. intros u HU. apply In_nth_error in HU as (iu & HU). split.
      * intros [HI HT]. apply S2 in HI as (i & u' & v & H1 & H2 & H3 & H4). assert (i = iu) as -> by exact (place_index dl i iu u' u NL H1 HU H3). rewrite HU in H1. injection H1 as <-.
        destruct (S1 iu u v HU H2). exists v. split; [eapply nth_error_In; exact H2|]. repeat split; assumption.
      * intros (v & HV & HT & HE & HC & HN). split; [|exact HT]. apply In_nth_error in HV as (jv & HV). assert (jv = iu) as -> by (symmetry; exact (AT iu jv u v HU HV HE)). apply S2. exists iu, u, v. auto.
    + exists ib, (concat rb). split; [|split; [exact FB|reflexivity]]. eapply picks_ext; [|exact PB]. intros v HV. apply In_nth_error in HV as (jv & HV). split.
      * intros [HI HT]. apply S2 in HI as (i & u & v' & H1 & H2 & H3 & H4). assert (i = jv) as -> by exact (AT i jv u v H1 HV H3). rewrite HV in H2. injection H2 as <-.
        destruct (S1 jv u v H1 HV) as [E3 E4]. exists u. split; [eapply nth_error_In; exact H1|]. rewrite <- E4 in HT. repeat split; assumption.
      * intros (u & HU & HT & HE & HC & HN). split; [|now rewrite <- HC]. apply In_nth_error in HU as (iu & HU). assert (iu = jv) as -> by exact (AT iu jv u v HU HV HE). apply S2. exists jv, u, v. auto.
  - apply ok_inj in HA, HB. subst a b. apply (constants_ops _ _ _ _ _ _ dl dr D1 D2). exact (loop_none _ _ _ _ HO).
Qed.

(** ** The constant pool *)
Lemma entry_is k t : pretty_entry reprs ffmt (shown_const k) = Ok t ->
  exists v, t = Some (fst (const_text reprs (fun b => ffmt (PF32 b)) (fun b => ffmt (PF64 b)) k), v) /\ match v with PText s => OStr s | PNum z => OInt z end = constant_value reprs ffmt k.
Proof.
  destruct k; cbn [shown_const]; intro H; cbn in H; try discriminate H; apply ok_inj in H; subst t; eexists; (split; [reflexivity|]); try reflexivity.
Qed.
Lemma pool_is p x : not_none (pool_obj reprs ffmt p) = Ok x -> pool_value reprs ffmt p x.
Proof.
  unfold pool_obj, pretty_constants. destruct (mapM _ (tl p)) as [ts|] eqn:E; [|discriminate]. cbn [rbind not_none]. intro H. apply ok_inj in H. subst x. eexists. split; [reflexivity|]. intros l HP.
  rewrite (pool_list l p HP) in E. clear HP p.
  assert (G : forall n ts, mapM (pretty_entry reprs ffmt) (concat (map expand l)) = Ok ts ->
    concat (map (fun xy => match snd xy with
                       | Some (t, v) => [OTuple [OInt (Z.of_nat (fst xy)); OStr t; match v with PText s => OStr s | PNum z => OInt z end]]
                       | None => []
                       end) (combine (seq n (length ts)) ts)) = pool_rows reprs ffmt (Z.of_nat n) l); [|exact (G 1%nat ts E)].
  clear E ts. induction l as [|k l IH]; intros n ts E; [apply ok_inj in E; now subst ts|]. cbn [map concat] in E.
  assert (X : exists t ts', pretty_entry reprs ffmt (shown_const k) = Ok t /\ mapM (pretty_entry reprs ffmt) (concat (map expand l)) = Ok ts' /\
    (const_width k = 1 /\ ts = t :: ts' \/ const_width k = 2 /\ ts = t :: None :: ts')).
  { change (expand k) with (shown_const k :: (if jwidth k =? 2 then [KNone] else [])) in E. cbn [app mapM] in E. destruct (pretty_entry reprs ffmt (shown_const k)) as [t|]; [|discriminate E]. cbn [rbind] in E.
    assert (W : const_width k = if jwidth k =? 2 then 2 else 1) by (destruct k; reflexivity). destruct (jwidth k =? 2); cbn [app mapM pretty_entry] in E; cbn [rbind] in E;
      (destruct (mapM _ (concat (map expand l))) as [ts'|]; [|discriminate E]); cbn [rbind] in E; apply ok_inj in E; subst ts; exists t, ts'; auto. }
  destruct X as (t & ts' & X1 & X2 & X3). destruct (entry_is _ _ X1) as (v & -> & V). cbn [pool_rows]. rewrite <- V.
  destruct X3 as [[W ->]|[W ->]]; rewrite W; cbn [length seq combine map snd fst concat app]; f_equal.
  - replace (Z.of_nat n + 1) with (Z.of_nat (S n)) by lia. now apply IH.
  - replace (Z.of_nat n + 2) with (Z.of_nat (S (S n))) by lia. now apply IH.
Qed.
End Data.

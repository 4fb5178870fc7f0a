(** Proofs about annotations. *)
From Verif Require Import Base Pack_Model Pack_Spec Pack_Proofs Pack_Proofs2 ConstPool_Model ConstPool_Spec
  ConstPool_Proofs ConstPool_Deref ClassFile_Model ClassFile_Spec ClassFile_Proofs Anno_Model Anno_Spec.
From Coq Require Import Permutation.

(** ** Induction principles *)
Section Ind.
  Variable P : jval -> Prop.
  Hypothesis H1 : forall t i, P (VConst t i).
  Hypothesis H2 : forall t n, P (VEnum t n).
  Hypothesis H3 : forall i, P (VClass i).
  Hypothesis H4 : forall t l, Forall (fun e => P (snd e)) l -> P (VAnno t l).
  Hypothesis H5 : forall l, Forall P l -> P (VArr l).
  Fixpoint jval_ind' (v : jval) : P v :=
    match v with
    | VConst t i => H1 t i
    | VEnum t n => H2 t n
    | VClass i => H3 i
    | VAnno t l => H4 t l
        ((fix go (l : list (Z * jval)) : Forall (fun e => P (snd e)) l :=
            match l with [] => Forall_nil _ | e :: l' => Forall_cons e (jval_ind' (snd e)) (go l') end) l)
    | VArr l => H5 l
        ((fix go (l : list jval) : Forall P l :=
            match l with [] => Forall_nil _ | e :: l' => Forall_cons e (jval_ind' e) (go l') end) l)
    end.
End Ind.
Section Ind2.
  Variable P : rval -> Prop.
  Hypothesis H1 : forall t i, P (RConst t i).
  Hypothesis H2 : forall t n, P (REnum t n).
  Hypothesis H3 : forall i, P (RClass i).
  Hypothesis H4 : forall t l, Forall (fun e => P (snd e)) l -> P (RAnno t l).
  Hypothesis H5 : forall l, Forall P l -> P (RArr l).
  Fixpoint rval_ind' (v : rval) : P v :=
    match v with
    | RConst t i => H1 t i
    | REnum t n => H2 t n
    | RClass i => H3 i
    | RAnno t l => H4 t l
        ((fix go (l : list (str * rval)) : Forall (fun e => P (snd e)) l :=
            match l with [] => Forall_nil _ | e :: l' => Forall_cons e (rval_ind' (snd e)) (go l') end) l)
    | RArr l => H5 l
        ((fix go (l : list rval) : Forall P l :=
            match l with [] => Forall_nil _ | e :: l' => Forall_cons e (rval_ind' e) (go l') end) l)
    end.
End Ind2.
Section Ind3.
  Variable P : aval -> Prop.
  Hypothesis H1 : forall t i, P (AConst t i).
  Hypothesis H2 : forall t n, P (AEnum t n).
  Hypothesis H3 : forall i, P (AClass i).
  Hypothesis H4 : forall t l, Forall (fun e => P (snd e)) l -> P (AAnno t l).
  Hypothesis H5 : forall l, Forall P l -> P (AArr l).
  Fixpoint aval_ind' (v : aval) : P v :=
    match v with
    | AConst t i => H1 t i
    | AEnum t n => H2 t n
    | AClass i => H3 i
    | AAnno t l => H4 t l
        ((fix go (l : list (pyval * aval)) : Forall (fun e => P (snd e)) l :=
            match l with [] => Forall_nil _ | e :: l' => Forall_cons e (aval_ind' (snd e)) (go l') end) l)
    | AArr l => H5 l
        ((fix go (l : list aval) : Forall P l :=
            match l with [] => Forall_nil _ | e :: l' => Forall_cons e (aval_ind' e) (go l') end) l)
    end.
End Ind3.

(** ** Decoding *)
Lemma distinct_NoDup l : distinct l = true <-> NoDup l.
Proof.
  induction l as [|s l IH]; cbn [distinct]; [split; [constructor|reflexivity]|].
  rewrite andb_true_iff, negb_true_iff, IH. split.
  - intros [H1 H2]. constructor; [|exact H2]. intro Hin.
    assert (existsb (seqb s) l = true) by (apply existsb_exists; exists s; split; [exact Hin|apply seqb_refl]). congruence.
  - intro H. inversion H as [|? ? Hn Hd]; subst. split; [|exact Hd].
    destruct (existsb (seqb s) l) eqn:E; [|reflexivity]. apply existsb_exists in E as (x & Hx & E).
    apply seqb_eq in E. subst x. contradiction.
Qed.

Lemma eset_new d k v : ~ In (PStr k) (map fst d) -> eset d (PStr k) v = d ++ [(PStr k, v)].
Proof.
  induction d as [|[k' v'] d IH]; intro H; [reflexivity|]. cbn [eset app].
  destruct (py_eq (PStr k) k') eqn:E.
  - apply py_eq_str in E. subst k'. exfalso. apply H. now left.
  - rewrite IH; [reflexivity|]. intro Hin. apply H. now right.
Qed.

Section Decode.
  Variables (l : list jconst) (p : pool).
  Hypothesis Hp : pool_shows l p.

  Definition enc_elem (e : Z * jval) := e2 (fst e) ++ enc_val (snd e).
  Definition shown_elem (e : Z * jval) := (PStr (elem_name l (fst e)), shown_val l (snd e)).

  Lemma prun_elems pv es : forall d rest,
    Forall (fun e => jval_ok l (snd e) = true -> forall r, prun pv (enc_val (snd e) ++ r) = Ok (shown_val l (snd e), r)) es ->
    forallb (fun e => match jutf8_at l (fst e) with Some _ => true | None => false end) es = true ->
    forallb (fun e => u2 (fst e) && jval_ok l (snd e)) es = true ->
    NoDup (map (fun e => elem_name l (fst e)) es) ->
    (forall e, In e es -> ~ In (PStr (elem_name l (fst e))) (map fst d)) ->
    prun (p_elems p pv (length es) d) (concat (map enc_elem es) ++ rest) =
      Ok (d ++ map shown_elem es, rest).
  Proof.
    induction es as [|[i v] es IH]; intros d rest HF Hn Hok HD Hd.
    - cbn. now rewrite app_nil_r.
    - cbn [length p_elems map concat forallb fst snd] in *. unfold enc_elem at 1. cbn [fst snd].
      apply andb_prop in Hok as [Hv Hok]. apply andb_prop in Hv as [Hi Hv].
      apply andb_prop in Hn as [Hn1 Hn].
      inversion HF as [|? ? HF1 HF2]; subst. inversion HD as [|? ? HD1 HD2]; subst. cbn [snd] in HF1.
      rewrite <- !app_assoc. unfold e2. rewrite prun_unpack1 by exact Hi.
      rewrite prun_bind, HF1 by exact Hv. rewrite prun_bind.
      unfold elem_name in HD1. destruct (jutf8_at l i) as [s|] eqn:Es; [|discriminate].
      pose proof (utf8_derefs l p Hp i s Es) as Hdr. apply deref_const_iff in Hdr. rewrite Hdr.
      cbn [p_lift prun].
      assert (Hfresh : ~ In (PStr s) (map fst d)).
      { pose proof (Hd (i, v) (or_introl eq_refl)) as H. cbn [fst] in H. unfold elem_name in H. now rewrite Es in H. }
      rewrite (eset_new d s _ Hfresh).
      rewrite (IH (d ++ [(PStr s, shown_val l v)]) rest HF2 Hn Hok HD2).
      + assert (Ee : shown_elem (i, v) = (PStr s, shown_val l v))
          by (unfold shown_elem, elem_name; cbn [fst snd]; now rewrite Es).
        rewrite Ee, <- app_assoc. reflexivity.
      + intros e He. rewrite map_app. cbn [map fst]. intro Hin. apply in_app_or in Hin as [Hin|[Hin|[]]].
        * eapply (Hd e); [now right|exact Hin].
        * injection Hin as E. apply HD1. apply in_map_iff. exists e. split; [now symmetry|exact He].
  Qed.

  Lemma prun_vals pv vs : forall rest,
    Forall (fun v => jval_ok l v = true -> forall r, prun pv (enc_val v ++ r) = Ok (shown_val l v, r)) vs ->
    forallb (jval_ok l) vs = true ->
    prun (p_repeat (length vs) pv) (concat (map enc_val vs) ++ rest) = Ok (map (shown_val l) vs, rest).
  Proof.
    induction vs as [|v vs IH]; intros rest HF Hok; [reflexivity|].
    cbn [length p_repeat map concat forallb] in *. apply andb_prop in Hok as [Hv Hok].
    inversion HF; subst. rewrite <- app_assoc, prun_bind. rewrite H1 by exact Hv.
    rewrite prun_bind, IH by assumption. reflexivity.
  Qed.

  Lemma in_concat_len {A} (f : A -> bytes) x xs : In x xs -> (length (f x) <= length (concat (map f xs)))%nat.
  Proof.
    induction xs as [|y xs IH]; [contradiction|]. cbn [map concat]. rewrite app_length.
    intros [->|H]; [lia|]. specialize (IH H). lia.
  Qed.

  Lemma jtag_const t : jtag t = true -> is_const_tag t = true /\ field_ok cB t = true.
  Proof.
    unfold jtag. intro H. apply existsb_exists in H as (x & Hx & E). apply Z.eqb_eq in E. subst x.
    cbn in Hx. repeat (destruct Hx as [<-|Hx]; [split; vm_compute; reflexivity|]). contradiction.
  Qed.

  Lemma prun_tag {A} t (k : Z -> prog A) rest : field_ok cB t = true ->
    prun (pbind (p_unpack1 cB) k) (t :: rest) = prun (k t) rest.
  Proof.
    intro H. replace (t :: rest) with (enc_field cB t ++ rest).
    - now apply prun_unpack1.
    - unfold field_ok in H. cbn in H. cbn. rewrite !Z.mod_small by lia. reflexivity.
  Qed.

  Lemma prun_aval v : forall fuel rest, jval_ok l v = true -> (length (enc_val v) <= fuel)%nat ->
    prun (p_aval fuel p) (enc_val v ++ rest) = Ok (shown_val l v, rest).
  Proof.
    induction v as [t i|t n|i|t es IH|vs IH] using jval_ind'; intros fuel rest Hok Hf;
      (destruct fuel as [|fu]; [cbn in Hf; lia|]); cbn [enc_val length] in *; cbn [jval_ok] in Hok;
      cbn [p_aval app]; rewrite ?app_length in Hf.
    - apply andb_prop in Hok as [Ht Hi]. apply jtag_const in Ht as [Ht HB]. rewrite prun_tag by exact HB.
      rewrite Ht. unfold e2. now rewrite prun_unpack1 by exact Hi.
    - apply andb_prop in Hok as [Ht Hi]. rewrite prun_tag by reflexivity. change (is_const_tag 101) with false.
      cbn beta iota delta [Z.eqb Pos.eqb]. unfold e2. rewrite <- app_assoc. now rewrite prun_unpack2 by assumption.
    - rewrite prun_tag by reflexivity. change (is_const_tag 99) with false.
      cbn beta iota delta [Z.eqb Pos.eqb]. unfold e2. now rewrite prun_unpack1 by assumption.
    - rewrite prun_tag by reflexivity. change (is_const_tag 64) with false.
      cbn beta iota delta [Z.eqb Pos.eqb]. apply andb_prop in Hok as [Hok Hes]. apply andb_prop in Hok as [Ht Hn].
      unfold names_ok in Hn. apply andb_prop in Hn as [Hn Hd]. apply andb_prop in Hn as [Hs Hn].
      unfold short_list in Hs.
      unfold count16, e2 at 1 2. rewrite <- !app_assoc. rewrite prun_unpack2; [|exact Ht|apply field_u2; lia].
      cbn [fst snd]. rewrite Nat2Z.id, prun_bind.
      change (fun e : Z * jval => e2 (fst e) ++ enc_val (snd e)) with enc_elem.
      rewrite prun_elems.
      + cbn [app prun]. reflexivity.
      + rewrite Forall_forall in *. intros e He Hv r. apply IH; [exact He|exact Hv|].
        pose proof (in_concat_len enc_elem e es He) as HL.
        assert (HE : (length (enc_val (snd e)) <= length (enc_elem e))%nat)
          by (unfold enc_elem; rewrite app_length; lia).
        change (fun e : Z * jval => e2 (fst e) ++ enc_val (snd e)) with enc_elem in Hf.
        unfold bytes in *. lia.
      + exact Hn.
      + exact Hes.
      + now apply distinct_NoDup.
      + intros e He Hin. contradiction.
    - rewrite prun_tag by reflexivity. change (is_const_tag 91) with false.
      cbn beta iota delta [Z.eqb Pos.eqb]. apply andb_prop in Hok as [Hs Hok]. unfold short_list in Hs.
      unfold count16, e2. rewrite <- app_assoc, prun_unpack1 by (apply field_u2; lia).
      rewrite Nat2Z.id, prun_bind, prun_vals; [reflexivity| |exact Hok].
      rewrite Forall_forall in *. intros v Hv Hvok r. apply IH; [exact Hv|exact Hvok|].
      pose proof (in_concat_len enc_val v vs Hv). unfold bytes in *. lia.
  Qed.

  Lemma prun_annotation a fuel rest : janno_ok l a = true -> (length (enc_anno a) <= fuel)%nat ->
    prun (p_annotation fuel p) (enc_anno a ++ rest) = Ok (shown_anno l a, rest).
  Proof.
    destruct a as [t es]. intros Hok Hf.
    pose proof (prun_aval (VAnno t es) (S fuel) rest Hok) as H. cbn [enc_val length] in H.
    unfold enc_anno in *. cbn [fst snd] in *. specialize (H ltac:(lia)).
    cbn [app p_aval] in H. rewrite prun_tag in H by reflexivity. change (is_const_tag 64) with false in H.
    cbn beta iota delta [Z.eqb Pos.eqb] in H. unfold p_annotation. rewrite prun_bind in H. rewrite prun_bind.
    destruct (prun (p_unpack2 cH cH) _) as [[[a b] r]|e]; [|discriminate].
    rewrite prun_bind in H. rewrite prun_bind. destruct (prun (p_elems _ _ _ _) _) as [[d r']|e]; [|discriminate].
    cbn [prun shown_val fst snd] in *. injection H as -> -> ->. reflexivity.
  Qed.

  Lemma prun_annos al fuel rest : forallb (janno_ok l) al = true -> short_list al = true ->
    (length (enc_annos al) <= fuel)%nat ->
    prun (p_objects (p_annotation fuel p)) (enc_annos al ++ rest) = Ok (map (shown_anno l) al, rest).
  Proof.
    intros Hok Hs Hf. unfold short_list in Hs. unfold enc_annos, p_objects, count16, e2 in *.
    rewrite <- app_assoc, prun_unpack1 by (apply field_u2; lia). rewrite Nat2Z.id.
    rewrite app_length in Hf.
    assert (Hin : forall a, In a al -> (length (enc_anno a) <= fuel)%nat)
      by (intros a Ha; pose proof (in_concat_len enc_anno a al Ha); unfold bytes in *; lia).
    clear Hf Hs. revert rest. induction al as [|a al IH]; intro rest; [reflexivity|].
    cbn [forallb] in Hok. apply andb_prop in Hok as [Ha Hok]. cbn [length p_repeat map concat].
    rewrite <- app_assoc, prun_bind, prun_annotation; [|exact Ha|apply Hin; now left].
    rewrite prun_bind, IH; [reflexivity|exact Hok|]. intros b Hb. apply Hin. now right.
  Qed.

  Lemma prun_param_annos pl fuel rest :
    forallb (fun al => short_list al && forallb (janno_ok l) al) pl = true ->
    (length (concat (map enc_annos pl)) <= fuel)%nat ->
    prun (p_repeat (length pl) (p_objects (p_annotation fuel p))) (concat (map enc_annos pl) ++ rest) =
      Ok (map (map (shown_anno l)) pl, rest).
  Proof.
    revert rest. induction pl as [|al pl IH]; intros rest Hok Hf; [reflexivity|].
    cbn [forallb length p_repeat map concat] in *. apply andb_prop in Hok as [Ha Hok]. apply andb_prop in Ha as [Hs Ha].
    rewrite app_length in Hf.
    rewrite <- app_assoc, prun_bind, prun_annos; [|exact Ha|exact Hs|lia].
    rewrite prun_bind, IH; [reflexivity|exact Hok|lia].
  Qed.

  Lemma annotations_decode d al jal n : attrs_show l jal d ->
    forallb (janno_ok l) al = true -> short_list al = true ->
    last_named l jal n = Some (enc_annos al) ->
    annotations_of p d n = Ok (map (shown_anno l) al).
  Proof.
    intros [Ha _] Hok Hs Hn. unfold annotations_of. rewrite Ha, Hn. apply parse_ok.
    pose proof (prun_annos al (S (length (enc_annos al))) [] Hok Hs ltac:(lia)) as H.
    now rewrite app_nil_r in H.
  Qed.

  Lemma param_annotations_decode d pl jal n : attrs_show l jal d ->
    forallb (fun al => short_list al && forallb (janno_ok l) al) pl = true ->
    Z.of_nat (length pl) < 256 ->
    last_named l jal n = Some (enc_param_annos pl) ->
    param_annotations_of p d n = Ok (map (map (shown_anno l)) pl).
  Proof.
    intros [Ha _] Hok Hs Hn. unfold param_annotations_of. rewrite Ha, Hn. apply parse_ok.
    unfold enc_param_annos at 2. rewrite prun_tag by (unfold field_ok; cbn; lia). rewrite Nat2Z.id.
    pose proof (prun_param_annos pl (S (length (enc_param_annos pl))) [] Hok) as H.
    rewrite app_nil_r in H. apply H. unfold enc_param_annos. cbn [length]. lia.
  Qed.
End Decode.

(** ** Decoding arbitrary bytes never runs out of fuel *)
Lemma prun_shrinks {A} (q : prog A) : forall bs a rest, prun q bs = Ok (a, rest) -> (length rest <= length bs)%nat.
Proof.
  induction q as [x|e|f k IH|n k IH]; intros bs a rest H; cbn [prun] in H.
  - injection H as <- <-. lia.
  - discriminate.
  - destruct (_ <? _)%nat; [discriminate|]. apply IH in H. rewrite skipn_length in H. lia.
  - destruct (_ <? _)%nat; [discriminate|]. apply IH in H. rewrite skipn_length in H. lia.
Qed.

Definition fueled (n : nat) {A} (q : prog A) : Prop :=
  forall bs, (length bs <= n)%nat -> prun q bs <> Err OutOfFuel.

Lemma fueled_bind n {A B} (q : prog A) (k : A -> prog B) :
  fueled n q -> (forall a, fueled n (k a)) -> fueled n (pbind q k).
Proof.
  intros H1 H2 bs Hb. rewrite prun_bind. specialize (H1 bs Hb).
  destruct (prun q bs) as [[a r]|e] eqn:E; [|congruence].
  apply H2. apply prun_shrinks in E. lia.
Qed.
Lemma fueled_ret n {A} (a : A) : fueled n (PRet a).
Proof. intros bs _ H. discriminate. Qed.
Lemma fueled_unpack1 n c : fueled n (p_unpack1 c).
Proof.
  intros bs _ H. unfold p_unpack1 in H. cbn [prun] in H. destruct (_ <? _)%nat; [discriminate|].
  destruct (sdecode _ _) as [|? [|]]; discriminate.
Qed.
Lemma fueled_unpack2 n c d : fueled n (p_unpack2 c d).
Proof.
  intros bs _ H. unfold p_unpack2 in H. cbn [prun] in H. destruct (_ <? _)%nat; [discriminate|].
  destruct (sdecode _ _) as [|? [|? [|]]]; discriminate.
Qed.
Lemma fueled_deref n p i : fueled n (p_lift (deref_const p i)).
Proof.
  intros bs _ H. destruct (deref_const p i) as [v|e] eqn:E; [discriminate|]. cbn in H. injection H as ->.
  apply (proj1 (deref_const_fails p i)) in E as [E|[E|E]]; discriminate.
Qed.
Lemma fueled_repeat n m {A} (q : prog A) : fueled n q -> fueled n (p_repeat m q).
Proof.
  intro H. induction m as [|m IH]; cbn [p_repeat]; [apply fueled_ret|].
  apply fueled_bind; [exact H|]. intro a. apply fueled_bind; [exact IH|]. intro b. apply fueled_ret.
Qed.
Lemma fueled_elems n p q m : fueled n q -> forall d, fueled n (p_elems p q m d).
Proof.
  intro H. induction m as [|m IH]; intro d; cbn [p_elems]; [apply fueled_ret|].
  apply fueled_bind; [apply fueled_unpack1|]. intro k. apply fueled_bind; [exact H|]. intro v.
  apply fueled_bind; [apply fueled_deref|]. intro kk. apply IH.
Qed.

Lemma aval_fueled p : forall fuel, fueled fuel (p_aval (S fuel) p).
Proof.
  induction fuel as [|fu IH]; intros bs Hb; cbn [p_aval]; rewrite prun_bind.
  - destruct bs as [|t bs]; cbn [length] in Hb; [|lia]. cbn. discriminate.
  - destruct (prun (p_unpack1 cB) bs) as [[t r]|e] eqn:E.
    2:{ pose proof (fueled_unpack1 (length bs) cB bs (le_n _)) as HU. congruence. }
    assert (Hr : (length r <= fu)%nat).
    { unfold p_unpack1 in E. cbn [prun] in E. destruct (Nat.ltb_spec (length bs) (size [cB])) as [Hl|Hl]; [discriminate|].
      cbn in Hl. destruct (sdecode _ _) as [|? [|]]; cbn in E; try discriminate. injection E as _ <-.
      destruct bs; cbn [length] in *; [lia|]. cbn. lia. }
    revert r Hr E. intros r Hr _. revert r Hr.
    match goal with |- forall r, _ -> prun ?q r <> _ => change (fueled fu q) end.
    destruct (is_const_tag t); [|destruct (t =? 101); [|destruct (t =? 99); [|destruct (t =? 64); [|destruct (t =? 91)]]]].
    + apply fueled_bind; [apply fueled_unpack1|]. intro. apply fueled_ret.
    + apply fueled_bind; [apply fueled_unpack2|]. intro. apply fueled_ret.
    + apply fueled_bind; [apply fueled_unpack1|]. intro. apply fueled_ret.
    + apply fueled_bind; [apply fueled_unpack2|]. intro a. apply fueled_bind; [|intro; apply fueled_ret].
      apply fueled_elems, IH.
    + apply fueled_bind; [apply fueled_unpack1|]. intro a. apply fueled_bind; [|intro; apply fueled_ret].
      apply fueled_repeat, IH.
    + intros bs' _ H. discriminate.
Qed.

Lemma parse_fueled {A} (q : prog A) bs : fueled (length bs) q -> parse_buf q bs <> Err OutOfFuel.
Proof.
  intros H E. unfold parse_buf in E. rewrite (proj1 (run_both q bs)) in E.
  specialize (H bs (le_n _)). destruct (prun q bs) as [[a r]|e]; congruence.
Qed.

Lemma annotation_fueled p n : fueled n (p_annotation (S n) p).
Proof.
  unfold p_annotation. apply fueled_bind; [apply fueled_unpack2|]. intro a.
  apply fueled_bind; [|intro; apply fueled_ret]. apply fueled_elems, aval_fueled.
Qed.
Lemma annotations_total p d n : annotations_of p d n <> Err OutOfFuel.
Proof.
  unfold annotations_of. destruct (get_attribute d n) as [b|]; [|discriminate]. apply parse_fueled.
  unfold p_objects. apply fueled_bind; [apply fueled_unpack1|]. intro. apply fueled_repeat, annotation_fueled.
Qed.
Lemma param_annotations_total p d n : param_annotations_of p d n <> Err OutOfFuel.
Proof.
  unfold param_annotations_of. destruct (get_attribute d n) as [b|]; [|discriminate]. apply parse_fueled.
  apply fueled_bind; [apply fueled_unpack1|]. intro. apply fueled_repeat. unfold p_objects.
  apply fueled_bind; [apply fueled_unpack1|]. intro. apply fueled_repeat, annotation_fueled.
Qed.

(** ** Equality *)
Lemma Forall2_length {A B} {R : A -> B -> Prop} {l m} : Forall2 R l m -> length l = length m.
Proof. induction 1; cbn [length]; lia. Qed.
Lemma const_eq_spec lp rp i j v w : derefs lp i v -> derefs rp j w -> const_eq lp rp i j = Ok (py_eq v w).
Proof.
  intros H1 H2. apply deref_const_iff in H1. apply deref_const_iff in H2.
  unfold const_eq. rewrite H1. cbn [rbind]. rewrite H2. reflexivity.
Qed.

Section KeyMatch.
  Context {A B : Type} (R : A -> B -> Prop).
  Definition covered (ls : list (str * A)) (rs : list (str * B)) : Prop :=
    forall k a, In (k, a) ls -> exists b, In (k, b) rs /\ R a b.
  Definition RR (x : str * A) (y : str * B) := fst x = fst y /\ R (snd x) (snd y).

  Lemma match_perm ls : forall rs, NoDup (map fst ls) -> NoDup (map fst rs) -> length ls = length rs ->
    covered ls rs -> exists rs', Permutation rs rs' /\ Forall2 RR ls rs'.
  Proof.
    induction ls as [|[k a] ls IH]; intros rs H1 H2 HL Hc.
    - destruct rs; [|discriminate]. exists []. split; constructor.
    - destruct (Hc k a (or_introl eq_refl)) as (b & Hb & HR). apply in_split in Hb as (r1 & r2 & ->).
      inversion H1 as [|? ? Hn Hd]; subst.
      destruct (IH (r1 ++ r2)) as (rs' & HP & HF).
      + exact Hd.
      + rewrite map_app in *. cbn [map fst] in H2. now apply NoDup_remove_1 in H2.
      + rewrite app_length in *. cbn [length] in HL. lia.
      + intros k' a' Hin. destruct (Hc k' a' (or_intror Hin)) as (b' & Hb' & HR'). exists b'. split; [|exact HR'].
        apply in_app_or in Hb'. apply in_or_app. destruct Hb' as [Hb'|[Hb'|Hb']]; [now left| |now right].
        injection Hb' as -> ->. exfalso. apply Hn. apply in_map_iff. exists (k', a'). auto.
      + exists ((k, b) :: rs'). split.
        * symmetry. apply Permutation_cons_app. now symmetry.
        * constructor; [split; [reflexivity|exact HR]|exact HF].
  Qed.

  Lemma perm_covered ls rs rs' : Permutation rs rs' -> Forall2 RR ls rs' ->
    length ls = length rs /\ covered ls rs.
  Proof.
    intros HP HF. split.
    - rewrite (Permutation_length HP). eapply Forall2_length, HF.
    - intros k a Hin. assert (H : exists b, In (k, b) rs' /\ R a b).
      { clear HP. induction HF as [|x y ls rs' [E HR] HF IH]; [contradiction|].
        destruct Hin as [->|Hin].
        - destruct y as [k' b]. cbn [fst snd] in *. subst. exists b. split; [now left|exact HR].
        - destruct (IH Hin) as (b & Hb & HR'). exists b. split; [now right|exact HR']. }
      destruct H as (b & Hb & HR). exists b. split; [|exact HR].
      eapply Permutation_in; [symmetry; exact HP|exact Hb].
  Qed.
End KeyMatch.

Definition decides (lp rp : pool) (l : aval) : Prop := forall r r1 r2,
  means lp l r1 -> means rp r r2 -> exists b, aval_eq lp rp l r = Ok b /\ (b = true <-> req r1 r2).

Definition has_elem (p : pool) (e : pyval * aval) (r : str * rval) : Prop :=
  fst e = PStr (fst r) /\ means p (snd e) (snd r).

Lemma eget_means p es rs k : Forall2 (has_elem p) es rs -> NoDup (map fst rs) ->
  match eget es (PStr k) with
  | Some w => exists r, In (k, r) rs /\ means p w r /\ (forall r', In (k, r') rs -> r' = r)
  | None => forall r, ~ In (k, r) rs
  end.
Proof.
  induction 1 as [|[ek ev] [rk rv] es rs [E Hm] HF IH]; intro Hd.
  - cbn. auto.
  - cbn [fst snd map] in *. inversion Hd as [|? ? Hn Hd']; subst. cbn [eget py_eq].
    destruct (seqb k rk) eqn:Ek.
    + apply seqb_eq in Ek. subst rk. exists rv. split; [now left|]. split; [exact Hm|].
      intros r' [Hr|Hr]; [congruence|]. exfalso. apply Hn. apply in_map_iff. exists (k, r'). auto.
    + assert (Hne : k <> rk) by (intros ->; rewrite seqb_refl in Ek; discriminate).
      specialize (IH Hd'). destruct (eget es (PStr k)).
      * destruct IH as (r & H1 & H2 & H3). exists r. split; [now right|]. split; [exact H2|].
        intros r' [Hr|Hr]; [congruence|auto].
      * intros r [Hr|Hr]; [congruence|]. now apply (IH r).
Qed.

Lemma aval_eq_anno lp rp lt le rt re : aval_eq lp rp (AAnno lt le) (AAnno rt re) =
  (e <- const_eq lp rp lt rt ;;
   if negb e then Ok false
   else if negb (same_keys le re) then Ok false
   else (fix loop (le : list (pyval * aval)) : res bool :=
           match le with
           | [] => Ok true
           | (k, v) :: le' =>
               match eget re k with
               | None => Err KeyError
               | Some w => e <- aval_eq lp rp v w ;; if e then loop le' else Ok false
               end
           end) le).
Proof. reflexivity. Qed.

Lemma same_keys_spec lp rp le ls re rs : Forall2 (has_elem lp) le ls -> Forall2 (has_elem rp) re rs ->
  NoDup (map fst rs) ->
  (same_keys le re = true <-> length ls = length rs /\ forall k a, In (k, a) ls -> exists b, In (k, b) rs).
Proof.
  intros HL HR Hd. unfold same_keys. rewrite andb_true_iff, Nat.eqb_eq.
  rewrite (Forall2_length HL), (Forall2_length HR). apply and_iff_compat_l.
  clear -HL HR Hd. induction HL as [|[ek ev] [k a] le ls [E Hm] HL IH].
  - cbn. split; [intros _ ? ? []|reflexivity].
  - cbn [forallb fst snd] in *. subst ek. pose proof (eget_means rp re rs k HR Hd) as HG.
    rewrite andb_true_iff, IH. destruct (eget re (PStr k)) as [w|].
    + destruct HG as (r & Hr & _). split.
      * intros [_ H] k' a' [Hin|Hin]; [injection Hin as <- <-; eauto|eauto].
      * intro H. split; [reflexivity|]. intros k' a' Hin. apply (H k' a'). now right.
    + split; [intros [? _]; discriminate|]. intro H. destruct (H k a (or_introl eq_refl)) as (b & Hb).
      exfalso. now apply (HG b).
Qed.

Lemma aval_eq_decides lp rp l : decides lp rp l.
Proof.
  induction l as [t i|t n|i|t es IH|vs IH] using aval_ind'; intros r r1 r2 H1 H2;
    inversion H1; subst; clear H1.
  - inversion H2; subst; clear H2; cbn [aval_eq];
      try (eexists; split; [reflexivity|]; split; [discriminate|]; intro Hq; inversion Hq; fail).
    destruct (Z.eqb_spec t tag) as [->|Hne].
    + rewrite (const_eq_spec _ _ _ _ _ _ H4 H). eexists. split; [reflexivity|].
      split; [now constructor|]. intro Hq. now inversion Hq.
    + eexists. split; [reflexivity|]. split; [discriminate|]. intro Hq. inversion Hq. congruence.
  - inversion H2; subst; clear H2; cbn [aval_eq];
      try (eexists; split; [reflexivity|]; split; [discriminate|]; intro Hq; inversion Hq; fail).
    rewrite (const_eq_spec _ _ _ _ _ _ H3 H). cbn [rbind]. destruct (py_eq v v0) eqn:E.
    + rewrite (const_eq_spec _ _ _ _ _ _ H5 H0). eexists. split; [reflexivity|].
      split; [now constructor|]. intro Hq. now inversion Hq.
    + eexists. split; [reflexivity|]. split; [discriminate|]. intro Hq. inversion Hq. congruence.
  - inversion H2; subst; clear H2; cbn [aval_eq];
      try (eexists; split; [reflexivity|]; split; [discriminate|]; intro Hq; inversion Hq; fail).
    rewrite (const_eq_spec _ _ _ _ _ _ H0 H). eexists. split; [reflexivity|].
    split; [now constructor|]. intro Hq. now inversion Hq.
  - inversion H2 as [| | |i' w re ss Hi Hd HR|]; subst; clear H2;
      try (eexists; split; [reflexivity|]; split; [discriminate|]; intro Hq; inversion Hq; fail).
    rename rs into ls, ss into rs. change (Forall2 (has_elem lp) es ls) in H6. change (Forall2 (has_elem rp) re rs) in HR.
    rewrite aval_eq_anno, (const_eq_spec _ _ _ _ _ _ H3 Hi). cbn [rbind].
    destruct (py_eq v w) eqn:E; cbn [negb].
    2:{ eexists. split; [reflexivity|]. split; [discriminate|]. intro Hq. inversion Hq. congruence. }
    pose proof (same_keys_spec lp rp es ls re rs H6 HR Hd) as HK.
    destruct (same_keys es re); cbn [negb].
    2:{ eexists. split; [reflexivity|]. split; [discriminate|]. intro Hq.
        inversion Hq as [| | |? ? ? ? m' Hpy HP HF|]; subst. destruct (perm_covered req ls rs m' HP HF) as [Hlen Hc].
        apply HK. split; [exact Hlen|]. intros k a Hin. destruct (Hc k a Hin) as (b & Hb & _). eauto. }
    destruct (proj1 HK eq_refl) as [Hlen Hcov]. clear HK.
    match goal with |- exists b, ?f es = Ok b /\ _ => set (loop := f) end.
    assert (HL : exists b, loop es = Ok b /\ (b = true <-> covered req ls rs)).
    { clear H4 Hlen. revert Hcov. induction H6 as [|[ek ev] [k a] es ls [Ek Hm] HF IHF]; intro Hcov.
      - exists true. split; [reflexivity|]. split; [intros _ ? ? []|reflexivity].
      - cbn [fst snd] in *. subst ek. inversion IH as [|? ? IH1 IH2]; subst. cbn [snd] in IH1.
        change (loop ((PStr k, ev) :: es)) with
          (match eget re (PStr k) with None => Err KeyError
           | Some w => e <- aval_eq lp rp ev w ;; if e then loop es else Ok false end).
        pose proof (eget_means rp re rs k HR Hd) as HG. destruct (eget re (PStr k)) as [w'|].
        + destruct HG as (r & Hr & Hw & Hu). destruct (IH1 w' a r Hm Hw) as (b & -> & Hb). cbn [rbind].
          destruct b.
          * destruct (IHF IH2) as (b & -> & Hb').
            { intros k' a' Hin. eapply Hcov. right. exact Hin. }
            exists b. split; [reflexivity|]. rewrite Hb'. split.
            -- intros Hc k' a' [Hin|Hin]; [injection Hin as <- <-; exists r; split; [exact Hr|now apply Hb]|now apply Hc].
            -- intros Hc k' a' Hin. apply Hc. now right.
          * exists false. split; [reflexivity|]. split; [discriminate|]. intro Hc.
            destruct (Hc k a (or_introl eq_refl)) as (r' & Hr' & Hq). apply Hu in Hr'. subst r'. now apply Hb.
        + destruct (Hcov k a (or_introl eq_refl)) as (b & Hb). exfalso. now apply (HG b). }
    destruct HL as (b & HL1 & HL2). exists b. split; [exact HL1|]. rewrite HL2. split.
    + intro Hc. destruct (match_perm req ls rs H4 Hd Hlen Hc) as (rs' & HP & HF). econstructor; eauto.
    + intro Hq. inversion Hq as [| | |? ? ? ? m' Hpy HP HF|]; subst. now destruct (perm_covered req ls rs m' HP HF).
  - inversion H2 as [| | | |vs2 rs2 HR]; subst; clear H2;
      try (eexists; split; [reflexivity|]; split; [discriminate|]; intro Hq; inversion Hq; fail).
    cbn [aval_eq]. rewrite (Forall2_length H0), (Forall2_length HR).
    destruct (Nat.eqb_spec (length rs) (length rs2)) as [HL|HL]; cbn [negb].
    2:{ eexists. split; [reflexivity|]. split; [discriminate|]. intro Hq. inversion Hq as [| | | |? ? HF]; subst.
        apply Forall2_length in HF. contradiction. }
    revert rs2 vs2 HR HL. induction H0 as [|v r vs rs Hm HF IHF]; intros rs2 vs2 HR HL.
    + inversion HR; subst; [|discriminate]. eexists. split; [reflexivity|]. split; [repeat constructor|reflexivity].
    + inversion HR as [|v2 r2 vs2' rs2' Hm2 HR2]; subst; [discriminate|]. inversion IH as [|? ? IH1 IH2]; subst.
      destruct (IH1 v2 r r2 Hm Hm2) as (b & -> & Hb). cbn [rbind]. destruct b.
      * cbn [length] in HL. destruct (IHF IH2 rs2' vs2' HR2 ltac:(lia)) as (b & -> & Hb').
        exists b. split; [reflexivity|]. rewrite Hb'. split; intro Hq; inversion Hq as [| | | |? ? HQ]; subst.
        -- constructor. constructor; [now apply Hb|exact HQ].
        -- constructor. now inversion HQ.
      * exists false. split; [reflexivity|]. split; [discriminate|]. intro Hq. inversion Hq as [| | | |? ? HQ]; subst.
        apply Hb. now inversion HQ.
Qed.

(** ** Python equality of constants is symmetric and transitive, and reflexive
    except on NaN *)
Lemma fnum_fin_iff m1 e1 m2 e2 k : k <= e1 -> k <= e2 ->
  (fnum_eqb (FFin m1 e1) (FFin m2 e2) = true <-> m1 * 2 ^ (e1 - k) = m2 * 2 ^ (e2 - k)).
Proof.
  intros H1 H2. cbn [fnum_eqb]. destruct (Z.leb_spec e1 e2) as [H|H].
  - replace (e2 - k) with ((e2 - e1) + (e1 - k)) by lia. rewrite Z.pow_add_r by lia.
    rewrite Z.mul_assoc, Z.eqb_eq. assert (0 < 2 ^ (e1 - k)) by (apply Z.pow_pos_nonneg; lia). nia.
  - replace (e1 - k) with ((e1 - e2) + (e2 - k)) by lia. rewrite Z.pow_add_r by lia.
    rewrite Z.mul_assoc, Z.eqb_eq. assert (0 < 2 ^ (e2 - k)) by (apply Z.pow_pos_nonneg; lia). nia.
Qed.
Lemma fnum_sym a b : fnum_eqb a b = true -> fnum_eqb b a = true.
Proof.
  destruct a as [|s|m1 e1], b as [|s'|m2 e2]; try discriminate.
  - cbn. destruct s, s'; auto.
  - rewrite (fnum_fin_iff m1 e1 m2 e2 (Z.min e1 e2)), (fnum_fin_iff m2 e2 m1 e1 (Z.min e1 e2)) by lia. auto.
Qed.
Lemma fnum_trans a b c : fnum_eqb a b = true -> fnum_eqb b c = true -> fnum_eqb a c = true.
Proof.
  destruct a as [|s|m1 e1], b as [|s'|m2 e2]; try discriminate; destruct c as [|s''|m3 e3]; try discriminate.
  - cbn. destruct s, s', s''; auto.
  - pose (k := Z.min e1 (Z.min e2 e3)).
    rewrite (fnum_fin_iff m1 e1 m2 e2 k), (fnum_fin_iff m2 e2 m3 e3 k), (fnum_fin_iff m1 e1 m3 e3 k) by lia. congruence.
Qed.
Definition is_nan (n : fnum) : bool := match n with FNan => true | _ => false end.
Lemma fnum_refl a : fnum_eqb a a = negb (is_nan a).
Proof.
  destruct a as [|s|m e]; [reflexivity|now destruct s|]. cbn. rewrite Z.leb_refl, Z.sub_diag. lia.
Qed.
Lemma fbits_nan32 b : is_nan (fbits 23 8 b) = nan32 b.
Proof.
  unfold fbits, nan32. change (2 ^ 8 - 1) with 255. cbv zeta.
  destruct (_ =? 255); cbn [andb]; [destruct (_ =? 0); reflexivity|destruct (_ =? 0); reflexivity].
Qed.
Lemma fbits_nan64 b : is_nan (fbits 52 11 b) = nan64 b.
Proof.
  unfold fbits, nan64. change (2 ^ 11 - 1) with 2047. cbv zeta.
  destruct (_ =? 2047); cbn [andb]; [destruct (_ =? 0); reflexivity|destruct (_ =? 0); reflexivity].
Qed.

Lemma py_eq_refl v : py_eq v v = no_nan v.
Proof.
  induction v as [s|z|b|b|a IHa b IHb]; cbn [py_eq no_nan pnum].
  - apply seqb_refl.
  - rewrite fnum_refl. reflexivity.
  - rewrite fnum_refl, fbits_nan32. reflexivity.
  - rewrite fnum_refl, fbits_nan64. reflexivity.
  - now rewrite IHa, IHb.
Qed.
Lemma py_eq_sym v : forall w, py_eq v w = true -> py_eq w v = true.
Proof.
  induction v as [s|z|b|b|a IHa b IHb]; intros [s'|z'|b'|b'|a' b'] H; cbn [py_eq pnum] in *; try discriminate;
    try (now apply fnum_sym).
  - apply seqb_eq in H. subst. apply seqb_refl.
  - apply andb_prop in H as [H1 H2]. rewrite (IHa _ H1), (IHb _ H2). reflexivity.
Qed.
Lemma py_eq_trans v : forall w x, py_eq v w = true -> py_eq w x = true -> py_eq v x = true.
Proof.
  induction v as [s|z|b|b|a IHa b IHb]; intros [s'|z'|b'|b'|a' b'] [s''|z''|b''|b''|a'' b''] H H';
    cbn [py_eq pnum] in *; try discriminate; try (eapply fnum_trans; eassumption).
  - apply seqb_eq in H. apply seqb_eq in H'. subst. apply seqb_refl.
  - apply andb_prop in H as [H1 H2]. apply andb_prop in H' as [H3 H4].
    rewrite (IHa _ _ H1 H3), (IHb _ _ H2 H4). reflexivity.
Qed.

Lemma Forall2_perm {A B} (R : A -> B -> Prop) l m m' : Forall2 R l m -> Permutation m m' ->
  exists l', Permutation l l' /\ Forall2 R l' m'.
Proof.
  intros HF HP. revert l HF. induction HP as [|x m m' HP IH|x y m|m m2 m3 HP1 IH1 HP2 IH2]; intros l HF.
  - inversion HF; subst. exists []. split; constructor.
  - inversion HF as [|a ? l0 ? HR HF']; subst. destruct (IH l0 HF') as (l' & H1 & H2).
    exists (a :: l'). split; [now constructor|now constructor].
  - inversion HF as [|a ? l0 ? HR HF']; subst. inversion HF' as [|b ? l1 ? HR' HF'']; subst.
    exists (b :: a :: l1). split; [constructor|]. constructor; [exact HR'|]. now constructor.
  - destruct (IH1 l HF) as (l' & H1 & H2). destruct (IH2 l' H2) as (l'' & H3 & H4).
    exists l''. split; [eapply perm_trans; eassumption|exact H4].
Qed.

Lemma Forall2_flip_in {A B} (R : A -> B -> Prop) (S : B -> A -> Prop) l m :
  Forall (fun a => forall b, R a b -> S b a) l -> Forall2 R l m -> Forall2 S m l.
Proof.
  intros H HF. induction HF as [|a b l m HR HF IH]; [constructor|]. inversion H; subst. constructor; auto.
Qed.

Lemma req_sym r : forall s, req r s -> req s r.
Proof.
  induction r as [t v|t n|v|t l IH|l IH] using rval_ind'; intros s H; inversion H; subst; clear H.
  - constructor. now apply py_eq_sym.
  - constructor; now apply py_eq_sym.
  - constructor. now apply py_eq_sym.
  - apply (Forall2_flip_in _ (fun a b => fst a = fst b /\ req (snd a) (snd b))) in H5.
    2:{ eapply Forall_impl; [|exact IH]. intros [k a] Ha [k' b] [E Hq]. cbn [fst snd] in *. split; [now symmetry|now apply Ha]. }
    match goal with HH : Permutation m m' |- _ => pose proof HH as HPm end.
    assert (H5' : Forall2 (fun b a => fst a = fst b /\ req (snd a) (snd b)) l m').
    { clear -H5. induction H5; constructor; auto. }
    destruct (Forall2_perm _ _ _ _ H5' (Permutation_sym HPm)) as (l' & HP & HF).
    econstructor; [now apply py_eq_sym|exact HP|].
    clear -HF. induction HF; constructor; auto.
  - constructor. eapply Forall2_flip_in; [|eassumption]. exact IH.
Qed.

Lemma Forall2_trans_in {A B C} (R : A -> B -> Prop) (S : B -> C -> Prop) (T : A -> C -> Prop) l m n :
  Forall (fun a => forall b c, R a b -> S b c -> T a c) l -> Forall2 R l m -> Forall2 S m n -> Forall2 T l n.
Proof.
  intros H HF. revert n. induction HF as [|a b l m HR HF IH]; intros n HS; inversion HS; subst; [constructor|].
  inversion H; subst. constructor; eauto.
Qed.

Lemma req_trans r : forall s t, req r s -> req s t -> req r t.
Proof.
  induction r as [t v|t n|v|t l IH|l IH] using rval_ind'; intros s u H H'; inversion H; subst; clear H;
    inversion H'; subst; clear H'; try (constructor; eapply py_eq_trans; eassumption).
  - match goal with HH : Forall2 _ m m'0 |- _ => rename HH into HF2 end.
    destruct (Forall2_perm (fun b a => fst a = fst b /\ req (snd a) (snd b)) m'0 m m') as (n' & HP & HF).
    + clear -HF2. induction HF2; constructor; auto.
    + assumption.
    + econstructor; [eapply py_eq_trans; eassumption|eapply perm_trans; eassumption|].
      eapply Forall2_trans_in; [|eassumption|].
      2:{ instantiate (1 := fun a b => fst a = fst b /\ req (snd a) (snd b)). clear -HF. induction HF; constructor; auto. }
      eapply Forall_impl; [|exact IH]. intros a Ha b c [E1 Q1] [E2 Q2]. split; [congruence|eauto].
  - constructor. eapply Forall2_trans_in; [exact IH|eassumption|eassumption].
Qed.

Lemma means_wf_refl p a : forall r, means p a r -> (req r r <-> rval_no_nan r = true).
Proof.
  induction a as [t i|t n|i|t es IH|vs IH] using aval_ind'; intros r H; inversion H; subst; clear H; cbn [rval_no_nan].
  - rewrite <- py_eq_refl. split; [intro Hq; now inversion Hq|now constructor].
  - rewrite andb_true_iff, <- !py_eq_refl. split; [intro Hq; now inversion Hq|intros []; now constructor].
  - rewrite <- py_eq_refl. split; [intro Hq; now inversion Hq|now constructor].
  - rewrite andb_true_iff, <- py_eq_refl, forallb_forall.
    assert (HA : forall e, In e rs -> (req (snd e) (snd e) <-> rval_no_nan (snd e) = true)).
    { clear -IH H5. induction H5 as [|x y es rs [E Hm] HF IHF]; [intros ? []|]. inversion IH; subst.
      intros e [<-|He]; [now apply H1|now apply IHF]. }
    split.
    + intro Hq. inversion Hq as [| | |? ? ? ? m' Hpy HP HF|]; subst. split; [exact Hpy|].
      intros [k a] Hin. destruct (proj2 (perm_covered req rs rs m' HP HF) k a Hin) as (b & Hb & HR).
      assert (b = a) as ->.
      { clear -H3 Hin Hb. induction rs as [|[k' c] rs IHr]; [contradiction|]. cbn [map fst] in H3.
        inversion H3; subst. destruct Hin as [Hin|Hin], Hb as [Hb|Hb].
        - congruence.
        - injection Hin as -> ->. exfalso. apply H1. apply in_map_iff. exists (k, b). auto.
        - injection Hb as -> ->. exfalso. apply H1. apply in_map_iff. exists (k, a). auto.
        - auto. }
      now apply (HA (k, a) Hin).
    + intros [Hpy Hall]. econstructor; [exact Hpy|apply Permutation_refl|].
      assert (HQ : forall e, In e rs -> req (snd e) (snd e)) by (intros e He; apply HA; auto).
      clear -HQ. induction rs as [|e rs IHr]; constructor; [split; [reflexivity|apply HQ; now left]|].
      apply IHr. intros e' He'. apply HQ. now right.
  - rewrite forallb_forall.
    assert (HA : forall e, In e rs -> (req e e <-> rval_no_nan e = true)).
    { clear -IH H1. induction H1 as [|x y es rs Hm HF IHF]; [intros ? []|]. inversion IH; subst.
      intros e [<-|He]; [auto|now apply IHF]. }
    split.
    + intro Hq. inversion Hq as [| | | |? ? HF]; subst. intros e He. apply HA; [exact He|].
      clear -HF He. induction rs as [|x rs IHr]; [contradiction|]. inversion HF; subst.
      destruct He as [->|He]; auto.
    + intro Hall. constructor. assert (HQ : forall e, In e rs -> req e e) by (intros e He; apply HA; auto).
      clear -HQ. induction rs as [|e rs IHr]; constructor; [apply HQ; now left|].
      apply IHr. intros e' He'. apply HQ. now right.
Qed.

(** ** The equality of annotations *)
Lemma eq_iff lp rp l r r1 r2 : means lp l r1 -> means rp r r2 ->
  (aval_eq lp rp l r = Ok true \/ aval_eq lp rp l r = Ok false) /\
  (aval_eq lp rp l r = Ok true <-> req r1 r2).
Proof.
  intros H1 H2. destruct (aval_eq_decides lp rp l r r1 r2 H1 H2) as (b & E & Hb). rewrite E.
  destruct b; (split; [auto|]); rewrite <- Hb; (split; intro H; [auto; try congruence|auto; congruence]).
Qed.
Lemma eq_sym' lp rp l r r1 r2 : means lp l r1 -> means rp r r2 ->
  aval_eq rp lp r l = aval_eq lp rp l r.
Proof.
  intros H1 H2. destruct (aval_eq_decides lp rp l r r1 r2 H1 H2) as (b & -> & Hb).
  destruct (aval_eq_decides rp lp r l r2 r1 H2 H1) as (c & -> & Hc). f_equal.
  assert (req r1 r2 <-> req r2 r1) by (split; apply req_sym). destruct b, c; try reflexivity; exfalso; intuition congruence.
Qed.
Lemma eq_trans' ap bp cp a b c ra rb rc : means ap a ra -> means bp b rb -> means cp c rc ->
  aval_eq ap bp a b = Ok true -> aval_eq bp cp b c = Ok true -> aval_eq ap cp a c = Ok true.
Proof.
  intros H1 H2 H3 E1 E2. apply (eq_iff ap bp a b ra rb H1 H2) in E1. apply (eq_iff bp cp b c rb rc H2 H3) in E2.
  apply (eq_iff ap cp a c ra rc H1 H3). eapply req_trans; eassumption.
Qed.
Lemma eq_refl_iff p a r : means p a r -> (aval_eq p p a a = Ok true <-> rval_no_nan r = true).
Proof. intro H. rewrite (proj2 (eq_iff p p a a r r H H)). now apply (means_wf_refl p a). Qed.

(** Decoded annotations have the meaning of what was encoded. *)
Lemma shown_means l p v : pool_shows l p -> forall r, jval_ok l v = true -> jmeaning l v = Some r ->
  means p (shown_val l v) r.
Proof.
  intro Hp.
  assert (HC : forall i w, jconst_at l i = Some w -> derefs p i w).
  { intros i w. unfold jconst_at. destruct (jat l i) eqn:E; [|discriminate]. apply resolve_derefs; assumption. }
  induction v as [t i|t n|i|t es IH|vs IH] using jval_ind'; intros r Hok H; cbn [jmeaning shown_val jval_ok] in *.
  - destruct (jconst_at l i) eqn:E; [|discriminate]. injection H as <-. constructor. auto.
  - destruct (jconst_at l t) eqn:E1; [|discriminate]. destruct (jconst_at l n) eqn:E2; [|discriminate].
    injection H as <-. constructor; auto.
  - destruct (jconst_at l i) eqn:E; [|discriminate]. injection H as <-. constructor. auto.
  - destruct (jconst_at l t) eqn:E1; [|discriminate]. destruct (all_some _) as [rs|] eqn:E2; [|discriminate].
    injection H as <-. apply andb_prop in Hok as [Hok Hes]. apply andb_prop in Hok as [_ Hn].
    unfold names_ok in Hn. apply andb_prop in Hn as [Hn Hd]. apply distinct_NoDup in Hd.
    assert (HH : map fst rs = map (fun e => elem_name l (fst e)) es /\
      Forall2 (fun e r => fst e = PStr (fst r) /\ means p (snd e) (snd r))
        (map (fun e => (PStr (elem_name l (fst e)), shown_val l (snd e))) es) rs).
    { clear Hn Hd E1. revert rs E2. induction es as [|[k v] es IHe]; intros rs E2; cbn [map all_some fst snd] in *.
      - injection E2 as <-. split; constructor.
      - destruct (jmeaning l v) as [rv|] eqn:Ev; [|discriminate]. cbn [option_map] in E2.
        destruct (all_some _) as [rs'|] eqn:Er; [|discriminate]. injection E2 as <-.
        inversion IH as [|? ? IH1 IH2]; subst. cbn [forallb] in Hes. apply andb_prop in Hes as [Hv Hes].
        apply andb_prop in Hv as [_ Hv]. cbn [fst snd] in *.
        destruct (IHe IH2 Hes rs' eq_refl) as [H1 H2]. split; [cbn [map fst]; now rewrite H1|].
        constructor; [split; [reflexivity|now apply IH1]|exact H2]. }
    destruct HH as [H1 H2]. constructor; [auto| |exact H2]. now rewrite H1.
  - destruct (all_some _) as [rs|] eqn:E2; [|discriminate]. injection H as <-. constructor.
    apply andb_prop in Hok as [_ Hok]. revert rs E2.
    induction vs as [|v vs IHv]; intros rs E2; cbn [map all_some forallb] in *.
    + injection E2 as <-. constructor.
    + destruct (jmeaning l v) as [rv|] eqn:Ev; [|discriminate].
      destruct (all_some _) as [rs'|] eqn:Er; [|discriminate]. injection E2 as <-.
      inversion IH as [|? ? IH1 IH2]; subst. apply andb_prop in Hok as [Hv Hok].
      constructor; [now apply IH1|now apply IHv].
Qed.

Lemma decoded_eq l1 l2 p1 p2 a1 a2 r1 r2 : pool_shows l1 p1 -> pool_shows l2 p2 ->
  janno_ok l1 a1 = true -> janno_ok l2 a2 = true ->
  jmeaning l1 (VAnno (fst a1) (snd a1)) = Some r1 -> jmeaning l2 (VAnno (fst a2) (snd a2)) = Some r2 ->
  exists b, annotation_eq p1 p2 (shown_anno l1 a1) (shown_anno l2 a2) = Ok b /\ (b = true <-> req r1 r2).
Proof.
  intros P1 P2 O1 O2 M1 M2.
  exact (aval_eq_decides p1 p2 _ _ r1 r2 (shown_means _ _ _ P1 _ O1 M1) (shown_means _ _ _ P2 _ O2 M2)).
Qed.

Lemma aval_both l p v fuel rest : pool_shows l p -> jval_ok l v = true -> (length (enc_val v) <= fuel)%nat ->
  (exists st, run_buf (p_aval fuel p) (open_buf (enc_val v ++ rest)) = (Ok (shown_val l v), st) /\ buf_rest st = rest) /\
  run_str (p_aval fuel p) (open_stream (enc_val v ++ rest)) = (Ok (shown_val l v), Some rest).
Proof.
  intros Hp Hok Hf. pose proof (prun_aval l p Hp v fuel rest Hok Hf) as E.
  pose proof (run_buf_open (p_aval fuel p) (enc_val v ++ rest)) as HB.
  pose proof (run_str_prun (p_aval fuel p) (enc_val v ++ rest)) as HS. rewrite E in HB, HS.
  split; [exact HB|exact HS].
Qed.

From Verif Require Import Base Pack_Model Pack_Spec ConstPool_Model ConstPool_Spec ConstPool_Deref Opcodes_Model Opcodes_Spec Opcodes_Proofs
  ClassFile_Model Descr_Model Anno_Model Anno_Spec Anno_Proofs Change_Model Classdiff_Model Classdiff_Spec.

(** ** Lengths of instructions *)
Definition same_shape (a b : opargs) : Prop :=
  match a, b with
  | AInts l, AInts r => length l = length r
  | ALookup _ l, ALookup _ r => length l = length r
  | ATable _ _ _ l, ATable _ _ _ r => length l = length r
  | _, _ => False
  end.
Lemma same_shape_refl a : same_shape a a.
Proof. destruct a; reflexivity. Qed.

Lemma unpack_at_end f bc off vs off' : unpack_at f bc off = Ok (vs, off') -> off' = (off + size f)%nat.
Proof. unfold unpack_at. destruct (unpack_from f bc off); [|discriminate]. cbn [rbind]. intro H. now injection H as _ <-. Qed.
Lemma read_pairs_end fuel : forall n bc off l off', read_pairs fuel n bc off = Ok (l, off') -> off' = (off + 8 * length l)%nat.
Proof.
  induction fuel as [|fuel IH]; intros n bc off l off' H; cbn [read_pairs] in H; destruct (n <=? 0).
  - injection H as <- <-. cbn. lia.
  - discriminate.
  - injection H as <- <-. cbn. lia.
  - destruct (unpack_at [ci; ci] bc off) as [[vs o]|] eqn:E; [|discriminate]. cbn [rbind] in H. destruct vs as [|a [|b [|? ?]]]; try discriminate.
    destruct (read_pairs fuel (n - 1) bc o) as [[l1 o1]|] eqn:E1; [|discriminate]. cbn [rbind] in H. injection H as <- <-.
    apply IH in E1. apply unpack_at_end in E. change (size [ci; ci]) with 8%nat in E. cbn [length]. lia.
Qed.
Lemma read_offs_end fuel : forall n bc off l off', read_offs fuel n bc off = Ok (l, off') -> off' = (off + 4 * length l)%nat.
Proof.
  induction fuel as [|fuel IH]; intros n bc off l off' H; cbn [read_offs] in H; destruct (n <=? 0).
  - injection H as <- <-. cbn. lia.
  - discriminate.
  - injection H as <- <-. cbn. lia.
  - destruct (unpack_at [ci] bc off) as [[vs o]|] eqn:E; [|discriminate]. cbn [rbind] in H. destruct vs as [|a [|? ?]]; try discriminate.
    destruct (read_offs fuel (n - 1) bc o) as [[l1 o1]|] eqn:E1; [|discriminate]. cbn [rbind] in H. injection H as <- <-.
    apply IH in E1. apply unpack_at_end in E. change (size [ci]) with 4%nat in E. cbn [length]. lia.
Qed.
Lemma unpack_at_length f bc off vs off' : unpack_at f bc off = Ok (vs, off') -> length vs = length f.
Proof.
  unfold unpack_at. destruct (unpack_from f bc off) as [v|] eqn:E; [|discriminate]. cbn [rbind]. intro H. injection H as <- _.
  unfold unpack_from in E. destruct (_ <? _)%nat; [discriminate|]. injection E as <-.
  generalize (skipn off bc). induction f as [|c f IH]; intro l; [reflexivity|]. cbn. now rewrite IH.
Qed.

(** Where an instruction ends depends on its opcode, place and shape of arguments only. *)
Lemma dis_args_end c off b1 a1 o1 b2 a2 o2 : dis_args c b1 off = Ok (a1, o1) -> dis_args c b2 off = Ok (a2, o2) ->
  same_shape a1 a2 -> o1 = o2.
Proof.
  unfold dis_args. destruct (get_arg_format c) as [[[f| | |]|]|]; cbn [rbind]; try discriminate.
  - destruct (unpack_at f b1 off) as [[v1 p1]|] eqn:E1; [|discriminate]. destruct (unpack_at f b2 off) as [[v2 p2]|] eqn:E2; [|discriminate]. cbn [rbind].
    intros H1 H2 _. injection H1 as <- <-. injection H2 as <- <-. apply unpack_at_end in E1. apply unpack_at_end in E2. congruence.
  - unfold unpack_lookupswitch.
    destruct (unpack_at [ci; ci] b1 (align4 off)) as [[v1 p1]|] eqn:E1; [|discriminate]. destruct (unpack_at [ci; ci] b2 (align4 off)) as [[v2 p2]|] eqn:E2; [|discriminate]. cbn [rbind].
    destruct v1 as [|d1 [|n1 [|? ?]]]; try discriminate. destruct v2 as [|d2 [|n2 [|? ?]]]; try discriminate.
    destruct (read_pairs _ n1 b1 p1) as [[l1 q1]|] eqn:R1; [|discriminate]. destruct (read_pairs _ n2 b2 p2) as [[l2 q2]|] eqn:R2; [|discriminate]. cbn [rbind].
    intros H1 H2. injection H1 as <- <-. injection H2 as <- <-. cbn [same_shape]. intro HL.
    apply unpack_at_end in E1. apply unpack_at_end in E2. apply read_pairs_end in R1. apply read_pairs_end in R2. lia.
  - unfold unpack_tableswitch.
    destruct (unpack_at [ci; ci; ci] b1 (align4 off)) as [[v1 p1]|] eqn:E1; [|discriminate]. destruct (unpack_at [ci; ci; ci] b2 (align4 off)) as [[v2 p2]|] eqn:E2; [|discriminate]. cbn [rbind].
    destruct v1 as [|d1 [|n1 [|m1 [|? ?]]]]; try discriminate. destruct v2 as [|d2 [|n2 [|m2 [|? ?]]]]; try discriminate.
    destruct (read_offs _ (m1 - n1 + 1) b1 p1) as [[l1 q1]|] eqn:R1; [|discriminate]. destruct (read_offs _ (m2 - n2 + 1) b2 p2) as [[l2 q2]|] eqn:R2; [|discriminate]. cbn [rbind].
    intros H1 H2. injection H1 as <- <-. injection H2 as <- <-. cbn [same_shape]. intro HL.
    apply unpack_at_end in E1. apply unpack_at_end in E2. apply read_offs_end in R1. apply read_offs_end in R2. lia.
  - unfold unpack_wide. destruct (nth_error b1 off) as [c1|]; [|discriminate]. destruct (nth_error b2 off) as [c2|]; [|discriminate].
    assert (G : forall b k a o, (if k =? OP_iinc then '(vs, off') <- unpack_at [cB; cH; ch] b off;; Ok (AInts vs, off')
       else if existsb (Z.eqb k) wide_codes then '(vs, off') <- unpack_at [cB; cH] b off;; Ok (AInts vs, off') else Err AssertionError) = Ok (a, o) ->
       exists vs, a = AInts vs /\ (length vs = 3 /\ o = off + 5 \/ length vs = 2 /\ o = off + 3)%nat).
    { intros b k a o. destruct (k =? OP_iinc); [|destruct (existsb _ _); [|discriminate]].
      - destruct (unpack_at [cB; cH; ch] b off) as [[v p]|] eqn:E; [|discriminate]. cbn [rbind]. intro H. injection H as <- <-. exists v. split; [reflexivity|]. left.
        split; [now apply unpack_at_length in E|now apply unpack_at_end in E].
      - destruct (unpack_at [cB; cH] b off) as [[v p]|] eqn:E; [|discriminate]. cbn [rbind]. intro H. injection H as <- <-. exists v. split; [reflexivity|]. right.
        split; [now apply unpack_at_length in E|now apply unpack_at_end in E]. }
    intros H1 H2. apply G in H1 as (w1 & -> & H1). apply G in H2 as (w2 & -> & H2). cbn [same_shape]. lia.
  - intros H1 H2 _. congruence.
Qed.

(** If the instructions that both codes have in common have the same shape, and the
    codes have the same length, there are no others. *)
Lemma dis_loop_same f1 : forall f2 b1 b2 off l1 l2, length b1 = length b2 ->
  dis_loop f1 b1 off = (l1, None) -> dis_loop f2 b2 off = (l2, None) ->
  (forall i a b, nth_error l1 i = Some a -> nth_error l2 i = Some b -> i_off a = i_off b /\ i_code a = i_code b /\ same_shape (i_args a) (i_args b)) ->
  length l1 = length l2.
Proof.
  induction f1 as [|f1 IH]; intros f2 b1 b2 off l1 l2 HL H1 H2 HS.
  - cbn [dis_loop] in H1. destruct (nth_error b1 off) eqn:E1; [discriminate|]. injection H1 as <-.
    apply nth_error_None in E1. assert (E2 : nth_error b2 off = None) by (apply nth_error_None; lia).
    destruct f2; cbn [dis_loop] in H2; rewrite E2 in H2; now injection H2 as <-.
  - cbn [dis_loop] in H1. destruct (nth_error b1 off) as [c1|] eqn:E1.
    + assert (E2 : exists c2, nth_error b2 off = Some c2).
      { destruct (nth_error b2 off) eqn:E; [eauto|]. apply nth_error_None in E. assert (off < length b1)%nat by (apply nth_error_Some; congruence). lia. }
      destruct E2 as [c2 E2]. destruct f2 as [|f2]; cbn [dis_loop] in H2; rewrite E2 in H2; [discriminate|].
      destruct (dis_args c1 b1 (S off)) as [[a1 o1]|] eqn:D1; [|discriminate]. destruct (dis_args c2 b2 (S off)) as [[a2 o2]|] eqn:D2; [|discriminate].
      destruct (dis_loop f1 b1 o1) as [m1 x1] eqn:L1. destruct (dis_loop f2 b2 o2) as [m2 x2] eqn:L2. injection H1 as <- ->. injection H2 as <- ->.
      destruct (HS 0%nat _ _ eq_refl eq_refl) as (_ & HC & HSh). cbn [i_code i_args] in HC, HSh. subst c2.
      pose proof (dis_args_end _ _ _ _ _ _ _ _ D1 D2 HSh) as <-. cbn [length]. f_equal. eapply (IH f2 b1 b2 o1); eauto.
      intros i a b Ha Hb. apply (HS (S i) a b Ha Hb).
    + injection H1 as <-. apply nth_error_None in E1. assert (E2 : nth_error b2 off = None) by (apply nth_error_None; lia).
      destruct f2; cbn [dis_loop] in H2; rewrite E2 in H2; now injection H2 as <-.
Qed.

(** ** Arguments *)
Lemma opargs_eqb_eq a b : opargs_eqb a b = true <-> a = b.
Proof.
  split.
  - destruct a as [l|d l|d lo hi l], b as [r|d' r|d' lo' hi' r]; cbn [opargs_eqb]; try discriminate.
    + intro H. apply seqb_eq in H. congruence.
    + intro H. apply andb_prop in H as [H H3]. apply andb_prop in H as [H1 H2]. apply Z.eqb_eq in H1. apply Nat.eqb_eq in H2. subst d'. f_equal.
      revert r H2 H3. induction l as [|x l IH]; intros [|y r] HL HF; try discriminate; [reflexivity|]. cbn [combine forallb fst snd] in HF. apply andb_prop in HF as [HF1 HF2].
      unfold pair_eqb in HF1. apply andb_prop in HF1 as [A B]. apply Z.eqb_eq in A. apply Z.eqb_eq in B. cbn [length] in HL. injection HL as HL. f_equal; [|now apply IH]. destruct x, y. cbn in *. congruence.
    + intro H. repeat (apply andb_prop in H as [H ?]). repeat match goal with H : (_ =? _) = true |- _ => apply Z.eqb_eq in H end.
      match goal with H : seqb _ _ = true |- _ => apply seqb_eq in H end. congruence.
  - intros <-. destruct a as [l|d l|d lo hi l]; cbn [opargs_eqb].
    + apply seqb_refl.
    + rewrite Z.eqb_refl, Nat.eqb_refl. cbn [andb]. induction l as [|x l IH]; [reflexivity|]. cbn [combine forallb fst snd]. unfold pair_eqb at 1. rewrite !Z.eqb_refl. exact IH.
    + rewrite !Z.eqb_refl. cbn [andb]. apply seqb_refl.
Qed.

Lemma has_const_tool c : (exists b, has_const_arg c = Ok b) -> has_const_arg c = Ok (tool_resolved c).
Proof.
  intros [b Hb]. unfold tool_resolved, jvm_resolved. destruct (Z.eqb_spec c 197) as [->|Hn]; [vm_compute; reflexivity|]. cbn [negb andb].
  pose proof (const_jvm c Hn) as E. destruct (jvm_const c); [exact E|]. congruence.
Qed.

(** An instruction listed by the disassembler has a known opcode, with at least one
    argument if that refers to the constant pool. *)
Definition listed (i : insn) : Prop :=
  (exists b, has_const_arg (i_code i) = Ok b) /\ (has_const_arg (i_code i) = Ok true -> exists x l, i_args i = AInts (x :: l)).
Lemma dis_args_listed c bc off a o : dis_args c bc off = Ok (a, o) ->
  (exists b, has_const_arg c = Ok b) /\ (has_const_arg c = Ok true -> exists x l, a = AInts (x :: l)).
Proof.
  intro H. assert (Hc : 0 <= c < 202). { destruct (Z_le_dec 0 c), (Z_lt_dec c 202); try lia; exfalso; unfold dis_args in H; (destruct (code_defined c) as [_ HH]; destruct HH as (_ & E & _); [lia|rewrite E in H; discriminate]). }
  split.
  - destruct (code_defined c) as [HH _]. destruct (HH Hc) as (n & f & b & H1 & H2 & H3). eauto.
  - intro HT. assert (HF : forallb (fun c => match has_const_arg c, get_arg_format c with
        | Ok true, Ok (Some (FStruct (_ :: _))) => true | Ok true, _ => false | _, _ => true end) all_codes = true) by (vm_compute; reflexivity).
    rewrite forallb_forall in HF. specialize (HF c (in_all_codes c Hc)). rewrite HT in HF. unfold dis_args in H.
    destruct (get_arg_format c) as [[[f| | |]|]|]; try discriminate. cbn [rbind] in H. destruct f as [|fc f]; [discriminate|].
    destruct (unpack_at (fc :: f) bc off) as [[vs o']|] eqn:E; [|discriminate]. cbn [rbind] in H. injection H as <- _.
    apply unpack_at_length in E. destruct vs as [|x vs]; [discriminate|eauto].
Qed.
Lemma dis_loop_listed fuel : forall bc off l e, dis_loop fuel bc off = (l, e) -> Forall listed l.
Proof.
  induction fuel as [|fuel IH]; intros bc off l e H; cbn [dis_loop] in H; destruct (nth_error bc off) as [c|]; try (injection H as <- _; constructor).
  destruct (dis_args c bc (S off)) as [[a o]|] eqn:E; [|injection H as <- _; constructor]. destruct (dis_loop fuel bc o) as [m x] eqn:EL. injection H as <- _.
  constructor; [|eapply IH; exact EL]. exact (dis_args_listed _ _ _ _ _ E).
Qed.

Lemma args_eq_iff lp rp a b : listed a -> listed b -> i_off a = i_off b -> i_code a = i_code b ->
  (args_eq lp rp (i_code a) (i_args a) (i_args b) = Ok true <-> same_insn tool_resolved lp rp a b).
Proof.
  intros [La1 La2] [Lb1 Lb2] HO HC. unfold args_eq, same_insn. rewrite <- HC in Lb1, Lb2. pose proof (has_const_tool _ La1) as E. rewrite E in La2, Lb2 |- *. cbn [rbind].
  destruct (tool_resolved (i_code a)).
  - destruct (La2 eq_refl) as (i & l & Ea). destruct (Lb2 eq_refl) as (j & r & Eb). rewrite Ea, Eb. unfold const_eq. split.
    + destruct (deref_const lp i) as [v|] eqn:Dv; [|discriminate]. destruct (deref_const rp j) as [w|] eqn:Dw; [|discriminate]. cbn [rbind]. intro H. injection H as H. apply andb_prop in H as [H1 H2].
      apply seqb_eq in H2. subst r. split; [exact HO|]. split; [exact HC|]. exists i, j, l, v, w. apply deref_const_iff in Dv. apply deref_const_iff in Dw. repeat split; assumption.
    + intros (_ & _ & i' & j' & rest & v & w & E1 & E2 & Dv & Dw & Hvw). injection E1 as <- <-. injection E2 as <- ->. apply deref_const_iff in Dv. apply deref_const_iff in Dw.
      rewrite Dv, Dw. cbn [rbind]. rewrite Hvw, seqb_refl. reflexivity.
  - split.
    + intro H. injection H as H. apply opargs_eqb_eq in H. repeat split; assumption.
    + intros (_ & _ & ->). f_equal. now apply opargs_eqb_eq.
Qed.

Lemma const_loop_iff lp rp l : forall r, Forall listed l -> Forall listed r ->
  (const_loop lp rp l r = Ok (Some []) <->
   forall i a b, nth_error l i = Some a -> nth_error r i = Some b -> same_insn tool_resolved lp rp a b).
Proof.
  induction l as [|a l IH]; intros [|b r] Hl Hr.
  - split; [intros _ [|i] ? ? E; discriminate|reflexivity].
  - split; [intros _ [|i] ? ? E; discriminate|reflexivity].
  - split; [intros _ [|i] ? ? ? E; discriminate|reflexivity].
  - inversion Hl as [|? ? Ha Hl']; subst. inversion Hr as [|? ? Hb Hr']; subst. cbn [const_loop].
    assert (G : (forall i x y, nth_error (a :: l) i = Some x -> nth_error (b :: r) i = Some y -> same_insn tool_resolved lp rp x y) <->
                same_insn tool_resolved lp rp a b /\ (forall i x y, nth_error l i = Some x -> nth_error r i = Some y -> same_insn tool_resolved lp rp x y)).
    { split; [intro H; split; [exact (H 0%nat a b eq_refl eq_refl)|intros i; exact (H (S i))]|]. intros [H1 H2] [|i] x y; cbn [nth_error]; [intros E1 E2; injection E1 as <-; now injection E2 as <-|apply H2]. }
    rewrite G, <- (IH r Hl' Hr'). destruct (Nat.eqb_spec (i_off a) (i_off b)) as [HO|HO]; [destruct (Z.eqb_spec (i_code a) (i_code b)) as [HC|HC]|]; cbn [negb andb].
    + rewrite <- (args_eq_iff lp rp a b Ha Hb HO HC). destruct (args_eq lp rp (i_code a) (i_args a) (i_args b)) as [e|]; cbn [rbind].
      * destruct (const_loop lp rp l r) as [[o|]|]; cbn [rbind]; destruct e; split; intro H; try discriminate; try (destruct H; discriminate).
        -- injection H as ->. split; reflexivity.
        -- destruct H as [_ H]. exact H.
      * split; [discriminate|]. intros [H _]. discriminate.
    + split; [discriminate|]. intros [(_ & H & _) _]. contradiction.
    + split; [discriminate|]. intros [(H & _) _]. contradiction.
Qed.

Lemma disassemble_all_iff bc l : disassemble_all bc = Ok l <-> disassemble bc = (l, None).
Proof. unfold disassemble_all. destruct (disassemble bc) as [m [e|]]; split; intro H; try discriminate; try (injection H as <-; reflexivity). Qed.

Lemma same_insn_shape res lp rp a b : same_insn res lp rp a b -> i_off a = i_off b /\ i_code a = i_code b /\ same_shape (i_args a) (i_args b).
Proof.
  intros (H1 & H2 & H3). split; [exact H1|]. split; [exact H2|]. destruct (res (i_code a)).
  - destruct H3 as (i & j & rest & v & w & -> & -> & _). reflexivity.
  - rewrite H3. apply same_shape_refl.
Qed.

Lemma zip_Forall2 {A B} (R : A -> B -> Prop) l : forall r, length l = length r ->
  (forall i a b, nth_error l i = Some a -> nth_error r i = Some b -> R a b) <-> Forall2 R l r.
Proof.
  induction l as [|x l IH]; intros [|y r] HL; try discriminate.
  - split; [constructor|]. intros _ [|i] a b E; discriminate.
  - injection HL as HL. split.
    + intro H. constructor; [exact (H 0%nat x y eq_refl eq_refl)|]. apply IH; [exact HL|]. intro i. exact (H (S i)).
    + intro H. inversion H as [|? ? ? ? H1 H2]; subst. intros [|i] a b; cbn [nth_error]; [intros E1 E2; congruence|]. apply (proj2 (IH r HL) H2).
Qed.

(** CodeConstantsChange decides sameness of code. *)
Lemma code_constants_iff lp rp l r : (exists d, code_constants_check lp rp (Some l) (Some r) = Ok (false, d)) <->
  same_body tool_resolved lp rp (k_code l) (k_code r).
Proof.
  unfold code_constants_check, code_offsets, same_body. destruct (Nat.eqb_spec (length (k_code l)) (length (k_code r))) as [HL|HL]; cbn [negb].
  2: { split; [intros [d H]; discriminate|]. intros [H _]. contradiction. }
  split.
  - intros [d H]. split; [exact HL|]. destruct (disassemble_all (k_code l)) as [dl|] eqn:D1; [|discriminate]. destruct (disassemble_all (k_code r)) as [dr|] eqn:D2; [|discriminate]. cbn [rbind] in H.
    destruct (const_loop lp rp dl dr) as [[[|o os]|]|] eqn:E; try discriminate. apply disassemble_all_iff in D1. apply disassemble_all_iff in D2.
    exists dl, dr. split; [exact D1|]. split; [exact D2|]. rewrite const_loop_iff in E; [|eapply dis_loop_listed; exact D1|eapply dis_loop_listed; exact D2].
    apply zip_Forall2; [|exact E]. unfold disassemble in D1, D2. eapply dis_loop_same; [exact HL|exact D1|exact D2|].
    intros i a b Ha Hb. eapply same_insn_shape. exact (E i a b Ha Hb).
  - intros (_ & dl & dr & D1 & D2 & HF). assert (E : const_loop lp rp dl dr = Ok (Some [])).
    { apply const_loop_iff; [eapply dis_loop_listed; exact D1|eapply dis_loop_listed; exact D2|]. apply zip_Forall2; [|exact HF]. exact (Forall2_length HF). }
    apply disassemble_all_iff in D1. apply disassemble_all_iff in D2. rewrite D1, D2. cbn [rbind]. rewrite E. eexists. reflexivity.
Qed.
Lemma same_body_loop res lp rp dl dr : Forall2 (same_insn res lp rp) dl dr -> body_loop dl dr = false.
Proof.
  induction 1 as [|a b l r H HF IH]; [reflexivity|]. cbn [body_loop]. destruct H as (HO & HC & _). rewrite HO, HC, Nat.eqb_refl, Z.eqb_refl. exact IH.
Qed.
Lemma code_body_same res lp rp l r : same_body res lp rp (k_code l) (k_code r) -> code_body_check (Some l) (Some r) = Ok (false, None).
Proof.
  intros (HL & dl & dr & D1 & D2 & HF). unfold code_body_check. rewrite HL, Nat.eqb_refl. cbn [negb]. apply disassemble_all_iff in D1. apply disassemble_all_iff in D2. rewrite D1, D2. cbn [rbind].
  now rewrite (same_body_loop _ _ _ _ _ HF).
Qed.

(** ** Exception tables *)
Lemma catch_iff p e o : get_catch_type p e = Ok o <-> catches p e o.
Proof.
  unfold get_catch_type. destruct (Z.eqb_spec (ex_type_ref e) 0) as [H0|H0].
  - split; [intro H; injection H as <-; now constructor|]. intro H. inversion H; subst; [reflexivity|contradiction].
  - destruct (deref_const p (ex_type_ref e)) as [v|] eqn:E; cbn [rbind].
    + split; [intro H; injection H as <-; constructor; [exact H0|now apply deref_const_iff]|]. intro H. inversion H as [?|w ? Hw]; subst; [contradiction|]. apply deref_const_iff in Hw. congruence.
    + split; [discriminate|]. intro H. inversion H as [?|w ? Hw]; subst; [contradiction|]. apply deref_const_iff in Hw. congruence.
Qed.
Lemma opt_eqb_iff {A} (f : A -> A -> bool) R a b : (forall x y, f x y = true <-> R x y) -> (opt_eqb f a b = true <-> opt_rel R a b).
Proof.
  intro Hf. destruct a as [x|], b as [y|]; cbn [opt_eqb].
  - rewrite Hf. split; [now constructor|intro H; now inversion H].
  - split; [discriminate|intro H; inversion H].
  - split; [discriminate|intro H; inversion H].
  - split; [constructor|reflexivity].
Qed.
Lemma exinfo_iff lp rp a b : exinfo_eq lp rp a b = Ok true <-> same_handler lp rp a b.
Proof.
  unfold exinfo_eq, same_handler. split.
  - destruct (get_catch_type lp a) as [s|] eqn:Es; [|discriminate]. destruct (get_catch_type rp b) as [t|] eqn:Et; [|discriminate]. cbn [rbind]. intro H. injection H as H.
    apply andb_prop in H as [H H4]. apply andb_prop in H as [H H3]. apply andb_prop in H as [H1 H2]. apply Z.eqb_eq in H1. apply Z.eqb_eq in H2. apply Z.eqb_eq in H3.
    repeat (split; [assumption|]). exists s, t. split; [now apply catch_iff|]. split; [now apply catch_iff|]. eapply opt_eqb_iff; [|exact H4]. reflexivity.
  - intros (-> & -> & -> & s & t & H1 & H2 & H3). apply catch_iff in H1. apply catch_iff in H2. rewrite H1, H2. cbn [rbind]. rewrite !Z.eqb_refl. cbn [andb]. f_equal.
    eapply opt_eqb_iff; [|exact H3]. reflexivity.
Qed.
Lemma tuple_eq_iff {A B} (f : A -> B -> res bool) (R : A -> B -> Prop) : (forall x y, f x y = Ok true <-> R x y) ->
  forall l r, tuple_eq f l r = Ok true <-> Forall2 R l r.
Proof.
  intros Hf l. induction l as [|x l IH]; intros [|y r]; cbn [tuple_eq].
  - split; [constructor|reflexivity].
  - split; [discriminate|intro H; inversion H].
  - split; [discriminate|intro H; inversion H].
  - split.
    + destruct (f x y) as [b|] eqn:E; [|discriminate]. cbn [rbind]. destruct b; [|discriminate]. intro H. constructor; [now apply Hf|now apply IH].
    + intro H. inversion H as [|? ? ? ? H1 H2]; subst. apply Hf in H1. rewrite H1. cbn [rbind]. now apply IH.
Qed.

(** Proofs about constant pools. *)
From Verif Require Import Base Pack_Model Pack_Spec Pack_Proofs ConstPool_Model ConstPool_Spec.
Ltac Zify.zify_post_hook ::= Z.div_mod_to_equations.

(** ** Reading fields, in continuation form *)
Lemma prun_unpack1 {A} c v (k : Z -> prog A) rest :
  field_ok c v = true ->
  prun (pbind (p_unpack1 c) k) (enc_field c v ++ rest) = prun (k v) rest.
Proof.
  intro H. unfold p_unpack1. cbn [pbind].
  replace (enc_field c v ++ rest) with (enc_fields [c] [v] ++ rest) by (cbn; now rewrite app_nil_r).
  rewrite prun_unpack_enc by (cbn; now rewrite H). reflexivity.
Qed.
Lemma prun_unpack2 {A} c d v w (k : Z * Z -> prog A) rest :
  field_ok c v = true -> field_ok d w = true ->
  prun (pbind (p_unpack2 c d) k) (enc_field c v ++ enc_field d w ++ rest) = prun (k (v, w)) rest.
Proof.
  intros H1 H2. unfold p_unpack2. cbn [pbind].
  replace (enc_field c v ++ enc_field d w ++ rest) with (enc_fields [c; d] [v; w] ++ rest)
    by (cbn; now rewrite app_nil_r, <- app_assoc).
  rewrite prun_unpack_enc by (cbn; now rewrite H1, H2). reflexivity.
Qed.
Lemma prun_unpack3 {A} c d e v w x (k : Z * Z * Z -> prog A) rest :
  field_ok c v = true -> field_ok d w = true -> field_ok e x = true ->
  prun (pbind (p_unpack3 c d e) k) (enc_field c v ++ enc_field d w ++ enc_field e x ++ rest)
  = prun (k (v, w, x)) rest.
Proof.
  intros H1 H2 H3. unfold p_unpack3. cbn [pbind].
  replace (enc_field c v ++ enc_field d w ++ enc_field e x ++ rest)
    with (enc_fields [c; d; e] [v; w; x] ++ rest)
    by (cbn; now rewrite app_nil_r, <- !app_assoc).
  rewrite prun_unpack_enc by (cbn; now rewrite H1, H2, H3). reflexivity.
Qed.
Lemma prun_unpack4 {A} c d e f v w x y (k : Z * Z * Z * Z -> prog A) rest :
  field_ok c v = true -> field_ok d w = true -> field_ok e x = true -> field_ok f y = true ->
  prun (pbind (p_unpack4 c d e f) k)
       (enc_field c v ++ enc_field d w ++ enc_field e x ++ enc_field f y ++ rest)
  = prun (k (v, w, x, y)) rest.
Proof.
  intros H1 H2 H3 H4. unfold p_unpack4. cbn [pbind].
  replace (enc_field c v ++ enc_field d w ++ enc_field e x ++ enc_field f y ++ rest)
    with (enc_fields [c; d; e; f] [v; w; x; y] ++ rest)
    by (cbn; now rewrite app_nil_r, <- !app_assoc).
  rewrite prun_unpack_enc by (cbn; now rewrite H1, H2, H3, H4). reflexivity.
Qed.
Lemma prun_read {A} n bs (k : bytes -> prog A) rest :
  length bs = n -> prun (pbind (p_read n) k) (bs ++ rest) = prun (k bs) rest.
Proof.
  intro H. unfold p_read. cbn [pbind prun].
  destruct (Nat.ltb_spec (length (bs ++ rest)) n) as [HL|_]; [rewrite app_length in HL; lia|].
  subst n. now rewrite firstn_app_exact, skipn_app_exact.
Qed.
Lemma prun_lift_ok {A B} (m : res A) a (k : A -> prog B) bs :
  m = Ok a -> prun (pbind (p_lift m) k) bs = prun (k a) bs.
Proof. now intros ->. Qed.

Lemma field_u2 n : 0 <= n < 65536 -> field_ok cH n = true.
Proof. intro H. cbn. lia. Qed.
Lemma field_u1 n : 0 <= n < 256 -> field_ok cB n = true.
Proof. intro H. cbn. lia. Qed.
Lemma field_u4 n : 0 <= n < 2 ^ 32 -> field_ok cI n = true.
Proof. intro H. cbn in *. lia. Qed.
Lemma enc_u1 n : 0 <= n < 256 -> enc_field cB n = [n].
Proof.
  intro H. unfold enc_field. cbn [fsize enc_be app]. change (2 ^ (8 * Z.of_nat 1)) with 256.
  rewrite Z.mod_mod by lia. now rewrite Z.mod_small.
Qed.

(** ** UTF-8 *)
Lemma utf8_step_mutf8 c rest : bmp_char c = true -> c <> 0 ->
  exists b0 r0, mutf8_char c = b0 :: r0 /\ utf8_step b0 (r0 ++ rest) = UChar c rest.
Proof.
  unfold bmp_char, mutf8_char. intros H Hc.
  destruct (Z.eqb_spec c 0); [contradiction|].
  destruct (Z.ltb_spec c 128).
  { exists c, []. split; [reflexivity|]. unfold utf8_step.
    destruct (Z.ltb_spec c 128); [reflexivity|lia]. }
  destruct (Z.ltb_spec c 2048).
  { eexists _, _. split; [reflexivity|]. cbn [app]. unfold utf8_step, is_cont.
    destruct (Z.ltb_spec (192 + c / 64) 128); [lia|].
    replace ((194 <=? 192 + c / 64) && (192 + c / 64 <? 224)) with true by lia.
    replace ((128 <=? 128 + c mod 64) && (128 + c mod 64 <? 192)) with true by lia.
    f_equal. lia. }
  eexists _, _. split; [reflexivity|]. cbn [app]. unfold utf8_step, is_cont.
  destruct (Z.ltb_spec (224 + c / 4096) 128); [lia|].
  replace ((194 <=? 224 + c / 4096) && (224 + c / 4096 <? 224)) with false by lia.
  replace ((224 <=? 224 + c / 4096) && (224 + c / 4096 <? 240)) with true by lia.
  replace (negb ((128 <=? 128 + (c / 64) mod 64) && (128 + (c / 64) mod 64 <? 192))) with false by lia.
  cbn [orb].
  replace (if 128 + (c / 64) mod 64 <? 160 then 224 + c / 4096 =? 224 else 224 + c / 4096 =? 237)
    with false.
  2:{ destruct (Z.ltb_spec (128 + (c / 64) mod 64) 160).
      - symmetry. apply Z.eqb_neq. lia.
      - symmetry. apply Z.eqb_neq. lia. }
  replace ((128 <=? 128 + c mod 64) && (128 + c mod 64 <? 192)) with true by lia.
  f_equal. lia.
Qed.

(** Plain UTF-8: modified UTF-8 with NUL as one byte. *)
Definition putf8_char (c : Z) : bytes := if c =? 0 then [0] else mutf8_char c.
Definition putf8 (s : str) : bytes := concat (map putf8_char s).

Lemma putf8_step c rest : bmp_char c = true ->
  exists b0 r0, putf8_char c = b0 :: r0 /\ utf8_step b0 (r0 ++ rest) = UChar c rest.
Proof.
  intro H. unfold putf8_char. destruct (Z.eqb_spec c 0) as [->|Hc].
  - exists 0, []. split; reflexivity.
  - apply utf8_step_mutf8; assumption.
Qed.

Lemma utf8_ignore_putf8 s : forall fuel, forallb bmp_char s = true ->
  (length (putf8 s) <= fuel)%nat -> utf8_ignore_f fuel (putf8 s) = s.
Proof.
  induction s as [|c s IH]; intros fuel H Hf.
  - destruct fuel; reflexivity.
  - cbn [forallb] in H. apply andb_prop in H as [Hc Hs].
    unfold putf8 in *. cbn [map concat] in *.
    destruct (putf8_step c (concat (map putf8_char s)) Hc) as (b0 & r0 & E & Hst).
    rewrite E in *. cbn [app length] in *. rewrite app_length in Hf.
    destruct fuel as [|fu]; [lia|]. cbn [utf8_ignore_f]. rewrite Hst, IH; auto. lia.
Qed.

Lemma utf8_strict_mutf8 s : forall fuel, forallb bmp_char s = true ->
  (length (mutf8 s) <= fuel)%nat ->
  utf8_strict_f fuel (mutf8 s) = Some s \/
  (utf8_strict_f fuel (mutf8 s) = None).
Proof.
  induction s as [|c s IH]; intros fuel H Hf.
  - left. destruct fuel; reflexivity.
  - cbn [forallb] in H. apply andb_prop in H as [Hc Hs].
    unfold mutf8 in *. cbn [map concat] in *.
    destruct (Z.eq_dec c 0) as [->|Hne].
    + right. change (mutf8_char 0) with [192; 128] in *. cbn [app length] in *.
      destruct fuel as [|fu]; [lia|]. cbn [utf8_strict_f].
      change (utf8_step 192 (128 :: concat (map mutf8_char s))) with (UBad (128 :: concat (map mutf8_char s))).
      reflexivity.
    + destruct (utf8_step_mutf8 c (concat (map mutf8_char s)) Hc Hne) as (b0 & r0 & E & Hst).
      rewrite E in *. cbn [app length] in *. rewrite app_length in Hf.
      destruct fuel as [|fu]; [lia|]. cbn [utf8_strict_f]. rewrite Hst.
      destruct (IH fu Hs ltac:(lia)) as [-> | ->]; auto.
Qed.

Lemma replace_c080_mutf8 s : forallb bmp_char s = true -> replace_c080 (mutf8 s) = putf8 s.
Proof.
  induction s as [|c s IH]; intro H; [reflexivity|].
  cbn [forallb] in H. apply andb_prop in H as [Hc Hs]. specialize (IH Hs).
  unfold mutf8, putf8 in *. cbn [map concat].
  set (tl := concat (map mutf8_char s)) in *.
  unfold putf8_char at 1. unfold mutf8_char, bmp_char in *.
  destruct (Z.eqb_spec c 0) as [->|Hne].
  - cbn [app replace_c080]. cbn. now rewrite IH.
  - assert (Hcons : forall b l, b <> 192 -> replace_c080 (b :: l) = b :: replace_c080 l).
    { intros b l Hb. cbn [replace_c080]. destruct l as [|b1 l]; [reflexivity|].
      destruct (Z.eqb_spec b 192); [contradiction|reflexivity]. }
    destruct (Z.ltb_spec c 128).
    + cbn [app]. rewrite Hcons by lia. now rewrite IH.
    + destruct (Z.ltb_spec c 2048).
      * cbn [app]. rewrite !Hcons by lia. now rewrite IH.
      * cbn [app]. rewrite !Hcons by lia. now rewrite IH.
Qed.

Lemma decode_mutf8 s : forallb bmp_char s = true -> decode_utf8_const (mutf8 s) = s.
Proof.
  intro H. unfold decode_utf8_const, utf8_strict.
  destruct (utf8_strict_mutf8 s (length (mutf8 s)) H (le_n _)) as [-> | ->]; [reflexivity|].
  rewrite replace_c080_mutf8 by exact H. unfold utf8_ignore. apply utf8_ignore_putf8; auto.
Qed.

(** ** Entries *)
Lemma prun_const c rest : jconst_ok c = true ->
  prun p_const (enc_const c ++ rest) = Ok (shown_const c, rest).
Proof.
  intro H. unfold p_const.
  assert (Htag : forall t (body : bytes) (k : Z -> prog const), 0 <= t < 256 ->
     prun (pbind (p_unpack1 cB) k) ((t :: body) ++ rest) = prun (k t) (body ++ rest)).
  { intros t body k Ht. change ((t :: body) ++ rest) with ([t] ++ (body ++ rest)).
    rewrite <- (enc_u1 t Ht). apply prun_unpack1, field_u1, Ht. }
  destruct c; cbn [enc_const jconst_ok shown_const] in *; unfold u2, e2 in *;
    try (match type of H with _ && _ = true => apply andb_prop in H as [H1 H2] end); rewrite Htag by lia;
    match goal with
    | |- context [?t =? CONST_Utf8] =>
        repeat match goal with
        | |- context [t =? ?x] => let b := eval vm_compute in (t =? x) in
                                  change (t =? x) with b; cbn iota
        | |- context [zmem t ?x] => let b := eval vm_compute in (zmem t x) in
                                  change (zmem t x) with b; cbn iota
        end
    end; rewrite <- ?app_assoc;
    try (rewrite prun_unpack1 by assumption; reflexivity);
    try (rewrite prun_unpack2 by assumption; reflexivity).
  - assert (HF : field_ok cH (Z.of_nat (length (mutf8 s))) = true) by (apply field_u2; lia).
    rewrite prun_unpack1 by exact HF. rewrite prun_read by lia.
    cbn [prun]. now rewrite decode_mutf8.
  - cbn [app]. rewrite <- ?app_assoc.
    assert (Hk : 0 <= k < 256) by (cbn in H1; lia).
    change (k :: enc_field cH i ++ rest) with ([k] ++ enc_field cH i ++ rest).
    rewrite <- (enc_u1 k Hk). rewrite prun_unpack2 by assumption. reflexivity.
Qed.

(** The list of slots of a pool. *)
Fixpoint slots (l : list jconst) : list const :=
  match l with
  | [] => []
  | c :: l' => shown_const c :: (if jwide c then KNone :: slots l' else slots l')
  end.

Lemma length_slots l : Z.of_nat (length (slots l)) = jslots l.
Proof.
  induction l as [|c l IH]; [reflexivity|].
  cbn [slots jslots length]. unfold jwidth. destruct (jwide c); cbn [length]; lia.
Qed.

Lemma is_wide_shown c : is_wide_const (shown_const c) = jwide c.
Proof. destruct c; reflexivity. Qed.

Lemma jslots_nonneg l : 0 <= jslots l.
Proof. rewrite <- length_slots. lia. Qed.

Lemma prun_consts l : forall rest, forallb jconst_ok l = true ->
  prun (p_consts (length (slots l)) false) (concat (map enc_const l) ++ rest) = Ok (slots l, rest).
Proof.
  induction l as [|c l IH]; intros rest H; [reflexivity|].
  cbn [forallb] in H. apply andb_prop in H as [Hc Hl].
  cbn [slots map concat]. rewrite <- app_assoc.
  destruct (jwide c) eqn:Hw; cbn [length p_consts];
    rewrite prun_bind, prun_const by exact Hc; cbn beta iota; rewrite is_wide_shown, Hw, prun_bind.
  - cbn [p_consts]. rewrite prun_bind, IH by exact Hl. reflexivity.
  - rewrite IH by exact Hl. reflexivity.
Qed.

Lemma prun_pool l rest : jpool_ok l = true ->
  prun p_pool (enc_pool l ++ rest) = Ok (KNone :: slots l, rest).
Proof.
  unfold jpool_ok, enc_pool, p_pool. intro H. apply andb_prop in H as [H1 H2].
  pose proof (jslots_nonneg l) as Hn. unfold e2.
  rewrite <- app_assoc. rewrite prun_unpack1 by (apply field_u2; lia).
  replace (Z.to_nat (1 + jslots l - 1)) with (length (slots l)) by (rewrite <- length_slots; lia).
  rewrite prun_bind, prun_consts by exact H1. reflexivity.
Qed.


(** ** Supplementary characters are dropped *)
Lemma step_bad_cont b rest : 128 <= b < 194 -> utf8_step b rest = UBad rest.
Proof.
  intro H. unfold utf8_step.
  destruct (Z.ltb_spec b 128); [lia|].
  destruct (Z.leb_spec 194 b); [lia|]. destruct (Z.leb_spec 224 b); [lia|].
  destruct (Z.leb_spec 240 b); [lia|]. reflexivity.
Qed.
Lemma step_bad_surrogate b rest : 160 <= b < 192 -> utf8_step 237 (b :: rest) = UBad (b :: rest).
Proof.
  intro H. cbn. unfold is_cont. destruct (Z.leb_spec 128 b); [|lia]. destruct (Z.ltb_spec b 192); [|lia].
  destruct (Z.ltb_spec b 160); [lia|]. reflexivity.
Qed.
Lemma surrogate_shape u : 55296 <= u < 57344 ->
  exists b1 b2, surrogate_bytes u = [237; b1; b2] /\ 160 <= b1 < 192 /\ 128 <= b2 < 192.
Proof.
  intro H. unfold surrogate_bytes. exists (128 + (u / 64) mod 64), (128 + u mod 64).
  split; [|lia]. repeat f_equal. lia.
Qed.
Lemma decode_supp c : 65536 <= c < 1114112 -> decode_utf8_const (mutf8_supp c) = [].
Proof.
  intro H. unfold mutf8_supp.
  destruct (surrogate_shape (55296 + (c - 65536) / 1024)) as (a1 & a2 & -> & Ha1 & Ha2); [lia|].
  destruct (surrogate_shape (56320 + (c - 65536) mod 1024)) as (b1 & b2 & -> & Hb1 & Hb2); [lia|].
  unfold decode_utf8_const. cbn [app].
  unfold utf8_strict. cbn [length utf8_strict_f]. rewrite step_bad_surrogate by lia.
  assert (ER : replace_c080 [237; a1; a2; 237; b1; b2] = [237; a1; a2; 237; b1; b2]).
  { cbn [replace_c080].
    repeat match goal with |- context [(?x =? 192) && ?y] =>
      replace (x =? 192) with false by (symmetry; apply Z.eqb_neq; lia) end. reflexivity. }
  rewrite ER. unfold utf8_ignore. cbn [length utf8_ignore_f].
  rewrite step_bad_surrogate by lia. rewrite step_bad_cont by lia. rewrite step_bad_cont by lia.
  rewrite step_bad_surrogate by lia. rewrite step_bad_cont by lia. rewrite step_bad_cont by lia.
  reflexivity.
Qed.

(** Index lookup *)
Lemma nth_slots l : forall base i, base <= i ->
  nth_error (slots l) (Z.to_nat (i - base)) =
  match jat_from l base i with
  | Some c => Some (shown_const c)
  | None => if i <? base + jslots l then Some KNone else None
  end.
Proof.
  induction l as [|c l IH]; intros base i Hb.
  - cbn [slots jat_from jslots]. destruct (Z.ltb_spec i (base + 0)); [lia|].
    destruct (Z.to_nat (i - base)); reflexivity.
  - cbn [slots jat_from jslots]. destruct (Z.eqb_spec i base) as [->|Hne].
    + replace (Z.to_nat (base - base)) with 0%nat by lia. reflexivity.
    + replace (Z.to_nat (i - base)) with (S (Z.to_nat (i - (base + 1)))) by lia.
      cbn [nth_error]. unfold jwidth. destruct (jwide c) eqn:Hw.
      * destruct (Z.eq_dec i (base + 1)) as [->|Hne2].
        -- replace (Z.to_nat (base + 1 - (base + 1))) with 0%nat by lia. cbn [nth_error].
           assert (HN : jat_from l (base + 2) (base + 1) = None).
           { clear. assert (HG : forall b j, j < b -> jat_from l b j = None).
             { induction l as [|c' l IH']; intros b j Hj; [reflexivity|].
               cbn [jat_from]. destruct (Z.eqb_spec j b); [lia|]. apply IH'.
               unfold jwidth; destruct (jwide c'); lia. }
             apply HG. lia. }
           rewrite HN. pose proof (jslots_nonneg l).
           destruct (Z.ltb_spec (base + 1) (base + (2 + jslots l))); [reflexivity|lia].
        -- replace (Z.to_nat (i - (base + 1))) with (S (Z.to_nat (i - (base + 2)))) by lia.
           cbn [nth_error]. rewrite IH by lia. rewrite Z.add_assoc. reflexivity.
      * rewrite IH by lia. rewrite Z.add_assoc. reflexivity.
Qed.

Lemma get_const_pool l i : 0 <= i ->
  get_const (KNone :: slots l) i =
  match jat l i with
  | Some c => Ok (shown_const c)
  | None => if i <? 1 + jslots l then Ok KNone else Err IndexError
  end.
Proof.
  intro Hi. unfold get_const, py_index, jat. destruct (Z.leb_spec 0 i); [|lia].
  destruct (Z.eq_dec i 0) as [->|Hne].
  - cbn [Z.to_nat nth_error].
    assert (HG : forall b, 0 < b -> jat_from l b 0 = None).
    { induction l as [|c' l IH']; intros b Hb; [reflexivity|].
      cbn [jat_from]. destruct (Z.eqb_spec 0 b); [lia|]. apply IH'.
      unfold jwidth; destruct (jwide c'); lia. }
    rewrite HG by lia. pose proof (jslots_nonneg l). destruct (Z.ltb_spec 0 (1 + jslots l)); [reflexivity|lia].
  - replace (Z.to_nat i) with (S (Z.to_nat (i - 1))) by lia. cbn [nth_error].
    rewrite nth_slots by lia. destruct (jat_from l 1 i); [reflexivity|].
    destruct (i <? 1 + jslots l); reflexivity.
Qed.

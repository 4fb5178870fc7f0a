(** Lemmas about the unpackers. *)
From Verif Require Import Base Pack_Model Pack_Spec.

Lemma size_cons c f : size (c :: f) = (fsize c + size f)%nat.
Proof. reflexivity. Qed.

Lemma sdecode_firstn f bs n :
  (size f <= n)%nat -> sdecode f (firstn n bs) = sdecode f bs.
Proof.
  revert bs n; induction f as [|c f IH]; intros bs n Hn; [reflexivity|].
  rewrite size_cons in Hn.
  cbn [sdecode]. rewrite firstn_firstn, Nat.min_l by lia.
  f_equal. rewrite skipn_firstn_comm. apply IH. lia.
Qed.

Lemma length_sdecode f bs : length (sdecode f bs) = length f.
Proof. revert bs; induction f as [|c f IH]; intros bs; simpl; [reflexivity|]. now rewrite IH. Qed.

(** The two concrete unpackers refine the abstract reader. *)

Lemma skipn_add {A} (a b : nat) (l : list A) : skipn (a + b) l = skipn b (skipn a l).
Proof. revert l; induction a as [|a IH]; intros l; [reflexivity|].
  destruct l as [|x l]; simpl; [now rewrite skipn_nil|]. apply IH. Qed.

Definition buf_inv (d : bytes) (st : bufst) : Prop :=
  bdata st = Some d /\ (boff st <= length d)%nat.

Lemma buf_avail_inv d st : buf_inv d st ->
  buf_avail st = Z.of_nat (length (buf_rest st)).
Proof.
  intros [Hd Ho]. unfold buf_avail, buf_rest. rewrite Hd.
  rewrite skipn_length. destruct d as [|b l]; cbn [length] in *; lia.
Qed.

Lemma run_buf_prun {A} (p : prog A) d st :
  buf_inv d st ->
  match prun p (buf_rest st) with
  | Ok (a, rest) => exists st', run_buf p st = (Ok a, st') /\ buf_inv d st' /\ buf_rest st' = rest
  | Err e => exists st', run_buf p st = (Err e, st') /\ buf_inv d st'
  end.
Proof.
  revert st; induction p as [a|e|f k IH|n k IH]; intros st Hinv; cbn [prun run_buf].
  - exists st. auto.
  - exists st. auto.
  - unfold buf_unpack. rewrite (buf_avail_inv d) by exact Hinv.
    destruct (Nat.ltb_spec (length (buf_rest st)) (size f)) as [Hlt|Hge].
    + destruct (Z.ltb_spec (Z.of_nat (length (buf_rest st))) (Z.of_nat (size f))) as [_|?]; [|lia].
      exists st. auto.
    + destruct (Z.ltb_spec (Z.of_nat (length (buf_rest st))) (Z.of_nat (size f))) as [?|_]; [lia|].
      destruct Hinv as [Hd Ho].
      rewrite Hd. unfold buf_rest in *. rewrite Hd in *.
      rewrite skipn_length in Hge.
      unfold unpack_from.
      destruct (Nat.ltb_spec (length d) (boff st + size f)) as [?|_]; [lia|].
      specialize (IH (sdecode f (skipn (boff st) d))
                    {| bdata := Some d; boff := boff st + size f |}).
      cbn [bdata boff] in IH.
      rewrite skipn_add in IH.
      apply IH. split; cbn; [reflexivity|lia].
  - unfold buf_read. rewrite (buf_avail_inv d) by exact Hinv.
    destruct (Nat.ltb_spec (length (buf_rest st)) n) as [Hlt|Hge].
    + destruct (Z.ltb_spec (Z.of_nat (length (buf_rest st))) (Z.of_nat n)) as [_|?]; [|lia].
      exists st. auto.
    + destruct (Z.ltb_spec (Z.of_nat (length (buf_rest st))) (Z.of_nat n)) as [?|_]; [lia|].
      destruct Hinv as [Hd Ho].
      rewrite Hd. unfold buf_rest in *. rewrite Hd in *.
      rewrite skipn_length in Hge.
      unfold slice. replace (boff st + n - boff st)%nat with n by lia.
      specialize (IH (firstn n (skipn (boff st) d))
                    {| bdata := Some d; boff := boff st + n |}).
      cbn [bdata boff] in IH.
      rewrite skipn_add in IH.
      apply IH. split; cbn; [reflexivity|lia].
Qed.

Lemma run_str_prun {A} (p : prog A) d :
  match prun p d with
  | Ok (a, rest) => run_str p (Some d) = (Ok a, Some rest)
  | Err e => exists st', run_str p (Some d) = (Err e, st')
  end.
Proof.
  revert d; induction p as [a|e|f k IH|n k IH]; intros d; cbn [prun run_str].
  - reflexivity.
  - eauto.
  - unfold str_unpack. rewrite firstn_length.
    destruct (Nat.ltb_spec (length d) (size f)) as [Hlt|Hge].
    + destruct (Nat.ltb_spec (Nat.min (size f) (length d)) (size f)) as [_|?]; [|lia].
      rewrite Nat.min_r by lia. eauto.
    + destruct (Nat.ltb_spec (Nat.min (size f) (length d)) (size f)) as [?|_]; [lia|].
      rewrite sdecode_firstn by lia. apply IH.
  - unfold str_read. rewrite firstn_length.
    destruct (Nat.ltb_spec (length d) n) as [Hlt|Hge].
    + destruct (Nat.ltb_spec (Nat.min n (length d)) n) as [_|?]; [|lia].
      rewrite Nat.min_r by lia. eauto.
    + destruct (Nat.ltb_spec (Nat.min n (length d)) n) as [?|_]; [lia|].
      apply IH.
Qed.

Lemma run_buf_open {A} (p : prog A) d :
  match prun p d with
  | Ok (a, rest) => exists st', run_buf p (open_buf d) = (Ok a, st') /\ buf_rest st' = rest
  | Err e => exists st', run_buf p (open_buf d) = (Err e, st')
  end.
Proof.
  pose proof (run_buf_prun p d (open_buf d)) as H.
  unfold buf_rest, open_buf in H. cbn in H.
  specialize (H (conj eq_refl (Nat.le_0_l _))).
  destruct (prun p d) as [[a rest]|e].
  - destruct H as (st' & H1 & _ & H2). exists st'. split; [exact H1|].
    unfold buf_rest. exact H2.
  - destruct H as (st' & H1 & _). eauto.
Qed.

Lemma buf_str_agree {A} (p : prog A) d :
  fst (run_buf p (open_buf d)) = fst (run_str p (open_stream d)) /\
  (forall a, fst (run_buf p (open_buf d)) = Ok a ->
     snd (run_str p (open_stream d)) = Some (buf_rest (snd (run_buf p (open_buf d))))).
Proof.
  pose proof (run_buf_open p d) as HB. pose proof (run_str_prun p d) as HS.
  unfold open_stream.
  destruct (prun p d) as [[a rest]|e].
  - destruct HB as (st' & HB & Hr). rewrite HB, HS. cbn. split; [reflexivity|].
    intros a0 _. now rewrite Hr.
  - destruct HB as (st' & HB). destruct HS as (st'' & HS). rewrite HB, HS. cbn.
    split; [reflexivity|]. intros a H; discriminate.
Qed.

(** Monad laws for [prun]. *)
Lemma prun_bind {A B} (p : prog A) (k : A -> prog B) bs :
  prun (pbind p k) bs =
  match prun p bs with Ok (a, rest) => prun (k a) rest | Err e => Err e end.
Proof.
  revert bs; induction p as [a|e|f g IH|n g IH]; intros bs; cbn [pbind prun]; try reflexivity.
  - destruct (_ <? _)%nat; [reflexivity|apply IH].
  - destruct (_ <? _)%nat; [reflexivity|apply IH].
Qed.

(** Encoding lemmas. *)
Lemma length_enc_be n v : length (enc_be n v) = n.
Proof. revert v; induction n as [|n IH]; intros v; [reflexivity|]. cbn [enc_be].
  rewrite app_length, IH. simpl. lia. Qed.

Lemma length_enc_field c v : length (enc_field c v) = fsize c.
Proof. apply length_enc_be. Qed.

Lemma be_app a b : be (a ++ b) = be a * 256 ^ Z.of_nat (length b) + be b.
Proof.
  unfold be. rewrite fold_left_app. generalize (fold_left (fun acc b0 => acc * 256 + b0) a 0).
  induction b as [|x b IH] using rev_ind; intros z; [simpl; lia|].
  rewrite !fold_left_app, app_length. cbn [fold_left length].
  rewrite IH. replace (Z.of_nat (length b + 1)) with (Z.of_nat (length b) + 1) by lia.
  rewrite Z.pow_add_r by lia. nia.
Qed.

Lemma be_enc_be n v : 0 <= v < 256 ^ Z.of_nat n -> be (enc_be n v) = v.
Proof.
  revert v; induction n as [|n IH]; intros v Hv.
  - cbn in *. lia.
  - cbn [enc_be]. rewrite be_app. cbn [length].
    change (Z.of_nat 1) with 1. rewrite Z.pow_1_r.
    rewrite IH.
    + unfold be; cbn [fold_left]. rewrite (Z.div_mod v 256) at 3 by lia. lia.
    + replace (Z.of_nat (S n)) with (Z.of_nat n + 1) in Hv by lia.
      rewrite Z.pow_add_r in Hv by lia. split; [apply Z.div_pos; lia|].
      apply Z.div_lt_upper_bound; lia.
Qed.

Lemma all_bytes_enc_be n v : all_bytes (enc_be n v).
Proof.
  revert v; induction n as [|n IH]; intros v; [constructor|].
  cbn [enc_be]. apply Forall_app. split; [apply IH|].
  constructor; [|constructor]. apply Z.mod_pos_bound. lia.
Qed.

Lemma be_bound bs : all_bytes bs -> 0 <= be bs < 256 ^ Z.of_nat (length bs).
Proof.
  induction bs as [|b bs IH] using rev_ind; intros H.
  - cbn. lia.
  - apply Forall_app in H as [H1 H2]. inversion H2; subst.
    specialize (IH H1). rewrite be_app, app_length. cbn [length].
    change (Z.of_nat 1) with 1. rewrite Z.pow_1_r.
    replace (Z.of_nat (length bs + 1)) with (Z.of_nat (length bs) + 1) by lia.
    rewrite Z.pow_add_r by lia. unfold be at 2 4. cbn [fold_left]. lia.
Qed.

Lemma enc_be_be bs : all_bytes bs -> enc_be (length bs) (be bs) = bs.
Proof.
  induction bs as [|b bs IH] using rev_ind; intros H; [reflexivity|].
  apply Forall_app in H as [H1 H2]. inversion H2 as [|? ? Hb _]; subst.
  rewrite app_length, be_app. cbn [length]. replace (length bs + 1)%nat with (S (length bs)) by lia.
  cbn [enc_be]. change (Z.of_nat 1) with 1. rewrite Z.pow_1_r.
  unfold be at 2 4. cbn [fold_left]. rewrite Z.mul_0_l, Z.add_0_l.
  rewrite Z.div_add_l, Z.div_small, Z.add_0_r, IH by (auto; lia).
  rewrite Z.add_comm, Z.mod_add, Z.mod_small by lia. reflexivity.
Qed.

Lemma fdecode_enc c v : field_ok c v = true -> fdecode c (enc_field c v) = v.
Proof.
  unfold enc_field.
  destruct c; cbn [field_ok fdecode fsize]; intro H; rewrite be_enc_be;
    change (Z.of_nat 1) with 1; change (Z.of_nat 2) with 2;
    change (Z.of_nat 4) with 4; change (Z.of_nat 8) with 8;
    try (change (256 ^ 1) with 256); try (change (256 ^ 2) with 65536);
    try (change (256 ^ 4) with 4294967296); try (change (256 ^ 8) with 18446744073709551616);
    try (apply Z.mod_pos_bound; lia);
    try (rewrite Z.mod_small; lia);
    try (unfold sgn;
      change (8 * Z.of_nat 1) with 8; change (8 * Z.of_nat 2) with 16;
      change (8 * Z.of_nat 4) with 32; change (8 * Z.of_nat 8) with 64).
  - change (8 * 1) with 8. change (2 ^ (8-1)) with 128. change (2^8) with 256 in *.
    change (2^7) with 128 in *.
    destruct (Z.ltb_spec v 0) as [Hn|Hn].
    + replace (v mod 256) with (v + 256) by (rewrite <- (Z.mod_add v 1 256), Z.mul_1_l by lia; rewrite Z.mod_small; lia).
      destruct (v + 256 >=? 128) eqn:E; lia.
    + rewrite Z.mod_small by lia. destruct (v >=? 128) eqn:E; lia.
  - change (8 * 2) with 16. change (2 ^ (16-1)) with 32768. change (2^16) with 65536 in *.
    change (2^15) with 32768 in *.
    destruct (Z.ltb_spec v 0) as [Hn|Hn].
    + replace (v mod 65536) with (v + 65536) by (rewrite <- (Z.mod_add v 1 65536), Z.mul_1_l by lia; rewrite Z.mod_small; lia).
      destruct (v + 65536 >=? 32768) eqn:E; lia.
    + rewrite Z.mod_small by lia. destruct (v >=? 32768) eqn:E; lia.
  - change (8 * 4) with 32. change (2 ^ (32-1)) with 2147483648. change (2^32) with 4294967296 in *.
    change (2^31) with 2147483648 in *.
    destruct (Z.ltb_spec v 0) as [Hn|Hn].
    + replace (v mod 4294967296) with (v + 4294967296) by (rewrite <- (Z.mod_add v 1 4294967296), Z.mul_1_l by lia; rewrite Z.mod_small; lia).
      destruct (v + 4294967296 >=? 2147483648) eqn:E; lia.
    + rewrite Z.mod_small by lia. destruct (v >=? 2147483648) eqn:E; lia.
  - change (8 * 8) with 64. change (2 ^ (64-1)) with 9223372036854775808. change (2^64) with 18446744073709551616 in *.
    change (2^63) with 9223372036854775808 in *.
    destruct (Z.ltb_spec v 0) as [Hn|Hn].
    + replace (v mod 18446744073709551616) with (v + 18446744073709551616) by (rewrite <- (Z.mod_add v 1 18446744073709551616), Z.mul_1_l by lia; rewrite Z.mod_small; lia).
      destruct (v + 18446744073709551616 >=? 9223372036854775808) eqn:E; lia.
    + rewrite Z.mod_small by lia. destruct (v >=? 9223372036854775808) eqn:E; lia.
Qed.

Lemma firstn_app_exact {A} (a b : list A) : firstn (length a) (a ++ b) = a.
Proof. rewrite firstn_app, Nat.sub_diag, firstn_all, firstn_O, app_nil_r. reflexivity. Qed.

Lemma skipn_app_exact {A} (a b : list A) : skipn (length a) (a ++ b) = b.
Proof. rewrite skipn_app, Nat.sub_diag, skipn_all. reflexivity. Qed.

Lemma length_enc_fields f vs : fields_ok f vs = true -> length (enc_fields f vs) = size f.
Proof.
  revert vs; induction f as [|c f IH]; intros [|v vs] H; cbn in *; try discriminate; [reflexivity|].
  apply andb_prop in H as [H1 H2]. rewrite app_length, length_enc_field, IH by exact H2. reflexivity.
Qed.

Lemma sdecode_enc f vs rest :
  fields_ok f vs = true -> sdecode f (enc_fields f vs ++ rest) = vs.
Proof.
  revert vs rest; induction f as [|c f IH]; intros [|v vs] rest H; cbn [fields_ok] in H; try discriminate;
    [reflexivity|].
  apply andb_prop in H as [H1 H2].
  cbn [sdecode enc_fields]. rewrite <- app_assoc.
  rewrite <- (length_enc_field c v) at 1. rewrite firstn_app_exact.
  rewrite <- (length_enc_field c v) at 1. rewrite skipn_app_exact.
  rewrite fdecode_enc by exact H1. now rewrite IH.
Qed.

Lemma prun_unpack_enc {A} f vs (k : list Z -> prog A) rest :
  fields_ok f vs = true ->
  prun (PUnpack f k) (enc_fields f vs ++ rest) = prun (k vs) rest.
Proof.
  intro H. cbn [prun]. rewrite app_length, length_enc_fields by exact H.
  destruct (Nat.ltb_spec (size f + length rest) (size f)) as [?|_]; [lia|].
  rewrite sdecode_enc by exact H.
  rewrite <- (length_enc_fields f vs H) at 1. rewrite skipn_app_exact. reflexivity.
Qed.

Lemma unpack_from_enc f vs pre rest :
  fields_ok f vs = true ->
  unpack_from f (pre ++ enc_fields f vs ++ rest) (length pre) = Ok vs.
Proof.
  intro H. unfold unpack_from. rewrite !app_length, length_enc_fields by exact H.
  destruct (Nat.ltb_spec (length pre + (size f + length rest)) (length pre + size f)) as [?|_]; [lia|].
  rewrite skipn_app_exact, sdecode_enc by exact H. reflexivity.
Qed.

(** Encoding of a decoded field gives back the bytes. *)
Lemma fencode_decode c bs : all_bytes bs -> length bs = fsize c ->
  enc_field c (fdecode c bs) = bs /\ field_ok c (fdecode c bs) = true.
Proof.
  intros Hb Hl. pose proof (be_bound bs Hb) as Hbd. rewrite Hl in Hbd.
  assert (HE : (fdecode c bs) mod 2 ^ (8 * Z.of_nat (fsize c)) = be bs).
  { destruct c; cbn [fdecode fsize] in *; unfold sgn;
      try (apply Z.mod_small; change (2 ^ (8 * Z.of_nat 1)) with 256; change (2 ^ (8 * Z.of_nat 2)) with 65536;
           change (2 ^ (8 * Z.of_nat 4)) with (256 ^ Z.of_nat 4);
           change (2 ^ (8 * Z.of_nat 8)) with (256 ^ Z.of_nat 8); exact Hbd).
    all: change (256 ^ Z.of_nat 1) with (2 ^ (8 * Z.of_nat 1)) in Hbd;
         change (256 ^ Z.of_nat 2) with (2 ^ (8 * Z.of_nat 2)) in Hbd;
         change (256 ^ Z.of_nat 4) with (2 ^ (8 * Z.of_nat 4)) in Hbd;
         change (256 ^ Z.of_nat 8) with (2 ^ (8 * Z.of_nat 8)) in Hbd.
    all: match goal with |- (if ?c then _ else _) mod _ = _ => destruct c end;
      [ match goal with |- (?a - ?m) mod ?m = _ =>
          rewrite <- (Z.mod_add (a - m) 1 m) by (intro; discriminate);
          replace (a - m + 1 * m) with a by lia end; apply Z.mod_small; exact Hbd
      | apply Z.mod_small; exact Hbd ]. }
  split.
  - unfold enc_field. rewrite HE, <- Hl. apply enc_be_be. exact Hb.
  - destruct c; cbn [fdecode fsize field_ok] in *; unfold sgn in *;
    change (256 ^ Z.of_nat 1) with 256 in Hbd;
    change (256 ^ Z.of_nat 2) with 65536 in Hbd;
    change (256 ^ Z.of_nat 4) with 4294967296 in Hbd;
    change (256 ^ Z.of_nat 8) with 18446744073709551616 in Hbd;
    repeat match goal with |- context [2 ^ ?n] => let v := eval vm_compute in (2 ^ n) in change (2 ^ n) with v end;
    repeat match goal with |- context [if ?c then _ else _] => destruct c eqn:? end; lia.
Qed.

Lemma encode_decode f bs : all_bytes bs -> length bs = size f ->
  enc_fields f (sdecode f bs) = bs /\ fields_ok f (sdecode f bs) = true.
Proof.
  revert bs; induction f as [|c f IH]; intros bs Hb Hl.
  - destruct bs; [|discriminate]. split; reflexivity.
  - rewrite size_cons in Hl. cbn [sdecode enc_fields fields_ok].
    rewrite <- (firstn_skipn (fsize c) bs) in Hb. apply Forall_app in Hb as [Hb1 Hb2].
    destruct (fencode_decode c (firstn (fsize c) bs)) as [E1 E2].
    + exact Hb1.
    + rewrite firstn_length. lia.
    + destruct (IH (skipn (fsize c) bs)) as [E3 E4].
      * exact Hb2.
      * rewrite skipn_length. lia.
      * rewrite E1, E2, E3, E4. split; [apply firstn_skipn | reflexivity].
Qed.

(** Reader step characterisations (for C02). *)
Lemma buf_read_exact pre n_bytes rest :
  buf_read (length n_bytes) {| bdata := Some (pre ++ n_bytes ++ rest); boff := length pre |}
  = (Ok n_bytes, {| bdata := Some (pre ++ n_bytes ++ rest); boff := length pre + length n_bytes |}).
Proof.
  unfold buf_read, buf_avail. cbn [bdata boff].
  remember (pre ++ n_bytes ++ rest) as d eqn:Hd.
  assert (Hlen : length d = (length pre + length n_bytes + length rest)%nat)
    by (subst; rewrite !app_length; lia).
  destruct d as [|b d'].
  - cbn in Hlen. destruct (Z.ltb_spec 0 (Z.of_nat (length n_bytes))) as [?|_]; [lia|].
    unfold slice. rewrite skipn_nil, firstn_nil. destruct n_bytes; [reflexivity|cbn in Hlen; lia].
  - match goal with |- context [?x <? ?y] => destruct (Z.ltb_spec x y) as [?|_]; [lia|] end.
    unfold slice. rewrite Hd, skipn_app_exact.
    replace (length pre + length n_bytes - length pre)%nat with (length n_bytes) by lia.
    rewrite firstn_app_exact. reflexivity.
Qed.

Lemma buf_read_short pre rest n :
  (length rest < n)%nat ->
  buf_read n {| bdata := Some (pre ++ rest); boff := length pre |}
  = (Err (UnpackException (Z.of_nat n) (Z.of_nat (length rest))),
     {| bdata := Some (pre ++ rest); boff := length pre |}).
Proof.
  intro H. unfold buf_read.
  assert (E : buf_avail {| bdata := Some (pre ++ rest); boff := length pre |} = Z.of_nat (length rest)).
  { unfold buf_avail. cbn [bdata boff].
    assert (Hlen : length (pre ++ rest) = (length pre + length rest)%nat) by apply app_length.
    destruct (pre ++ rest) as [|b l]; cbn in Hlen; cbn [length]; lia. }
  rewrite E.
  match goal with |- context [?x <? ?y] => destruct (Z.ltb_spec x y) as [_|?]; [|lia] end.
  reflexivity.
Qed.

Lemma buf_unpack_exact pre f chunk rest :
  length chunk = size f ->
  buf_unpack f {| bdata := Some (pre ++ chunk ++ rest); boff := length pre |}
  = (Ok (sdecode f chunk), {| bdata := Some (pre ++ chunk ++ rest); boff := length pre + size f |}).
Proof.
  intro Hc. unfold buf_unpack.
  assert (E : buf_avail {| bdata := Some (pre ++ chunk ++ rest); boff := length pre |}
              = Z.of_nat (length chunk + length rest)).
  { unfold buf_avail. cbn [bdata boff].
    assert (Hlen : length (pre ++ chunk ++ rest) = (length pre + (length chunk + length rest))%nat)
      by (rewrite !app_length; lia).
    destruct (pre ++ chunk ++ rest) as [|b l]; cbn in Hlen; cbn [length]; lia. }
  rewrite E.
  match goal with |- context [?x <? ?y] => destruct (Z.ltb_spec x y) as [?|_]; [lia|] end.
  cbn [bdata boff]. unfold unpack_from. rewrite !app_length.
  match goal with |- context [(?x <? ?y)%nat] => destruct (Nat.ltb_spec x y) as [?|_]; [lia|] end.
  rewrite skipn_app_exact.
  assert (Hd : sdecode f (chunk ++ rest) = sdecode f chunk).
  { rewrite <- (sdecode_firstn f (chunk ++ rest) (size f)) by lia.
    rewrite <- Hc, firstn_app_exact. reflexivity. }
  rewrite Hd. reflexivity.
Qed.

Lemma buf_unpack_short pre f rest :
  (length rest < size f)%nat ->
  buf_unpack f {| bdata := Some (pre ++ rest); boff := length pre |}
  = (Err (UnpackException (Z.of_nat (size f)) (Z.of_nat (length rest))),
     {| bdata := Some (pre ++ rest); boff := length pre |}).
Proof.
  intro H. unfold buf_unpack.
  assert (E : buf_avail {| bdata := Some (pre ++ rest); boff := length pre |} = Z.of_nat (length rest)).
  { unfold buf_avail. cbn [bdata boff].
    assert (Hlen : length (pre ++ rest) = (length pre + length rest)%nat) by apply app_length.
    destruct (pre ++ rest) as [|b l]; cbn in Hlen; cbn [length]; lia. }
  rewrite E.
  match goal with |- context [?x <? ?y] => destruct (Z.ltb_spec x y) as [_|?]; [|lia] end.
  reflexivity.
Qed.

Lemma str_read_exact chunk rest :
  str_read (length chunk) (Some (chunk ++ rest)) = (Ok chunk, Some rest).
Proof.
  unfold str_read. rewrite firstn_app_exact, skipn_app_exact, Nat.ltb_irrefl. reflexivity.
Qed.

Lemma str_read_short rest n : (length rest < n)%nat ->
  fst (str_read n (Some rest)) = Err (UnpackException (Z.of_nat n) (Z.of_nat (length rest))).
Proof.
  intro H. unfold str_read. rewrite firstn_all2 by lia.
  destruct (Nat.ltb_spec (length rest) n); [reflexivity|lia].
Qed.

Lemma str_unpack_exact f chunk rest : length chunk = size f ->
  str_unpack f (Some (chunk ++ rest)) = (Ok (sdecode f chunk), Some rest).
Proof.
  intro Hc. unfold str_unpack. rewrite <- Hc, firstn_app_exact, skipn_app_exact, Nat.ltb_irrefl. reflexivity.
Qed.

Lemma str_unpack_short f rest : (length rest < size f)%nat ->
  fst (str_unpack f (Some rest)) = Err (UnpackException (Z.of_nat (size f)) (Z.of_nat (length rest))).
Proof.
  intro H. unfold str_unpack. rewrite firstn_all2 by lia.
  destruct (Nat.ltb_spec (length rest) (size f)); [reflexivity|lia].
Qed.

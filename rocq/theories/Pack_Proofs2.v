(** Combined statements about the unpackers used by P_Pack. *)
From Verif Require Import Base Pack_Model Pack_Spec Pack_Proofs.

(** Programs which never raise by themselves. *)
Inductive no_raise {A} : prog A -> Prop :=
| nr_ret a : no_raise (PRet a)
| nr_unpack f k : (forall vs, no_raise (k vs)) -> no_raise (PUnpack f k)
| nr_read n k : (forall bs, no_raise (k bs)) -> no_raise (PRead n k).

Lemma prun_no_raise {A} (p : prog A) bs e :
  no_raise p -> prun p bs = Err e -> exists w n, e = UnpackException w n /\ 0 <= n < w.
Proof.
  intro H. revert bs e. induction H as [a|f k _ IH|n k _ IH]; intros bs e; cbn [prun]; intro HE.
  - discriminate.
  - destruct (Nat.ltb_spec (length bs) (size f)).
    + injection HE as <-. eexists _, _. split; [reflexivity|lia].
    + eapply IH, HE.
  - destruct (Nat.ltb_spec (length bs) n).
    + injection HE as <-. eexists _, _. split; [reflexivity|lia].
    + eapply IH, HE.
Qed.

Lemma both_refine {A} (p : prog A) data :
  match prun p data with
  | Ok (a, rest) =>
      fst (run_buf p (open_buf data)) = Ok a /\
      buf_rest (snd (run_buf p (open_buf data))) = rest /\
      run_str p (open_stream data) = (Ok a, Some rest)
  | Err e =>
      fst (run_buf p (open_buf data)) = Err e /\
      fst (run_str p (open_stream data)) = Err e
  end.
Proof.
  pose proof (run_buf_open p data) as HB. pose proof (run_str_prun p data) as HS.
  unfold open_stream.
  destruct (prun p data) as [[a rest]|e].
  - destruct HB as (st' & HB & Hr). rewrite HB. cbn. auto.
  - destruct HB as (st' & HB). destruct HS as (st'' & HS). rewrite HB, HS. auto.
Qed.

Lemma failures_unpack {A} (p : prog A) data e :
  no_raise p -> fst (run_buf p (open_buf data)) = Err e ->
  exists w n, e = UnpackException w n /\ 0 <= n < w.
Proof.
  intros Hn HE. pose proof (both_refine p data) as H.
  destruct (prun p data) as [[a rest]|e'] eqn:E.
  - destruct H as (H & _). rewrite H in HE. discriminate.
  - destruct H as (H & _). rewrite H in HE. injection HE as <-. eapply prun_no_raise; eauto.
Qed.

Lemma buffer_exact (pre chunk rest : bytes) (f : fmt) :
    let d := pre ++ chunk ++ rest in
    buf_read (length chunk) {| bdata := Some d; boff := length pre |}
      = (Ok chunk, {| bdata := Some d; boff := length pre + length chunk |}) /\
    (length chunk = size f ->
     buf_unpack f {| bdata := Some d; boff := length pre |}
      = (Ok (sdecode f chunk), {| bdata := Some d; boff := length pre + size f |})).
Proof. split; [apply buf_read_exact | apply buf_unpack_exact]. Qed.

Lemma buffer_short (pre rest : bytes) (n : nat) (f : fmt) :
    let st := {| bdata := Some (pre ++ rest); boff := length pre |} in
    ((length rest < n)%nat ->
       buf_read n st = (Err (UnpackException (Z.of_nat n) (Z.of_nat (length rest))), st)) /\
    ((length rest < size f)%nat ->
       buf_unpack f st = (Err (UnpackException (Z.of_nat (size f)) (Z.of_nat (length rest))), st)).
Proof. split; [apply buf_read_short | apply buf_unpack_short]. Qed.

Lemma stream_exact (chunk rest : bytes) (n : nat) (f : fmt) :
    str_read (length chunk) (Some (chunk ++ rest)) = (Ok chunk, Some rest) /\
    (length chunk = size f ->
       str_unpack f (Some (chunk ++ rest)) = (Ok (sdecode f chunk), Some rest)) /\
    ((length rest < n)%nat ->
       fst (str_read n (Some rest)) = Err (UnpackException (Z.of_nat n) (Z.of_nat (length rest)))) /\
    ((length rest < size f)%nat ->
       fst (str_unpack f (Some rest)) =
         Err (UnpackException (Z.of_nat (size f)) (Z.of_nat (length rest)))).
Proof.
  split; [apply str_read_exact|]. split; [apply str_unpack_exact|].
  split; [apply str_read_short|apply str_unpack_short].
Qed.

Lemma closed_requests (st : bufst) (ss : strst) (n : nat) (f : fmt) :
    (0 < n)%nat -> (0 < size f)%nat ->
    fst (buf_read n (buf_close st)) = Err (UnpackException (Z.of_nat n) 0) /\
    fst (buf_unpack f (buf_close st)) = Err (UnpackException (Z.of_nat (size f)) 0) /\
    fst (str_read n (str_close ss)) = Err (UnpackException (Z.of_nat n) 0) /\
    fst (str_unpack f (str_close ss)) = Err (UnpackException (Z.of_nat (size f)) 0).
Proof.
  intros Hn Hf. unfold buf_read, buf_unpack, buf_close, buf_avail. cbn [bdata].
  destruct (Z.ltb_spec 0 (Z.of_nat n)); [|lia].
  destruct (Z.ltb_spec 0 (Z.of_nat (size f))); [|lia].
  repeat split.
Qed.

Lemma closed_zero : exists (st : bufst) (ss : strst),
    fst (buf_read 0 (buf_close st)) = Err TypeError /\
    fst (str_read 0 (str_close ss)) = Err (UnpackException 0 0).
Proof. exists (open_buf [1]), (Some [1]). split; reflexivity. Qed.

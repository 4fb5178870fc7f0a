(** Properties C01-C03: unpackers (javatools/pack.py). *)
From Verif Require Import Base Pack_Model Pack_Spec Pack_Proofs Pack_Proofs2.

(** C01.  Any adaptive program of requests gives the same outcome (value or
    exception, including wanted/present counts) on a bytes-backed and on a
    stream-backed unpacker, and leaves the same unread bytes on success. *)
Theorem C01_buffer_stream_agree :
  forall (A : Type) (p : prog A) (data : bytes),
    fst (run_buf p (open_buf data)) = fst (run_str p (open_stream data)) /\
    (forall a, fst (run_buf p (open_buf data)) = Ok a ->
       snd (run_str p (open_stream data)) =
         Some (buf_rest (snd (run_buf p (open_buf data))))).
Proof. exact (fun A p data => buf_str_agree p data). Qed.
Print Assumptions C01_buffer_stream_agree.

(** Both agree with plain reading from a list of bytes. *)
Theorem C01_both_refine_list_reading :
  forall (A : Type) (p : prog A) (data : bytes),
    match prun p data with
    | Ok (a, rest) =>
        fst (run_buf p (open_buf data)) = Ok a /\
        buf_rest (snd (run_buf p (open_buf data))) = rest /\
        run_str p (open_stream data) = (Ok a, Some rest)
    | Err e =>
        fst (run_buf p (open_buf data)) = Err e /\
        fst (run_str p (open_stream data)) = Err e
    end.
Proof. exact (fun A p data => both_refine p data). Qed.
Print Assumptions C01_both_refine_list_reading.

(** The only failure the unpackers add is UnpackException with present < wanted. *)
Theorem C01_failures_are_unpack_exceptions :
  forall (A : Type) (p : prog A) (data : bytes) e,
    no_raise p -> fst (run_buf p (open_buf data)) = Err e ->
    exists w n, e = UnpackException w n /\ 0 <= n < w.
Proof. exact (fun A p data e => failures_unpack p data e). Qed.
Print Assumptions C01_failures_are_unpack_exceptions.

(** A program reading a count and that many pairs, run on data with a trailing byte. *)
Example C01_example :
  let p := p_struct_array [cH; cb] in
  let d := [0; 2; 1; 0; 255; 0; 7; 3; 9] in
  no_raise (p_unpack [cH; cH]) /\
  fst (run_buf p (open_buf d)) = Ok [[256; -1]; [7; 3]] /\
  fst (run_str p (open_stream d)) = Ok [[256; -1]; [7; 3]] /\
  fst (run_buf p (open_buf [0; 2; 1])) = Err (UnpackException 3 1) /\
  fst (run_str p (open_stream [0; 2; 1])) = Err (UnpackException 3 1).
Proof. repeat split; try (vm_compute; reflexivity). repeat constructor. Qed.

(** C02.  Exact consumption by a bytes-backed unpacker at any position. *)
Theorem C02_buffer_exact :
  forall (pre chunk rest : bytes) (f : fmt),
    let d := pre ++ chunk ++ rest in
    buf_read (length chunk) {| bdata := Some d; boff := length pre |}
      = (Ok chunk, {| bdata := Some d; boff := length pre + length chunk |}) /\
    (length chunk = size f ->
     buf_unpack f {| bdata := Some d; boff := length pre |}
      = (Ok (sdecode f chunk), {| bdata := Some d; boff := length pre + size f |})).
Proof. exact buffer_exact. Qed.
Print Assumptions C02_buffer_exact.

(** C02.  A short read raises with the exact counts and does not move. *)
Theorem C02_buffer_short :
  forall (pre rest : bytes) (n : nat) (f : fmt),
    let st := {| bdata := Some (pre ++ rest); boff := length pre |} in
    ((length rest < n)%nat ->
       buf_read n st = (Err (UnpackException (Z.of_nat n) (Z.of_nat (length rest))), st)) /\
    ((length rest < size f)%nat ->
       buf_unpack f st = (Err (UnpackException (Z.of_nat (size f)) (Z.of_nat (length rest))), st)).
Proof. exact buffer_short. Qed.
Print Assumptions C02_buffer_short.

Theorem C02_stream_exact :
  forall (chunk rest : bytes) (n : nat) (f : fmt),
    str_read (length chunk) (Some (chunk ++ rest)) = (Ok chunk, Some rest) /\
    (length chunk = size f ->
       str_unpack f (Some (chunk ++ rest)) = (Ok (sdecode f chunk), Some rest)) /\
    ((length rest < n)%nat ->
       fst (str_read n (Some rest)) = Err (UnpackException (Z.of_nat n) (Z.of_nat (length rest)))) /\
    ((length rest < size f)%nat ->
       fst (str_unpack f (Some rest)) =
         Err (UnpackException (Z.of_nat (size f)) (Z.of_nat (length rest)))).
Proof. exact stream_exact. Qed.
Print Assumptions C02_stream_exact.

(** After close every request for at least one byte raises UnpackException with
    nothing present, whatever was read before. *)
Theorem C02_closed :
  forall (st : bufst) (ss : strst) (n : nat) (f : fmt),
    (0 < n)%nat -> (0 < size f)%nat ->
    fst (buf_read n (buf_close st)) = Err (UnpackException (Z.of_nat n) 0) /\
    fst (buf_unpack f (buf_close st)) = Err (UnpackException (Z.of_nat (size f)) 0) /\
    fst (str_read n (str_close ss)) = Err (UnpackException (Z.of_nat n) 0) /\
    fst (str_unpack f (str_close ss)) = Err (UnpackException (Z.of_nat (size f)) 0).
Proof. exact closed_requests. Qed.
Print Assumptions C02_closed.

(** Finding: on a closed unpacker a zero-byte request is a TypeError for bytes
    but an UnpackException for streams (pack.py:199-203 vs. 281-282). *)
Theorem C02_closed_zero_agree_refuted :
  exists (st : bufst) (ss : strst),
    fst (buf_read 0 (buf_close st)) = Err TypeError /\
    fst (str_read 0 (str_close ss)) = Err (UnpackException 0 0).
Proof. exact closed_zero. Qed.
Print Assumptions C02_closed_zero_agree_refuted.

Example C02_example :
  let st := {| bdata := Some [10; 20; 30; 40]; boff := 1 |} in
  fst (buf_unpack [cH] st) = Ok [20 * 256 + 30] /\
  buf_read 4 st = (Err (UnpackException 4 3), st) /\
  fst (buf_read 3 st) = Ok [20; 30; 40].
Proof. vm_compute. auto. Qed.

(** C03.  Decoding a big-endian two's complement encoding is the identity, at any
    position and with any trailing bytes; and conversely re-encoding decoded
    bytes gives them back (so decoding is a bijection on chunks). *)
Theorem C03_decode_encode :
  forall (f : fmt) (vs : list Z) (pre rest : bytes),
    fields_ok f vs = true ->
    unpack_from f (pre ++ enc_fields f vs ++ rest) (length pre) = Ok vs.
Proof. exact unpack_from_enc. Qed.
Print Assumptions C03_decode_encode.

Theorem C03_encode_decode :
  forall (f : fmt) (chunk : bytes),
    all_bytes chunk -> length chunk = size f ->
    enc_fields f (sdecode f chunk) = chunk /\ fields_ok f (sdecode f chunk) = true.
Proof. exact encode_decode. Qed.
Print Assumptions C03_encode_decode.

Example C03_example :
  fields_ok [cB; ch; ci; cq] [200; -2; 65537; -9223372036854775808] = true /\
  enc_fields [cB; ch] [200; -2] = [200; 255; 254].
Proof. vm_compute. auto. Qed.

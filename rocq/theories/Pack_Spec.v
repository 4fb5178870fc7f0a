(** Specification of binary unpacking, independent of the unpackers: reading
    from a list of bytes, and the big-endian encoding of integers. *)

From Verif Require Import Base Pack_Model.

(** Abstract reading: a program consumes a prefix of a byte list.  This is what
    a user expects of any Unpacker; it knows nothing of offsets or streams. *)
Fixpoint prun {A} (p : prog A) (bs : bytes) : res (A * bytes) :=
  match p with
  | PRet a => Ok (a, bs)
  | PRaise e => Err e
  | PUnpack f k =>
      if (length bs <? size f)%nat
      then Err (UnpackException (Z.of_nat (size f)) (Z.of_nat (length bs)))
      else prun (k (sdecode f bs)) (skipn (size f) bs)
  | PRead n k =>
      if (length bs <? n)%nat
      then Err (UnpackException (Z.of_nat n) (Z.of_nat (length bs)))
      else prun (k (firstn n bs)) (skipn n bs)
  end.

(** Big-endian encoding in [n] bytes of a non-negative integer. *)
Fixpoint enc_be (n : nat) (v : Z) : bytes :=
  match n with
  | O => []
  | S m => enc_be m (v / 256) ++ [v mod 256]
  end.

(** Two's complement big-endian encoding of a field. *)
Definition enc_field (c : fcode) (v : Z) : bytes :=
  enc_be (fsize c) (v mod 2 ^ (8 * Z.of_nat (fsize c))).

(** Range of values representable in a field. *)
Definition field_ok (c : fcode) (v : Z) : bool :=
  match c with
  | cB => (0 <=? v) && (v <? 2 ^ 8)
  | cb => (- 2 ^ 7 <=? v) && (v <? 2 ^ 7)
  | cH => (0 <=? v) && (v <? 2 ^ 16)
  | ch => (- 2 ^ 15 <=? v) && (v <? 2 ^ 15)
  | cI | cf => (0 <=? v) && (v <? 2 ^ 32)
  | ci => (- 2 ^ 31 <=? v) && (v <? 2 ^ 31)
  | cq => (- 2 ^ 63 <=? v) && (v <? 2 ^ 63)
  | cd => (0 <=? v) && (v <? 2 ^ 64)
  end.

Fixpoint fields_ok (f : fmt) (vs : list Z) : bool :=
  match f, vs with
  | [], [] => true
  | c :: f', v :: vs' => field_ok c v && fields_ok f' vs'
  | _, _ => false
  end.

Fixpoint enc_fields (f : fmt) (vs : list Z) : bytes :=
  match f, vs with
  | c :: f', v :: vs' => enc_field c v ++ enc_fields f' vs'
  | _, _ => []
  end.

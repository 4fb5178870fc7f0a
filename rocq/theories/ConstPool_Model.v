(** Model of the constant pool of /repo/javatools/__init__.py: UTF-8 decoding of
    CONST_Utf8 entries, entry parsing, get_const, deref_const, constants. *)
From Verif Require Import Base Pack_Model.

(** ** bytes.decode("utf8"), used by __init__.py:2128 and 2134 *)

(** Runtime behaviour (CPython unicode_decode_utf8), not a line of /repo: one
    decoding step on a non-empty input yields a character and the bytes after
    it, or the number of bytes an error handler skips (the maximal subpart). *)
Inductive ustep := UChar (c : Z) (rest : bytes) | UBad (rest : bytes).

Definition is_cont (b : Z) : bool := (128 <=? b) && (b <? 192).

Definition utf8_step (b0 : Z) (r0 : bytes) : ustep :=
  if b0 <? 128 then UChar b0 r0
  else if (194 <=? b0) && (b0 <? 224) then
    match r0 with
    | [] => UBad []
    | b1 :: r1 =>
        if is_cont b1 then UChar ((b0 - 192) * 64 + (b1 - 128)) r1 else UBad r0
    end
  else if (224 <=? b0) && (b0 <? 240) then
    match r0 with
    | [] => UBad []
    | b1 :: r1 =>
        if negb (is_cont b1) || (if b1 <? 160 then b0 =? 224 else b0 =? 237) then UBad r0
        else match r1 with
             | [] => UBad []
             | b2 :: r2 =>
                 if is_cont b2
                 then UChar ((b0 - 224) * 4096 + (b1 - 128) * 64 + (b2 - 128)) r2
                 else UBad r1
             end
    end
  else if (240 <=? b0) && (b0 <? 245) then
    match r0 with
    | [] => UBad []
    | b1 :: r1 =>
        if negb (is_cont b1) || (if b1 <? 144 then b0 =? 240 else b0 =? 244) then UBad r0
        else match r1 with
             | [] => UBad []
             | b2 :: r2 =>
                 if is_cont b2 then
                   match r2 with
                   | [] => UBad []
                   | b3 :: r3 =>
                       if is_cont b3
                       then UChar ((b0 - 240) * 262144 + (b1 - 128) * 4096
                                   + (b2 - 128) * 64 + (b3 - 128)) r3
                       else UBad r2
                   end
                 else UBad r1
             end
    end
  else UBad r0.

(** decode("utf8") (strict: [None] is UnicodeDecodeError) and
    decode("utf8", errors="ignore"); fuel is the length of the input. *)
Fixpoint utf8_strict_f (fuel : nat) (bs : bytes) : option str :=
  match bs with
  | [] => Some []
  | b0 :: r0 =>
      match fuel with
      | O => None
      | S fu => match utf8_step b0 r0 with
                | UChar c r => match utf8_strict_f fu r with Some s => Some (c :: s) | None => None end
                | UBad _ => None
                end
      end
  end.
Definition utf8_strict (bs : bytes) : option str := utf8_strict_f (length bs) bs.

Fixpoint utf8_ignore_f (fuel : nat) (bs : bytes) : str :=
  match bs with
  | [] => []
  | b0 :: r0 =>
      match fuel with
      | O => []
      | S fu => match utf8_step b0 r0 with
                | UChar c r => c :: utf8_ignore_f fu r
                | UBad r => utf8_ignore_f fu r
                end
      end
  end.
Definition utf8_ignore (bs : bytes) : str := utf8_ignore_f (length bs) bs.

(** val.replace(b"\xC0\x80", b"\x00"), __init__.py:2133 *)
Fixpoint replace_c080 (bs : bytes) : bytes :=
  match bs with
  | [] => []
  | b0 :: r0 =>
      match r0 with
      | b1 :: r1 => if (b0 =? 192) && (b1 =? 128) then 0 :: replace_c080 r1
                    else b0 :: replace_c080 r0
      | [] => [b0]
      end
  end.

(** __init__.py:2127-2134.  Simplification: the data was given as bytes or as a
    stream of bytes (a memoryview slice has no decode method). *)
Definition decode_utf8_const (bs : bytes) : str :=
  match utf8_strict bs with
  | Some s => s
  | None => utf8_ignore (replace_c080 bs)
  end.

(** ** Entries *)

(** An element of JavaConstantPool.consts, __init__.py:201-224: (None, None) or
    (typecode, value).  Floats and doubles are bit patterns.  [KRef t i] is any
    entry whose value is one index, [KRef2 t a b] one whose value is a pair of
    u2, [KHandle k i] a MethodHandle. *)
Inductive const :=
| KNone
| KUtf8 (s : str)
| KInt (z : Z)
| KFloat (bits : Z)
| KLong (z : Z)
| KDouble (bits : Z)
| KRef (t : Z) (i : Z)
| KRef2 (t : Z) (a b : Z)
| KHandle (k i : Z).

(** Constant pool tags, __init__.py:82-99 *)
Definition CONST_Utf8 := 1.               Definition CONST_Integer := 3.
Definition CONST_Float := 4.              Definition CONST_Long := 5.
Definition CONST_Double := 6.             Definition CONST_Class := 7.
Definition CONST_String := 8.             Definition CONST_Fieldref := 9.
Definition CONST_Methodref := 10.         Definition CONST_InterfaceMethodref := 11.
Definition CONST_NameAndType := 12.       Definition CONST_ModuleId := 13.
Definition CONST_MethodHandle := 15.      Definition CONST_MethodType := 16.
Definition CONST_Dynamic := 17.           Definition CONST_InvokeDynamic := 18.
Definition CONST_Module := 19.            Definition CONST_Package := 20.

(** Tags whose value is one u2, __init__.py:2148-2149 (and 263-264) *)
Definition one_index_tags : list Z :=
  [CONST_Class; CONST_String; CONST_MethodType; CONST_Module; CONST_Package].
(** Tags whose value is two u2, __init__.py:2152-2154 *)
Definition two_index_tags : list Z :=
  [CONST_Fieldref; CONST_Methodref; CONST_InterfaceMethodref; CONST_NameAndType;
   CONST_ModuleId; CONST_InvokeDynamic; CONST_Dynamic].
Definition zmem (x : Z) (l : list Z) : bool := existsb (Z.eqb x) l.

(** First component of an element of consts. *)
Definition ctag (c : const) : option Z :=
  match c with
  | KNone => None
  | KUtf8 _ => Some CONST_Utf8 | KInt _ => Some CONST_Integer | KFloat _ => Some CONST_Float
  | KLong _ => Some CONST_Long | KDouble _ => Some CONST_Double
  | KRef t _ => Some t | KRef2 t _ _ => Some t | KHandle _ _ => Some CONST_MethodHandle
  end.

(** _unpack_const_item, __init__.py:2115-2167 (lines 2160-2161 are unreachable:
    CONST_MethodType is already handled at 2148) *)
Definition p_const : prog const :=
  t <<- p_unpack1 cB ;;;
  if t =? CONST_Utf8 then
    n <<- p_unpack1 cH ;;; bs <<- p_read (Z.to_nat n) ;;; PRet (KUtf8 (decode_utf8_const bs))
  else if t =? CONST_Integer then v <<- p_unpack1 ci ;;; PRet (KInt v)
  else if t =? CONST_Float then v <<- p_unpack1 cf ;;; PRet (KFloat v)
  else if t =? CONST_Long then v <<- p_unpack1 cq ;;; PRet (KLong v)
  else if t =? CONST_Double then v <<- p_unpack1 cd ;;; PRet (KDouble v)
  else if zmem t one_index_tags then i <<- p_unpack1 cH ;;; PRet (KRef t i)
  else if zmem t two_index_tags then
    ab <<- p_unpack2 cH cH ;;; PRet (KRef2 t (fst ab) (snd ab))
  else if t =? CONST_MethodHandle then
    ki <<- p_unpack2 cB cH ;;; PRet (KHandle (fst ki) (snd ki))
  else PRaise UnknownConstantPoolTag.

(** [item[0] in (CONST_Long, CONST_Double)], __init__.py:221 *)
Definition is_wide_const (c : const) : bool :=
  match c with KLong _ | KDouble _ => true | _ => false end.

(** The loop of JavaConstantPool.unpack, __init__.py:208-222, with [hack] the
    hackpass flag. *)
Fixpoint p_consts (n : nat) (hack : bool) : prog (list const) :=
  match n with
  | O => PRet []
  | S m =>
      if hack then l <<- p_consts m false ;;; PRet (KNone :: l)
      else c <<- p_const ;;; l <<- p_consts m (is_wide_const c) ;;; PRet (c :: l)
  end.

Definition pool := list const.

(** JavaConstantPool.unpack, __init__.py:192-224 *)
Definition p_pool : prog pool :=
  count <<- p_unpack1 cH ;;;
  l <<- p_consts (Z.to_nat (count - 1)) false ;;;
  PRet (KNone :: l).

(** Python list indexing (negative indices count from the end). *)
Definition py_index {A} (l : list A) (i : Z) : option A :=
  if 0 <=? i then nth_error l (Z.to_nat i)
  else if 0 <=? i + Z.of_nat (length l) then nth_error l (Z.to_nat (i + Z.of_nat (length l)))
  else None.

(** get_const, __init__.py:227-232 *)
Definition get_const (p : pool) (i : Z) : res const :=
  match py_index p i with Some c => Ok c | None => Err IndexError end.

(** Values returned by deref_const: str, int, float (single or double bit
    pattern), tuples of length two. *)
Inductive pyval :=
| PStr (s : str)
| PInt (z : Z)
| PF32 (bits : Z)
| PF64 (bits : Z)
| PPair (a b : pyval).

(** deref_const, __init__.py:235-301.  The recursion is bounded by [fuel];
    exhaustion is Python's RecursionError (a RuntimeError).  Simplification:
    CPython's recursion limit (about 1000 frames) is replaced by the number of
    pool entries, which only a cyclic chain can exceed (C13). *)
Fixpoint deref_f (fuel : nat) (p : pool) (i : Z) : res pyval :=
  match fuel with
  | O => Err RuntimeError
  | S fu =>
      if i =? 0 then Err IndexError else
      c <- get_const p i ;;
      match c with
      | KNone => Err UnknownConstantPoolTag
      | KUtf8 s => Ok (PStr s)
      | KInt z | KLong z => Ok (PInt z)
      | KFloat b => Ok (PF32 b)
      | KDouble b => Ok (PF64 b)
      | KRef t j => deref_f fu p j
      | KRef2 t a b =>
          if (t =? CONST_InvokeDynamic) || (t =? CONST_Dynamic)
          then vb <- deref_f fu p b ;; Ok (PPair (PInt a) vb)
          else va <- deref_f fu p a ;; vb <- deref_f fu p b ;; Ok (PPair va vb)
      | KHandle k j => vj <- deref_f fu p j ;; Ok (PPair (PInt k) vj)
      end
  end.
Definition deref_const (p : pool) (i : Z) : res pyval := deref_f (S (length p)) p i.

(** constants(), __init__.py:304-313: (index, tag, dereferenced value).  A
    generator: entries yielded, then the exception if any. *)
Fixpoint constants_from (p : pool) (l : list const) (i : Z) : list (Z * Z * pyval) * option exn :=
  match l with
  | [] => ([], None)
  | c :: l' =>
      match ctag c with
      | None => constants_from p l' (i + 1)
      | Some t =>
          match deref_const p i with
          | Err e => ([], Some e)
          | Ok v => let '(r, e) := constants_from p l' (i + 1) in ((i, t, v) :: r, e)
          end
      end
  end.
Definition constants (p : pool) := constants_from p (tl p) 1.

(** ** Python equality of constant values *)

(** Numeric value of a number: NaN, signed infinity, or m * 2^e. *)
Inductive fnum := FNan | FInf (neg : bool) | FFin (m e : Z).

(** IEEE 754 decoding with [mb] mantissa bits and [eb] exponent bits. *)
Definition fbits (mb eb : Z) (bits : Z) : fnum :=
  let m := bits mod 2 ^ mb in
  let e := (bits / 2 ^ mb) mod 2 ^ eb in
  let neg := negb ((bits / 2 ^ (mb + eb)) mod 2 =? 0) in
  let sg := if neg then -1 else 1 in
  let bias := 2 ^ (eb - 1) - 1 in
  if e =? 2 ^ eb - 1 then (if m =? 0 then FInf neg else FNan)
  else if e =? 0 then FFin (sg * m) (1 - bias - mb)
  else FFin (sg * (m + 2 ^ mb)) (e - bias - mb).

Definition fnum_eqb (a b : fnum) : bool :=
  match a, b with
  | FFin m1 e1, FFin m2 e2 =>
      if e1 <=? e2 then m1 =? m2 * 2 ^ (e2 - e1) else m1 * 2 ^ (e1 - e2) =? m2
  | FInf s1, FInf s2 => Bool.eqb s1 s2
  | _, _ => false
  end.

Definition pnum (v : pyval) : option fnum :=
  match v with
  | PInt z => Some (FFin z 0)
  | PF32 b => Some (fbits 23 8 b)
  | PF64 b => Some (fbits 52 11 b)
  | _ => None
  end.

(** Python's == on these values: numbers compare by numeric value across int and
    float, NaN differs from everything; tuples element-wise.  Simplification:
    the identity shortcut of tuple comparison is not modelled (the values
    compared come from separately parsed classes). *)
Fixpoint py_eq (a b : pyval) : bool :=
  match a, b with
  | PStr s, PStr s' => seqb s s'
  | PPair a1 a2, PPair b1 b2 => py_eq a1 b1 && py_eq a2 b2
  | PStr _, _ | _, PStr _ | PPair _ _, _ | _, PPair _ _ => false
  | _, _ => match pnum a, pnum b with Some x, Some y => fnum_eqb x y | _, _ => false end
  end.

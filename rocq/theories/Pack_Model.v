(** Model of /repo/javatools/pack.py: struct formats, the two unpackers, and
    programs of unpack requests. *)

From Verif Require Import Base.

(** Struct field codes used by the library, always big-endian (">").
    The strings passed to compile_struct: __init__.py:125-134, 527, 2137-2146;
    opcodes.py:98-102 and the fmt= arguments in 265-481. [f] and [d] fields are
    represented by their IEEE bit pattern (simplification: Python returns a
    float; see ConstPool_Model for Python's float equality on bit patterns). *)
Inductive fcode := cB | cb | cH | ch | cI | ci | cq | cf | cd.
Definition fmt := list fcode.

(** struct.calcsize for one field. *)
Definition fsize (c : fcode) : nat :=
  match c with
  | cB | cb => 1 | cH | ch => 2 | cI | ci | cf => 4 | cq | cd => 8
  end%nat.

(** Struct.size, pack.py:191,213,279,298 *)
Definition size (f : fmt) : nat := fold_right (fun c n => fsize c + n)%nat 0%nat f.

Definition be (bs : bytes) : Z := fold_left (fun acc b => acc * 256 + b) bs 0.
Definition sgn (n : nat) (v : Z) : Z :=
  if v >=? 2 ^ (8 * Z.of_nat n - 1) then v - 2 ^ (8 * Z.of_nat n) else v.

Definition fdecode (c : fcode) (bs : bytes) : Z :=
  match c with
  | cb => sgn 1 (be bs) | ch => sgn 2 (be bs) | ci => sgn 4 (be bs) | cq => sgn 8 (be bs)
  | cB | cH | cI | cf | cd => be bs
  end.

(** struct.Struct.unpack on a prefix of [bs]; the runtime raises struct.error
    when the data is short. *)
Fixpoint sdecode (f : fmt) (bs : bytes) : list Z :=
  match f with
  | [] => []
  | c :: f' => fdecode c (firstn (fsize c) bs) :: sdecode f' (skipn (fsize c) bs)
  end.

(** Struct.unpack_from(data, offset), used in pack.py:203,225 and
    opcodes.py:168. *)
Definition unpack_from (f : fmt) (data : bytes) (offset : nat) : res (list Z) :=
  if (length data <? offset + size f)%nat then Err StructError
  else Ok (sdecode f (skipn offset data)).

(** BufferUnpacker state, pack.py:177-180.  [None] is the closed unpacker
    (pack.py:248-254). *)
Record bufst := { bdata : option bytes; boff : nat }.

(** [if self.data: avail = len(self.data) - offset else: avail = 0],
    pack.py:193-197, 215-219, 235-239 (empty data is falsy as well). *)
Definition buf_avail (st : bufst) : Z :=
  match bdata st with
  | Some (b :: l) => Z.of_nat (length (b :: l)) - Z.of_nat (boff st)
  | Some [] | None => 0
  end.

(** BufferUnpacker.unpack / unpack_struct, pack.py:183-225.  A closed unpacker
    asked for zero bytes reaches unpack_from(None, ..), a TypeError. *)
Definition buf_unpack (f : fmt) (st : bufst) : res (list Z) * bufst :=
  if buf_avail st <? Z.of_nat (size f)
  then (Err (UnpackException (Z.of_nat (size f)) (buf_avail st)), st)
  else
    let st' := {| bdata := bdata st; boff := boff st + size f |} in
    match bdata st with
    | Some d => (unpack_from f d (boff st), st')
    | None => (Err TypeError, st')
    end.

(** BufferUnpacker.read, pack.py:228-245 *)
Definition buf_read (n : nat) (st : bufst) : res bytes * bufst :=
  if buf_avail st <? Z.of_nat n
  then (Err (UnpackException (Z.of_nat n) (buf_avail st)), st)
  else
    let st' := {| bdata := bdata st; boff := boff st + n |} in
    match bdata st with
    | Some d => (Ok (slice (boff st) (boff st + n) d), st')
    | None => (Err TypeError, st')
    end.

(** BufferUnpacker.close, pack.py:248-254 *)
Definition buf_close (st : bufst) : bufst := {| bdata := None; boff := 0 |}.

(** StreamUnpacker state: the bytes still to be read from the stream, or [None]
    once closed, pack.py:266-268, 327-336.  A stream object is always truthy.
    Simplification: [stream.read(n)] returns min(n, remaining) bytes (regular
    files, BytesIO, ZipExtFile), never a short read before the end. *)
Definition strst := option bytes.

(** StreamUnpacker.unpack / unpack_struct, pack.py:271-307 *)
Definition str_unpack (f : fmt) (st : strst) : res (list Z) * strst :=
  match st with
  | None => (Err (UnpackException (Z.of_nat (size f)) 0), st)
  | Some d =>
      let buff := firstn (size f) d in
      let st' := Some (skipn (size f) d) in
      if (length buff <? size f)%nat
      then (Err (UnpackException (Z.of_nat (size f)) (Z.of_nat (length buff))), st')
      else (Ok (sdecode f buff), st')
  end.

(** StreamUnpacker.read, pack.py:310-324 *)
Definition str_read (n : nat) (st : strst) : res bytes * strst :=
  match st with
  | None => (Err (UnpackException (Z.of_nat n) 0), st)
  | Some d =>
      let buff := firstn n d in
      let st' := Some (skipn n d) in
      if (length buff <? n)%nat
      then (Err (UnpackException (Z.of_nat n) (Z.of_nat (length buff))), st')
      else (Ok buff, st')
  end.

(** StreamUnpacker.close, pack.py:327-336 *)
Definition str_close (st : strst) : strst := None.

(** unpack(data), pack.py:339-355: bytes or memoryview vs. object with read. *)
Definition open_buf (data : bytes) : bufst := {| bdata := Some data; boff := 0 |}.
Definition open_stream (data : bytes) : strst := Some data.

(** A program of unpack requests: every class in __init__.py parses by issuing
    requests to the Unpacker interface (pack.py:73-169).  Each request may depend
    on earlier answers; a program can also raise. *)
Inductive prog (A : Type) : Type :=
| PRet (a : A)
| PRaise (e : exn)
| PUnpack (f : fmt) (k : list Z -> prog A)
| PRead (n : nat) (k : bytes -> prog A).
Arguments PRet {A} a.
Arguments PRaise {A} e.
Arguments PUnpack {A} f k.
Arguments PRead {A} n k.

Fixpoint pbind {A B} (p : prog A) (k : A -> prog B) : prog B :=
  match p with
  | PRet a => k a
  | PRaise e => PRaise e
  | PUnpack f g => PUnpack f (fun vs => pbind (g vs) k)
  | PRead n g => PRead n (fun bs => pbind (g bs) k)
  end.

Notation "x <<- p ;;; k" := (pbind p (fun x => k))
  (at level 61, p at next level, right associativity).

(** unpack_struct(f) and read(n) as programs. *)
Definition p_unpack (f : fmt) : prog (list Z) := PUnpack f PRet.
Definition p_read (n : nat) : prog bytes := PRead n PRet.
Definition p_lift {A} (m : res A) : prog A :=
  match m with Ok a => PRet a | Err e => PRaise e end.

(** [(a,) = unpack_struct(..)] etc.: tuple assignment of the right length. *)
Definition p_unpack1 (c : fcode) : prog Z :=
  PUnpack [c] (fun vs => match vs with [a] => PRet a | _ => PRaise ValueError end).
Definition p_unpack2 (c d : fcode) : prog (Z * Z) :=
  PUnpack [c; d] (fun vs => match vs with [a; b] => PRet (a, b) | _ => PRaise ValueError end).
Definition p_unpack3 (c d e : fcode) : prog (Z * Z * Z) :=
  PUnpack [c; d; e] (fun vs => match vs with [a; b; x] => PRet (a, b, x) | _ => PRaise ValueError end).
Definition p_unpack4 (c d e f : fcode) : prog (Z * Z * Z * Z) :=
  PUnpack [c; d; e; f]
    (fun vs => match vs with [a; b; x; y] => PRet (a, b, x, y) | _ => PRaise ValueError end).

(** [for _i in range(count): yield ...], fully consumed. *)
Fixpoint p_repeat {A} (n : nat) (p : prog A) : prog (list A) :=
  match n with
  | O => PRet []
  | S m => x <<- p ;;; xs <<- p_repeat m p ;;; PRet (x :: xs)
  end.

(** Unpacker.unpack_objects / unpack_struct_array / unpack_array,
    pack.py:132-169, consumed by tuple(..): read a count, then count items. *)
Definition p_objects {A} (p : prog A) : prog (list A) :=
  c <<- p_unpack1 cH ;;; p_repeat (Z.to_nat c) p.
Definition p_struct_array (f : fmt) : prog (list (list Z)) := p_objects (p_unpack f).

(** Running a program against each unpacker. *)
Fixpoint run_buf {A} (p : prog A) (st : bufst) : res A * bufst :=
  match p with
  | PRet a => (Ok a, st)
  | PRaise e => (Err e, st)
  | PUnpack f k => match buf_unpack f st with
                   | (Ok vs, st') => run_buf (k vs) st'
                   | (Err e, st') => (Err e, st')
                   end
  | PRead n k => match buf_read n st with
                 | (Ok bs, st') => run_buf (k bs) st'
                 | (Err e, st') => (Err e, st')
                 end
  end.

Fixpoint run_str {A} (p : prog A) (st : strst) : res A * strst :=
  match p with
  | PRet a => (Ok a, st)
  | PRaise e => (Err e, st)
  | PUnpack f k => match str_unpack f st with
                   | (Ok vs, st') => run_str (k vs) st'
                   | (Err e, st') => (Err e, st')
                   end
  | PRead n k => match str_read n st with
                 | (Ok bs, st') => run_str (k bs) st'
                 | (Err e, st') => (Err e, st')
                 end
  end.

(** Unread bytes of a buffer unpacker (for stating results). *)
Definition buf_rest (st : bufst) : bytes :=
  match bdata st with Some d => skipn (boff st) d | None => [] end.

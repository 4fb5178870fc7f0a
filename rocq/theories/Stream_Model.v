(** Model of unpack_class and is_class on a stream that is used further:
    /repo/javatools/__init__.py:2401-2416, 2432-2456; pack.py:81-88, 327-336. *)
From Verif Require Import Base Pack_Model ConstPool_Model ClassFile_Model.

(** A stream object: what is left to read, None once it is closed; whether it has a
    method close *)
Record stream := mkstream { st_left : option bytes; st_close : bool }.

(** The requests of a StreamUnpacker on it: reading a closed stream raises ValueError
    (Python's io, zipfile) *)
Definition run_on {A} (p : prog A) (l : option bytes) : res A * option bytes :=
  match l with
  | Some d => run_str p (Some d)
  | None => (match p with PRet a => Ok a | PRaise e => Err e | _ => Err ValueError end, None)
  end.
(** [with unpack(data) as up: ...], pack.py:81-88, 327-336: close() of the stream if it
    has one; __exit__ returns [exc_type is None], so that exceptions go on *)
Definition with_unpack {A} (p : prog A) (s : stream) : res A * stream :=
  let '(r, l) := run_on p (st_left s) in
  (r, mkstream (if st_close s then None else l) (st_close s)).
(** unpack_class(stream, magic), __init__.py:2432-2456 *)
Definition unpack_from (m : pymagic) (s : stream) : res classinfo * stream := with_unpack (p_unpack_class m) s.
(** is_class(stream), __init__.py:2401-2416 *)
Definition is_class_from (s : stream) : res bool * stream :=
  let '(r, s') := with_unpack (p_unpack [cB; cB; cB; cB]) s in (is_class_of r, s').
(** A program that reads [n] classes from a stream; it ends with the first exception *)
Fixpoint read_classes (n : nat) (s : stream) : res (list classinfo) * stream :=
  match n with
  | O => (Ok [], s)
  | S n' =>
      match unpack_from MNone s with
      | (Err e, s') => (Err e, s')
      | (Ok r, s') => let '(rs, s'') := read_classes n' s' in (rs' <- rs ;; Ok (r :: rs'), s'')
      end
  end.

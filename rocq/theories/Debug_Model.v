(** Model of JavaClassInfo.get_source_debug_extension, /repo/javatools/__init__.py:775-782. *)
From Verif Require Import Base Pack_Model ConstPool_Model ClassFile_Model.

(** str of a bytes object under Python 3, used by __init__.py:782: its repr, CPython's
    PyBytes_Repr with smart quotes. *)
Definition hex_lower (n : Z) : Z := if n <? 10 then 48 + n else 87 + n.
Definition byte_repr (q c : Z) : str :=
  if (c =? q) || (c =? 92) then [92; c]
  else if c =? 9 then [92; 116]
  else if c =? 10 then [92; 110]
  else if c =? 13 then [92; 114]
  else if (c <? 32) || (127 <=? c) then [92; 120; hex_lower (c / 16); hex_lower (c mod 16)]
  else [c].
Definition str_bytes (b : bytes) : str :=
  let q := if existsb (Z.eqb 39) b && negb (existsb (Z.eqb 34) b) then 34 else 39 in
  98 :: q :: concat (map (byte_repr q) b) ++ [q].

(** get_source_debug_extension, __init__.py:775-782: [(buff and str(buff)) or None] *)
Definition get_source_debug_extension (c : classinfo) : option str :=
  match get_attribute (c_attrs c) (lit "SourceDebugExtension") with
  | Some (x :: b) => Some (str_bytes (x :: b))
  | _ => None
  end.

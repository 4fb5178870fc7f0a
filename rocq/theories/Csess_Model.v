(** Model of the sets a JavaClassInfo object remembers over several calls of get_provides and
    get_requires; /repo/javatools/__init__.py:470-472, 936-1020. *)
From Verif Require Import Base Pack_Model ConstPool_Model ClassFile_Model Descr_Model Manifest_Model
  Change_Model Classdiff_Model Jardiff_Model Distdiff_Model Info_Model.
From Verif Require Zip_Model.

(** get_provides (992-1008) with the patterns ignored and whether private members count, and
    get_requires (1010-1020).  Both return new lists, so that the caller cannot reach the
    sets. *)
Inductive kcall := KProvides (ign : list str) (private : bool) | KRequires (ign : list str).
(** _provides, _provides_private, _requires (470-472); unpack (492-550) does not reset them *)
Record kobj := mkk { k_public : option (list str); k_private : option (list str); k_requires : option (list str) }.
(** __init__, __init__.py:455-472 *)
Definition new_k : kobj := mkk None None None.

Section Csess.
(** As in Info_Model *)
Variable fmt : pyval -> str.
Variable repr : pyval -> str.
Variable order : list str -> list str.

(** The set for get_provides, __init__.py:998-1006; [c] is the content of the object at the
    time of the call *)
Definition k_provided (c : classinfo) (private : bool) (s : kobj) : kobj * res (list str) :=
  match (if private then k_private s else k_public s) with
  | Some l => (s, Ok l)
  | None =>
      match get_provides_all fmt c private with
      | Err e => (s, Err e)
      | Ok l => let x := set_list order l in
                (if private then mkk (k_public s) (Some x) (k_requires s) else mkk (Some x) (k_private s) (k_requires s), Ok x)
      end
  end.
(** The set for get_requires, __init__.py:1016-1019; _get_requires asks get_provides for
    the private members first (961) *)
Definition k_required (c : classinfo) (s : kobj) : kobj * res (list str) :=
  match k_requires s with
  | Some l => (s, Ok l)
  | None =>
      let '(s1, r) := k_provided c true s in
      match (p <- r ;; requires_loop fmt repr (c_pool c) (filter (not_ignored []) p) (tl (c_pool c)) 1) with
      | Err e => (s1, Err e)
      | Ok l => let x := set_list order l in (mkk (k_public s1) (k_private s1) (Some x), Ok x)
      end
  end.
(** One call, __init__.py:992-1020 *)
Definition kstep (s : kobj) (x : classinfo * kcall) : kobj * res (list str) :=
  let '(c, k) := x in
  match k with
  | KProvides ign private => let '(s1, r) := k_provided c private s in (s1, l <- r ;; Ok (filter (not_ignored ign) l))
  | KRequires ign => let '(s1, r) := k_required c s in (s1, l <- r ;; Ok (filter (not_ignored ign) l))
  end.
(** Several calls, each with the content of the object at that time (it changes by unpack) *)
Fixpoint kplay (s : kobj) (h : list (classinfo * kcall)) : kobj * list (res (list str)) :=
  match h with
  | [] => (s, [])
  | x :: h' => let '(s1, r) := kstep s x in let '(s2, rs) := kplay s1 h' in (s2, r :: rs)
  end.
End Csess.

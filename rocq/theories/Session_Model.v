(** Model of a JarInfo object over several calls: what it keeps open and what it
    remembers, /repo/javatools/jarinfo.py:64-175. *)
From Verif Require Import Base Pack_Model ConstPool_Model ClassFile_Model Descr_Model Manifest_Model
  Change_Model Classdiff_Model Jardiff_Model Distdiff_Model Info_Model.
From Verif Require Zip_Model.

(** The file system at one moment: zip_file of a name, ziputils.py:304-316 *)
Definition disk := str -> jar.
(** The calls: get_classes (141-148, consumed), get_classinfo (151-157), get_requires
    and get_provides (119-138), close (172-175) *)
Inductive call :=
| CClasses | CInfo (entry : str) | CRequires (ignored : list str) | CProvides (ignored : list str) | CClose.
Inductive answer :=
| AClasses (l : list str) | AInfo (c : classinfo) | AApi (d : dict (list str)) | ADone.

(** The object with the numbers of all archives open in the process.  An open archive is
    its number and its content; jarinfo.py:66-74. *)
Record session := mksession {
  s_name : option str; s_zip : option (nat * Zip_Model.archive);
  s_api : option (dict (list str) * dict (list str)); s_open : list nat }.
(** A number not in use *)
Definition unused (l : list nat) : nat := S (fold_right Nat.max O l).
(** JarInfo(filename=name), JarInfo(zipfile=...), jarinfo.py:66-74.  Simplification: an
    empty name without archive, which __init__ refuses, is not considered. *)
Definition named (name : str) (open : list nat) : session := mksession (Some name) None None open.
Definition given (i : nat) (a : Zip_Model.archive) (open : list nat) : session := mksession None (Some (i, a)) None open.

Section Session.
(** As in Info_Model *)
Variable fmt : pyval -> str.
Variable repr : pyval -> str.
Variable text : bytes -> res str.
Variable order : list str -> list str.

(** get_zipfile, jarinfo.py:160-163; isdir(None) raises TypeError (ziputils.py:311) *)
Definition get_zipfile (d : disk) (s : session) : session * res Zip_Model.archive :=
  match s_zip s with
  | Some (_, a) => (s, Ok a)
  | None =>
      match (match s_name s with Some n => d n | None => Err TypeError end) with
      | Ok a => let i := unused (s_open s) in (mksession (s_name s) (Some (i, a)) (s_api s) (i :: s_open s), Ok a)
      | Err e => (s, Err e)
      end
  end.
(** [if self._requires is None: self._collect_requires_provides()], jarinfo.py:120-121,
    131-132, 115-116; both attributes are set together, after the loop *)
Definition collected (d : disk) (s : session) : session * res (dict (list str) * dict (list str)) :=
  match s_api s with
  | Some x => (s, Ok x)
  | None =>
      let '(s', r) := get_zipfile d s in
      match (a <- r ;; jar_api fmt repr text order (Ok a)) with
      | Ok x => (mksession (s_name s') (s_zip s') (Some x) (s_open s'), Ok x)
      | Err e => (s', Err e)
      end
  end.
(** close, jarinfo.py:172-175 *)
Definition shut (s : session) : session :=
  match s_zip s with
  | Some (i, _) => mksession (s_name s) None (s_api s) (filter (fun j => negb (Nat.eqb j i)) (s_open s))
  | None => s
  end.
(** One call *)
Definition step (s : session) (x : disk * call) : session * res answer :=
  let '(d, c) := x in
  match c with
  | CClasses => let '(s', r) := get_zipfile d s in (s', a <- r ;; l <- jar_classes a ;; Ok (AClasses l))
  | CInfo e => let '(s', r) := get_zipfile d s in (s', a <- r ;; i <- jar_classinfo text a e ;; Ok (AInfo i))
  | CRequires ign => let '(s', r) := collected d s in (s', x <- r ;; Ok (AApi (with_ignored ign (fst x))))
  | CProvides ign => let '(s', r) := collected d s in (s', x <- r ;; Ok (AApi (with_ignored ign (snd x))))
  | CClose => (shut s, Ok ADone)
  end.
(** A program that goes on whatever the calls raise *)
Fixpoint play (s : session) (h : list (disk * call)) : session * list (res answer) :=
  match h with
  | [] => (s, [])
  | x :: h' => let '(s1, r) := step s x in let '(s2, rs) := play s1 h' in (s2, r :: rs)
  end.
(** The body of a with statement: it ends with the first exception *)
Fixpoint body (s : session) (h : list (disk * call)) : session * res (list answer) :=
  match h with
  | [] => (s, Ok [])
  | x :: h' =>
      match step s x with
      | (s1, Err e) => (s1, Err e)
      | (s1, Ok r) => let '(s2, rs) := body s1 h' in (s2, rs' <- rs ;; Ok (r :: rs'))
      end
  end.
(** __exit__, jarinfo.py:85-87: an exception is swallowed if it returns true *)
Definition exit_value (e : option exn) : bool := match e with None => true | Some _ => false end.
(** [with JarInfo(filename=name) as ji: ...], jarinfo.py:81-87 *)
Definition with_jarinfo (name : str) (open : list nat) (h : list (disk * call)) : list nat * res (list answer) :=
  let '(s, r) := body (named name open) h in
  (s_open (shut s), match r with Err e => if exit_value (Some e) then Ok [] else Err e | Ok l => Ok l end).
End Session.

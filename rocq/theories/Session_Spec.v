(** What calls of a JarInfo object should give: the answer of one file. *)
From Verif Require Import Base Pack_Model ConstPool_Model ClassFile_Model Descr_Model Manifest_Model
  Change_Model Classdiff_Model Jardiff_Model Distdiff_Model Info_Model Session_Model.
From Verif Require Zip_Model.

(** The answer that the file alone gives, as in C57 *)
Definition answer_of fmt repr text order (j : jar) (c : call) : res answer :=
  match c with
  | CClasses => a <- j ;; l <- jar_classes a ;; Ok (AClasses l)
  | CInfo e => a <- j ;; i <- jar_classinfo text a e ;; Ok (AInfo i)
  | CRequires ign => d <- jar_requires fmt repr text order j ign ;; Ok (AApi d)
  | CProvides ign => d <- jar_provides fmt repr text order j ign ;; Ok (AApi d)
  | CClose => Ok ADone
  end.
(** Calls that go to the archive each time *)
Definition direct (c : call) : Prop := match c with CClasses | CInfo _ => True | _ => False end.
(** A moment of the history since the archive was last closed *)
Definition lately (h : list (disk * call)) (d : disk) : Prop :=
  exists h1 h2, h = h1 ++ h2 /\ ~ In CClose (map snd h2) /\ In d (map fst h2).

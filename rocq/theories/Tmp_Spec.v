(** What a DistInfo object should answer. *)
From Verif Require Import Base Pack_Model ConstPool_Model ClassFile_Model Descr_Model Manifest_Model
  Change_Model Classdiff_Model Jardiff_Model Distdiff_Model Info_Model Tmp_Model.
From Verif Require Zip_Model.

(** From the files alone: the functions of C58 *)
Definition files_answer (t : Zip_Model.node) (c : dcall) : list str :=
  match c with
  | DContents => dist_contents (mkdist false t)
  | DJars => dist_jars (mkdist false t)
  | DClasses => dist_classes (mkdist false t)
  | DClose => []
  end.
(** A question was asked since the object was last closed. *)
Definition asked (h : list (base * dcall)) : Prop :=
  exists h1 x h2, h = h1 ++ x :: h2 /\ ~ In DClose (map snd (x :: h2)).

(** What jarinfo and distinfo should print: sorted lists of symbols, the manifest in
    sorted order, the classes one by one. *)
From Verif Require Import Base ConstPool_Model ClassFile_Spec Glob_Spec Zip_Spec Info_Spec.
From Coq Require Import Sorting.Sorted Permutation.

(** The order of texts by code points *)
Inductive before : str -> str -> Prop :=
| bf_end x b : before [] (x :: b)
| bf_here x a y b : x < y -> before (x :: a) (y :: b)
| bf_later x a b : before a b -> before (x :: a) (x :: b).
(** [l] lists exactly what satisfies [P], each once, sorted *)
Definition lists (P : str -> Prop) (l : list str) : Prop := StronglySorted before l /\ forall s, In s l <-> P s.
(** [l] is the table [d], sorted by key *)
Definition in_key_order {V} (d l : list (str * V)) : Prop := Permutation d l /\ StronglySorted (fun a b => before (fst a) (fst b)) l.

(** Lines of text *)
Definition lines (l : list str) : str := concat (map (fun s => s ++ [10]) l).
Definition symbol_list (title : str) (syms : list str) : str := lines (title :: map (fun s => 32 :: 32 :: s) syms ++ [[]]).
Definition pairs (l : list (str * str)) : list str := map (fun kv => 32 :: 32 :: fst kv ++ [58; 32] ++ snd kv) l.

(** ** Symbols of a jar, of a distribution *)
Definition jar_gives (cs : jclasses) (s : str) : Prop := exists e c, In (e, c) cs /\ provided c false s.
Definition jar_wants (deep : bool) (cs : jclasses) (s : str) : Prop :=
  (exists e c, In (e, c) cs /\ required deep c s) /\ forall e c, In (e, c) cs -> ~ provided c true s.
Definition dist_gives (jd : jdist) (s : str) : Prop := (exists e cs, In (e, cs) (jd_jars jd) /\ jar_gives cs s) \/ jar_gives (jd_loose jd) s.
Definition dist_wants (deep : bool) (jd : jdist) (s : str) : Prop :=
  ((exists e cs, In (e, cs) (jd_jars jd) /\ jar_wants deep cs s) \/ exists e c, In (e, c) (jd_loose jd) /\ required deep c s) /\
  (forall e cs, In (e, cs) (jd_jars jd) -> ~ jar_gives cs s) /\ (forall e c, In (e, c) (jd_loose jd) -> ~ provided c true s).

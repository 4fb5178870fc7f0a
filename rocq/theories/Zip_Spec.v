(** Specifications for archives and chunked reading, independent of the algorithms. *)
From Verif Require Import Base Zip_Model.

(** ** Chunks *)
(** [cs] cuts [data] into pieces of [n] bytes, only the last of which may be shorter. *)
Inductive cuts {A} (n : nat) : list (list A) -> list A -> Prop :=
| cuts_none : cuts n [] []
| cuts_last c : c <> [] -> (length c <= n)%nat -> cuts n [c] c
| cuts_more c cs rest : length c = n -> rest <> [] -> cuts n cs rest -> cuts n (c :: cs) (c ++ rest).

(** ** Archives *)
Definition names (a : archive) : list str := map e_name (a_entries a).
(** Reading [n] from the archive gives [d]: the last entry of that name holds [d]. *)
Definition content (a : archive) (n : str) (d : bytes) : Prop :=
  exists l1 e l2, a_entries a = l1 ++ e :: l2 /\ e_name e = n /\ e_data e = d /\ ~ In n (map e_name l2).
Definition directory (n : str) : Prop := exists p, n = p ++ [47].
(** An entry whose recorded size and CRC are those of its data. *)
Definition sound (e : zentry) : Prop :=
  e_name e <> [] /\ e_size e = Z.of_nat (length (e_data e)) /\ e_crc e = crc32 (e_data e) 0.

Definition classified (evs : list (event * str)) (a b : archive) : Prop :=
  NoDup (map snd evs) /\
  forall n,
    (In (LEFT, n) evs <-> In n (names a) /\ ~ In n (names b)) /\
    (In (RIGHT, n) evs <-> In n (names b) /\ ~ In n (names a)) /\
    (In (SAME, n) evs <-> ~ directory n /\ exists d, content a n d /\ content b n d) /\
    (In (DIFF, n) evs <-> ~ directory n /\ exists d d', content a n d /\ content b n d' /\ d <> d').

(** ** Totals *)
Definition is_directory (n : str) : bool := match rev n with 47 :: _ => true | _ => false end.
Definition zsum (l : list Z) : Z := fold_right Z.add 0 l.

(** ** Directory trees *)
Inductive proper_tree : node -> Prop :=
| proper_file l d m : proper_tree (File l d m)
| proper_other l : proper_tree (Other l)
| proper_dir l kids : NoDup (map fst kids) -> Forall (fun k => fst k <> [] /\ ~ In 47 (fst k)) kids ->
    Forall (fun k => proper_tree (snd k)) kids -> proper_tree (Dir l kids).
(** What is found at a path, without passing through or ending at a symbolic link. *)
Inductive at_path : node -> list str -> node -> Prop :=
| at_here n : at_path n [] n
| at_down l kids k n p m : In (k, n) kids -> is_link n = false -> at_path n p m -> at_path (Dir l kids) (k :: p) m.

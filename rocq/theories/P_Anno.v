(** Annotations: properties C20 and C21. *)
From Verif Require Import Base Pack_Model Pack_Spec ConstPool_Model ConstPool_Spec ConstPool_Proofs ClassFile_Model
  ClassFile_Spec ClassFile_Proofs Anno_Model Anno_Spec Anno_Proofs.
From Coq Require Import Permutation.

(** Two constant pools with the same strings at different indices. *)
Definition an_pool1 : list jconst :=
  [ JUtf8 (lit "LA;"); JUtf8 (lit "x"); JUtf8 (lit "y"); JInteger 7; JUtf8 (lit "s");
    JDouble 9221120237041090560; JUtf8 (lit "RuntimeVisibleAnnotations") ].
Definition an_pool2 : list jconst :=
  [ JUtf8 (lit "s"); JInteger 7; JUtf8 (lit "y"); JUtf8 (lit "x"); JUtf8 (lit "LA;") ].
(** @A(x={7, "s"}, y=@A(x=A.class)) in the first, with the elements swapped in
    the second. *)
Definition an_1 : Z * list (Z * jval) :=
  (1, [(2, VArr [VConst 73 4; VConst 115 5]); (3, VAnno 1 [(2, VClass 1); (3, VEnum 1 5)])]).
Definition an_2 : Z * list (Z * jval) :=
  (5, [(3, VAnno 5 [(3, VEnum 5 1); (4, VClass 5)]); (4, VArr [VConst 73 2; VConst 115 1])]).
Example an_ok : janno_ok an_pool1 an_1 = true /\ janno_ok an_pool2 an_2 = true /\
  jpool_ok an_pool1 = true /\ jpool_ok an_pool2 = true.
Proof. vm_compute. auto. Qed.

(** C20. Reading the encoding of an element value returns it and leaves whatever
    follows unread, from bytes and from a stream.  [fuel] only has to cover the
    encoded length. *)
Theorem C20_value : forall l p v fuel rest, pool_shows l p -> jval_ok l v = true ->
  (length (enc_val v) <= fuel)%nat ->
  (exists st, run_buf (p_aval fuel p) (open_buf (enc_val v ++ rest)) = (Ok (shown_val l v), st) /\ buf_rest st = rest) /\
  run_str (p_aval fuel p) (open_stream (enc_val v ++ rest)) = (Ok (shown_val l v), Some rest).
Proof. exact aval_both. Qed.
Print Assumptions C20_value.

(** The annotation attributes of a class or member, and the parameter
    annotations of a method, are the encoded ones. *)
Theorem C20_annotations : forall l p d al jal n, pool_shows l p -> attrs_show l jal d ->
  forallb (janno_ok l) al = true -> short_list al = true ->
  last_named l jal n = Some (enc_annos al) ->
  annotations_of p d n = Ok (map (shown_anno l) al).
Proof. exact (fun l p d al jal n Hp => annotations_decode l p Hp d al jal n). Qed.
Print Assumptions C20_annotations.

Theorem C20_param_annotations : forall l p d pl jal n, pool_shows l p -> attrs_show l jal d ->
  forallb (fun al => short_list al && forallb (janno_ok l) al) pl = true ->
  Z.of_nat (length pl) < 256 ->
  last_named l jal n = Some (enc_param_annos pl) ->
  param_annotations_of p d n = Ok (map (map (shown_anno l)) pl).
Proof. exact (fun l p d pl jal n Hp => param_annotations_decode l p Hp d pl jal n). Qed.
Print Assumptions C20_param_annotations.

(** On arbitrary bytes reading annotations ends: the fuel given by the accessors
    never runs out. *)
Theorem C20_terminates : forall p d n,
  annotations_of p d n <> Err OutOfFuel /\ param_annotations_of p d n <> Err OutOfFuel.
Proof. exact (fun p d n => conj (annotations_total p d n) (param_annotations_total p d n)). Qed.
Print Assumptions C20_terminates.

Example C20_ex : let p := KNone :: slots an_pool1 in
  pool_shows an_pool1 p /\
  attrs_show an_pool1 [mkjattr 8 (enc_annos [an_1])] [(PStr (lit "RuntimeVisibleAnnotations"), enc_annos [an_1])] /\
  annotations_of p [(PStr (lit "RuntimeVisibleAnnotations"), enc_annos [an_1])] (lit "RuntimeVisibleAnnotations") =
    Ok [(1, [(PStr (lit "x"), AArr [AConst 73 4; AConst 115 5]);
             (PStr (lit "y"), AAnno 1 [(PStr (lit "x"), AClass 1); (PStr (lit "y"), AEnum 1 5)])])] /\
  param_annotations_of p [(PStr (lit "P"), enc_param_annos [[]; [an_1]])] (lit "P") =
    Ok [[]; [shown_anno an_pool1 an_1]] /\
  annotations_of p [(PStr (lit "P"), [0; 1; 0; 1; 0; 1; 0; 2; 63])] (lit "P") = Err Unimplemented.
Proof.
  cbv zeta. split; [apply pool_shows_parsed|]. split.
  - split.
    + intro n. unfold get_attribute. cbn [aget py_eq last_named ja_name ja_data].
      change (jutf8_at an_pool1 8) with (Some (lit "RuntimeVisibleAnnotations")). reflexivity.
    + intros _. split; reflexivity.
  - vm_compute. auto.
Qed.

(** C21. The comparison of two annotations read from two classes always gives an
    answer, and it is "equal" exactly when the resolved type, the element names
    and the resolved element values agree, elements in any order, whatever the
    indices in the two constant pools. *)
Theorem C21_equal_iff : forall l1 l2 p1 p2 a1 a2 r1 r2, pool_shows l1 p1 -> pool_shows l2 p2 ->
  janno_ok l1 a1 = true -> janno_ok l2 a2 = true ->
  jmeaning l1 (VAnno (fst a1) (snd a1)) = Some r1 -> jmeaning l2 (VAnno (fst a2) (snd a2)) = Some r2 ->
  exists b, annotation_eq p1 p2 (shown_anno l1 a1) (shown_anno l2 a2) = Ok b /\ (b = true <-> req r1 r2).
Proof. exact decoded_eq. Qed.
Print Assumptions C21_equal_iff.

(** The same for element values over any two pools, without reference to how they
    were read; and the relation is symmetric, transitive, and reflexive exactly
    when no constant is NaN. *)
Theorem C21_value_equal_iff : forall lp rp l r r1 r2, means lp l r1 -> means rp r r2 ->
  (aval_eq lp rp l r = Ok true \/ aval_eq lp rp l r = Ok false) /\
  (aval_eq lp rp l r = Ok true <-> req r1 r2).
Proof. exact eq_iff. Qed.
Print Assumptions C21_value_equal_iff.

Theorem C21_symmetric : forall lp rp l r r1 r2, means lp l r1 -> means rp r r2 ->
  aval_eq rp lp r l = aval_eq lp rp l r.
Proof. exact eq_sym'. Qed.
Print Assumptions C21_symmetric.

Theorem C21_transitive : forall ap bp cp a b c ra rb rc, means ap a ra -> means bp b rb -> means cp c rc ->
  aval_eq ap bp a b = Ok true -> aval_eq bp cp b c = Ok true -> aval_eq ap cp a c = Ok true.
Proof. exact eq_trans'. Qed.
Print Assumptions C21_transitive.

Theorem C21_reflexive_iff : forall p a r, means p a r ->
  (aval_eq p p a a = Ok true <-> rval_no_nan r = true).
Proof. exact eq_refl_iff. Qed.
Print Assumptions C21_reflexive_iff.

Example C21_ex :
  (exists r1 r2, jmeaning an_pool1 (VAnno (fst an_1) (snd an_1)) = Some r1 /\
     jmeaning an_pool2 (VAnno (fst an_2) (snd an_2)) = Some r2 /\ r1 <> r2 /\ rval_no_nan r1 = true /\
     means (KNone :: slots an_pool1) (shown_val an_pool1 (VAnno (fst an_1) (snd an_1))) r1 /\
     means (KNone :: slots an_pool2) (shown_val an_pool2 (VAnno (fst an_2) (snd an_2))) r2) /\
  annotation_eq (KNone :: slots an_pool1) (KNone :: slots an_pool2)
    (shown_anno an_pool1 an_1) (shown_anno an_pool2 an_2) = Ok true /\
  annotation_eq (KNone :: slots an_pool1) (KNone :: slots an_pool1)
    (1, [(PStr (lit "x"), AConst 68 6)]) (1, [(PStr (lit "x"), AConst 68 6)]) = Ok false.
Proof.
  split.
  - eexists. eexists. split; [vm_compute; reflexivity|]. split; [vm_compute; reflexivity|].
    split; [discriminate|]. split; [reflexivity|].
    split; (apply (shown_means _ _ _ (pool_shows_parsed _)); [vm_compute; reflexivity|vm_compute; reflexivity]).
  - vm_compute. auto.
Qed.

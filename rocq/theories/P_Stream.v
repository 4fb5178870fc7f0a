(** C137: classes read from a stream that is used further. *)
From Verif Require Import Base Pack_Model ConstPool_Model ConstPool_Spec ClassFile_Model ClassFile_Spec ClassFile_Proofs Stream_Model.
From Verif Require P_ClassFile.
Import P_ClassFile.

(** Classes one after the other are read one after the other, each up to its last byte,
    from a stream that cannot be closed. *)
Theorem C137_sequence : forall cs rest, Forall (fun c => jclassfile_ok c = true) cs ->
  exists rs, read_classes (length cs) (mkstream (Some (concat (map enc_class cs) ++ rest)) false) = (Ok rs, mkstream (Some rest) false) /\
    Forall2 class_shows cs rs.
Proof.
  intros cs rest H. induction H as [|c cs Hc H IH]; [exists []; split; [reflexivity|constructor]|]. destruct IH as (rs & HR & HS).
  cbn [map concat length read_classes]. rewrite <- app_assoc. destruct (class_roundtrip c (concat (map enc_class cs) ++ rest) Hc) as [(r & st & _ & _ & HU & Hr) _].
  unfold unpack_from, with_unpack, run_on. cbn [st_left st_close]. unfold open_stream in HU. rewrite HU. rewrite HR. exists (r :: rs). split; [reflexivity|now constructor].
Qed.
Print Assumptions C137_sequence.
Definition plain_class : jclassfile := mkjclass 0 52 [JClass 2; JUtf8 (lit "B")] 33 1 0 [] [] [] [].
Example C137_sequence_ex : Forall (fun c => jclassfile_ok c = true) [ex_class; plain_class; ex_class].
Proof. repeat (constructor; [vm_compute; reflexivity|]). constructor. Qed.

(** A class confirmed with is_class is then read when its magic is passed as a tuple, again
    from a stream that cannot be closed. *)
Theorem C137_confirmed : forall c rest, jclassfile_ok c = true ->
  let '(yes, s) := is_class_from (mkstream (Some (enc_class c ++ rest)) false) in
  yes = Ok true /\ exists r, unpack_from (MTuple [202; 254; 186; 190]) s = (Ok r, mkstream (Some rest) false) /\ class_shows c r.
Proof.
  intros c rest Hc. destruct (class_roundtrip c rest Hc) as [_ (r & st & _ & _ & HU & Hr)].
  assert (E : enc_class c ++ rest = 202 :: 254 :: 186 :: 190 :: (enc_class_body c ++ rest)) by reflexivity.
  rewrite E. unfold is_class_from, with_unpack, run_on. cbn [st_left st_close].
  change (run_str (p_unpack [cB; cB; cB; cB]) (Some (202 :: 254 :: 186 :: 190 :: (enc_class_body c ++ rest)))) with (@Ok (list Z) [202; 254; 186; 190], Some (enc_class_body c ++ rest)).
  cbn iota. split; [reflexivity|]. exists r. split; [|exact Hr]. unfold unpack_from, with_unpack, run_on. cbn [st_left st_close]. unfold open_stream, JAVA_CLASS_MAGIC in HU. now rewrite HU.
Qed.
Print Assumptions C137_confirmed.
Example C137_confirmed_ex : jclassfile_ok ex_class = true /\ fst (is_class_from (mkstream (Some (enc_class ex_class)) false)) = Ok true.
Proof. vm_compute. auto. Qed.

(** What the calls give does not depend on whether the stream can be closed, and they
    close it if it can, whatever they give or raise. *)
Theorem C137_closed : forall data m,
  unpack_from m (mkstream (Some data) true) = (unpack_class_stream data m, mkstream None true) /\
  fst (unpack_from m (mkstream (Some data) false)) = unpack_class_stream data m /\
  is_class_from (mkstream (Some data) true) = (is_class_stream data, mkstream None true) /\
  fst (is_class_from (mkstream (Some data) false)) = is_class_stream data.
Proof.
  intros data m. unfold unpack_from, is_class_from, with_unpack, run_on, unpack_class_stream, is_class_stream, open_stream. cbn [st_left st_close].
  destruct (run_str (p_unpack_class m) (Some data)) as [r l]. destruct (run_str (p_unpack [cB; cB; cB; cB]) (Some data)) as [r' l']. cbn [fst]. auto.
Qed.
Print Assumptions C137_closed.
Example C137_closed_ex : unpack_from MNone (mkstream (Some [80; 75; 3; 4]) true) = (Err ClassUnpackException, mkstream None true).
Proof. vm_compute. reflexivity. Qed.

(** So a second class cannot be read from a file, and one confirmed with is_class not at
    all, with or without its magic: the stream is closed. *)
Theorem C137_sequence_refuted : forall c rest, jclassfile_ok c = true ->
  fst (read_classes 2 (mkstream (Some (enc_class c ++ rest)) true)) = Err ValueError /\
  (let '(yes, s) := is_class_from (mkstream (Some (enc_class c ++ rest)) true) in
   yes = Ok true /\ fst (unpack_from (MTuple [202; 254; 186; 190]) s) = Err ValueError /\ fst (unpack_from MNone s) = Err ValueError).
Proof.
  intros c rest Hc. split.
  - destruct (class_roundtrip c rest Hc) as [(r & st & _ & _ & HU & _) _]. cbn [read_classes]. unfold unpack_from at 1, with_unpack, run_on. cbn [st_left st_close]. unfold open_stream in HU. rewrite HU. reflexivity.
  - split; [reflexivity|]. split; reflexivity.
Qed.
Print Assumptions C137_sequence_refuted.
Example C137_sequence_refuted_ex : fst (read_classes 2 (mkstream (Some (enc_class plain_class ++ enc_class plain_class)) true)) = Err ValueError.
Proof. vm_compute. reflexivity. Qed.
(** is_class promises False for any errors, but passes on those of the stream. *)
Theorem C137_errors_refuted : exists s, fst (is_class_from s) = Err ValueError.
Proof. exists (mkstream None true). reflexivity. Qed.
Print Assumptions C137_errors_refuted.

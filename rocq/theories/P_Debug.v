(** C134: the SourceDebugExtension of a class. *)
From Verif Require Import Base Pack_Model ConstPool_Model ConstPool_Spec ClassFile_Model ClassFile_Spec ClassFile_Proofs Debug_Model Debug_Spec Debug_Proofs.

Definition SDE : str := lit "SourceDebugExtension".
(** A class with the extension [b] *)
Definition debug_class (l : list jattr) : jclassfile :=
  mkjclass 0 52 [JClass 2; JUtf8 (lit "A"); JUtf8 SDE; JUtf8 (lit "Deprecated")] 33 1 0 [] [] [] l.

(** None exactly if the class has no such attribute or an empty one. *)
Theorem C134_none : forall c rest, jclassfile_ok c = true -> exists r, unpack_class (enc_class c ++ rest) MNone = Ok r /\
  (get_source_debug_extension r = None <-> last_named (jc_pool c) (jc_attrs c) SDE = None \/ last_named (jc_pool c) (jc_attrs c) SDE = Some []).
Proof.
  intros c rest Hc. destruct (unpack_class_roundtrip c rest Hc) as (r & HU & _ & _ & _ & HS). exists r. split; [exact HU|].
  destruct HS as (_ & _ & _ & _ & _ & _ & _ & _ & HA & _). unfold get_source_debug_extension. change (lit "SourceDebugExtension") with SDE. rewrite HA.
  destruct (last_named (jc_pool c) (jc_attrs c) SDE) as [[|x b]|]; split; auto; try discriminate. intros [H|H]; discriminate H.
Qed.
Print Assumptions C134_none.
Example C134_none_ex : jclassfile_ok (debug_class [mkjattr 4 []]) = true /\ last_named (jc_pool (debug_class [])) [mkjattr 4 []] SDE = None /\
  jclassfile_ok (debug_class [mkjattr 3 []]) = true /\ last_named (jc_pool (debug_class [])) [mkjattr 3 []] SDE = Some [].
Proof. vm_compute. auto. Qed.

(** Otherwise it is a Python bytes literal for the bytes of the attribute, from which
    they can be read back in one way only. *)
Theorem C134_literal : forall c rest b, jclassfile_ok c = true -> last_named (jc_pool c) (jc_attrs c) SDE = Some b -> b <> [] -> all_bytes b ->
  exists r t, unpack_class (enc_class c ++ rest) MNone = Ok r /\ get_source_debug_extension r = Some t /\
    Denotes t b /\ (forall b', Denotes t b' -> b' = b).
Proof.
  intros c rest b Hc Hb Hn HB. destruct (unpack_class_roundtrip c rest Hc) as (r & HU & _ & _ & _ & HS). exists r, (str_bytes b). split; [exact HU|].
  destruct HS as (_ & _ & _ & _ & _ & _ & _ & _ & HA & _). unfold get_source_debug_extension. change (lit "SourceDebugExtension") with SDE. rewrite HA, Hb.
  destruct b as [|x b]; [congruence|]. split; [reflexivity|]. pose proof (str_denotes _ HB) as HD. split; [exact HD|]. intros b' H'. exact (denotes_fun _ _ _ H' HD).
Qed.
Print Assumptions C134_literal.
Definition smap : bytes := lit "SMAP" ++ [10] ++ lit "it's \ " ++ [195; 169; 0].
Example C134_literal_ex : jclassfile_ok (debug_class [mkjattr 3 (lit "old"); mkjattr 3 smap]) = true /\
  last_named (jc_pool (debug_class [])) [mkjattr 3 (lit "old"); mkjattr 3 smap] SDE = Some smap /\ smap <> [] /\ all_bytes smap /\
  str_bytes smap = lit "b" ++ [34] ++ lit "SMAP\nit's \\ \xc3\xa9\x00" ++ [34].
Proof.
  split; [reflexivity|]. split; [reflexivity|]. split; [discriminate|]. split; [|reflexivity].
  apply Forall_forall. intros x Hx. assert (E : forallb is_byte smap = true) by reflexivity. rewrite forallb_forall in E. apply E in Hx. unfold is_byte in Hx. lia.
Qed.

(** It is never the text itself, whatever the encoding: a decoded text has at most as
    many characters as bytes. *)
Theorem C134_text_refuted : forall c rest b r t s, jclassfile_ok c = true -> last_named (jc_pool c) (jc_attrs c) SDE = Some b -> all_bytes b ->
  unpack_class (enc_class c ++ rest) MNone = Ok r -> get_source_debug_extension r = Some t -> (length s <= length b)%nat -> t <> s.
Proof.
  intros c rest b r t s Hc Hb HB HU HG HL ->. assert (Hn : b <> []).
  { intros ->. destruct (C134_none c rest Hc) as (r' & HU' & HI). rewrite HU in HU'. injection HU' as <-. rewrite (proj2 HI (or_intror Hb)) in HG. discriminate HG. }
  destruct (C134_literal c rest b Hc Hb Hn HB) as (r' & t' & HU' & HG' & HD & _). rewrite HU in HU'. injection HU' as <-. rewrite HG in HG'. injection HG' as <-.
  apply denotes_long in HD. lia.
Qed.
Print Assumptions C134_text_refuted.
Example C134_text_refuted_ex : match unpack_class (enc_class (debug_class [mkjattr 3 (lit "SMAP")])) MNone with
  | Ok r => get_source_debug_extension r = Some (lit "b'SMAP'")
  | Err _ => False
  end.
Proof. vm_compute. reflexivity. Qed.

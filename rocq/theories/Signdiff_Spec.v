(** Specification of what the comparison tools say of a jar and its signed copy. *)
From Verif Require Import Base Manifest_Model Manifest_Spec Sign_Spec Change_Model Zip_Spec.
From Verif Require Jardiff_Spec Zip_Model Sign_Model.

(** The archive with the entries of [z], readable, with correct sizes and checksums. *)
Definition archive_of (z : Sign_Model.zip) (a : Zip_Model.archive) : Prop :=
  Zip_Model.a_kind a = Zip_Model.Zip /\ Zip_Model.a_open a = true /\ Forall sound (Zip_Model.a_entries a) /\
  map (fun e => (Zip_Model.e_name e, Zip_Model.e_data e)) (Zip_Model.a_entries a) = z.

(** A jar with the manifest [mf], which and whose entry names can be written to a
    manifest; no other entry is a manifest but for the case of its name. *)
Definition signable (up : Z -> str) (z : Sign_Model.zip) (mf : manifest) : Prop :=
  zip_bytes z /\
  (exists d, holds z (lit "META-INF/MANIFEST.MF") d /\ man_parse (new_manifest None) d = Ok mf) /\
  manifest_ok mf /\
  Forall (fun f => sig_related (uppercase up f) \/ item_ok (lit "Name", f)) (map fst z) /\
  (forall f, In f (map fst z) -> uppercase up f = lit "META-INF/MANIFEST.MF" -> f = lit "META-INF/MANIFEST.MF").

(** The section of the manifest that vouches for the entry [f] holding [b]. *)
Definition signed_section (hash : str -> bytes -> str) (alg f : str) (b : bytes) : section :=
  [(lit "Name", f); (alg ++ lit "-Digest", hash alg b)].

(** The section written for the entry [f] is one that the options let differ from
    the one in the manifest [mf]. *)
Definition section_settled (hash : str -> bytes -> str) (o : options) (alg : str) (mf : manifest) (f : str) (b : bytes) : Prop :=
  exists s, dget (m_subs mf) f = Some s /\
    (s = signed_section hash alg f b \/ Jardiff_Spec.only_ignored_keys o s (signed_section hash alg f b)).

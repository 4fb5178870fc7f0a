(** Property C126: the JSON document of jardiff, object by object. *)
From Verif Require Import Base Pack_Model ConstPool_Model ConstPool_Spec ClassFile_Model ClassFile_Spec Manifest_Model Change_Model Classdiff_Model Classdiff_Spec Classdiff_Class
  Zip_Spec Zip_Proofs Jardiff_Model Jardiff_Spec Jardiff_Proofs Text_Spec Jtext_Spec Doc_Spec Doc_Proofs Jdoc_Spec Jdoc_Proofs Jdoc_Jar P_ClassFile P_Classdiff P_Jardiff P_Jtext.
From Verif Require Zip_Model P_Zip P_Doc.
From Coq Require Import Permutation.
Import Zip_Model (archive, mka, Zip, a_kind, a_open, a_entries).

(** ** C126 *)

(** The document of two jars is one described by [jar_doc], whatever the options *)
Theorem C126_document : forall fmt reprs ffmt text order up o l r c j, (forall s, Permutation (order s) s) ->
  a_kind l = Zip -> a_kind r = Zip -> a_open l = true -> a_open r = true -> Forall sound (a_entries l) -> Forall sound (a_entries r) ->
  classes_known fmt up l r -> check (jar_change fmt reprs ffmt text order up (Ok l) (Ok r)) = Ok c -> json_of o c = Ok j ->
  jar_doc fmt reprs ffmt up o l r j.
Proof.
  intros fmt reprs ffmt text order up o l r c j P K1 K2 O1 O2 S1 S2 HK HC HJ. destruct (jar_document fmt reprs ffmt text order up P l r K1 K2 O1 O2 S1 S2 o HK c HC) as (t & T1 & _ & T2).
  exists t. split; [exact T1|exact (T2 j HJ)].
Qed.
Print Assumptions C126_document.
Definition jar_json (o : options) (l r : archive) : res json := c <- jar_tree l r ;; json_of o c.
(** An object about an entry of the jars *)
Definition at_entry (cls label : String.string) (ign : bool) (e : String.string) (js : list json) : json :=
  J (lit cls) true (lit label ++ lit " has changed: " ++ lit e) (lit label) ign false false (Some (lit e)) None None None (Some js).
Definition one_entry (cls label : String.string) (ign added : bool) (e : String.string) : json :=
  J (lit cls) true (lit label ++ lit ": " ++ lit e) (lit label) ign added (negb added) (Some (lit e)) None None None (Some []).
Definition attributes (l : list (String.string * String.string)) : pyobj := ODict (map (fun kv => (lit (fst kv), OStr (lit (snd kv)))) l).
Definition class_part : json := P_Doc.within "JavaClassChange" "Java Class" "Java Class A" [
  P_Doc.within "ClassInfoChange" "Class information" "Class information changed" [
    P_Doc.told "ClassVersionChange" "Java class verison" "Java class verison changed: (51, 0) to (52, 0)" (Some (OTuple [OInt 51; OInt 0])) (Some (OTuple [OInt 52; OInt 0]));
    P_Doc.told "ClassPlatformChange" "Java platform" "Java platform changed: 1.7 to 1.8" (Some (OStr (lit "1.7"))) (Some (OStr (lit "1.8")))]].
Example C126_document_ex : exists c j, Forall sound (a_entries jar_left) /\ Forall sound (a_entries jar_right) /\ classes_known no_fmt ascii_up jar_left jar_right /\
  jar_tree jar_left jar_right = Ok c /\ json_of strict c = Ok j /\
  j = P_Doc.within "JarChange" "JAR" "JAR changed" [P_Doc.within "JarContentsChange" "JAR Contents" "JAR Contents changed" [
    at_entry "JarManifestChange" "Jar Manifest" false "META-INF/MANIFEST.MF" [P_Doc.within "ManifestChange" "Manifest" "Manifest changed" [
      P_Doc.told "ManifestMainChange" "Manifest Main Section" "Manifest Main Section has changed"
        (Some (attributes [("Manifest-Version", "1.0"); ("Built-By", "ann")]%string)) (Some (attributes [("Manifest-Version", "1.0"); ("Built-By", "bob")]%string));
      J (lit "ManifestSectionRemoved") true (lit "Manifest Subsection Removed: B.class") (lit "Manifest Subsection Removed") false false true None None (Some (attributes [("Name", "B.class"); ("X", "2")]%string)) None None;
      J (lit "ManifestSectionAdded") true (lit "Manifest Subsection Added: C.class") (lit "Manifest Subsection Added") false true false None None None (Some (attributes [("Name", "C.class"); ("X", "2")]%string)) None]];
    at_entry "JarSignatureFileChange" "Jar Signature File" false "META-INF/K.SF" [P_Doc.within "SignatureManifestChange" "Signature File" "Signature File changed" [
      P_Doc.told "ManifestMainChange" "Manifest Main Section" "Manifest Main Section has changed"
        (Some (attributes [("Manifest-Version", "1.0"); ("Signature-Version", "1.0"); ("Created-By", "1")]%string)) (Some (attributes [("Manifest-Version", "1.0"); ("Signature-Version", "1.0"); ("Created-By", "2")]%string))]];
    one_entry "JarSignatureBlockFileAdded" "Jar Signature Block File Added" false true "META-INF/L.EC";
    at_entry "JarSignatureBlockFileChange" "Jar Signature Block File" false "META-INF/K.RSA" [
      P_Doc.told "SignatureBlockFileChange" "Signature Block File" "[binary data change]" (Some (OStr (lit "[binary data]"))) (Some (OStr (lit "[binary data]")))];
    at_entry "JarGenericFileChange" "Jar Generic File" false "d/r.txt" [
      P_Doc.told "GenericFileChange" "Generic File" "[generic file change]" (Some (OStr (lit "[data]"))) (Some (OStr (lit "[data]")))];
    one_entry "JarContentAdded" "Jar Content Added" false true "new.txt";
    one_entry "JarContentRemoved" "Jar Content Removed" false false "old.txt";
    one_entry "JarClassRemoved" "Java Class Removed" false false "Gone.class";
    at_entry "JarClassChange" "Java Class" false "A.class" [class_part]]].
Proof.
  destruct (jar_tree jar_left jar_right) as [c|] eqn:E; [|exfalso; vm_compute in E; discriminate E]. exists c.
  eexists. split; [apply jars_sound|]. split; [apply jars_sound|]. split; [apply known_jars|]. split; [reflexivity|]. split; [|reflexivity].
  assert (H : jar_json strict jar_left jar_right = json_of strict c) by (unfold jar_json; rewrite E; reflexivity). rewrite <- H. vm_compute. reflexivity.
Qed.
(** With differences of signatures, of the attribute Built-By, of sub-sections and of
    text files to be ignored *)
Example C126_ignored_ex :
  jar_json (lenient false) jar_left jar_right = Ok (P_Doc.within "JarChange" "JAR" "JAR changed" [P_Doc.within "JarContentsChange" "JAR Contents" "JAR Contents changed" [
    one_entry "JarClassRemoved" "Java Class Removed" false false "Gone.class"; at_entry "JarClassChange" "Java Class" false "A.class" [class_part]]]) /\
  jar_json (lenient true) (zip_of [("META-INF/K.RSA", [1]); ("old.txt", [])]%string) (zip_of [("META-INF/K.RSA", [2])]%string) =
    Ok (J (lit "JarChange") true (lit "JAR changed") (lit "JAR") true false false None None None None (Some [
      J (lit "JarContentsChange") true (lit "JAR Contents changed") (lit "JAR Contents") true false false None None None None (Some [
        at_entry "JarSignatureBlockFileChange" "Jar Signature Block File" true "META-INF/K.RSA" [
          P_Doc.told "SignatureBlockFileChange" "Signature Block File" "[binary data change]" (Some (OStr (lit "[binary data]"))) (Some (OStr (lit "[binary data]")))];
        one_entry "JarContentRemoved" "Jar Content Removed" true false "old.txt"])])).
Proof. split; vm_compute; reflexivity. Qed.

(** The contents of files that are neither classes nor manifests are not in the document:
    jars with other differences may have the same document. *)
Example C126_contents_ex : exists l r r' j, jar_json verbose l r = Ok j /\ jar_json verbose l r' = Ok j /\ a_entries r <> a_entries r'.
Proof.
  exists (zip_of [("d/r.txt", [1; 2])]%string), (zip_of [("d/r.txt", [1; 3])]%string), (zip_of [("d/r.txt", [])]%string).
  exists (match jar_json verbose (zip_of [("d/r.txt", [1; 2])]%string) (zip_of [("d/r.txt", [1; 3])]%string) with Ok j => j | Err _ => class_part end). split; [vm_compute; reflexivity|]. split; [vm_compute; reflexivity|]. intro H. vm_compute in H. discriminate H.
Qed.

(** The document shows an attribute that the file does not have: signature files are
    read as manifests are, and every manifest is given a Manifest-Version. *)
Theorem C126_refuted : exists l r x y j k v,
  content l (lit "META-INF/K.SF") x /\ content r (lit "META-INF/K.SF") y /\ (forall p q, x <> p ++ k ++ q) /\ (forall p q, y <> p ++ k ++ q) /\
  jar_json strict l r = Ok (P_Doc.within "JarChange" "JAR" "JAR changed" [P_Doc.within "JarContentsChange" "JAR Contents" "JAR Contents changed" [
    at_entry "JarSignatureFileChange" "Jar Signature File" false "META-INF/K.SF" [P_Doc.within "SignatureManifestChange" "Signature File" "Signature File changed" [j]]]]) /\
  exists c b d lb old new, j = J c b d lb false false false None None (Some (ODict ((k, OStr v) :: old))) (Some (ODict ((k, OStr v) :: new))) None.
Proof.
  exists (zip_of [("META-INF/K.SF", sf "Created-By: 1")]%string), (zip_of [("META-INF/K.SF", sf "Created-By: 2")]%string), (sf "Created-By: 1"), (sf "Created-By: 2").
  exists (P_Doc.told "ManifestMainChange" "Manifest Main Section" "Manifest Main Section has changed"
        (Some (attributes [("Manifest-Version", "1.0"); ("Signature-Version", "1.0"); ("Created-By", "1")]%string)) (Some (attributes [("Manifest-Version", "1.0"); ("Signature-Version", "1.0"); ("Created-By", "2")]%string))).
  exists (lit "Manifest-Version"), (lit "1.0").
  assert (HM : forall s, ~ In 77 s -> forall p q, s <> p ++ lit "Manifest-Version" ++ q) by (intros s H p q E; apply H; rewrite E; apply in_or_app; right; left; reflexivity).
  split; [exists [P_Zip.zdir (lit "d/")], (P_Zip.zfile (lit "META-INF/K.SF") (sf "Created-By: 1")), []; repeat split; intros []|].
  split; [exists [P_Zip.zdir (lit "d/")], (P_Zip.zfile (lit "META-INF/K.SF") (sf "Created-By: 2")), []; repeat split; intros []|].
  split; [apply HM; intro H; vm_compute in H; repeat (destruct H as [H|H]; [discriminate H|]); exact H|]. split; [apply HM; intro H; vm_compute in H; repeat (destruct H as [H|H]; [discriminate H|]); exact H|].
  split; [vm_compute; reflexivity|]. eexists _, _, _, _, _, _. reflexivity.
Qed.
Print Assumptions C126_refuted.

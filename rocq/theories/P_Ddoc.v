(** Property C127: the JSON document of distdiff, object by object. *)
From Verif Require Import Base Pack_Model ConstPool_Model ClassFile_Model Manifest_Model Change_Model Classdiff_Model Classdiff_Class
  Zip_Spec Jardiff_Model Jardiff_Spec Text_Spec Jtext_Spec Dir_Spec Distdiff_Model Distdiff_Spec Distdiff_Proofs Dtext_Model Dtext_Spec Dtext_Proofs
  Doc_Spec Jdoc_Spec Ddoc_Model Ddoc_Spec Ddoc_Proofs P_Classdiff P_Jardiff P_Distdiff P_Jtext P_Dtext.
From Verif Require Zip_Model P_Doc P_Jdoc P_Dir.
From Coq Require Import Permutation.
Import Zip_Model (node, Dir, File).

(** ** C127 *)
(** Whenever distdiff writes a document, it is one described by [dist_doc], and the
    status is that of distdiff when it writes nothing; whatever the options. *)
Theorem C127_document : forall fmt reprs ffmt text order up unzip o shallow lname rname l r j s, (forall s, Permutation (order s) s) ->
  plain l -> plain r -> names_ok l -> names_ok r -> Dir_Spec.comparable l r -> files_readable fmt up unzip shallow l r ->
  distdiff_json fmt reprs ffmt text order up unzip lname rname l r o shallow = Ok (j, s) ->
  dist_doc fmt reprs ffmt text up unzip o shallow lname rname l r j /\ distdiff fmt reprs ffmt text order up unzip l r o shallow = Ok s.
Proof.
  intros fmt reprs ffmt text order up unzip o shallow lname rname l r j s P P1 P2 N1 N2 C HK HJ. split; [exact (dist_document fmt reprs ffmt text order up unzip P l r o shallow P1 P2 N1 N2 C HK lname rname j s HJ)|].
  unfold distdiff_json, dist_change_at in HJ. cbv zeta in HJ. unfold distdiff, dist_change. match type of HJ with (x <- check (super ?a ?b ?c ?d ?e) ;; _) = _ => assert (HS : (x <- check (super a b c d e) ;; exit_status o x) = Ok s) end.
  { destruct (check _) as [x|]; [|discriminate HJ]. cbn [rbind] in *. destruct (json_of o x); [|discriminate HJ]. cbn [rbind] in HJ. destruct (exit_status o x); [|discriminate HJ]. cbn [rbind] in HJ. injection HJ as _ ->. reflexivity. }
  apply (status_described o _ _ _ (Some (fun b : bool => Ok (lit "Distribution" ++ (if b then lit " changed" else lit " unchanged"))))) in HS as (x & HX & HS). rewrite HX. exact HS.
Qed.
Print Assumptions C127_document.
Definition dist_json (o : options) (shallow : bool) (l r : node) : res (json * Z) :=
  distdiff_json no_fmt no_repr no_fmt ascii_lines (fun s => s) ascii_up two_jars (lit "app-1") (lit "app-2") l r o shallow.
Lemma files_read sh : files_readable no_fmt ascii_up two_jars sh dist_left dist_right.
Proof. intros p x y D1 D2 N S. destruct (files_at strict sh p x y D1 D2 N S) as [A B]. split; [exact A|]. intros HE a b Ha Hb. destruct (B HE a b Ha Hb) as [H1 H2 H3 _]. constructor; assumption. Qed.
Definition same_entry (cls label : String.string) (ign : bool) (e : String.string) : json :=
  J (lit cls) false (lit label ++ lit " is unchanged: " ++ lit e) (lit label) ign false false (Some (lit e)) None None None (Some []).
Definition jar_object : json := match P_Jdoc.jar_json strict jar_left jar_right with Ok j => j | Err _ => P_Jdoc.class_part end.
Example C127_document_ex : exists j, plain dist_left /\ plain dist_right /\ names_ok dist_left /\ names_ok dist_right /\ Dir_Spec.comparable dist_left dist_right /\ files_readable no_fmt ascii_up two_jars false dist_left dist_right /\
  dist_json strict false dist_left dist_right = Ok (j, 1) /\
  j = P_Doc.within "DistChange" "Distribution" "Distribution changed from app-1 to app-2" [
    P_Jdoc.one_entry "DistClassRemoved" "Distributed Java Class Removed" false false "Old.class";
    P_Jdoc.at_entry "DistClassChange" "Distributed Java Class" false "./A.class" [P_Jdoc.class_part];
    P_Jdoc.one_entry "DistJarAdded" "Distributed JAR Added" false true "new.war";
    P_Jdoc.at_entry "DistJarChange" "Distributed JAR" false "lib/x.jar" [jar_object];
    P_Jdoc.at_entry "DistTextChange" "Distributed Text" false "./README.txt" [
      P_Doc.told "GenericChange" "Generic Change" "Generic Change changed: one to one " (Some (OStr (lit "one"))) (Some (OStr (lit "one ")))];
    P_Jdoc.at_entry "DistManifestChange" "Distributed Manifest" false "lib/MANIFEST.MF" [P_Doc.within "ManifestChange" "Manifest" "Manifest changed" [
      P_Doc.told "ManifestMainChange" "Manifest Main Section" "Manifest Main Section has changed"
        (Some (P_Jdoc.attributes [("Manifest-Version", "1.0"); ("Built-By", "an")]%string)) (Some (P_Jdoc.attributes [("Manifest-Version", "1.0"); ("Built-By", "bob")]%string))]];
    P_Jdoc.one_entry "DistContentAdded" "Distributed Content Added" false true "etc/note";
    P_Jdoc.one_entry "DistContentRemoved" "Distributed Content Removed" false false "old.html"].
Proof.
  destruct dists_known as (A & B & C & D & E). eexists. repeat (split; [assumption|]). split; [apply files_read|]. split; [|reflexivity]. vm_compute. reflexivity.
Qed.
(** With --shallow and --show-unchanged, and files to be ignored by name *)
Example C127_shallow_ex : dist_json (soft true true) true dist_left dist_right = Ok (
  P_Doc.within "DistChange" "Distribution" "Distribution changed from app-1 to app-2" [
    P_Jdoc.one_entry "DistContentAdded" "Distributed Content Added" false true "etc/note";
    P_Jdoc.one_entry "DistContentAdded" "Distributed Content Added" false true "new.war";
    P_Jdoc.one_entry "DistContentRemoved" "Distributed Content Removed" false false "Old.class";
    P_Jdoc.one_entry "DistContentRemoved" "Distributed Content Removed" true false "old.html";
    same_entry "DistContentChange" "Distributed Content" false "./A.class";
    same_entry "DistContentChange" "Distributed Content" false "./README.txt";
    same_entry "DistContentChange" "Distributed Content" false "./a.bin";
    same_entry "DistContentChange" "Distributed Content" false "./ends.cfg";
    same_entry "DistContentChange" "Distributed Content" false "lib/MANIFEST.MF";
    same_entry "DistContentChange" "Distributed Content" true "lib/x.jar"], 1).
Proof. vm_compute. reflexivity. Qed.

(** A file is marked as ignored although the two are equal and no pattern matches it:
    any text file, with --ignore-trailing-whitespace. *)
Definition one_text : node := Dir false [(lit "a.txt", P_Dir.f_ (lit "one") 1)].
Theorem C127_refuted : exists l p d, plain l /\ data_at l p d /\ ~ fmatched (soft true true) (name_of p) /\
  dist_json (soft true true) false l l = Ok (J (lit "DistChange") false (lit "Distribution unchanged from app-1 to app-2") (lit "Distribution") false false false None None None None
    (Some [same_entry "DistTextChange" "Distributed Text" true "./a.txt"]), 0).
Proof.
  exists one_text, [lit "a.txt"], (lit "one"). split; [apply (plainb_plain 4); vm_compute; reflexivity|]. split; [unfold data_at; exists false, 1; apply found_down with (n := P_Dir.f_ (lit "one") 1); [now left|constructor]|].
  split; [|vm_compute; reflexivity]. rewrite <- own_iff. vm_compute. discriminate.
Qed.
Print Assumptions C127_refuted.

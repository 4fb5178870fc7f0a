(** Property C123: the text report of jardiff, line by line. *)
From Verif Require Import Base Pack_Model ConstPool_Model ConstPool_Spec ClassFile_Model ClassFile_Spec Manifest_Model Change_Model Classdiff_Model Classdiff_Spec Classdiff_Class
  Zip_Spec Zip_Proofs Jardiff_Model Jardiff_Spec Jardiff_Proofs Text_Spec Jtext_Spec Jtext_Proofs Jtext_Jar P_ClassFile P_Classdiff P_Jardiff.
From Verif Require Zip_Model P_Zip P_Text.
From Coq Require Import Permutation.
Import Zip_Model (archive, mka, Zip, a_kind, a_open, a_entries).

(** ** Example data *)
Definition small (v : Z) : bytes := enc_class (mkjclass 0 v [JClass 2; JUtf8 (lit "A"); JClass 4; JUtf8 (lit "java/lang/Object")] 33 1 3 [] [] [] []).
Definition the_class (v : Z) : classinfo := match unpack_class (small v) MNone with Ok c => c | Err _ => mkclass (0, 0) [] 0 0 0 [] [] [] [] end.
Definition lined (l : list String.string) : bytes := concat (map (fun s => lit s ++ [13; 10]) l).
Definition mf_left : bytes := lined ["Manifest-Version: 1.0"; "Built-By: ann"; ""; "Name: A.class"; "X: 1"; ""; "Name: B.class"; "X: 2"; ""]%string.
Definition mf_right : bytes := lined ["Manifest-Version: 1.0"; "Built-By: bob"; ""; "Name: A.class"; "X: 1"; ""; "Name: C.class"; "X: 2"; ""]%string.
Definition sf (x : String.string) : bytes := lined ["Signature-Version: 1.0"; x; ""]%string.
Definition zip_of (l : list (String.string * bytes)) : archive := mka Zip true (P_Zip.zdir (lit "d/") :: map (fun p => P_Zip.zfile (lit (fst p)) (snd p)) l).
Definition jar_left : archive := zip_of [("META-INF/MANIFEST.MF", mf_left); ("META-INF/K.SF", sf "Created-By: 1"); ("META-INF/K.RSA", [1]); ("A.class", small 51); ("d/r.txt", [1; 2]); ("s.txt", [3]); ("old.txt", []); ("Gone.class", [])]%string.
Definition jar_right : archive := zip_of [("new.txt", []); ("META-INF/MANIFEST.MF", mf_right); ("META-INF/K.SF", sf "Created-By: 2"); ("META-INF/K.RSA", [2]); ("A.class", small 52); ("d/r.txt", [1; 3]); ("s.txt", [3]); ("META-INF/L.EC", [4])]%string.
Definition jar_tree (l r : archive) : res change := check (jar_change no_fmt no_repr no_fmt P_Zip.no_text (fun s => s) ascii_up (Ok l) (Ok r)).
Definition jar_view (o : options) (l r : archive) : res str := c <- jar_tree l r ;; text_report o c.
Lemma small_known v : v = 51 \/ v = 52 -> class_is no_fmt (the_class v) (mkcdata (lit "A") (lit "java/lang/Object") [] None [] []).
Proof.
  intros [->| ->]; (constructor; [constructor; P_Text.closed|P_Text.no_annos|P_Text.no_annos|apply Forall_nil|apply Forall_nil|exists []; split; constructor|exists []; split; constructor]).
Qed.
Lemma jars_sound : Forall sound (a_entries jar_left) /\ Forall sound (a_entries jar_right).
Proof. split; apply soundb_sound; vm_compute; reflexivity. Qed.
Lemma known_jars : classes_known no_fmt ascii_up jar_left jar_right.
Proof.
  intros n x y _ Hx Hy _ _ _ HC a b Ha Hb. apply is_classfile_iff in HC.
  assert (HN : In n (names jar_left)) by (apply names_content; eauto). assert (HM : In n (names jar_right)) by (apply names_content; eauto).
  assert (n = lit "A.class") as ->.
  { unfold names in HN, HM. cbn [jar_left jar_right zip_of a_entries map P_Zip.zdir P_Zip.zfile Zip_Model.e_name fst snd] in HN, HM.
    repeat (destruct HN as [<-|HN]; [try (vm_compute in HC; discriminate HC); try reflexivity; exfalso; repeat (destruct HM as [HM|HM]; [vm_compute in HM; discriminate HM|]); exact HM|]). destruct HN. }
  apply find_entry_content in Hx as (e & E & <-). apply find_entry_content in Hy as (e' & E' & <-). vm_compute in E, E'. injection E as <-. injection E' as <-. cbn [Zip_Model.e_data] in Ha, Hb.
  split; eexists.
  - replace a with (the_class 51); [apply small_known; now left|]. unfold the_class. vm_compute in Ha |- *. now injection Ha.
  - replace b with (the_class 52); [apply small_known; now right|]. unfold the_class. vm_compute in Hb |- *. now injection Hb.
Qed.

(** ** C123 *)

(** The report of two jars is a text described by [jar_report_of], whatever the
    options.  (With --show-unchanged and nothing to compare there is none: C70_refuted.) *)
Theorem C123_report : forall fmt reprs ffmt text order up o l r c, (forall s, Permutation (order s) s) ->
  a_kind l = Zip -> a_kind r = Zip -> a_open l = true -> a_open r = true -> Forall sound (a_entries l) -> Forall sound (a_entries r) ->
  classes_known fmt up l r -> check (jar_change fmt reprs ffmt text order up (Ok l) (Ok r)) = Ok c ->
  (show_unchanged o = true -> some_entry l r) ->
  exists t, text_report o c = Ok t /\ jar_report_of fmt reprs up o l r t.
Proof. intros fmt reprs ffmt text order up o l r c P K1 K2 O1 O2 S1 S2 HK HC HU. destruct (jar_text fmt reprs ffmt text order up P l r K1 K2 O1 O2 S1 S2 o HK 0 c HC HU) as ([st t] & T1 & T2 & _). exists t. split; [exact T2|]. exists st. exact T1. Qed.
Print Assumptions C123_report.
Example C123_report_ex : exists c, Forall sound (a_entries jar_left) /\ Forall sound (a_entries jar_right) /\ classes_known no_fmt ascii_up jar_left jar_right /\
  jar_tree jar_left jar_right = Ok c /\ text_report strict c = Ok (P_Text.lines_of [
    "JAR changed";
    "  JAR Contents changed";
    "    Jar Manifest has changed: META-INF/MANIFEST.MF";
    "      Manifest changed";
    "        Manifest Main Section has changed";
    "        Manifest Subsection Removed: B.class";
    "        Manifest Subsection Added: C.class";
    "    Jar Signature File has changed: META-INF/K.SF";
    "      Signature File changed";
    "        Manifest Main Section has changed";
    "    Jar Signature Block File Added: META-INF/L.EC";
    "    Jar Signature Block File has changed: META-INF/K.RSA";
    "      [binary data change]";
    "    Jar Generic File has changed: d/r.txt";
    "      [generic file change]";
    "    Jar Content Added: new.txt";
    "    Jar Content Removed: old.txt";
    "    Java Class Removed: Gone.class";
    "    Java Class has changed: A.class";
    "      Java Class A";
    "        Class information changed";
    "          Java class verison changed: (51, 0) to (52, 0)";
    "          Java platform changed: 1.7 to 1.8"]%string).
Proof.
  destruct (jar_tree jar_left jar_right) as [c|] eqn:E; [|exfalso; vm_compute in E; discriminate E]. exists c. split; [apply jars_sound|]. split; [apply jars_sound|]. split; [apply known_jars|]. split; [reflexivity|].
  assert (H : jar_view strict jar_left jar_right = text_report strict c) by (unfold jar_view; rewrite E; reflexivity). rewrite <- H. vm_compute. reflexivity.
Qed.
(** Differences of signatures, of the attribute Built-By, of sub-sections and of text
    files to be ignored *)
Definition lenient (show : bool) : options :=
  mkopts false show false false false false false false false false false false [lit "*.txt"] true false true [lit "Built-By"] [] false.
Example C123_ignored_ex : jar_view (lenient false) jar_left jar_right = Ok (P_Text.lines_of [
    "JAR changed";
    "  JAR Contents changed";
    "    Java Class Removed: Gone.class";
    "    Java Class has changed: A.class";
    "      Java Class A";
    "        Class information changed";
    "          Java class verison changed: (51, 0) to (52, 0)";
    "          Java platform changed: 1.7 to 1.8"]%string) /\
  jar_view (lenient true) jar_left jar_right = Ok (P_Text.lines_of [
    "JAR changed";
    "  JAR Contents changed";
    "    Jar Manifest has changed: META-INF/MANIFEST.MF [IGNORED]";
    "      Manifest changed [IGNORED]";
    "        Manifest Main Section has changed [IGNORED]";
    "        Manifest Subsection Removed: B.class [IGNORED]";
    "        Manifest Subsection Added: C.class [IGNORED]";
    "    Jar Signature File has changed: META-INF/K.SF [IGNORED]";
    "      Signature File changed [IGNORED]";
    "        Manifest Main Section has changed";
    "    Jar Signature Block File Added: META-INF/L.EC [IGNORED]";
    "    Jar Signature Block File has changed: META-INF/K.RSA [IGNORED]";
    "      [binary data change]";
    "    Jar Generic File has changed: d/r.txt [IGNORED]";
    "      [generic file change]";
    "    Jar Content Added: new.txt [IGNORED]";
    "    Jar Content Removed: old.txt [IGNORED]";
    "    Java Class Removed: Gone.class";
    "    Java Class has changed: A.class";
    "      Java Class A";
    "        Class information changed";
    "          Java class verison changed: (51, 0) to (52, 0)";
    "          Java platform changed: 1.7 to 1.8"]%string).
Proof. split; vm_compute; reflexivity. Qed.
(** A signature file differing in nothing but attributes to be ignored is nevertheless
    said to have changed, and nothing is said about how *)
Example C123_bare_ex : jar_view (jar_opts [] false false false [lit "Created-By"]) (zip_of [("META-INF/K.SF", sf "Created-By: 1")]%string) (zip_of [("META-INF/K.SF", sf "Created-By: 2")]%string) =
  Ok (P_Text.lines_of ["JAR changed"; "  JAR Contents changed"; "    Jar Signature File has changed: META-INF/K.SF"]%string).
Proof. vm_compute. reflexivity. Qed.
(** A manifest differing in the line separator only is unchanged *)
Definition mf_lf : bytes := concat (map (fun s => lit s ++ [10]) ["Manifest-Version: 1.0"; "Built-By: ann"; ""; "Name: A.class"; "X: 1"; ""; "Name: B.class"; "X: 2"; ""]%string).
Example C123_unchanged_ex :
  jar_view verbose (zip_of [("META-INF/MANIFEST.MF", mf_left); ("s.txt", [3])]%string) (zip_of [("META-INF/MANIFEST.MF", mf_lf); ("s.txt", [3])]%string) = Ok (P_Text.lines_of [
    "JAR unchanged";
    "  Jar type unchanged";
    "  JAR Contents unchanged";
    "    Jar Manifest is unchanged: META-INF/MANIFEST.MF";
    "      Manifest unchanged";
    "        Manifest Main Section is unchanged";
    "        Manifest Subsection Unchanged: A.class";
    "        Manifest Subsection Unchanged: B.class";
    "    Jar Content is unchanged: s.txt"]%string) /\
  jar_view strict (zip_of [("META-INF/MANIFEST.MF", mf_left)]%string) (zip_of [("META-INF/MANIFEST.MF", mf_lf)]%string) = Ok [].
Proof. split; vm_compute; reflexivity. Qed.

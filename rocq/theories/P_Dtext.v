(** Property C124: the text report of distdiff, line by line. *)
From Verif Require Import Base Pack_Model ConstPool_Model ClassFile_Model Manifest_Model Change_Model Classdiff_Model Classdiff_Class
  Zip_Spec Jardiff_Model Jardiff_Spec Text_Spec Jtext_Spec Dir_Spec Distdiff_Model Distdiff_Spec Distdiff_Proofs Dtext_Model Dtext_Spec Dtext_Proofs P_Classdiff P_Jardiff P_Distdiff P_Jtext.
From Verif Require Zip_Model P_Zip P_Text.
From Coq Require Import Permutation.
Import Zip_Model (node, Dir, File).

(** ** Example data *)
(** Text: ASCII, with line ends turned into newlines. *)
Definition ascii_lines (d : bytes) : res str := if forallb (fun c => c <? 128) d then Ok (filter (fun c => negb (c =? 13)) d) else Err UnicodeDecodeError.
Definition two_jars (d : bytes) : jar := match d with [1] => Ok jar_left | [2] => Ok jar_right | _ => Err FileNotFoundError end.
Definition mf_small (who : String.string) : bytes := lined ["Manifest-Version: 1.0"; who; ""]%string.
Definition files (time : Z) (txt ends cls bin mf jar : bytes) (extra : list (str * node)) : node :=
  Dir false ([(lit "README.txt", f_ txt time); (lit "ends.cfg", f_ ends time); (lit "a.bin", f_ bin time); (lit "A.class", f_ cls time);
    (lit "lib", Dir false [(lit "MANIFEST.MF", f_ mf time); (lit "x.jar", f_ jar time)])] ++ extra).
Definition dist_left : node := files 1 (lit "one") [120; 13; 10] (small 51) [1] (mf_small "Built-By: an") [1] [(lit "old.html", f_ [] 1); (lit "Old.class", f_ [] 1)].
Definition dist_right : node := files 2 (lit "one ") [120; 10] (small 52) [1; 2] (mf_small "Built-By: bob") [2] [(lit "new.war", f_ [] 1); (lit "etc", Dir false [(lit "note", f_ [7] 2)])].
Definition dist_view (o : options) (shallow : bool) (l r : node) : res (str * Z) :=
  distdiff_text no_fmt no_repr no_fmt ascii_lines (fun s => s) ascii_up two_jars (lit "app-1") (lit "app-2") l r o shallow.

Lemma dists_known : plain dist_left /\ plain dist_right /\ names_ok dist_left /\ names_ok dist_right /\ Dir_Spec.comparable dist_left dist_right.
Proof.
  split; [apply (plainb_plain 4); vm_compute; reflexivity|]. split; [apply (plainb_plain 4); vm_compute; reflexivity|]. split; [apply (names_okb_ok 4); vm_compute; reflexivity|]. split; [apply (names_okb_ok 4); vm_compute; reflexivity|].
  apply (comparableb_ok 4). vm_compute. reflexivity.
Qed.
Lemma class_at v c : unpack_class (small v) MNone = Ok c -> v = 51 \/ v = 52 -> exists A, class_is no_fmt c A.
Proof. intros H Hv. eexists. replace c with (the_class v); [now apply small_known|]. unfold the_class. now rewrite H. Qed.
Lemma jars_at o : jars_known no_fmt ascii_up o jar_left jar_right.
Proof.
  constructor; [repeat split; apply jars_sound|repeat split; apply jars_sound|apply known_jars|]. intros _. exists (lit "old.txt"). left. split; [vm_compute; tauto|]. vm_compute. intro H. repeat (destruct H as [H|H]; [discriminate H|]). exact H.
Qed.
Definition kids_of (n : node) : list (str * node) := match n with Dir _ k => k | _ => [] end.
Lemma files_are time txt ends cls bin mf jar extra p d : data_at (files time txt ends cls bin mf jar extra) p d -> (ends_in (name_of p) KClass \/ ends_in (name_of p) KJar) ->
  (forall f n, In (f, n) extra -> n = f_ [] 1 \/ n = Dir false [(lit "note", f_ [7] 2)]) ->
  p = [lit "A.class"] /\ d = cls \/ p = [lit "lib"; lit "x.jar"] /\ d = jar \/ exists f, In f (map fst extra) /\ hd [] p = f.
Proof.
  intros (x & m & F) HE HX. unfold files in F. inversion F as [|? ? k n q ? HI F' E1 E2]; subst.
  assert (NO : forall p, fnmatches (name_of p) [lit "*.class"] = false -> fnmatches (name_of p) JAR_PATTERNS = false -> ~ (ends_in (name_of p) KClass \/ ends_in (name_of p) KJar)).
  { intros p A B [H|H]; [apply is_class_iff in H|apply is_jar_iff in H]; congruence. }
  cbn [In] in HI. destruct HI as [HI|[HI|[HI|[HI|[HI|HI]]]]]; [..|right; right; exists k; split; [apply (in_map fst) in HI; exact HI|reflexivity]]; injection HI as <- <-; inversion F' as [|? ? k' n' q' ? HI' F'' E1 E2]; subst.
  - exfalso. revert HE. apply NO; vm_compute; reflexivity.
  - exfalso. revert HE. apply NO; vm_compute; reflexivity.
  - exfalso. revert HE. apply NO; vm_compute; reflexivity.
  - left. auto.
  - cbn [In] in HI'. destruct HI' as [HI'|[HI'|[]]]; injection HI' as <- <-; inversion F''; subst; [exfalso; revert HE; apply NO; vm_compute; reflexivity|right; left; auto].
Qed.
Lemma files_at o sh : files_known no_fmt ascii_up two_jars o sh dist_left dist_right.
Proof.
  intros p x y D1 D2 _ _. unfold dist_left in D1. unfold dist_right in D2.
  assert (XL : forall f n, In (f, n) [(lit "old.html", f_ [] 1); (lit "Old.class", f_ [] 1)] -> n = f_ [] 1 \/ n = Dir false [(lit "note", f_ [7] 2)]) by (intros f n [H|[H|[]]]; injection H as <- <-; auto).
  assert (XR : forall f n, In (f, n) [(lit "new.war", f_ [] 1); (lit "etc", Dir false [(lit "note", f_ [7] 2)])] -> n = f_ [] 1 \/ n = Dir false [(lit "note", f_ [7] 2)]) by (intros f n [H|[H|[]]]; injection H as <- <-; auto).
  assert (HW : ends_in (name_of p) KClass \/ ends_in (name_of p) KJar -> p = [lit "A.class"] /\ x = small 51 /\ y = small 52 \/ p = [lit "lib"; lit "x.jar"] /\ x = [1] /\ y = [2]).
  { intro HE. destruct (files_are _ _ _ _ _ _ _ _ p x D1 HE XL) as [[-> ->]|[[-> ->]|(f & Hf & Ef)]]; destruct (files_are _ _ _ _ _ _ _ _ _ y D2 HE XR) as [[Ep ->]|[[Ep ->]|(g & Hg & Eg)]];
      try discriminate Ep; auto; try (exfalso; subst; cbn [hd] in *; vm_compute in Hg; repeat (destruct Hg as [Hg|Hg]; [discriminate Hg|]); exact Hg);
      try (exfalso; subst; cbn [hd] in *; vm_compute in Hf; repeat (destruct Hf as [Hf|Hf]; [discriminate Hf|]); exact Hf).
    exfalso. subst. cbn [map fst In] in Hf, Hg. destruct Hf as [Hf|[Hf|[]]], Hg as [Hg|[Hg|[]]]; rewrite <- Hf in Hg; discriminate Hg. }
  split; intros HE a b Ha Hb.
  - destruct (HW (or_introl HE)) as [(-> & -> & ->)|(-> & -> & ->)]; [|discriminate Ha]. split; [exact (class_at 51 a Ha ltac:(auto))|exact (class_at 52 b Hb ltac:(auto))].
  - destruct (HW (or_intror HE)) as [(-> & -> & ->)|(-> & -> & ->)]; [exfalso; apply is_jar_iff in HE; vm_compute in HE; discriminate HE|]. injection Ha as <-. injection Hb as <-. apply jars_at.
Qed.

(** ** C124 *)
(** Whenever distdiff ends without an exception when it writes nothing, it ends with
    the same status when it writes the text report, and the report is a text
    described by [dist_report_of]; whatever the options. *)
Theorem C124_report : forall fmt reprs ffmt text order up unzip o shallow lname rname l r s, (forall s, Permutation (order s) s) ->
  plain l -> plain r -> names_ok l -> names_ok r -> Dir_Spec.comparable l r -> files_known fmt up unzip o shallow l r ->
  distdiff fmt reprs ffmt text order up unzip l r o shallow = Ok s ->
  exists t, distdiff_text fmt reprs ffmt text order up unzip lname rname l r o shallow = Ok (t, s) /\ dist_report_of fmt reprs text up unzip o shallow lname rname l r t.
Proof. intros fmt reprs ffmt text order up unzip o shallow lname rname l r s P P1 P2 N1 N2 C HK HS. exact (dist_text_report fmt reprs ffmt text order up unzip P l r o shallow P1 P2 N1 N2 C HK lname rname s HS). Qed.
Print Assumptions C124_report.
Example C124_report_ex : plain dist_left /\ plain dist_right /\ names_ok dist_left /\ names_ok dist_right /\ Dir_Spec.comparable dist_left dist_right /\ files_known no_fmt ascii_up two_jars strict false dist_left dist_right /\
  distdiff no_fmt no_repr no_fmt ascii_lines (fun s => s) ascii_up two_jars dist_left dist_right strict false = Ok 1 /\
  dist_view strict false dist_left dist_right = Ok (P_Text.lines_of [
    "Distribution changed from app-1 to app-2";
    "  Distributed Java Class Removed: Old.class";
    "  Distributed Java Class has changed: ./A.class";
    "    Java Class A";
    "      Class information changed";
    "        Java class verison changed: (51, 0) to (52, 0)";
    "        Java platform changed: 1.7 to 1.8";
    "  Distributed JAR Added: new.war";
    "  Distributed JAR has changed: lib/x.jar";
    "    JAR changed";
    "      JAR Contents changed";
    "        Jar Manifest has changed: META-INF/MANIFEST.MF";
    "          Manifest changed";
    "            Manifest Main Section has changed";
    "            Manifest Subsection Removed: B.class";
    "            Manifest Subsection Added: C.class";
    "        Jar Signature File has changed: META-INF/K.SF";
    "          Signature File changed";
    "            Manifest Main Section has changed";
    "        Jar Signature Block File Added: META-INF/L.EC";
    "        Jar Signature Block File has changed: META-INF/K.RSA";
    "          [binary data change]";
    "        Jar Generic File has changed: d/r.txt";
    "          [generic file change]";
    "        Jar Content Added: new.txt";
    "        Jar Content Removed: old.txt";
    "        Java Class Removed: Gone.class";
    "        Java Class has changed: A.class";
    "          Java Class A";
    "            Class information changed";
    "              Java class verison changed: (51, 0) to (52, 0)";
    "              Java platform changed: 1.7 to 1.8";
    "  Distributed Text has changed: ./README.txt";
    "    Generic Change changed: one to one ";
    "  Distributed Manifest has changed: lib/MANIFEST.MF";
    "    Manifest changed";
    "      Manifest Main Section has changed";
    "  Distributed Content Added: etc/note";
    "  Distributed Content Removed: old.html"]%string, 1).
Proof.
  destruct dists_known as (A & B & C & D & E). repeat (split; [assumption|]). split; [apply files_at|]. split; vm_compute; reflexivity.
Qed.
(** Differences of the attribute Built-By, of two kinds of files and of trailing white
    space to be ignored; the same with --show-ignored and --show-unchanged *)
Definition soft (show unchanged : bool) : options :=
  mkopts unchanged show false false false false false false false false false false [] false false false [lit "Built-By"] [lit "*.html"; lit "*.jar"] true.
Example C124_ignored_ex : dist_view (soft false false) false dist_left dist_right = Ok (P_Text.lines_of [
    "Distribution changed from app-1 to app-2";
    "  Distributed Java Class Removed: Old.class";
    "  Distributed Java Class has changed: ./A.class";
    "    Java Class A";
    "      Class information changed";
    "        Java class verison changed: (51, 0) to (52, 0)";
    "        Java platform changed: 1.7 to 1.8";
    "  Distributed JAR Added: new.war";
    "  Distributed Content Added: etc/note"]%string, 1).
Proof. vm_compute. reflexivity. Qed.
Example C124_shown_ex : dist_view (soft true true) false dist_left dist_right = Ok (P_Text.lines_of [
    "Distribution changed from app-1 to app-2";
    "  Distributed Java Class Removed: Old.class";
    "  Distributed Java Class has changed: ./A.class";
    "    Java Class A";
    "      Class information changed";
    "        Class name unchanged";
    "        Java class verison changed: (51, 0) to (52, 0)";
    "        Java platform changed: 1.7 to 1.8";
    "        Superclass unchanged";
    "        Interfaces unchanged";
    "        Access flags unchanged";
    "        Deprecation unchanged";
    "        Generics Signature unchanged";
    "      Class runtime annotations unchanged";
    "      Class runtime invisible annotations unchanged";
    "      Constant pool unaltered";
    "      Fields unchanged";
    "      Methods unchanged";
    "  Distributed JAR Added: new.war";
    "  Distributed JAR has changed: lib/x.jar [IGNORED]";
    "    JAR changed";
    "      Jar type unchanged";
    "      JAR Contents changed";
    "        Jar Manifest has changed: META-INF/MANIFEST.MF";
    "          Manifest changed";
    "            Manifest Main Section has changed [IGNORED]";
    "            Manifest Subsection Unchanged: A.class";
    "            Manifest Subsection Removed: B.class";
    "            Manifest Subsection Added: C.class";
    "        Jar Signature File has changed: META-INF/K.SF";
    "          Signature File changed";
    "            Manifest Main Section has changed";
    "        Jar Signature Block File Added: META-INF/L.EC";
    "        Jar Signature Block File has changed: META-INF/K.RSA";
    "          [binary data change]";
    "        Jar Generic File has changed: d/r.txt";
    "          [generic file change]";
    "        Jar Content Added: new.txt";
    "        Jar Content Removed: old.txt";
    "        Jar Content is unchanged: s.txt";
    "        Java Class Removed: Gone.class";
    "        Java Class has changed: A.class";
    "          Java Class A";
    "            Class information changed";
    "              Class name unchanged";
    "              Java class verison changed: (51, 0) to (52, 0)";
    "              Java platform changed: 1.7 to 1.8";
    "              Superclass unchanged";
    "              Interfaces unchanged";
    "              Access flags unchanged";
    "              Deprecation unchanged";
    "              Generics Signature unchanged";
    "            Class runtime annotations unchanged";
    "            Class runtime invisible annotations unchanged";
    "            Constant pool unaltered";
    "            Fields unchanged";
    "            Methods unchanged";
    "  Distributed Text has changed: ./README.txt [IGNORED]";
    "    Generic Change changed: one to one ";
    "  Distributed Text is unchanged: ./ends.cfg";
    "  Distributed Manifest has changed: lib/MANIFEST.MF [IGNORED]";
    "    Manifest changed [IGNORED]";
    "      Manifest Main Section has changed [IGNORED]";
    "  Distributed Content Added: etc/note";
    "  Distributed Content Removed: old.html [IGNORED]";
    "  Distributed Content is unchanged: ./a.bin"]%string, 1).
Proof. vm_compute. reflexivity. Qed.
Example C124_shallow_ex : dist_view verbose true dist_left dist_right = Ok (P_Text.lines_of [
    "Distribution changed from app-1 to app-2";
    "  Distributed Content Added: etc/note";
    "  Distributed Content Added: new.war";
    "  Distributed Content Removed: Old.class";
    "  Distributed Content Removed: old.html";
    "  Distributed Content is unchanged: ./A.class";
    "  Distributed Content is unchanged: ./README.txt";
    "  Distributed Content is unchanged: ./a.bin";
    "  Distributed Content is unchanged: ./ends.cfg";
    "  Distributed Content is unchanged: lib/MANIFEST.MF";
    "  Distributed Content is unchanged: lib/x.jar"]%string, 1).
Proof. vm_compute. reflexivity. Qed.

(** A file that differs can be said to be unchanged: any of no special kind. *)
Theorem C124_refuted : exists l r p d d', plain l /\ plain r /\ data_at l p d /\ data_at r p d' /\ d <> d' /\
  dist_view verbose false l r = Ok (P_Text.lines_of ["Distribution unchanged from app-1 to app-2"; "  Distributed Content is unchanged: ./a.bin"]%string, 0).
Proof.
  exists (Dir false [(lit "a.bin", f_ [1] 1)]), (Dir false [(lit "a.bin", f_ [2] 2)]), [lit "a.bin"], [1], [2].
  split; [apply (plainb_plain 4); vm_compute; reflexivity|]. split; [apply (plainb_plain 4); vm_compute; reflexivity|].
  split; [exists false, 1; apply found_down with (n := f_ [1] 1); [now left|constructor]|]. split; [exists false, 2; apply found_down with (n := f_ [2] 2); [now left|constructor]|].
  split; [discriminate|]. vm_compute. reflexivity.
Qed.
Print Assumptions C124_refuted.

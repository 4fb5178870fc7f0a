(** Property C125: the JSON document of classdiff, object by object. *)
From Verif Require ClassFile_Proofs.
From Verif Require Import Base Pack_Model ConstPool_Model ConstPool_Spec ClassFile_Model Descr_Model Descr_Spec Opcodes_Model Opcodes_Spec Anno_Model
  Change_Model Change_Spec Classdiff_Model Classdiff_Spec Classdiff_Members Classdiff_Code Classdiff_Class Classdiff_Merge Info_Model Info_Spec Print_Spec Html_Spec Html_Values Html_Class
  Text_Spec Text_Proofs Text_Class P_Classdiff P_Text Doc_Spec Doc_Proofs Doc_Code Doc_Class Doc_Unique.

(** ** C125 *)

(** The document is the one described by [class_doc], whatever the options, and there
    is only one such document if the constant pools are of constants (C03). *)
Theorem C125_document : forall fmt reprs ffmt o l r c L R j,
  class_is fmt l L -> class_is fmt r R -> check (class_change fmt reprs ffmt l r) = Ok c -> json_of o c = Ok j ->
  class_doc fmt reprs ffmt o l r j /\
  forall kl kr j', pool_shows kl (c_pool l) -> pool_shows kr (c_pool r) -> class_doc fmt reprs ffmt o l r j' -> j' = j.
Proof.
  intros fmt reprs ffmt o l r c L R j KL KR HC HJ. destruct (document_of fmt reprs ffmt o l r c L R KL KR HC) as (t & T1 & _ & T2).
  assert (D : class_doc fmt reprs ffmt o l r j) by (exists t; split; [exact T1|exact (T2 j HJ)]). split; [exact D|]. intros kl kr j' PL PR D'. exact (document_unique fmt reprs ffmt o l r kl kr j' j PL PR D' D).
Qed.
Print Assumptions C125_document.

(** Two classes that differ in the string a method loads *)
Definition p_other : pool := p_left ++ [KUtf8 (lit "bye"); KRef 8 16].
Definition c_other : classinfo := mkclass (52, 0) p_other 33 2 15 [15] (c_fields c_left)
  [mkmember 1 7 8 [(PStr (lit "Code"), code_attr [18; 17; 87; 177] 15 11 [(0, 10); (2, 11)])] true; mkmember 1025 7 9 [] true] [].
Lemma known_other : class_is no_fmt c_other (mkcdata (lit "A") (lit "B") [lit "B"] None [] []).
Proof.
  constructor; [constructor; closed|no_annos|no_annos| | | |].
  - apply Forall_cons; [|apply Forall_cons; [|apply Forall_nil]]; [exists (plain_field "f" (TPrim PInt_))|exists (plain_field "g" (TPrim PLong))]; a_field.
  - apply Forall_cons; [|apply Forall_cons; [|apply Forall_nil]]; [exists (plain_method "m" (TPrim PInt_) (Some (code_m p_other (hd (mkmember 0 0 0 [] true) (c_methods c_other)) [(0, 10); (2, 11)])))|exists (plain_method "m" (TPrim PLong) None)]; a_method; [|exact I].
    constructor; [closed|]. constructor; [|constructor]. apply (catch_class _ _ 66 []); [vm_compute; discriminate|closed].
  - apply distinct_by with [PStr (lit "f"); PStr (lit "g")]; vm_compute; reflexivity.
  - apply distinct_by with [PStr (lit "m(I)"); PStr (lit "m(J)")]; vm_compute; reflexivity.
Qed.
Definition j_left : list jconst := [JUtf8 (lit "A"); JClass 1; JUtf8 (lit "f"); JUtf8 (lit "I"); JUtf8 (lit "g"); JUtf8 (lit "J"); JUtf8 (lit "m"); JUtf8 (lit "(I)V"); JUtf8 (lit "(J)V");
  JUtf8 (lit "Code"); JUtf8 (lit "LineNumberTable"); JUtf8 (lit "hello"); JString 12; JUtf8 (lit "B"); JClass 14].
Definition j_other : list jconst := j_left ++ [JUtf8 (lit "bye"); JString 16].
Definition compared_as (o : options) (l r : classinfo) : res json := c <- check (class_change no_fmt no_repr no_fmt l r) ;; json_of o c.
Definition told (cls label desc : String.string) (old new : option pyobj) : json := J (lit cls) true (lit desc) (lit label) false false false None None old new None.
Definition within (cls label desc : String.string) (js : list json) : json := J (lit cls) true (lit desc) (lit label) false false false None None None None (Some js).
Definition words (l : list String.string) : pyobj := OTuple (map (fun s => OStr (lit s)) l).
Definition row (n : Z) (s : String.string) (x : pyobj) : pyobj := OTuple [OInt n; OStr (lit s); x].
Definition insn_of (n : Z) (s : String.string) (args : list Z) : pyobj := row n s (OTuple (map OInt args)).
Example C125_document_ex : exists L R c j, class_is no_fmt c_left L /\ class_is no_fmt c_other R /\ pool_shows j_left (c_pool c_left) /\ pool_shows j_other (c_pool c_other) /\ check (class_change no_fmt no_repr no_fmt c_left c_other) = Ok c /\
  json_of lax_pool c = Ok j /\
  j = within "JavaClassChange" "Java Class" "Java Class A" [
    within "ClassMethodsChange" "Methods" "Methods changed" [
      within "MethodChange" "Method" "Method: public void m(int)" [
        within "MethodCodeChange" "Method Code" "Method Code changed" [
          told "CodeConstantsChange" "Code constants" "Code constants changed" (Some (OList [row 0 "ldc" (OStr (lit "hello"))])) (Some (OList [row 0 "ldc" (OStr (lit "bye"))]))]]]].
Proof.
  eexists _, _, (match check (class_change no_fmt no_repr no_fmt c_left c_other) with Ok c => c | Err _ => class_change no_fmt no_repr no_fmt c_left c_other end), _.
  split; [exact known_left|]. split; [exact known_other|]. split; [exact (ClassFile_Proofs.pool_shows_parsed j_left)|]. split; [exact (ClassFile_Proofs.pool_shows_parsed j_other)|]. split; [vm_compute; reflexivity|]. split; [|reflexivity]. vm_compute. reflexivity.
Qed.
(** Members added, removed and changed.  Where the instructions are others no
    constants are shown. *)
Example C125_members_ex : compared_as lax_lines c_left c_h = Ok (within "JavaClassChange" "Java Class" "Java Class A" [
    within "ClassInfoChange" "Class information" "Class information changed" [
      told "ClassAccessflagsChange" "Access flags" "Access flags changed: ('public',) to ('public', 'final')" (Some (words ["public"])) (Some (words ["public"; "final"]))];
    within "ClassFieldsChange" "Fields" "Fields changed" [
      J (lit "FieldAdded") true (lit "Field added: public int h") (lit "Field added") false true false None None None None None;
      J (lit "FieldRemoved") true (lit "Field removed: public long g") (lit "Field removed") false false true None None None None None;
      within "FieldChange" "Field" "Field: public int f" [
        told "FieldAccessflagsChange" "Field accessflags" "Field accessflags changed: public to private" (Some (words ["public"])) (Some (words ["private"]))]];
    within "ClassMethodsChange" "Methods" "Methods changed" [
      J (lit "MethodAdded") true (lit "Method added: public abstract void n(long)") (lit "Method added") false true false None None None None None;
      J (lit "MethodRemoved") true (lit "Method removed: public abstract void m(long)") (lit "Method removed") false false true None None None None None;
      within "MethodChange" "Method" "Method: public void m(int)" [
        within "MethodCodeChange" "Method Code" "Method Code changed" [
          told "CodeConstantsChange" "Code constants" "Code constants changed" None None;
          told "CodeBodyChange" "Code body" "Code length changed from 4 to 3"
            (Some (OList [insn_of 0 "ldc" [13]; insn_of 2 "pop" []; insn_of 3 "return" []])) (Some (OList [insn_of 0 "iconst_1" []; insn_of 1 "pop" []; insn_of 2 "return" []]))]]]])%string.
Proof. vm_compute. reflexivity. Qed.
(** The constants of the pools, with their indices *)
Example C125_pool_ex : pool_rows no_repr no_fmt 1 [JUtf8 (lit "A"); JClass 1; JLong 7; JInteger 5] =
  [row 1 "Utf8" (OStr (lit "A")); row 2 "class" (OStr (lit "#1")); row 3 "long" (OStr (lit "7l")); row 5 "int" (OInt 5)].
Proof. vm_compute. reflexivity. Qed.

(** An object can say that there is no change and show data that differ: the code of
    a method of equal instructions with other operands. *)
Inductive part (x : json) : json -> Prop :=
| part_self : part x x
| part_child y c ch d lb ig ad rm e og old new js : In y js -> part x y -> part x (J c ch d lb ig ad rm e og old new (Some js)).
Theorem C125_refuted : exists o l r L R j x old new, class_is no_fmt l L /\ class_is no_fmt r R /\ compared_as o l r = Ok j /\ part x j /\
  x = J (lit "CodeBodyChange") false (lit "Code body unchanged") (lit "Code body") false false false None None (Some old) (Some new) None /\ old <> new.
Proof.
  exists (mkopts true false false false false false false false false false true false [] false false false [] [] false), c_left, c_other. eexists _, _.
  exists (match compared_as (mkopts true false false false false false false false false false true false [] false false false [] [] false) c_left c_other with Ok j => j | Err _ => told "" "" "" None None end).
  eexists _, (OList [insn_of 0 "ldc" [13]; insn_of 2 "pop" []; insn_of 3 "return" []]), (OList [insn_of 0 "ldc" [17]; insn_of 2 "pop" []; insn_of 3 "return" []]).
  split; [exact known_left|]. split; [exact known_other|]. split; [vm_compute; reflexivity|]. split; [|split; [reflexivity|vm_compute; discriminate]].
  vm_compute. eapply part_child; [do 4 right; left; reflexivity|]. eapply part_child; [left; reflexivity|]. eapply part_child; [do 10 right; left; reflexivity|]. eapply part_child; [do 6 right; left; reflexivity|]. apply part_self.
Qed.
Print Assumptions C125_refuted.

(** Property C120: the text report of classdiff, line by line. *)
From Verif Require Import Base Pack_Model ConstPool_Model ClassFile_Model Descr_Model Descr_Spec Opcodes_Model Opcodes_Spec Anno_Model
  Change_Model Change_Spec Classdiff_Model Classdiff_Spec Classdiff_Members Classdiff_Code Classdiff_Class Classdiff_Merge Info_Model Info_Spec Print_Spec Html_Spec Html_Values Html_Class
  Text_Spec Text_Proofs Text_Class Text_Unique P_Classdiff.
From Verif Require P_Html P_Print.

(** ** Example data *)
Definition c_h := P_Html.c_h.
Definition lines_of (l : list String.string) : str := concat (map (fun s => lit s ++ [10]) l).
Definition the_code (p : pool) (m : member) : code := match get_code p m with Ok (Some k) => k | _ => mkcode 0 0 [] [] [] end.
Definition plain_field (n : String.string) (t : jtype) : field_data := mkfd (lit n) t None None [] [].
Definition plain_method (n : String.string) (t : jtype) (c : option code_data) : method_data := mkmd (lit n) [t] None None [] [] [] c.
Definition code_m (p : pool) (m : member) (ls : list (Z * Z)) : code_data := mkcd (the_code p m) ls [lit "Class B"].
Ltac closed := vm_compute; reflexivity.
Ltac no_annos := exists []; split; closed.
Ltac bits := apply P_Print.bits_ok; [cbn; lia|closed].
Ltac a_field := constructor; [constructor; try closed; bits|exact I|split; discriminate|closed|no_annos|no_annos].
Ltac a_method := constructor; [constructor; [constructor; try closed; cbn; intros [H|[]]; discriminate H|bits|closed|closed]|closed|no_annos|no_annos|closed|].
Lemma known_left : class_is no_fmt c_left (mkcdata (lit "A") (lit "B") [lit "B"] None [] []).
Proof.
  constructor; [constructor; closed|no_annos|no_annos| | |apply ids_left|apply ids_left].
  - apply Forall_cons; [|apply Forall_cons; [|apply Forall_nil]]; [exists (plain_field "f" (TPrim PInt_))|exists (plain_field "g" (TPrim PLong))]; a_field.
  - apply Forall_cons; [|apply Forall_cons; [|apply Forall_nil]]; [exists (plain_method "m" (TPrim PInt_) (Some (code_m p_left P_Html.a_left [(0, 10); (2, 11)])))|exists (plain_method "m" (TPrim PLong) None)]; a_method; [|exact I].
    constructor; [closed|]. constructor; [|constructor]. apply (catch_class _ _ 66 []); [vm_compute; discriminate|closed].
Qed.
Lemma known_h : class_is no_fmt c_h (mkcdata (lit "A") (lit "B") [lit "B"] None [] []).
Proof.
  constructor; [constructor; closed|no_annos|no_annos| | |apply P_Html.ids_h|apply P_Html.ids_h].
  - apply Forall_cons; [|apply Forall_cons; [|apply Forall_nil]]; [exists (plain_field "f" (TPrim PInt_))|exists (plain_field "h" (TPrim PInt_))]; a_field.
  - apply Forall_cons; [|apply Forall_cons; [|apply Forall_nil]]; [exists (plain_method "m" (TPrim PInt_) (Some (code_m P_Html.p_h P_Html.a_h [(0, 20); (1, 23)])))|exists (plain_method "n" (TPrim PLong) None)]; a_method; [|exact I].
    constructor; [closed|]. constructor; [|constructor]. apply (catch_class _ _ 66 []); [vm_compute; discriminate|closed].
Qed.

(** ** C120 *)

(** The report is the text described by [report_of], whatever the options, and there
    is only one such text. *)
Theorem C120_report : forall fmt reprs ffmt o l r c L R,
  class_is fmt l L -> class_is fmt r R -> check (class_change fmt reprs ffmt l r) = Ok c ->
  exists t, text_report o c = Ok t /\ report_of fmt reprs o l r t /\ forall t', report_of fmt reprs o l r t' -> t' = t.
Proof.
  intros fmt reprs ffmt o l r c L R KL KR HC. destruct (report_text fmt reprs ffmt o 0 l r c L R KL KR HC) as ([st t] & T2 & T1 & _).
  assert (T0 : report_of fmt reprs o l r t) by (now exists st). exists t. split; [exact T1|]. split; [exact T0|]. intros t' T3. exact (report_unique fmt reprs o l r t' t T3 T0).
Qed.
Print Assumptions C120_report.
Definition view (o : options) (l r : classinfo) : res str := c <- check (class_change no_fmt no_repr no_fmt l r) ;; text_report o c.
Example C120_report_ex : exists L R c, class_is no_fmt c_left L /\ class_is no_fmt c_h R /\ check (class_change no_fmt no_repr no_fmt c_left c_h) = Ok c /\
  text_report strict c = Ok (lines_of [
    "Java Class A";
    "  Class information changed";
    "    Access flags changed: ('public',) to ('public', 'final')";
    "  Constant pool altered";
    "  Fields changed";
    "    Field added: public int h";
    "    Field removed: public long g";
    "    Field: public int f";
    "      Field accessflags changed: public to private";
    "  Methods changed";
    "    Method added: public abstract void n(long)";
    "    Method removed: public abstract void m(long)";
    "    Method: public void m(int)";
    "      Method Code changed";
    "        Absolute line numbers changed: ((0, 10), (2, 11)) to ((0, 20), (1, 23))";
    "        Relative line numbers changed: ((0, 0), (2, 1)) to ((0, 0), (1, 3))";
    "        Code constants changed";
    "        Code length changed from 4 to 3"]%string).
Proof.
  eexists _, _, (match check (class_change no_fmt no_repr no_fmt c_left c_h) with Ok c => c | Err _ => class_change no_fmt no_repr no_fmt c_left c_h end).
  split; [exact known_left|]. split; [exact known_h|]. split; vm_compute; reflexivity.
Qed.
(** With --ignore-lines and --ignore-constant-pool, and the class the other way round *)
Example C120_options_ex : view lax_lines c_h c_left = Ok (lines_of [
    "Java Class A";
    "  Class information changed";
    "    Access flags changed: ('public', 'final') to ('public',)";
    "  Fields changed";
    "    Field added: public long g";
    "    Field removed: public int h";
    "    Field: private int f";
    "      Field accessflags changed: private to public";
    "  Methods changed";
    "    Method added: public abstract void m(long)";
    "    Method removed: public abstract void n(long)";
    "    Method: public void m(int)";
    "      Method Code changed";
    "        Code constants changed";
    "        Code length changed from 3 to 4"]%string).
Proof. vm_compute. reflexivity. Qed.
(** With --show-unchanged and --show-ignored as well *)
Definition showing : options := mkopts true true false false false false true true false false true false [] false false false [] [] false.
Example C120_show_ex : view showing c_left c_h = Ok (lines_of [
    "Java Class A";
    "  Class information changed";
    "    Class name unchanged";
    "    Java class verison unchanged";
    "    Java platform unchanged";
    "    Superclass unchanged";
    "    Interfaces unchanged";
    "    Access flags changed: ('public',) to ('public', 'final')";
    "    Deprecation unchanged";
    "    Generics Signature unchanged";
    "  Class runtime annotations unchanged";
    "  Class runtime invisible annotations unchanged";
    "  Constant pool altered [IGNORED]";
    "  Fields changed";
    "    Field added: public int h";
    "    Field removed: public long g";
    "    Field: public int f";
    "      Field name unchanged";
    "      Field type unchanged";
    "      Field Generic Signature unchanged";
    "      Field runtime annotations unchanged";
    "      Field runtime invisible annotations unchanged";
    "      Field accessflags changed: public to private";
    "      Field constvalue unchanged";
    "      Field deprecation unchanged";
    "  Methods changed";
    "    Method added: public abstract void n(long)";
    "    Method removed: public abstract void m(long)";
    "    Method: public void m(int)";
    "      Method name unchanged";
    "      Method type unchanged";
    "      Method generic signature unchanged";
    "      Method runtime annotations unchanged";
    "      Method runtime invisible annotations unchanged";
    "      Method parameters unchanged";
    "      Method accessflags unchanged";
    "      Method exceptions unchanged";
    "      Method abstract unchanged";
    "      Method deprecation unchanged";
    "      Method Code changed";
    "        Absolute line numbers changed: ((0, 10), (2, 11)) to ((0, 20), (1, 23)) [IGNORED]";
    "        Relative line numbers changed: ((0, 0), (2, 1)) to ((0, 0), (1, 3)) [IGNORED]";
    "        Stack size unchanged";
    "        Locals unchanged";
    "        Exception table unchanged";
    "        Code constants changed";
    "        Code length changed from 4 to 3"]%string).
Proof. vm_compute. reflexivity. Qed.
(** Only what is ignored is shown with --show-ignored alone, and marked *)
Definition showing_ignored : options := mkopts false true false false false false true true false false true false [] false false false [] [] false.
Definition c_lines : classinfo := mkclass (52, 0) p_left 33 2 15 [15] (c_fields c_left)
  [mkmember 1 7 8 [(PStr (lit "Code"), code_attr [18; 13; 87; 177] 15 11 [(0, 12); (2, 13)])] true; mkmember 1025 7 9 [] true] [].
Example C120_ignored_ex : view showing_ignored c_left c_lines = Ok (lines_of [
    "Java Class A [IGNORED]";
    "  Methods changed [IGNORED]";
    "    Method: public void m(int) [IGNORED]";
    "      Method Code changed [IGNORED]";
    "        Absolute line numbers changed: ((0, 10), (2, 11)) to ((0, 12), (2, 13)) [IGNORED]"]%string).
Proof. vm_compute. reflexivity. Qed.
(** A native method is said to be abstract. *)
Definition c_native : classinfo := mkclass (52, 0) p_left 33 2 15 [15] (c_fields c_left) [mkmember 257 7 8 [] true; mkmember 1025 7 9 [] true] [].
Lemma known_native : class_is no_fmt c_native (mkcdata (lit "A") (lit "B") [lit "B"] None [] []).
Proof.
  constructor; [constructor; closed|no_annos|no_annos| | |apply ids_left|].
  - exact (cs_fields _ _ _ known_left).
  - apply Forall_cons; [|apply Forall_cons; [|apply Forall_nil]]; [exists (plain_method "m" (TPrim PInt_) None)|exists (plain_method "m" (TPrim PLong) None)]; a_method; exact I.
  - apply distinct_by with [PStr (lit "m(I)"); PStr (lit "m(J)")]; vm_compute; reflexivity.
Qed.
Theorem C120_native_refuted : exists l r L R c m, class_is no_fmt l L /\ class_is no_fmt r R /\ check (class_change no_fmt no_repr no_fmt l r) = Ok c /\
  In m (c_methods r) /\ Z.testbit (m_flags m) 8 = true /\ Z.testbit (m_flags m) 10 = false /\
  (forall m', In m' (c_methods r) -> Z.testbit (m_flags m') 10 = true -> In m' (c_methods l)) /\
  text_report strict c = Ok (lines_of [
    "Java Class A";
    "  Methods changed";
    "    Method: public void m(int)";
    "      Method accessflags changed: ('public',) to ('public', 'native')";
    "      Method abstract changed: Method is concrete to Method is abstract"]%string).
Proof.
  exists c_left, c_native. eexists _, _, (match check (class_change no_fmt no_repr no_fmt c_left c_native) with Ok c => c | Err _ => class_change no_fmt no_repr no_fmt c_left c_native end), (mkmember 257 7 8 [] true).
  split; [exact known_left|]. split; [exact known_native|]. split; [vm_compute; reflexivity|]. split; [now left|]. split; [reflexivity|]. split; [reflexivity|].
  split; [|vm_compute; reflexivity]. intros m' [<-|[<-|[]]] H; [discriminate H|]. right. now left.
Qed.
Print Assumptions C120_native_refuted.

(** A method that lost its code: though no option says to ignore anything, the
    difference of code is marked as ignored and each part of the code is said to be
    unchanged. *)
Definition showing_all : options := mkopts true true false false false false false false false false false false [] false false false [] [] false.
Definition c_less : classinfo := mkclass (52, 0) p_left 33 2 15 [15] [] [P_Html.a_left] [].
Definition c_abs : classinfo := mkclass (52, 0) p_left 33 2 15 [15] [] [mkmember 1025 7 8 [] true] [].
Theorem C120_code_refuted : exists l r L R c k, class_is no_fmt l L /\ class_is no_fmt r R /\ check (class_change no_fmt no_repr no_fmt l r) = Ok c /\
  mapM (get_code (c_pool l)) (c_methods l) = Ok [Some k] /\ k_code k <> [] /\ mapM (get_code (c_pool r)) (c_methods r) = Ok [None] /\
  text_report showing_all c = Ok (lines_of [
    "Java Class A";
    "  Class information unchanged";
    "    Class name unchanged";
    "    Java class verison unchanged";
    "    Java platform unchanged";
    "    Superclass unchanged";
    "    Interfaces unchanged";
    "    Access flags unchanged";
    "    Deprecation unchanged";
    "    Generics Signature unchanged";
    "  Class runtime annotations unchanged";
    "  Class runtime invisible annotations unchanged";
    "  Constant pool unaltered";
    "  Fields unchanged";
    "  Methods changed";
    "    Method: public void m(int)";
    "      Method name unchanged";
    "      Method type unchanged";
    "      Method generic signature unchanged";
    "      Method runtime annotations unchanged";
    "      Method runtime invisible annotations unchanged";
    "      Method parameters unchanged";
    "      Method accessflags changed: ('public',) to ('public', 'abstract')";
    "      Method exceptions unchanged";
    "      Method abstract changed: Method is concrete to Method is abstract";
    "      Method deprecation unchanged";
    "      Method Code changed [IGNORED]";
    "        Absolute line numbers unchanged";
    "        Relative line numbers unchanged";
    "        Stack size unchanged";
    "        Locals unchanged";
    "        Exception table unchanged";
    "        Code constants unchanged";
    "        Code body unchanged"]%string).
Proof.
  exists c_less, c_abs. eexists (mkcdata (lit "A") (lit "B") [lit "B"] None [] []), (mkcdata (lit "A") (lit "B") [lit "B"] None [] []),
    (match check (class_change no_fmt no_repr no_fmt c_less c_abs) with Ok c => c | Err _ => class_change no_fmt no_repr no_fmt c_less c_abs end), (the_code p_left P_Html.a_left).
  split; [|split; [|split; [vm_compute; reflexivity|split; [vm_compute; reflexivity|split; [vm_compute; discriminate|split; vm_compute; reflexivity]]]]].
  - constructor; [constructor; closed|no_annos|no_annos|apply Forall_nil| | |].
    + pose proof (cs_methods _ _ _ known_left) as H. apply Forall_cons; [|apply Forall_nil]. exact (Forall_inv H).
    + apply distinct_by with []; vm_compute; reflexivity.
    + apply distinct_by with [PStr (lit "m(I)")]; vm_compute; reflexivity.
  - constructor; [constructor; closed|no_annos|no_annos|apply Forall_nil| | |].
    + apply Forall_cons; [|apply Forall_nil]. exists (plain_method "m" (TPrim PInt_) None). a_method. exact I.
    + apply distinct_by with []; vm_compute; reflexivity.
    + apply distinct_by with [PStr (lit "m(I)")]; vm_compute; reflexivity.
Qed.
Print Assumptions C120_code_refuted.

(** Properties C57 - C59, C72 - C75: what classes, jars and distributions provide
    and require; what classinfo shows. *)
From Verif Require Import Base Pack_Model ConstPool_Model ConstPool_Spec ConstPool_Deref ClassFile_Model
  ClassFile_Spec ClassFile_Proofs Descr_Model Descr_Spec Manifest_Model
  Change_Model Classdiff_Model Jardiff_Model Distdiff_Model Distdiff_Spec Info_Model Info_Spec Info_Class Info_Jar.
From Verif Require Zip_Model Zip_Spec Dir_Spec P_Zip P_Distdiff.
From Verif Require Import Info_Lookup Info_More.
From Coq Require Import Permutation.

(** ** Example data *)
(** class pkg.A { private long x; public void m() } naming pkg.C[] and calling
    pkg.B.run(int, long[]) *)
Definition a_pool : list jconst :=
  [ JClass 2; JUtf8 (lit "pkg/A"); JClass 4; JUtf8 (lit "java/lang/Object"); JClass 6; JUtf8 (lit "[Lpkg/C;");
    JMethodref 8 10; JClass 9; JUtf8 (lit "pkg/B"); JNameAndType 11 12; JUtf8 (lit "run"); JUtf8 (lit "(I[J)Ljava/lang/String;");
    JUtf8 (lit "x"); JUtf8 (lit "J"); JFieldref 1 16; JNameAndType 13 14; JUtf8 (lit "m"); JUtf8 (lit "()V") ].
Definition class_a : jclassfile := mkjclass 0 52 a_pool 33 1 3 [] [mkjmember 2 13 14 []] [mkjmember 1025 17 18 []] [].
(** class pkg.B { abstract String run(int, long[]) } *)
Definition b_pool : list jconst :=
  [ JClass 2; JUtf8 (lit "pkg/B"); JClass 4; JUtf8 (lit "java/lang/Object"); JUtf8 (lit "run"); JUtf8 (lit "(I[J)Ljava/lang/String;") ].
Definition class_b : jclassfile := mkjclass 0 52 b_pool 1057 1 3 [] [] [mkjmember 1024 5 6 []] [].
(** class pkg.D naming pkg.C[][] *)
Definition d_pool : list jconst :=
  [ JClass 2; JUtf8 (lit "pkg/D"); JClass 4; JUtf8 (lit "java/lang/Object"); JClass 6; JUtf8 (lit "[[Lpkg/C;") ].
Definition class_d : jclassfile := mkjclass 0 52 d_pool 33 1 3 [] [] [] [].
Definition t_string : jtype := TObj (lit "java/lang/String").
Definition run_sig : jsig := SMethod [TPrim PInt_; TArr (TPrim PLong)] (Some t_string).

Fixpoint numbered (b : Z) (l : list jconst) : list (Z * jconst) :=
  match l with [] => [] | c :: l' => (b, c) :: numbered (b + jwidth c) l' end.
Lemma numbered_In l : forall b i c, jat_from l b i = Some c -> In (i, c) (numbered b l).
Proof.
  induction l as [|x l IH]; intros b i c H; [discriminate|]. cbn [jat_from numbered] in *. destruct (Z.eqb_spec i b) as [->|]; [injection H as ->; now left|]. right. now apply IH.
Qed.
Lemma class_cases l i n : jclass_at l i = Some n -> In n (concat (map (fun ic => match snd ic with JClass j => match jutf8_at l j with Some n => [n] | None => [] end | _ => [] end) (numbered 1 l))).
Proof.
  unfold jclass_at. destruct (jat l i) as [c|] eqn:E; [|discriminate]. intro H. apply numbered_In in E. apply in_concat. eexists. split; [apply in_map_iff; eexists; split; [reflexivity|exact E]|].
  cbn [snd]. destruct c; try discriminate. rewrite H. now left.
Qed.
Ltac in_cases H := vm_compute in H; repeat (destruct H as [H|H]; [try discriminate H|]); try contradiction.

Example class_a_wf : class_ok class_a /\ flat_arrays true class_a.
Proof.
  split; [split; [vm_compute; reflexivity|]|].
  - constructor.
    + vm_compute. reflexivity.
    + exists (lit "pkg/A"). split; vm_compute; reflexivity.
    + intros m [<-|[]]. exists (lit "x"), (TPrim PLong). constructor; [now left| | |]; vm_compute; reflexivity.
    + intros m [<-|[]]. exists (lit "m"), [], None. constructor; [now left| | |]; vm_compute; reflexivity.
    + intros i n H. apply class_cases in H. vm_compute in H. destruct H as [<-|[<-|[<-|[<-|[]]]]]; try (left; reflexivity). right. exists (TObj (lit "pkg/C")). split; reflexivity.
    + intros a b H. exists (lit "pkg/A"), (lit "x"), (TPrim PLong). in_cases H. injection H as <- <-. exists 1, 16. repeat split; vm_compute; reflexivity.
    + intros k a b HK H. exists (lit "pkg/B"), (lit "run"), [TPrim PInt_; TArr (TPrim PLong)], (Some t_string). destruct HK as [->| ->]; in_cases H. injection H as <- <-. exists 8, 10. split; [now left|]. repeat split; vm_compute; reflexivity.
  - intros _ i t n H1 H2. apply class_cases in H1. vm_compute in H1. destruct H1 as [H|[H|[H|[H|[]]]]]; discriminate H.
Qed.
Example class_b_wf : class_ok class_b /\ flat_arrays true class_b.
Proof.
  split; [split; [vm_compute; reflexivity|]|].
  - constructor.
    + vm_compute. reflexivity.
    + exists (lit "pkg/B"). split; vm_compute; reflexivity.
    + intros m [].
    + intros m [<-|[]]. exists (lit "run"), [TPrim PInt_; TArr (TPrim PLong)], (Some t_string). constructor; [now left| | |]; vm_compute; reflexivity.
    + intros i n H. apply class_cases in H. vm_compute in H. destruct H as [<-|[<-|[]]]; left; reflexivity.
    + intros a b H. in_cases H.
    + intros k a b HK H. destruct HK as [->| ->]; in_cases H.
  - intros _ i t n H1 H2. apply class_cases in H1. vm_compute in H1. destruct H1 as [H|[H|[]]]; discriminate H.
Qed.
Example class_d_wf : class_ok class_d.
Proof.
  split; [vm_compute; reflexivity|]. constructor.
  - vm_compute. reflexivity.
  - exists (lit "pkg/D"). split; vm_compute; reflexivity.
  - intros m [].
  - intros m [].
  - intros i n H. apply class_cases in H. vm_compute in H. destruct H as [<-|[<-|[<-|[]]]]; try (left; reflexivity). right. exists (TArr (TObj (lit "pkg/C"))). split; reflexivity.
  - intros a b H. in_cases H.
  - intros k a b HK H. destruct HK as [->| ->]; in_cases H.
Qed.

(** Jars and distributions of these classes *)
Definition zip_of (l : list Zip_Model.zentry) : Zip_Model.archive := Zip_Model.mka Zip_Model.Zip true l.
Definition two_classes : Zip_Model.archive :=
  zip_of [P_Zip.zfile (lit "pkg/A.class") (enc_class class_a); P_Zip.zdir (lit "pkg/"); P_Zip.zfile (lit "pkg/B.class") (enc_class class_b); P_Zip.zfile (lit "r.txt") [1]].
Definition two_cs : jclasses := [(lit "pkg/A.class", class_a); (lit "pkg/B.class", class_b)].
Definition jar_a := zip_of [P_Zip.zfile (lit "pkg/A.class") (enc_class class_a)].
Definition jar_b := zip_of [P_Zip.zfile (lit "pkg/B.class") (enc_class class_b)].

Ltac class_entry_no := let H := fresh in intro H; apply class_entry_iff in H; vm_compute in H; discriminate H.
Ltac class_entry_yes := apply class_entry_iff; vm_compute; reflexivity.
Example two_holds : jar_holds two_classes two_cs.
Proof.
  constructor; [reflexivity|reflexivity| |].
  - unfold Zip_Spec.names, two_cs. cbn [two_classes zip_of Zip_Model.a_entries map fst].
    apply picks_yes; [class_entry_yes|]. apply picks_no; [class_entry_no|]. apply picks_yes; [class_entry_yes|]. apply picks_no; [class_entry_no|]. constructor.
  - intros e c [H|[H|[]]]; injection H as <- <-.
    + split; [|apply class_a_wf]. exists []. do 2 eexists. split; [reflexivity|]. split; [reflexivity|]. split; [reflexivity|].
      intro X. repeat destruct X as [X|X]; try discriminate X. exact X.
    + split; [|apply class_b_wf]. eexists [_; _]. do 2 eexists. split; [reflexivity|]. split; [reflexivity|]. split; [reflexivity|].
      intro X. repeat destruct X as [X|X]; try discriminate X. exact X.
Qed.
Example jar_a_holds : jar_holds jar_a [(lit "pkg/A.class", class_a)].
Proof.
  constructor; [reflexivity|reflexivity| |].
  - cbn. apply picks_yes; [class_entry_yes|]. constructor.
  - intros e c [H|[]]; injection H as <- <-. split; [|apply class_a_wf]. exists []. do 2 eexists. split; [reflexivity|]. split; [reflexivity|]. split; [reflexivity|]. intros [].
Qed.
Example jar_b_holds : jar_holds jar_b [(lit "pkg/B.class", class_b)].
Proof.
  constructor; [reflexivity|reflexivity| |].
  - cbn. apply picks_yes; [class_entry_yes|]. constructor.
  - intros e c [H|[]]; injection H as <- <-. split; [|apply class_b_wf]. exists []. do 2 eexists. split; [reflexivity|]. split; [reflexivity|]. split; [reflexivity|]. intros [].
Qed.

(** ** C57 *)

(** What one class requires: every class, array element class, field and method
    its constant pool names and it does not declare itself, without those
    matching an ignored pattern, each once. With [deep] false, that is without the
    classes of which it names only arrays of arrays, this holds of every class
    ([flat_arrays false c] is true of all); with [deep] true only of the classes
    without such arrays (see C57_nested_array_refuted). *)
Theorem C57_class_requires_partial : forall deep fmt repr order c r ignored, (forall l, Permutation (order l) l) ->
  api_wf c -> flat_arrays deep c -> class_shows c r ->
  exists l, get_requires fmt repr order r ignored = Ok l /\ NoDup l /\ forall s, In s l <-> required deep c s /\ ~ ignored_by ignored s.
Proof. intros deep fmt repr order c r ignored P. exact (class_requires fmt repr order P c r ignored). Qed.
Print Assumptions C57_class_requires_partial.
(** What one class provides: itself and its public members, or all its members. *)
Theorem C57_class_provides : forall fmt order c r ignored private, (forall l, Permutation (order l) l) ->
  api_wf c -> class_shows c r ->
  exists l, get_provides fmt order r ignored private = Ok l /\ NoDup l /\ forall s, In s l <-> provided c private s /\ ~ ignored_by ignored s.
Proof. intros fmt order c r ignored private P. exact (class_provides fmt order P c r ignored private). Qed.
Print Assumptions C57_class_provides.

Theorem C57_requires_partial : forall deep fmt repr text order a cs ignored, (forall l, Permutation (order l) l) ->
  jar_holds a cs -> (forall e c, In (e, c) cs -> flat_arrays deep c) ->
  exists d, jar_requires fmt repr text order (Ok a) ignored = Ok d /\ NoDup (dkeys d) /\
    forall s by_, dget d s = Some by_ <-> jar_requires_spec deep cs s by_ /\ ~ ignored_by ignored s.
Proof. intros deep fmt repr text order a cs ignored P. exact (jar_requires_ok fmt repr text order P a cs ignored). Qed.
Print Assumptions C57_requires_partial.
Theorem C57_provides_partial : forall fmt repr text order a cs ignored, (forall l, Permutation (order l) l) ->
  jar_holds a cs ->
  exists d, jar_provides fmt repr text order (Ok a) ignored = Ok d /\ NoDup (dkeys d) /\
    forall s by_, dget d s = Some by_ <-> jar_provides_spec cs s by_ /\ ~ ignored_by ignored s.
Proof. intros fmt repr text order a cs ignored P. exact (jar_provides_ok fmt repr text order P a cs ignored). Qed.
Print Assumptions C57_provides_partial.

Definition nofmt (v : pyval) : str := [].
Definition id_order (l : list str) : list str := l.
(** run is not public: not provided by the jar, nor required by it *)
Example C57_ex : jar_holds two_classes two_cs /\ (forall e c, In (e, c) two_cs -> flat_arrays true c) /\
  jar_requires nofmt nofmt P_Zip.no_text id_order (Ok two_classes) [lit "java.*"] = Ok [(lit "pkg.C", [lit "pkg/A.class"])] /\
  jar_requires nofmt nofmt P_Zip.no_text id_order (Ok two_classes) [] =
    Ok [(lit "java.lang.Object", [lit "pkg/A.class"; lit "pkg/B.class"]); (lit "pkg.C", [lit "pkg/A.class"])] /\
  jar_provides nofmt nofmt P_Zip.no_text id_order (Ok two_classes) [] =
    Ok [(lit "pkg.A", [lit "pkg/A.class"]); (lit "pkg.A.m():void", [lit "pkg/A.class"]); (lit "pkg.B", [lit "pkg/B.class"])] /\
  jar_requires nofmt nofmt P_Zip.no_text id_order (Ok jar_a) [lit "java.*"] =
    Ok [(lit "pkg.C", [lit "pkg/A.class"]); (lit "pkg.B.run(int,long[]):java.lang.String", [lit "pkg/A.class"]); (lit "pkg.B", [lit "pkg/A.class"])].
Proof.
  split; [exact two_holds|]. split; [intros e c [H|[H|[]]]; injection H as <- <-; [apply class_a_wf|apply class_b_wf]|]. repeat split; vm_compute; reflexivity.
Qed.

(** Finding: the element class of an array of two or more dimensions is not
    among the requirements (in _get_requires only a name starting with "[L" is
    unwrapped; the others are dropped). *)
Theorem C57_nested_array_refuted : exists c r s l, class_ok c /\ unpack_class (enc_class c) MNone = Ok r /\ required true c s /\
  get_requires nofmt nofmt id_order r [] = Ok l /\ ~ In s l.
Proof.
  exists class_d. do 3 eexists. split; [exact class_d_wf|]. split; [vm_compute; reflexivity|]. split.
  - split.
    + apply (mn_array class_d true 5 (TArr (TObj (lit "pkg/C"))) (lit "pkg/C")); try reflexivity. now left.
    + intro H. inversion H as [n H1 H2|n m nm s H1 H2 H3 H4].
      * assert (E : jclass_at (jc_pool class_d) (jc_this class_d) = Some (lit "pkg/D")) by reflexivity. rewrite E in H1. injection H1 as <-. discriminate H2.
      * inversion H2 as [? ? ? X|? ? ? ? X]; subst; destruct X.
  - split; [vm_compute; reflexivity|]. intros [H|[]]. discriminate H.
Qed.
(** The same class meets the hypotheses with [deep] false: what is left out is
    exactly that element class. *)
Example C57_ex_nested : exists r, class_shows class_d r /\ flat_arrays false class_d /\
  get_requires nofmt nofmt id_order r [] = Ok [lit "java.lang.Object"] /\ required false class_d (lit "java.lang.Object") /\
  ~ required false class_d (lit "pkg.C").
Proof.
  destruct (unpack_class_roundtrip class_d [] (proj1 class_d_wf)) as (r & E & _ & _ & _ & S). rewrite app_nil_r in E.
  set (u := match unpack_class (enc_class class_d) MNone with Ok r => r | Err _ => r end).
  assert (EU : u = r) by (unfold u; now rewrite E). exists r. split; [exact S|]. assert (F : flat_arrays false class_d) by (intro X; discriminate X). split; [exact F|].
  assert (G : get_requires nofmt nofmt id_order r [] = Ok [lit "java.lang.Object"]) by (rewrite <- EU; vm_compute; reflexivity). split; [exact G|].
  destruct (C57_class_requires_partial false nofmt nofmt id_order class_d r [] ltac:(intro; apply Permutation_refl) (proj2 class_d_wf) F S) as (l & E1 & _ & H).
  rewrite G in E1. injection E1 as <-. split.
  - apply H. now left.
  - intro X. assert (Y : In (lit "pkg.C") [lit "java.lang.Object"]) by (apply H; split; [exact X|intros (pt & [] & _)]). destruct Y as [Y|[]]. discriminate Y.
Qed.
Print Assumptions C57_nested_array_refuted.

(** Finding: of an exploded jar (a directory) with at least one class neither the
    requirements nor the provisions can be computed: its entries are opened as
    text. *)
Theorem C57_exploded_fails : forall fmt repr text order a n ignored, Zip_Model.a_kind a = Zip_Model.Exploded -> Zip_Model.a_open a = true ->
  In n (Zip_Spec.names a) -> class_entry n ->
  (exists e, jar_requires fmt repr text order (Ok a) ignored = Err e) /\ exists e, jar_provides fmt repr text order (Ok a) ignored = Err e.
Proof. exact exploded_fails. Qed.
Print Assumptions C57_exploded_fails.
Definition exploded_two := Zip_Model.mka Zip_Model.Exploded true (Zip_Model.a_entries two_classes).
Example C57_exploded_ex : In (lit "pkg/A.class") (Zip_Spec.names exploded_two) /\ class_entry (lit "pkg/A.class") /\
  jar_requires nofmt nofmt P_Zip.no_text id_order (Ok exploded_two) [] = Err UnicodeDecodeError.
Proof. split; [now left|]. split; [class_entry_yes|]. vm_compute. reflexivity. Qed.

(** ** C58 *)
Theorem C58_requires_partial : forall deep fmt repr text order unzip t jd ignored, (forall l, Permutation (order l) l) ->
  Zip_Model.is_dir t = true -> Dir_Spec.plain t -> names_ok t ->
  dist_holds unzip t jd -> (forall c, dist_class jd c -> flat_arrays deep c) ->
  exists jd' d, Permutation (jd_jars jd) (jd_jars jd') /\ Permutation (jd_loose jd) (jd_loose jd') /\
    dist_requires fmt repr text order unzip (mkdist false t) ignored = Ok d /\ NoDup (dkeys d) /\
    forall s l, dget d s = Some l <-> exists o, l = map shown_origin o /\ dist_requires_spec deep jd' s o /\ ~ ignored_by ignored s.
Proof. intros deep fmt repr text order unzip t jd ignored P D HP HN. exact (dist_requires_ok fmt repr text order P unzip t D HP HN jd ignored). Qed.
Print Assumptions C58_requires_partial.
Theorem C58_provides_partial : forall fmt repr text order unzip t jd ignored, (forall l, Permutation (order l) l) ->
  Zip_Model.is_dir t = true -> Dir_Spec.plain t -> names_ok t ->
  dist_holds unzip t jd ->
  exists jd' d, Permutation (jd_jars jd) (jd_jars jd') /\ Permutation (jd_loose jd) (jd_loose jd') /\
    dist_provides fmt repr text order unzip (mkdist false t) ignored = Ok d /\ NoDup (dkeys d) /\
    forall s l, dget d s = Some l <-> exists o, l = map shown_origin o /\ dist_provides_spec jd' s o /\ ~ ignored_by ignored s.
Proof. intros fmt repr text order unzip t jd ignored P D HP HN. exact (dist_provides_ok fmt repr text order P unzip t D HP HN jd ignored). Qed.
Print Assumptions C58_provides_partial.

(** lib/a.jar holds pkg.A, which calls the package-private pkg.B.run of lib/b.jar;
    a copy of pkg.B lies in loose/. *)
Definition unzip_ex (b : bytes) : jar := match b with [1] => Ok jar_a | [2] => Ok jar_b | _ => Err ValueError end.
Definition lib_dir : Zip_Model.node := Zip_Model.Dir false [(lit "a.jar", Zip_Model.File false [1] 0); (lit "b.jar", Zip_Model.File false [2] 0)].
Definition dist_two : Zip_Model.node := Zip_Model.Dir false [(lit "README", Zip_Model.File false [3] 0); (lit "lib", lib_dir)].
Definition dist_three : Zip_Model.node :=
  Zip_Model.Dir false [(lit "B.class", Zip_Model.File false (enc_class class_b) 0); (lit "lib", lib_dir)].
Definition jd_two : jdist := mkjdist [(lit "lib/a.jar", [(lit "pkg/A.class", class_a)]); (lit "lib/b.jar", [(lit "pkg/B.class", class_b)])] [].
Definition jd_three : jdist := mkjdist (jd_jars jd_two) [(lit "B.class", class_b)].
Fixpoint all_files (f : nat) (p : list str) (n : Zip_Model.node) : list (list str) :=
  match f, n with
  | S f, Zip_Model.Dir _ kids => concat (map (fun k => all_files f (p ++ [fst k]) (snd k)) kids)
  | _, _ => [p]
  end.
Lemma all_files_In f : forall n p q, P_Distdiff.plainb f n = true -> Dir_Spec.file_at n q -> In (p ++ q) (all_files f p n).
Proof.
  induction f as [|f IH]; intros n p q HP (m & HF & HD).
  - destruct n as [l d t|[|] kids|l]; try discriminate; inversion HF; subst; cbn; rewrite app_nil_r; now left.
  - destruct n as [l d t|[|] kids|l]; try discriminate; try (inversion HF; subst; cbn; rewrite app_nil_r; now left).
    inversion HF as [|? ? k n q' ? Hk HF']; subst; [discriminate|]. cbn [all_files]. apply in_concat. eexists. split; [apply in_map_iff; eexists; split; [reflexivity|exact Hk]|]. cbn [fst snd].
    replace (p ++ k :: q') with ((p ++ [k]) ++ q') by (now rewrite <- app_assoc). apply IH; [|now exists m]. cbn [P_Distdiff.plainb] in HP. apply andb_true_iff in HP as [_ HP]. rewrite forallb_forall in HP. exact (HP _ Hk).
Qed.
Ltac file_down := econstructor; [cbn [In]; first [now left|right; now left]|].
Ltac not_jar := let H := fresh in intro H; exfalso; apply (Distdiff_Proofs.is_jar_iff _) in H; vm_compute in H; discriminate H.
Ltac not_class := let H := fresh in intro H; exfalso; apply class_entry_iff in H; vm_compute in H; discriminate H.
Lemma jar_entry_ok n : fnmatches n JAR_PATTERNS = true -> jar_entry n.
Proof. intro H. now apply Distdiff_Proofs.is_jar_iff in H. Qed.
Example two_dist : Dir_Spec.plain dist_two /\ names_ok dist_two /\ dist_holds unzip_ex dist_two jd_two.
Proof.
  split; [now apply (P_Distdiff.plainb_plain 3)|]. split; [now apply (P_Distdiff.names_okb_ok 3)|]. constructor.
  - apply P_Distdiff.distinctb_ok. vm_compute. reflexivity.
  - constructor.
  - intros p H. apply (all_files_In 3 _ [] p) in H; [|reflexivity]. cbn [app] in H. destruct H as [<-|[<-|[<-|[]]]]; [not_jar| |]; intros _; cbn; tauto.
  - intros p H. apply (all_files_In 3 _ [] p) in H; [|reflexivity]. cbn [app] in H. destruct H as [<-|[<-|[<-|[]]]]; not_class.
  - intros e cs [H|[H|[]]]; injection H as <- <-; (split; [apply jar_entry_ok; vm_compute; reflexivity|]).
    + exists [lit "lib"; lit "a.jar"], [1], jar_a. split; [reflexivity|]. split; [|split; [reflexivity|exact jar_a_holds]]. exists false, 0. do 2 file_down. constructor.
    + exists [lit "lib"; lit "b.jar"], [2], jar_b. split; [reflexivity|]. split; [|split; [reflexivity|exact jar_b_holds]]. exists false, 0. do 2 file_down. constructor.
  - intros e c [].
Qed.
Example three_dist : Dir_Spec.plain dist_three /\ names_ok dist_three /\ dist_holds unzip_ex dist_three jd_three.
Proof.
  split; [now apply (P_Distdiff.plainb_plain 3)|]. split; [now apply (P_Distdiff.names_okb_ok 3)|]. constructor.
  - apply P_Distdiff.distinctb_ok. vm_compute. reflexivity.
  - apply P_Distdiff.distinctb_ok. vm_compute. reflexivity.
  - intros p H. apply (all_files_In 3 _ [] p) in H; [|reflexivity]. cbn [app] in H. destruct H as [<-|[<-|[<-|[]]]]; [not_jar| |]; intros _; cbn; tauto.
  - intros p H. apply (all_files_In 3 _ [] p) in H; [|reflexivity]. cbn [app] in H. destruct H as [<-|[<-|[<-|[]]]]; [intros _; cbn; tauto| |]; not_class.
  - intros e cs [H|[H|[]]]; injection H as <- <-; (split; [apply jar_entry_ok; vm_compute; reflexivity|]).
    + exists [lit "lib"; lit "a.jar"], [1], jar_a. split; [reflexivity|]. split; [|split; [reflexivity|exact jar_a_holds]]. exists false, 0. do 2 file_down. constructor.
    + exists [lit "lib"; lit "b.jar"], [2], jar_b. split; [reflexivity|]. split; [|split; [reflexivity|exact jar_b_holds]]. exists false, 0. do 2 file_down. constructor.
  - intros e c [H|[]]; injection H as <- <-. split; [class_entry_yes|]. exists [lit "B.class"]. split; [reflexivity|]. split; [exists false, 0; file_down; constructor|apply class_b_wf].
Qed.
(** Within one jar, or with a loose copy of B, run is not a requirement; with B in
    another jar it is, since only the public symbols of a jar count. *)
Example C58_ex :
  dist_requires nofmt nofmt P_Zip.no_text id_order unzip_ex (mkdist false dist_three) [lit "java.*"] =
    Ok [(lit "pkg.C", [ByJar (lit "lib/a.jar") [lit "pkg/A.class"]])] /\
  dist_requires nofmt nofmt P_Zip.no_text id_order unzip_ex (mkdist false dist_two) [lit "java.*"] =
    Ok [(lit "pkg.C", [ByJar (lit "lib/a.jar") [lit "pkg/A.class"]]);
        (lit "pkg.B.run(int,long[]):java.lang.String", [ByJar (lit "lib/a.jar") [lit "pkg/A.class"]])] /\
  dist_provides nofmt nofmt P_Zip.no_text id_order unzip_ex (mkdist false dist_three) [lit "*(*"] =
    Ok [(lit "pkg.A", [ByJar (lit "lib/a.jar") [lit "pkg/A.class"]]); (lit "pkg.B", [ByJar (lit "lib/b.jar") [lit "pkg/B.class"]; ByClass (lit "B.class")])].
Proof. repeat split; vm_compute; reflexivity. Qed.

(** Finding: of a distribution given as a zip file with a jar or a class in it,
    neither can be computed: jars and classes are looked up beside the zip file
    instead of in the directory it was extracted to. *)
Theorem C58_zipped_fails : forall fmt repr text order unzip t p ignored,
  Zip_Model.is_dir t = true -> Dir_Spec.plain t -> names_ok t ->
  Dir_Spec.file_at t p -> jar_entry (Zip_Model.slashes p) \/ class_entry (Zip_Model.slashes p) ->
  dist_requires fmt repr text order unzip (mkdist true t) ignored = Err FileNotFoundError /\
  dist_provides fmt repr text order unzip (mkdist true t) ignored = Err FileNotFoundError.
Proof. exact zipped_fails. Qed.
Print Assumptions C58_zipped_fails.
Example C58_zipped_ex : Dir_Spec.file_at dist_two [lit "lib"; lit "a.jar"] /\ jar_entry (lit "lib/a.jar") /\
  dist_requires nofmt nofmt P_Zip.no_text id_order unzip_ex (mkdist true dist_two) [] = Err FileNotFoundError.
Proof.
  split; [|split; [apply jar_entry_ok; vm_compute; reflexivity|vm_compute; reflexivity]]. eexists. split; [do 2 file_down; constructor|reflexivity].
Qed.

(** ** C59 *)

(** Which members are shown: at the public setting the public ones, at the
    package setting the public and protected ones, at the private setting all; in
    the order of the class file, fields before methods. *)
Theorem C59_shown : forall show c,
  (forall m, In m (shown_members show c) <-> In m (c_fields c ++ c_methods c) /\
     ((show = SHOW_PUBLIC /\ Z.testbit (m_flags m) 0 = true) \/
      (show = SHOW_PACKAGE /\ (Z.testbit (m_flags m) 0 = true \/ Z.testbit (m_flags m) 2 = true)) \/
      show = SHOW_PRIVATE)) /\
  picks (fun m => should_show show m = true /\ show <> SHOW_HEADER) (c_fields c ++ c_methods c) (shown_members show c).
Proof. exact shown_spec. Qed.
Print Assumptions C59_shown.
Theorem C59_monotone : forall show show' m, In show [SHOW_HEADER; SHOW_PUBLIC; SHOW_PACKAGE; SHOW_PRIVATE] ->
  In show' [SHOW_HEADER; SHOW_PUBLIC; SHOW_PACKAGE; SHOW_PRIVATE] -> show <= show' ->
  should_show show m = true -> should_show show' m = true.
Proof. exact show_monotone. Qed.
Print Assumptions C59_monotone.
Theorem C59_public : forall show m, In show [SHOW_PUBLIC; SHOW_PACKAGE; SHOW_PRIVATE] -> Z.testbit (m_flags m) 0 = true -> should_show show m = true.
Proof. exact show_public. Qed.
Print Assumptions C59_public.
Theorem C59_private : forall show m, In show [SHOW_HEADER; SHOW_PUBLIC; SHOW_PACKAGE; SHOW_PRIVATE] ->
  Z.testbit (m_flags m) 0 = false -> Z.testbit (m_flags m) 2 = false -> (should_show show m = true <-> show = SHOW_PRIVATE).
Proof. exact show_private. Qed.
Print Assumptions C59_private.
Example C59_ex : exists r, unpack_class (enc_class class_a) MNone = Ok r /\
  map m_flags (shown_members SHOW_PUBLIC r) = [1025] /\ map m_flags (shown_members SHOW_PACKAGE r) = [1025] /\
  map m_flags (shown_members SHOW_PRIVATE r) = [2; 1025] /\ shown_members SHOW_HEADER r = [].
Proof. eexists. split; [vm_compute; reflexivity|]. repeat split; vm_compute; reflexivity. Qed.
(** Finding: a package-private member is not shown at the --package setting. *)
Theorem C59_package_refuted : exists c r, class_ok c /\ unpack_class (enc_class c) MNone = Ok r /\
  exists m, In m (c_methods r) /\ Z.testbit (m_flags m) 1 = false /\ shown_members SHOW_PACKAGE r = [] .
Proof.
  exists class_b. eexists. split; [apply class_b_wf|]. split; [vm_compute; reflexivity|]. eexists. split; [left; reflexivity|]. split; vm_compute; reflexivity.
Qed.
Print Assumptions C59_package_refuted.

(** ** C72 *)

(** Constants as text: classes, members, names with types, strings and numbers. *)
Theorem C72_pretty : forall fmt repr l p, pool_shows l p ->
  (forall i n, jclass_at l i = Some n -> pretty_deref_const fmt repr p i = Ok (PStr (dotted n))) /\
  (forall i n s, jnt_at l i = Some (n, sig_desc s) -> sig_ok s = true -> pretty_deref_const fmt repr p i =
     Ok (PStr (n ++ lit ":" ++ match s with SField t => type_name t | SMethod x ret => lit "(" ++ concat_with (lit ",") (map type_name x) ++ lit ")" ++ ret_name ret end))) /\
  (forall i s, jutf8_at l i = Some s -> pretty_deref_const fmt repr p i = Ok (PStr s)) /\
  (forall i j s, jat l i = Some (JString j) -> jutf8_at l j = Some s -> pretty_deref_const fmt repr p i = Ok (PStr s)) /\
  (forall i z, jat l i = Some (JInteger z) \/ jat l i = Some (JLong z) -> pretty_deref_const fmt repr p i = Ok (PInt z)).
Proof. exact pretty_consts. Qed.
Print Assumptions C72_pretty.
Theorem C72_members : forall fmt repr c p i k cls nm s, pool_shows (jc_pool c) p -> jat (jc_pool c) i = Some k -> refers_to c k cls nm s ->
  pretty_deref_const fmt repr p i = Ok (PStr (member_symbol cls nm s)).
Proof. exact pretty_deref_member. Qed.
Print Assumptions C72_members.
Example C72_ex : exists r, unpack_class (enc_class class_a) MNone = Ok r /\
  pretty_deref_const nofmt nofmt (c_pool r) 5 = Ok (PStr (lit "[Lpkg.C;")) /\
  pretty_deref_const nofmt nofmt (c_pool r) 7 = Ok (PStr (lit "pkg.B.run(int,long[]):java.lang.String")) /\
  pretty_deref_const nofmt nofmt (c_pool r) 16 = Ok (PStr (lit "x:long")) /\
  pretty_deref_const nofmt nofmt (c_pool r) 10 = Ok (PStr (lit "run:(int,long[])java.lang.String")).
Proof. eexists. split; [vm_compute; reflexivity|]. repeat split; vm_compute; reflexivity. Qed.
(** Finding: method handles, method types, modules and packages cannot be written
    as text, whatever they are. *)
Theorem C72_fails : forall fmt repr l p, pool_shows l p -> forall i,
  (forall k j, jat l i = Some (JMethodHandle k j) -> pretty_deref_const fmt repr p i = Err UnknownConstantPoolTag) /\
  (forall j, jat l i = Some (JMethodType j) -> pretty_deref_const fmt repr p i = Err TypeError) /\
  (forall j, jat l i = Some (JModule j) \/ jat l i = Some (JPackage j) -> pretty_deref_const fmt repr p i = Err AttributeError).
Proof. exact pretty_fails. Qed.
Print Assumptions C72_fails.
Definition mt_pool : list jconst := [JMethodType 2; JUtf8 (lit "()V"); JModule 4; JUtf8 (lit "m")].
Theorem C72_refuted : exists l p, jpool_wf l = true /\ pool_shows l p /\
  deref_const p 1 = Ok (PStr (lit "()V")) /\ pretty_deref_const nofmt nofmt p 1 = Err TypeError /\
  deref_const p 3 = Ok (PStr (lit "m")) /\ pretty_deref_const nofmt nofmt p 3 = Err AttributeError.
Proof.
  destruct (unpack_class_roundtrip (mkjclass 0 52 mt_pool 0 0 0 [] [] [] []) [] ltac:(vm_compute; reflexivity)) as (r & E & _ & _ & _ & _ & HS & _).
  exists mt_pool, (c_pool r). split; [vm_compute; reflexivity|]. split; [exact HS|]. vm_compute in E. injection E as <-. cbn [c_pool]. repeat split; vm_compute; reflexivity.
Qed.
Print Assumptions C72_refuted.

(** ** C73 *)

(** Finding: with --json, classinfo raises for every class with a member that is
    to be shown. *)
Theorem C73_json_refuted : exists c r, class_ok c /\ unpack_class (enc_class c) MNone = Ok r /\
  simplify_members SHOW_PUBLIC (c_methods r) = Err AttributeError.
Proof. exists class_a. eexists. split; [apply class_a_wf|]. split; vm_compute; reflexivity. Qed.
Print Assumptions C73_json_refuted.
Theorem C73_json_fails : forall show ms m, In m ms -> should_show show m = true -> simplify_members show ms = Err AttributeError.
Proof. exact simplify_fails. Qed.
Print Assumptions C73_json_fails.
(** Finding: the version numbers of a class are printed under each other's label. *)
Theorem C73_version_refuted : exists c r, class_ok c /\ unpack_class (enc_class c) MNone = Ok r /\
  jc_major c = 52 /\ jc_minor c = 0 /\ version_lines r = [lit "  minor version: 52"; lit "  major version: 0"].
Proof. exists class_a. eexists. split; [apply class_a_wf|]. split; [vm_compute; reflexivity|]. repeat split; vm_compute; reflexivity. Qed.
Print Assumptions C73_version_refuted.

(** ** C74 *)

(** get_method finds the first method that is no bridge, has this name and these
    argument types; get_method_bridges the bridges, in order (given a tuple);
    get_methods_by_name and get_field_by_name all methods and the first field of
    a name. *)
Theorem C74_get_method : forall fmt c r, api_wf c -> class_shows c r -> forall name s, exists o,
  get_method fmt r name s = Ok (match o with Some i => nth_error (c_methods r) i | None => None end) /\
  first_of (fun jm => method_named c jm name (seq_items s) false) (jc_methods c) o.
Proof. exact get_method_spec. Qed.
Print Assumptions C74_get_method.
Theorem C74_bridges : forall fmt c r, api_wf c -> class_shows c r -> forall name args, exists l,
  get_method_bridges fmt r name (STuple args) = Ok (map snd l) /\
  picks (fun xm => method_named c (fst xm) name args true) (combine (jc_methods c) (c_methods r)) l.
Proof. exact get_bridges_spec. Qed.
Print Assumptions C74_bridges.
Theorem C74_by_name : forall c r, api_wf c -> class_shows c r -> forall name,
  (exists l, get_methods_by_name r name = Ok (map snd l) /\
     picks (fun xm => exists s, declares c (fst xm) name s) (combine (jc_methods c) (c_methods r)) l) /\
  exists o, get_field_by_name r name = Ok (match o with Some i => nth_error (c_fields r) i | None => None end) /\
    first_of (fun jm => exists s, declares c jm name s) (jc_fields c) o.
Proof. intros c r W H name. split; [exact (methods_by_name_spec c r W H name)|exact (field_by_name_spec c r W H name)]. Qed.
Print Assumptions C74_by_name.
(** class pkg.E with run(int), run(long), the bridge run(int) and run(int) again *)
Definition e_pool : list jconst :=
  [ JClass 2; JUtf8 (lit "pkg/E"); JUtf8 (lit "run"); JUtf8 (lit "(I)V"); JUtf8 (lit "(J)V"); JUtf8 (lit "(I)Ljava/lang/Object;") ].
Definition class_e : jclassfile := mkjclass 0 52 e_pool 33 1 1 [] [] [mkjmember 65 3 6 []; mkjmember 1 3 5 []; mkjmember 1 3 4 []] [].
Example class_e_wf : class_ok class_e.
Proof.
  split; [vm_compute; reflexivity|]. constructor.
  - vm_compute. reflexivity.
  - exists (lit "pkg/E"). split; vm_compute; reflexivity.
  - intros m [].
  - intros m [<-|[<-|[<-|[]]]]; [exists (lit "run"), [TPrim PInt_], (Some (TObj (lit "java/lang/Object")))|exists (lit "run"), [TPrim PLong], None|exists (lit "run"), [TPrim PInt_], None]; constructor; try (vm_compute; reflexivity); cbn; tauto.
  - intros i n H. apply class_cases in H. vm_compute in H. destruct H as [<-|[]]; left; reflexivity.
  - intros a b H. in_cases H.
  - intros k a b HK H. destruct HK as [->| ->]; in_cases H.
Qed.
Example C74_ex : exists r, unpack_class (enc_class class_e) MNone = Ok r /\
  get_method nofmt r (lit "run") (SList [lit "I"]) = Ok (nth_error (c_methods r) 2) /\
  get_method_bridges nofmt r (lit "run") (STuple [lit "I"]) = Ok (firstn 1 (c_methods r)) /\
  get_methods_by_name r (lit "run") = Ok (c_methods r) /\ get_method nofmt r (lit "run") (STuple []) = Ok None.
Proof. eexists. split; [vm_compute; reflexivity|]. repeat split; vm_compute; reflexivity. Qed.
(** Finding: given a list, get_method_bridges finds nothing, while get_method
    treats lists and tuples alike. *)
Theorem C74_list_fails : forall fmt c r, api_wf c -> class_shows c r -> forall name args, get_method_bridges fmt r name (SList args) = Ok [].
Proof. exact bridges_of_list. Qed.
Print Assumptions C74_list_fails.
Theorem C74_list_refuted : exists c r jm, class_ok c /\ unpack_class (enc_class c) MNone = Ok r /\
  In jm (jc_methods c) /\ method_named c jm (lit "run") [lit "I"] true /\ get_method_bridges nofmt r (lit "run") (SList [lit "I"]) = Ok [].
Proof.
  exists class_e. do 2 eexists. split; [exact class_e_wf|]. split; [vm_compute; reflexivity|]. split; [left; reflexivity|]. split; [|vm_compute; reflexivity].
  exists [TPrim PInt_], (Some (TObj (lit "java/lang/Object"))). split; [|split; reflexivity]. constructor; try (vm_compute; reflexivity). now left.
Qed.
Print Assumptions C74_list_refuted.

(** ** C75 *)

(** The summary of jarinfo: number of files and directories, total sizes.  It
    fails exactly when the files are all empty. *)
Theorem C75_zip_info : forall a, Zip_Model.a_kind a = Zip_Model.Zip -> Forall (fun e => Zip_Model.e_name e <> []) (Zip_Model.a_entries a) ->
  let files := filter (fun e => negb (Zip_Spec.is_directory (Zip_Model.e_name e))) (Zip_Model.a_entries a) in
  let size := fold_right Z.add 0 (map Zip_Model.e_size files) in
  jar_zip_info a =
  if size =? 0 then Err ZeroDivisionError
  else Ok (Z.of_nat (length files), Z.of_nat (length (Zip_Model.a_entries a)) - Z.of_nat (length files), fold_right Z.add 0 (map Zip_Model.e_csize files), size).
Proof. exact zip_info_spec. Qed.
Print Assumptions C75_zip_info.
Theorem C75_refuted : exists a, Zip_Model.a_kind a = Zip_Model.Zip /\ Zip_Spec.names a <> [] /\ jar_zip_info a = Err ZeroDivisionError.
Proof. exists (zip_of [P_Zip.zdir (lit "d/"); P_Zip.zfile (lit "d/empty") []]). split; [reflexivity|]. split; [discriminate|]. vm_compute. reflexivity. Qed.
Print Assumptions C75_refuted.
Example C75_ex : jar_zip_info (zip_of [P_Zip.zdir (lit "d/"); P_Zip.zfile (lit "d/x") [1; 2; 3]]) = Ok (1, 1, 1, 3).
Proof. vm_compute. reflexivity. Qed.

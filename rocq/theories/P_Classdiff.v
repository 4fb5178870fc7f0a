(** Properties C48-C53, C66, C67: comparing two classes. *)
From Verif Require Import Base Pack_Model ConstPool_Model ConstPool_Spec ConstPool_Deref Opcodes_Model Opcodes_Spec ClassFile_Model
  Descr_Model Descr_Spec Anno_Model Change_Model Classdiff_Model Classdiff_Spec Classdiff_Members Classdiff_Code Classdiff_Class Classdiff_Passes Classdiff_Self Classdiff_Merge.
From Coq Require Import Permutation.

(** ** Example data *)
Definition no_fmt (v : pyval) : str := [].
Definition no_repr (s : str) : str := s.
(** options without any --ignore *)
Definition strict : options := mkopts false false false false false false false false false false false false [] false false false [] [] false.
Definition lax_pool : options := mkopts false false false false false false false false false false true false [] false false false [] [] false.
Definition lax_lines : options := mkopts false false false false false false true true false false true false [] false false false [] [] false.

(** Code attributes: the given instructions, one exception handler catching the
    constant [catch], the given line table (as constant [lnt]). *)
Definition bytes2 (v : Z) : bytes := [v / 256; v mod 256].
Definition code_attr (bc : bytes) (catch lnt : Z) (lines : list (Z * Z)) : bytes :=
  bytes2 2 ++ bytes2 3 ++ [0; 0] ++ bytes2 (Z.of_nat (length bc)) ++ bc ++
  bytes2 1 ++ bytes2 0 ++ bytes2 1 ++ bytes2 2 ++ bytes2 catch ++
  bytes2 1 ++ bytes2 lnt ++ [0; 0] ++ bytes2 (2 + 4 * Z.of_nat (length lines)) ++ bytes2 (Z.of_nat (length lines)) ++
  concat (map (fun e => bytes2 (fst e) ++ bytes2 (snd e)) lines).

(** class A { int f; long g; void m(int) { "hello" ...; return } void m(long) ... } *)
Definition p_left : pool := [KNone; KUtf8 (lit "A"); KRef 7 1; KUtf8 (lit "f"); KUtf8 (lit "I"); KUtf8 (lit "g"); KUtf8 (lit "J");
  KUtf8 (lit "m"); KUtf8 (lit "(I)V"); KUtf8 (lit "(J)V"); KUtf8 (lit "Code"); KUtf8 (lit "LineNumberTable"); KUtf8 (lit "hello"); KRef 8 12; KUtf8 (lit "B"); KRef 7 14].
Definition c_left : classinfo := mkclass (52, 0) p_left 33 2 15 [15]
  [mkmember 1 3 4 [] false; mkmember 1 5 6 [] false]
  [mkmember 1 7 8 [(PStr (lit "Code"), code_attr [18; 13; 87; 177] 15 11 [(0, 10); (2, 11)])] true; mkmember 1025 7 9 [] true] [].
(** the same with another numbering, the members in another order and other line numbers *)
Definition p_right : pool := [KNone; KRef 7 2; KUtf8 (lit "B"); KRef 8 4; KUtf8 (lit "hello"); KUtf8 (lit "LineNumberTable"); KUtf8 (lit "Code");
  KUtf8 (lit "(J)V"); KUtf8 (lit "(I)V"); KUtf8 (lit "m"); KUtf8 (lit "J"); KUtf8 (lit "g"); KUtf8 (lit "I"); KUtf8 (lit "f"); KRef 7 15; KUtf8 (lit "A")].
Definition c_right_at (line : Z) : classinfo := mkclass (52, 0) p_right 33 14 1 [1]
  [mkmember 1 11 10 [] false; mkmember 1 13 12 [] false]
  [mkmember 1025 9 7 [] true; mkmember 1 9 8 [(PStr (lit "Code"), code_attr [18; 3; 87; 177] 1 5 [(0, line); (2, line + 1)])] true] [].
Definition c_right := c_right_at 10.
Definition run_diff (o : options) (l r : classinfo) : res Z := classdiff no_fmt no_repr no_fmt o l r.

Lemma distinct_by (p : pool) (ms : list member) (ks : list pyval) :
  forallb (fun mk => match get_identifier no_fmt p (fst mk) with Ok (PStr s) => match snd mk with PStr t => seqb s t | _ => false end | _ => false end) (combine ms ks) = true ->
  length ms = length ks ->
  (fix go (l : list pyval) : bool := match l with [] => true | k :: l' => forallb (fun k' => negb (py_eq k k')) l' && go l' end) ks = true ->
  distinct_ids no_fmt p ms.
Proof.
  intros H HL HD. exists ks. split.
  - clear HD. revert ks H HL. induction ms as [|m ms IH]; intros [|k ks] H HL; try discriminate; constructor.
    + cbn [combine forallb fst snd] in H. destruct (get_identifier no_fmt p m) as [x|]; [|discriminate]. destruct x; try discriminate. destruct k; try discriminate.
      apply andb_prop in H as [H _]. apply seqb_eq in H as ->. reflexivity.
    + apply IH; [|now injection HL]. cbn [combine forallb] in H. now apply andb_prop in H as [_ H].
  - clear H HL. induction ks as [|k ks IH]; constructor; apply andb_prop in HD as [D1 D2].
    + apply Forall_forall. intros k' Hk. apply (proj1 (forallb_forall _ _) D1) in Hk. unfold pyeq. destruct (py_eq k k'); [discriminate|congruence].
    + now apply IH.
Qed.
Lemma ids_left : distinct_ids no_fmt (c_pool c_left) (c_fields c_left) /\ distinct_ids no_fmt (c_pool c_left) (c_methods c_left).
Proof.
  split; [apply distinct_by with [PStr (lit "f"); PStr (lit "g")]|apply distinct_by with [PStr (lit "m(I)"); PStr (lit "m(J)")]]; vm_compute; reflexivity.
Qed.
Lemma ids_right line : distinct_ids no_fmt (c_pool (c_right_at line)) (c_fields (c_right_at line)) /\ distinct_ids no_fmt (c_pool (c_right_at line)) (c_methods (c_right_at line)).
Proof.
  split; [apply distinct_by with [PStr (lit "g"); PStr (lit "f")]|apply distinct_by with [PStr (lit "m(J)"); PStr (lit "m(I)")]]; vm_compute; reflexivity.
Qed.

(** ** C48 *)
Theorem C48_members_partial : forall fmt lp rp ls rs ev, collect_members fmt lp rp ls rs = Ok ev ->
  rights ev = rs /\
  (distinct_ids fmt lp ls -> Permutation (lefts ev) ls) /\
  (forall l r, In (MChanged l r) ev -> same_identity fmt lp rp l r) /\
  (forall l r, In (MRemoved l) ev -> In r rs -> ~ same_identity fmt lp rp l r) /\
  (distinct_ids fmt rp rs -> forall l r, In (MAdded r) ev -> In l ls -> ~ same_identity fmt lp rp l r).
Proof.
  intros fmt lp rp ls rs ev H. destruct (collect_members_facts _ _ _ _ _ _ H) as (F1 & _ & F3 & F4 & F5).
  split; [exact F1|]. split; [now apply collect_members_complete with (1 := H)|]. now repeat split.
Qed.
Print Assumptions C48_members_partial.
(** What is lost otherwise: the members followed by another of the same identity. *)
Theorem C48_lost : forall fmt lp rp ls rs ev, collect_members fmt lp rp ls rs = Ok ev ->
  exists ks, idents fmt lp ls ks /\ Permutation (lefts ev) (survivors (combine ks ls)).
Proof. intros fmt lp rp ls rs ev H. apply (collect_members_facts _ _ _ _ _ _ H). Qed.
Print Assumptions C48_lost.
Example C48_ex : distinct_ids no_fmt p_left (c_methods c_left) /\ exists ev a b, collect_members no_fmt p_left p_right (c_methods c_left) (tl (c_methods c_right)) = Ok ev /\
  ev = [MChanged a b; MRemoved (mkmember 1025 7 9 [] true)].
Proof. split; [apply ids_left|]. eexists _, _, _. split; [vm_compute; reflexivity|reflexivity]. Qed.

(** Methods have the same identity exactly if they have the same name and the
    same argument types, both or neither are bridges and, if so, return the same. *)
Theorem C48_identity : forall fmt lp rp l r n n' args args' ret ret',
  is_method_of lp l n args ret -> is_method_of rp r n' args' ret' ->
  (same_identity fmt lp rp l r <->
   n = n' /\ args = args' /\ flag ACC_BRIDGE (m_flags l) = flag ACC_BRIDGE (m_flags r) /\ (flag ACC_BRIDGE (m_flags l) = true -> ret = ret')).
Proof. exact method_identity. Qed.
Print Assumptions C48_identity.
Example C48_identity_ex : is_method_of p_left (mkmember 1 7 8 [] true) (lit "m") [TPrim PInt_] None.
Proof.
  constructor; try (vm_compute; reflexivity). cbn. intros [H|[]]. discriminate.
Qed.
(** Parentheses in names, which class files may have, make identities ambiguous:
    a(Lb(Lc;) is a method named "a" or one named "a(Lb". *)
Definition p_paren : pool := [KNone; KUtf8 (lit "a"); KUtf8 (lit "(Lb(Lc;)V"); KUtf8 (lit "a(Lb"); KUtf8 (lit "(Lc;)V")].
Theorem C48_identity_refuted : exists lp rp l r, same_identity no_fmt lp rp l r /\
  m_name lp l = Ok (PStr (lit "a")) /\ m_descriptor lp l = Ok (PStr (method_desc [TObj (lit "b(Lc")] None)) /\
  m_name rp r = Ok (PStr (lit "a(Lb")) /\ m_descriptor rp r = Ok (PStr (method_desc [TObj (lit "c")] None)).
Proof.
  exists p_paren, p_paren, (mkmember 1 1 2 [] true), (mkmember 1 3 4 [] true). split; [eexists _, _; repeat split; vm_compute; reflexivity|]. repeat split; vm_compute; reflexivity.
Qed.
Print Assumptions C48_identity_refuted.
(** Two fields with one name but different types (legal in class files): one is
    never compared, nor reported removed. *)
Theorem C48_left_refuted : exists p ls rs ev, collect_members no_fmt p p ls rs = Ok ev /\ NoDup ls /\
  ~ Permutation (lefts ev) ls /\ length ls = 2%nat /\ rs = [] /\ length ev = 1%nat.
Proof.
  exists p_left, [mkmember 1 3 4 [] false; mkmember 1 3 6 [] false], []. eexists. split; [vm_compute; reflexivity|]. split.
  { constructor; [|constructor; [intros []|constructor]]. cbn. intros [H|[]]. discriminate. }
  split; [|repeat split]. intro H. apply Permutation_length in H. discriminate.
Qed.
Print Assumptions C48_left_refuted.

(** ** C49 *)
Theorem C49_sound_partial : forall fmt reprs lp rp l r c', check (method_code fmt reprs lp rp (Some l) (Some r)) = Ok c' -> is_change c' = false ->
  same_body tool_resolved lp rp (k_code l) (k_code r) /\
  Forall2 (same_handler lp rp) (k_exceptions l) (k_exceptions r) /\
  agree eq (get_linenumbertable l) (get_linenumbertable r) /\ k_max_stack l = k_max_stack r /\ k_max_locals l = k_max_locals r.
Proof.
  intros fmt reprs lp rp l r c' H HC. assert (HQ : quiet (method_code fmt reprs lp rp (Some l) (Some r))) by (exists c'; now split).
  apply quiet_method_code in HQ. inversion HQ as [|a b (A1 & A2 & A3 & A4 & A5) E1 E2]; subst. repeat split; try assumption; apply A1 || apply A5.
Qed.
Print Assumptions C49_sound_partial.
(** The constants part alone already covers the body: no change reported there
    means the same instructions. *)
Theorem C49_constants : forall lp rp l r,
  (exists d, code_constants_check lp rp (Some l) (Some r) = Ok (false, d)) <-> same_body tool_resolved lp rp (k_code l) (k_code r).
Proof. exact code_constants_iff. Qed.
Print Assumptions C49_constants.
Definition code_of (p : pool) (ms : list member) (n : nat) : option code :=
  match nth_error ms n with Some m => match get_code p m with Ok k => k | Err _ => None end | None => None end.
Example C49_ex : exists l r c', code_of p_left (c_methods c_left) 0 = Some l /\ code_of p_right (c_methods c_right) 1 = Some r /\
  k_code l <> k_code r /\ check (method_code no_fmt no_repr p_left p_right (Some l) (Some r)) = Ok c' /\ is_change c' = false.
Proof.
  eexists _, _, _. split; [vm_compute; reflexivity|]. split; [vm_compute; reflexivity|]. split; [discriminate|]. split; vm_compute; reflexivity.
Qed.

(** multianewarray: new String[2][2] against new Thread[2][2] is no change. *)
Definition p_cls (n : str) : pool := [KNone; KUtf8 n; KRef 7 1].
Definition k_body (bc : bytes) : code := mkcode 2 1 bc [] [].
Theorem C49_multianewarray_refuted : exists lp rp l r c', check (method_code no_fmt no_repr lp rp (Some l) (Some r)) = Ok c' /\ is_change c' = false /\
  ~ same_body jvm_resolved lp rp (k_code l) (k_code r).
Proof.
  exists (p_cls (lit "[[LString;")), (p_cls (lit "[[LThread;")), (k_body [5; 5; 197; 0; 2; 2; 176]), (k_body [5; 5; 197; 0; 2; 2; 176]). eexists.
  split; [vm_compute; reflexivity|]. split; [vm_compute; reflexivity|]. intros (_ & dl & dr & D1 & D2 & H). vm_compute in D1. vm_compute in D2. injection D1 as <-. injection D2 as <-.
  inversion H as [|? ? ? ? _ H1]; subst. inversion H1 as [|? ? ? ? _ H2]; subst. inversion H2 as [|? ? ? ? H3 _]; subst.
  destruct H3 as (_ & _ & i & j & rest & v & w & E1 & E2 & DV & DW & E). cbn [i_args] in E1, E2. injection E1 as <- <-. injection E2 as <-.
  apply deref_const_iff in DV. apply deref_const_iff in DW. vm_compute in DV. vm_compute in DW. injection DV as <-. injection DW as <-. vm_compute in E. discriminate.
Qed.
Print Assumptions C49_multianewarray_refuted.

(** Constants are compared by Python's ==, so different constants may be equal:
    ldc "X" against ldc X.class; ldc 1 against ldc 1.0f; 0.0f against -0.0f. *)
Theorem C49_equal_refuted : exists a b c d e f, 
  (exists c', check (method_code no_fmt no_repr (p_cls (lit "X")) a (Some (k_body [18; 2; 176])) (Some (k_body [18; 2; 176]))) = Ok c' /\ is_change c' = false) /\
  get_const (p_cls (lit "X")) 2 = Ok (KRef CONST_Class 1) /\ get_const a 2 = Ok (KRef CONST_String 1) /\
  (exists c', check (method_code no_fmt no_repr b c (Some (k_body [18; 1; 176])) (Some (k_body [18; 1; 176]))) = Ok c' /\ is_change c' = false) /\
  get_const b 1 = Ok (KInt 1) /\ get_const c 1 = Ok (KFloat d) /\
  (exists c', check (method_code no_fmt no_repr [KNone; KFloat e] [KNone; KFloat f] (Some (k_body [18; 1; 176])) (Some (k_body [18; 1; 176]))) = Ok c' /\ is_change c' = false) /\ e <> f.
Proof.
  exists [KNone; KUtf8 (lit "X"); KRef 8 1], [KNone; KInt 1], [KNone; KFloat 1065353216], 1065353216, 0, 2147483648.
  split; [eexists; split; vm_compute; reflexivity|]. split; [reflexivity|]. split; [reflexivity|]. split; [eexists; split; vm_compute; reflexivity|].
  split; [reflexivity|]. split; [reflexivity|]. split; [eexists; split; vm_compute; reflexivity|]. discriminate.
Qed.
Print Assumptions C49_equal_refuted.

(** ** C50 *)
Theorem C50_self_partial : forall fmt reprs ffmt o c, pool_no_nan (c_pool c) = true ->
  distinct_ids fmt (c_pool c) (c_fields c) -> distinct_ids fmt (c_pool c) (c_methods c) ->
  forall c', check (class_change fmt reprs ffmt c c) = Ok c' -> is_change c' = false /\ exit_status o c' = Ok 0.
Proof.
  intros fmt reprs ffmt o c HN HF HM c' H. pose proof (calm_self fmt reprs ffmt c HN HF HM c' H) as E. split; [exact E|]. apply exit_iff. now left.
Qed.
Print Assumptions C50_self_partial.
Example C50_ex : pool_no_nan (c_pool c_left) = true /\ exists c', check (class_change no_fmt no_repr no_fmt c_left c_left) = Ok c'.
Proof. split; [reflexivity|]. eexists. vm_compute. reflexivity. Qed.
(** Two methods that differ in their return type only (legal in class files): the
    class is reported as changed with respect to itself. *)
Definition c_twice : classinfo := mkclass (52, 0) (p_left ++ [KUtf8 (lit "(I)I")]) 33 2 15 []
  [] [mkmember 1 7 8 [] true; mkmember 1 7 16 [] true] [].
Theorem C50_refuted : exists c, pool_no_nan (c_pool c) = true /\ NoDup (c_methods c) /\ run_diff strict c c = Ok 1.
Proof.
  exists c_twice. split; [reflexivity|]. split; [|vm_compute; reflexivity].
  constructor; [|constructor; [intros []|constructor]]. cbn. intros [H|[]]. discriminate.
Qed.
Print Assumptions C50_refuted.
(** A NaN constant makes the pool, and code loading it, differ from itself. *)
Theorem C50_nan_refuted : exists c, distinct_ids no_fmt (c_pool c) (c_fields c) /\ distinct_ids no_fmt (c_pool c) (c_methods c) /\ run_diff lax_pool c c = Ok 1.
Proof.
  exists (mkclass (52, 0) (p_left ++ [KFloat 2143289344]) 33 2 15 [] [] [mkmember 1 7 8 [(PStr (lit "Code"), code_attr [18; 16; 87; 177] 15 11 [])] true] []).
  split; [apply distinct_by with []; reflexivity|]. split; [apply distinct_by with [PStr (lit "m(I)")]; vm_compute; reflexivity|]. vm_compute. reflexivity.
Qed.
Print Assumptions C50_nan_refuted.

(** ** C51 *)
Theorem C51_renumbering_partial : forall fmt reprs lp rp l r, same_code tool_resolved lp rp l r ->
  exists c', check (method_code fmt reprs lp rp (Some l) (Some r)) = Ok c' /\ is_change c' = false.
Proof. intros fmt reprs lp rp l r H. apply quiet_method_code. now constructor. Qed.
Print Assumptions C51_renumbering_partial.
(** Codes given as lists of operations under a renumbering of the pool. *)
Example C51_ex : exists l r, code_of p_left (c_methods c_left) 0 = Some l /\ code_of p_right (c_methods c_right) 1 = Some r /\ same_code tool_resolved p_left p_right l r.
Proof.
  assert (H : quiet (method_code no_fmt no_repr p_left p_right (code_of p_left (c_methods c_left) 0) (code_of p_right (c_methods c_right) 1))) by (eexists; split; vm_compute; reflexivity).
  apply quiet_method_code in H. destruct (code_of p_left (c_methods c_left) 0) as [a|] eqn:E1; [|vm_compute in E1; discriminate]. destruct (code_of p_right (c_methods c_right) 1) as [b|] eqn:E2; [|vm_compute in E2; discriminate].
  exists a, b. split; [reflexivity|]. split; [reflexivity|]. now inversion H.
Qed.
Theorem C51_multianewarray_refuted : exists lp rp l r c', same_body jvm_resolved lp rp (k_code l) (k_code r) /\
  check (method_code no_fmt no_repr lp rp (Some l) (Some r)) = Ok c' /\ is_change c' = true.
Proof.
  exists (p_cls (lit "[[LString;")), [KNone; KRef 7 2; KUtf8 (lit "[[LString;")], (k_body [5; 5; 197; 0; 2; 2; 176]), (k_body [5; 5; 197; 0; 1; 2; 176]). eexists.
  split; [|split; vm_compute; reflexivity]. split; [reflexivity|]. eexists _, _. split; [vm_compute; reflexivity|]. split; [vm_compute; reflexivity|].
  apply Forall2_cons; [repeat split|]. apply Forall2_cons; [repeat split|]. apply Forall2_cons; [|apply Forall2_cons; [repeat split|apply Forall2_nil]]. split; [reflexivity|]. split; [reflexivity|].
  exists 2, 1, [2], (PStr (lit "[[LString;")), (PStr (lit "[[LString;")). split; [reflexivity|]. split; [reflexivity|]. split; [apply deref_const_iff; vm_compute; reflexivity|]. split; [apply deref_const_iff; vm_compute; reflexivity|]. vm_compute. reflexivity.
Qed.
Print Assumptions C51_multianewarray_refuted.

(** ** C52 *)
Theorem C52_cover_partial : forall reprs ffmt lp rp l, pretty_merge_constants reprs ffmt lp rp = Ok l ->
  let ls := Z.of_nat (length lp) in let rs := Z.of_nat (length rp) in
  (forall i, 1 <= i < Z.max ls rs -> exists pre e post, l = pre ++ e :: post /\ e_index e = i /\ ~ In i (map e_index pre) /\
     shows_at reprs ffmt lp i (snd (fst e)) /\ shows_at reprs ffmt rp i (snd e)) /\
  (forall e, In e l -> 1 <= e_index e < Z.max ls rs) /\
  (NoDup (map e_index l) <-> ls = rs \/ Z.min ls rs <= 1).
Proof. exact merge_constants_cover. Qed.
Print Assumptions C52_cover_partial.
Example C52_ex : exists l, pretty_merge_constants no_repr no_fmt p_left p_right = Ok l /\ length p_left = length p_right /\ length l = 15%nat.
Proof. eexists. split; [vm_compute; reflexivity|]. split; reflexivity. Qed.
(** With pools of different sizes the last common index is listed again, as if
    the shorter pool did not have it. *)
Theorem C52_refuted : exists lp rp l, pretty_merge_constants no_repr no_fmt lp rp = Ok l /\
  In (2, Some (lit "int", PNum 6), Some (lit "int", PNum 7)) l /\ In (2, Some (lit "int", PNum 6), None) l.
Proof. exists [KNone; KInt 5; KInt 6; KInt 8], [KNone; KInt 5; KInt 7]. eexists. split; [vm_compute; reflexivity|]. cbn. tauto. Qed.
Print Assumptions C52_refuted.

(** ** C53 *)
Theorem C53_exact : forall lc rc d, merge_code lc rc = Ok d ->
  exists ll rl, code_lines lc = Ok ll /\ code_lines rc = Ok rl /\ NoDup (map fst d) /\
  forall rel, zget d rel = match last_group rel ll, last_group rel rl with None, None => None | a, b => Some (a, b) end.
Proof. exact merge_code_exact. Qed.
Print Assumptions C53_exact.
Theorem C53_kept_partial : forall lc rc d dl dr, merge_code (Some lc) (Some rc) = Ok d ->
  disassemble_all (k_code lc) = Ok dl -> disassemble_all (k_code rc) = Ok dr ->
  (forall ll, code_lines (Some lc) = Ok ll -> NoDup (map (fun g => snd (fst g)) ll) -> Permutation (left_insns d) dl) /\
  (forall rl, code_lines (Some rc) = Ok rl -> NoDup (map (fun g => snd (fst g)) rl) -> Permutation (right_insns d) dr).
Proof.
  intros lc rc d dl dr H Hl Hr. destruct (merge_code_exact _ _ _ H) as (ll & rl & El & Er & _). destruct (merge_code_keeps _ _ _ _ _ H El Er) as [KL KR]. split.
  - intros ll' E HN. rewrite El in E. injection E as <-. destruct (code_lines_all _ _ El) as (dis & D1 & D2). rewrite Hl in D1. injection D1 as <-. rewrite <- D2. now apply KL.
  - intros rl' E HN. rewrite Er in E. injection E as <-. destruct (code_lines_all _ _ Er) as (dis & D1 & D2). rewrite Hr in D1. injection D1 as <-. rewrite <- D2. now apply KR.
Qed.
Print Assumptions C53_kept_partial.
(** line tables as attributes *)
Definition lnt_attr (lines : list (Z * Z)) : attrs := [(PStr (lit "LineNumberTable"), bytes2 (Z.of_nat (length lines)) ++ concat (map (fun e => bytes2 (fst e) ++ bytes2 (snd e)) lines))].
Definition k_lines (lines : list (Z * Z)) : code := mkcode 1 1 [4; 5; 6; 177] [] (lnt_attr lines).
Example C53_ex : exists ll d, code_lines (Some (k_lines [(0, 7); (2, 9)])) = Ok ll /\ NoDup (map (fun g => snd (fst g)) ll) /\ length ll = 2%nat /\ merge_code (Some (k_lines [(0, 7); (2, 9)])) (Some (k_lines [(0, 3); (1, 4)])) = Ok d /\ length d = 3%nat.
Proof.
  eexists _, _. split; [vm_compute; reflexivity|]. split; [|split; [reflexivity|split; [vm_compute; reflexivity|reflexivity]]].
  cbn. constructor; [|constructor; [intros []|constructor]]. cbn. intros [H|[]]. discriminate.
Qed.
(** A line visited twice, as by every loop: the instructions of the first visit are lost. *)
Theorem C53_refuted : exists k dl d, disassemble_all (k_code k) = Ok dl /\ merge_code (Some k) (Some k) = Ok d /\
  length dl = 4%nat /\ length (left_insns d) = 2%nat /\ ~ Permutation (left_insns d) dl.
Proof.
  exists (k_lines [(0, 7); (2, 8); (3, 7)]). eexists _, _. split; [vm_compute; reflexivity|]. split; [vm_compute; reflexivity|]. split; [reflexivity|]. split; [reflexivity|].
  intro H. apply Permutation_length in H. discriminate.
Qed.
Print Assumptions C53_refuted.

(** ** C66 *)
Theorem C66_exit_partial : forall fmt reprs ffmt o l r,
  distinct_ids fmt (c_pool l) (c_fields l) -> distinct_ids fmt (c_pool l) (c_methods l) ->
  (classdiff fmt reprs ffmt o l r = Ok 0 -> class_ok fmt o tool_resolved l r) /\
  (distinct_ids fmt (c_pool r) (c_fields r) -> distinct_ids fmt (c_pool r) (c_methods r) ->
   class_ok fmt o tool_resolved l r -> classdiff fmt reprs ffmt o l r = Ok 0).
Proof.
  intros fmt reprs ffmt o l r LF LM. split.
  - intro H. apply classdiff_iff in H. eapply class_passes_sound; eassumption.
  - intros RF RM H. apply classdiff_iff. now apply class_passes_complete.
Qed.
Print Assumptions C66_exit_partial.
Theorem C66_unchanged : forall fmt reprs ffmt l r,
  distinct_ids fmt (c_pool l) (c_fields l) -> distinct_ids fmt (c_pool l) (c_methods l) ->
  distinct_ids fmt (c_pool r) (c_fields r) -> distinct_ids fmt (c_pool r) (c_methods r) ->
  ((exists c', check (class_change fmt reprs ffmt l r) = Ok c' /\ is_change c' = false) <->
   same_class fmt tool_resolved l r /\ same_pool (c_pool l) (c_pool r)).
Proof.
  intros fmt reprs ffmt l r LF LM RF RM. split.
  - now apply class_quiet_sound.
  - intros [H1 H2]. now apply class_quiet_complete.
Qed.
Print Assumptions C66_unchanged.
Example C66_ex : distinct_ids no_fmt (c_pool c_left) (c_fields c_left) /\ distinct_ids no_fmt (c_pool c_left) (c_methods c_left) /\
  run_diff lax_pool c_left c_right = Ok 0 /\ run_diff strict c_left c_right = Ok 1 /\
  run_diff lax_lines c_left (c_right_at 20) = Ok 0 /\ run_diff lax_pool c_left (c_right_at 20) = Ok 1.
Proof. split; [apply ids_left|]. split; [apply ids_left|]. repeat split; vm_compute; reflexivity. Qed.
(** A method dropped in the new version is not noticed if another one with its
    name and argument types comes after it. *)
Theorem C66_dropped_refuted : exists l r, NoDup (c_methods l) /\ c_pool l = c_pool r /\ c_methods l = mkmember 1 7 8 [] true :: c_methods r /\
  run_diff strict l r = Ok 0 /\ ~ class_ok no_fmt strict tool_resolved l r.
Proof.
  exists c_twice, (mkclass (52, 0) (c_pool c_twice) 33 2 15 [] [] (tl (c_methods c_twice)) []).
  split. { constructor; [|constructor; [intros []|constructor]]. cbn. intros [H|[]]. discriminate. }
  split; [reflexivity|]. split; [reflexivity|]. split; [vm_compute; reflexivity|]. intros (_ & _ & _ & _ & (ls' & HP & HF)).
  apply Permutation_length in HP. cbn [c_methods tl c_twice] in HP, HF. inversion HF as [|? ? ? ? _ HF']; subst. inversion HF'; subst. discriminate.
Qed.
Print Assumptions C66_dropped_refuted.
(** Attributes that are never compared: other bootstrap methods (so other lambda
    bodies), another source file, becoming deprecated. *)
Theorem C66_attributes_refuted : exists l r r', c_attrs l = [] /\
  get_attribute (c_attrs r) (lit "BootstrapMethods") <> get_attribute (c_attrs l) (lit "BootstrapMethods") /\ run_diff strict l r = Ok 0 /\
  get_attribute (c_attrs r') (lit "Deprecated") <> get_attribute (c_attrs l) (lit "Deprecated") /\ run_diff strict l r' = Ok 0.
Proof.
  exists c_left, (mkclass (52, 0) p_left 33 2 15 [15] (c_fields c_left) (c_methods c_left) [(PStr (lit "BootstrapMethods"), [0; 1; 0; 2; 0; 0])]),
    (mkclass (52, 0) p_left 33 2 15 [15] (c_fields c_left) (c_methods c_left) [(PStr (lit "Deprecated"), [])]).
  split; [reflexivity|]. split; [discriminate|]. split; [vm_compute; reflexivity|]. split; [discriminate|]. vm_compute. reflexivity.
Qed.
Print Assumptions C66_attributes_refuted.

(** ** C67 *)
Theorem C67_renumbered_partial : forall fmt reprs ffmt o l r,
  distinct_ids fmt (c_pool l) (c_fields l) -> distinct_ids fmt (c_pool l) (c_methods l) ->
  distinct_ids fmt (c_pool r) (c_fields r) -> distinct_ids fmt (c_pool r) (c_methods r) ->
  same_class fmt tool_resolved l r -> ignore_pool o = true -> listable (c_pool l) -> listable (c_pool r) ->
  classdiff fmt reprs ffmt o l r = Ok 0.
Proof.
  intros fmt reprs ffmt o l r LF LM RF RM H HO L1 L2. apply classdiff_iff. apply class_passes_complete; try assumption. apply same_class_ok; [exact H|]. right. now repeat split.
Qed.
Print Assumptions C67_renumbered_partial.
(** Without the option, another pool is always reported. *)
Theorem C67_reported : forall fmt reprs ffmt o l r, ignore_pool o = false -> ~ same_pool (c_pool l) (c_pool r) ->
  classdiff fmt reprs ffmt o l r <> Ok 0.
Proof.
  intros fmt reprs ffmt o l r HO HP H. apply classdiff_iff in H. apply passes_class in H as (_ & _ & [H|[H _]] & _); [contradiction|congruence].
Qed.
Print Assumptions C67_reported.
Example C67_ex : same_class no_fmt tool_resolved c_left c_right /\ listable p_left /\ listable p_right /\ ~ same_pool p_left p_right.
Proof.
  assert (E : run_diff lax_pool c_left c_right = Ok 0) by (vm_compute; reflexivity).
  assert (HP : class_ok no_fmt lax_pool tool_resolved c_left c_right) by (apply (C66_exit_partial no_fmt no_repr no_fmt); [apply ids_left|apply ids_left|exact E]).
  assert (NP : ~ same_pool p_left p_right) by (intro H; inversion H as [|? ? ? ? _ H1]; subst; inversion H1 as [|? ? ? ? H2 _]; subst; discriminate).
  destruct HP as (H1 & H2 & H3 & H4 & H5). split; [|destruct H3 as [H3|(_ & H3 & H3')]; [contradiction|now repeat split]]. split; [|split; [exact H2|split]].
  - destruct H1 as (A1 & [A2|[[A2 _]|[A2 _]]] & A3 & A4 & A5 & [A6|A6] & A7); try discriminate. now repeat split.
  - eapply same_members_impl; [|exact H4]. intros x y (A1 & A2 & A3 & A4 & A5 & A6 & [A7|A7]); [|discriminate]. repeat (split; [assumption|]). assumption.
  - eapply same_members_impl; [|exact H5]. intros x y (A1 & A2 & A3 & A4 & A5 & A6 & A7 & [A8|A8] & A9); [|discriminate]. repeat (split; [assumption|]).
    eapply agree_impl; [|exact A9]. intros a b. apply opt_rel_impl. intros k k' (B1 & B2). split; [|exact B2]. eapply agree_impl; [|exact B1]. intros t t' [[C|C] _]; [exact C|discriminate].
Qed.
(** A dynamically computed constant (tag 17): comparing with a renumbered pool raises. *)
Theorem C67_dynamic_refuted : exists l r, same_class no_fmt tool_resolved l r /\ run_diff lax_pool l r = Err UnknownConstantPoolTag.
Proof.
  exists (mkclass (52, 0) [KNone; KUtf8 (lit "A"); KRef 7 1; KUtf8 (lit "x"); KUtf8 (lit "I"); KRef2 12 3 4; KRef2 17 0 5] 33 2 0 [] [] [] []),
    (mkclass (52, 0) [KNone; KUtf8 (lit "A"); KUtf8 (lit "x"); KUtf8 (lit "I"); KRef2 12 2 3; KRef2 17 0 4; KRef 7 1] 33 6 0 [] [] [] []).
  split; [|vm_compute; reflexivity]. split; [|split; [|split]].
  - assert (HP : forall v, py_eq v v = true -> agree pyeq (Ok v) (Ok v)) by (intros v H; exists v, v; now repeat split).
    split; [apply (HP (PStr (lit "A"))); reflexivity|]. split; [reflexivity|]. split; [apply (HP (PStr [])); reflexivity|].
    split; [exists [], []; repeat split; intros x []|]. split; [reflexivity|]. split; [reflexivity|]. exists None, None. repeat split. constructor.
  - split; eexists _, _; (split; [vm_compute; reflexivity|]); (split; [vm_compute; reflexivity|]); constructor.
  - exists []. split; constructor.
  - exists []. split; constructor.
Qed.
Print Assumptions C67_dynamic_refuted.

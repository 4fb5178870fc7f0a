(** Properties C98-C102: the HTML page of a class comparison. *)
From Verif Require Import Base Pack_Model ConstPool_Model ConstPool_Spec ConstPool_Proofs ClassFile_Model Descr_Model Descr_Spec Descr_Proofs Opcodes_Model Opcodes_Spec Anno_Model
  Change_Model Change_Spec Change_Proofs Change_Report Classdiff_Model Classdiff_Spec Classdiff_Members Classdiff_Code Classdiff_Class Classdiff_Merge Info_Model Info_Spec Print_Model Print_Spec Print_Code Print_Decl Report_Model
  Html_Model Html_Spec Html_Table Html_Page Html_Members Html_Values Html_Class Html_Pool Html_Heads Html_Wf Html_Pages P_Classdiff.
From Coq Require Import Permutation.
From Verif Require P_Print ClassFile_Proofs Anno_Proofs.

(** ** Example data *)
Definition e_none : page_env := mkenv [] [] [] true.
Definition h_repr (v : pyval) : str := [].
Definition h_page (l r : classinfo) : res (list html) := class_html no_fmt h_repr no_repr no_fmt e_none strict l r.
(** c_left with: final; f now private; h instead of g; other code in m(int); n(long)
    instead of m(long) *)
Definition p_h : pool := p_left ++ [KUtf8 (lit "n"); KUtf8 (lit "h")].
Definition a_h : member := mkmember 1 7 8 [(PStr (lit "Code"), code_attr [4; 87; 177] 15 11 [(0, 20); (1, 23)])] true.
Definition c_h : classinfo := mkclass (52, 0) p_h 49 2 15 [15] [mkmember 2 3 4 [] false; mkmember 1 17 4 [] false] [a_h; mkmember 1025 16 9 [] true] [].
Definition a_left : member := mkmember 1 7 8 [(PStr (lit "Code"), code_attr [18; 13; 87; 177] 15 11 [(0, 10); (2, 11)])] true.
Lemma ids_h : distinct_ids no_fmt (c_pool c_h) (c_fields c_h) /\ distinct_ids no_fmt (c_pool c_h) (c_methods c_h).
Proof. split; [apply distinct_by with [PStr (lit "f"); PStr (lit "h")]|apply distinct_by with [PStr (lit "m(I)"); PStr (lit "n(J)")]]; vm_compute; reflexivity. Qed.
Lemma page_ok l r : match h_page l r with Ok _ => true | Err _ => false end = true -> exists page, h_page l r = Ok page.
Proof. destruct (h_page l r) as [p|]; [now exists p|discriminate]. Qed.
Lemma h_page_ok : exists page, h_page c_left c_h = Ok page.
Proof. apply page_ok. vm_compute. reflexivity. Qed.
Lemma m_left : is_method_of p_left a_left (lit "m") [TPrim PInt_] None.
Proof. constructor; try (vm_compute; reflexivity). cbn. intros [H|[]]. discriminate. Qed.
Lemma m_right : is_method_of p_h a_h (lit "m") [TPrim PInt_] None.
Proof. constructor; try (vm_compute; reflexivity). cbn. intros [H|[]]. discriminate. Qed.
Lemma usual_by k : match disassemble_all (k_code k) with Ok dl => forallb usual_code dl | Err _ => true end = true -> usual_codes (Some k).
Proof. intros H k' dl E D. injection E as <-. now rewrite D in H. Qed.
Lemma same_by l r a b (k : str) : get_identifier no_fmt l a = Ok (PStr k) -> get_identifier no_fmt r b = Ok (PStr k) -> same_identity no_fmt l r a b.
Proof. intros H1 H2. exists (PStr k), (PStr k). split; [exact H1|]. split; [exact H2|]. unfold pyeq. cbn [py_eq]. apply seqb_refl. Qed.

(** ** C98 *)

(** A method whose code has changed, or is written differently: a table of both, by
    relative line. *)
Theorem C98_changed_partial : forall fmt repr reprs ffmt e o l r page a b n args ret lc rc,
  class_html fmt repr reprs ffmt e o l r = Ok page -> distinct_ids fmt (c_pool l) (c_methods l) -> distinct_ids fmt (c_pool r) (c_methods r) ->
  In a (c_methods l) -> In b (c_methods r) -> same_identity fmt (c_pool l) (c_pool r) a b -> is_method_of (c_pool l) a n args ret ->
  get_code (c_pool l) a = Ok lc -> get_code (c_pool r) b = Ok rc -> usual_codes lc -> usual_codes rc -> differ (c_pool l) (c_pool r) lc rc ->
  exists h ll rl d, within h page /\ section h (esc (method_shown n args ret)) /\ code_lines lc = Ok ll /\ code_lines rc = Ok rl /\ merges ll rl d /\
    shows_table h 9 (dual_grid_head ++ flat_map line_grid d) /\
    (forall i, NoDup (relative_lines ll) -> In i (concat (map snd ll)) -> exists rel line right, In (dec rel :: (dec line :: op_row i) ++ right) (flat_map line_grid d)) /\
    (forall i, NoDup (relative_lines rl) -> In i (concat (map snd rl)) -> exists rel line left, In (dec rel :: left ++ dec line :: op_row i) (flat_map line_grid d) /\ length left = 4%nat).
Proof.
  intros fmt repr reprs ffmt e o l r page a b n args ret lc rc H DL DR Ha Hb S M GL GR UL UR D. destruct (code_page _ _ _ _ _ _ _ _ _ _ _ _ _ _ _ _ H DL DR Ha Hb S M GL GR UL UR D) as (h & ll & rl & d & W & SE & L1 & L2 & L3 & L4).
  exists h, ll, rl, d. do 6 (split; [assumption|]). split.
  - intros i ND HI. destruct (left_row _ _ _ _ L3 ND HI) as (rel & line & right & X & _). now exists rel, line, right.
  - intros i ND HI. exact (right_row _ _ _ _ L3 ND HI).
Qed.
Print Assumptions C98_changed_partial.
Example C98_changed_ex : exists page lc rc ll, h_page c_left c_h = Ok page /\ distinct_ids no_fmt (c_pool c_left) (c_methods c_left) /\ distinct_ids no_fmt (c_pool c_h) (c_methods c_h) /\
  In a_left (c_methods c_left) /\ In a_h (c_methods c_h) /\ same_identity no_fmt (c_pool c_left) (c_pool c_h) a_left a_h /\
  get_code (c_pool c_left) a_left = Ok (Some lc) /\ get_code (c_pool c_h) a_h = Ok (Some rc) /\ usual_codes (Some lc) /\ usual_codes (Some rc) /\ differ (c_pool c_left) (c_pool c_h) (Some lc) (Some rc) /\
  code_lines (Some lc) = Ok ll /\ NoDup (relative_lines ll) /\ length ll = 2%nat.
Proof.
  destruct h_page_ok as (page & P). exists page. eexists _, _, _. split; [exact P|]. split; [apply ids_left|]. split; [apply ids_h|]. split; [now left|]. split; [now left|]. split; [apply same_by with (lit "m(I)"); vm_compute; reflexivity|].
  split; [vm_compute; reflexivity|]. split; [vm_compute; reflexivity|]. split; [apply usual_by; vm_compute; reflexivity|]. split; [apply usual_by; vm_compute; reflexivity|].
  split; [right; vm_compute; discriminate|]. split; [vm_compute; reflexivity|]. split; [|reflexivity]. constructor; [|constructor; [intros []|constructor]]. cbn. intros [H|[]]. discriminate.
Qed.

(** Otherwise the code, once. *)
Theorem C98_unchanged_partial : forall fmt repr reprs ffmt e o l r page a b n args ret k k' ll,
  class_html fmt repr reprs ffmt e o l r = Ok page -> distinct_ids fmt (c_pool l) (c_methods l) -> distinct_ids fmt (c_pool r) (c_methods r) ->
  In a (c_methods l) -> In b (c_methods r) -> same_identity fmt (c_pool l) (c_pool r) a b -> is_method_of (c_pool l) a n args ret ->
  get_code (c_pool l) a = Ok (Some k) -> get_code (c_pool r) b = Ok (Some k') -> usual_codes (Some k) -> same_code tool_resolved (c_pool l) (c_pool r) k k' -> k_code k = k_code k' -> code_lines (Some k) = Ok ll ->
  exists h, within h page /\ section h (esc (method_shown n args ret)) /\ shows_table h 5 (single_grid_head ++ flat_map single_grid ll) /\
    (forall dl, disassemble_all (k_code k) = Ok dl -> concat (map snd ll) = dl).
Proof.
  intros fmt repr reprs ffmt e o l r page a b n args ret k k' ll H DL DR Ha Hb S M GL GR UL SC EB EL. destruct (code_page_same _ _ _ _ _ _ _ _ _ _ _ _ _ _ _ _ _ H DL DR Ha Hb S M GL GR UL SC EB EL) as (h & W & SE & T).
  exists h. do 3 (split; [assumption|]). intros dl D. destruct (code_lines_all _ _ EL) as (dis & D1 & D2). congruence.
Qed.
Print Assumptions C98_unchanged_partial.
Example C98_unchanged_ex : exists page k ll, h_page c_left c_left = Ok page /\ get_code (c_pool c_left) a_left = Ok (Some k) /\ same_code tool_resolved (c_pool c_left) (c_pool c_left) k k /\ usual_codes (Some k) /\ code_lines (Some k) = Ok ll /\ length ll = 2%nat.
Proof.
  destruct (page_ok c_left c_left) as (page & P); [vm_compute; reflexivity|]. exists page. eexists _, _. split; [exact P|]. split; [vm_compute; reflexivity|]. split.
  { match goal with |- same_code _ _ _ ?k ?k => assert (Q : quiet (method_code no_fmt no_repr p_left p_left (Some k) (Some k))) by (eexists; split; vm_compute; reflexivity) end. apply quiet_method_code in Q. now inversion Q. }
  split; [apply usual_by; vm_compute; reflexivity|]. split; [vm_compute; reflexivity|reflexivity].
Qed.

(** In a method with a loop a line comes twice: the instructions of its first visit
    (here iconst_1 and iconst_2, of line 7) are nowhere on the page. *)
Definition loop_attr (bc : bytes) : attrs := [(PStr (lit "Code"), code_attr bc 15 11 [(0, 7); (2, 8); (3, 7)])].
Definition says (s : String.string) (t : html) : bool := match t with Chars x => seqb x (lit s) | _ => false end.
Definition with_method (m : member) : classinfo := mkclass (52, 0) p_left 33 2 15 [] [] [m] [].
Theorem C98_loop_refuted : exists l r a b lc dl page, In a (c_methods l) /\ In b (c_methods r) /\ get_code (c_pool l) a = Ok (Some lc) /\ disassemble_all (k_code lc) = Ok dl /\
  existsb (fun i => i_code i =? 5) dl = true /\ jvm_name 5 = Some (lit "iconst_2") /\ h_page l r = Ok page /\ existsb (says "iconst_2") page = false.
Proof.
  exists (with_method (mkmember 1 7 8 (loop_attr [4; 5; 6; 177]) true)), (with_method (mkmember 1 7 8 (loop_attr [4; 5; 7; 177]) true)). eexists _, _, _, _.
  destruct (page_ok (with_method (mkmember 1 7 8 (loop_attr [4; 5; 6; 177]) true)) (with_method (mkmember 1 7 8 (loop_attr [4; 5; 7; 177]) true))) as (page & P); [vm_compute; reflexivity|].
  exists page. split; [now left|]. split; [now left|]. split; [vm_compute; reflexivity|]. split; [vm_compute; reflexivity|]. split; [vm_compute; reflexivity|]. split; [vm_compute; reflexivity|]. split; [exact P|].
  assert (Q : match h_page (with_method (mkmember 1 7 8 (loop_attr [4; 5; 6; 177]) true)) (with_method (mkmember 1 7 8 (loop_attr [4; 5; 7; 177]) true)) with Ok p => negb (existsb (says "iconst_2") p) | Err _ => false end = true) by (vm_compute; reflexivity).
  rewrite P in Q. now destruct (existsb _ page).
Qed.
Print Assumptions C98_loop_refuted.
(** Handlers of exceptions and line tables are compared, but not shown: changes to the
    one and the other give the same page. *)
Definition catching (c : Z) : classinfo := with_method (mkmember 1 7 8 [(PStr (lit "Code"), code_attr [4; 87; 177] c 11 [(0, 7)])] true).
Theorem C98_hidden_refuted : exists l r r' page, h_page l r = Ok page /\ h_page l r' = Ok page /\
  c_methods r <> c_methods r' /\ (exists c, check (class_change no_fmt no_repr no_fmt r r') = Ok c /\ is_change c = true).
Proof.
  exists (catching 15), (catching 0), (catching 2). destruct (page_ok (catching 15) (catching 0)) as (page & P); [vm_compute; reflexivity|]. exists page. split; [exact P|].
  split; [rewrite <- P; vm_compute; reflexivity|]. split; [vm_compute; discriminate|]. eexists. split; [vm_compute; reflexivity|reflexivity].
Qed.
Print Assumptions C98_hidden_refuted.

(** ** C99 *)

(** The values of a method on both sides *)
Definition method_rows (lp rp : pool) (a b : member) n args ret sig ex n' args' ret' sig' ex' (grid : list (list str)) : Prop :=
  exists lc rc r1 r2 r3 r4 r5 r6 r7 r8, get_code lp a = Ok lc /\ get_code rp b = Ok rc /\
     value_rows "Method Name" (n = n') True (esc n) (esc n') r1 /\
     value_rows "Return Type" (ret = ret') True (ret_name ret) (ret_name ret') r2 /\
     value_rows "Argument Types" (args = args') True (parens (map type_name args)) (parens (map type_name args')) r3 /\
     value_rows "Method Flags" (m_flags a = m_flags b) True (flags_shown Print_Spec.method_table (m_flags a)) (flags_shown Print_Spec.method_table (m_flags b)) r4 /\
     value_rows "Generics Signature" (sig = sig') (has_text sig) (sig_shown sig) (sig_shown sig') r5 /\
     value_rows "Exceptions" (ex = ex') (ex <> []) (parens (map dotted ex)) (parens (map dotted ex')) r6 /\
     value_rows "Abstract" (no_code lc = no_code rc) (no_code lc = true) (truth (no_code lc)) (truth (no_code rc)) r7 /\
     value_rows "Deprecated" (is_deprecated (m_attrs a) = is_deprecated (m_attrs b)) (is_deprecated (m_attrs a) = true)
       (truth (is_deprecated (m_attrs a))) (truth (is_deprecated (m_attrs b))) r8 /\
     grid = r1 ++ r2 ++ r3 ++ r4 ++ r5 ++ r6 ++ r7 ++ r8.
Theorem C99_method : forall fmt repr reprs ffmt e o l r page a b n args ret sig ex n' args' ret' sig' ex',
  class_html fmt repr reprs ffmt e o l r = Ok page -> distinct_ids fmt (c_pool l) (c_methods l) -> distinct_ids fmt (c_pool r) (c_methods r) ->
  In a (c_methods l) -> In b (c_methods r) -> same_identity fmt (c_pool l) (c_pool r) a b ->
  known_method (c_pool l) a n args ret sig ex -> known_method (c_pool r) b n' args' ret' sig' ex' ->
  exists h grid, within h page /\ section h (esc (method_shown n args ret)) /\ shows_table h 2 grid /\
    method_rows (c_pool l) (c_pool r) a b n args ret sig ex n' args' ret' sig' ex' grid.
Proof.
  intros fmt repr reprs ffmt e o l r page a b n args ret sig ex n' args' ret' sig' ex' H DL DR Ha Hb S KL KR. destruct (pair_page _ _ _ _ _ _ _ _ _ _ _ H DL DR Ha Hb S) as (c & h & C & HH & W).
  destruct (method_page _ _ _ _ _ _ _ _ _ _ _ _ _ _ _ _ _ _ _ C HH KL KR) as (lc & rc & G1 & G2 & _ & r1 & r2 & r3 & r4 & r5 & r6 & r7 & r8 & V).
  exists h, (r1 ++ r2 ++ r3 ++ r4 ++ r5 ++ r6 ++ r7 ++ r8). split; [exact W|]. split; [eapply method_section; [exact HH|exact (heading_of _ _ _ _ _ _ (km_method _ _ _ _ _ _ _ KL))]|]. split; [apply V|].
  exists lc, rc, r1, r2, r3, r4, r5, r6, r7, r8. split; [exact G1|]. split; [exact G2|]. destruct V as (V1 & V2 & V3 & V4 & V5 & V6 & V7 & V8 & _). repeat (split; [assumption|]). reflexivity.
Qed.
Print Assumptions C99_method.
Lemma bits1 : only_bits method_bits 1.
Proof. apply P_Print.bits_ok; [lia|vm_compute; reflexivity]. Qed.
Example C99_method_ex : known_method (c_pool c_left) a_left (lit "m") [TPrim PInt_] None None [] /\ known_method (c_pool c_h) a_h (lit "m") [TPrim PInt_] None None [].
Proof. split; constructor; [exact m_left|exact bits1|vm_compute; reflexivity|vm_compute; reflexivity|exact m_right|exact bits1|vm_compute; reflexivity|vm_compute; reflexivity]. Qed.

(** Methods added and removed *)
Definition headed (h : list html) (s : str) (what : String.string) : Prop :=
  section h s /\ within [Open (lit "h3") []; Chars s; Close (lit "h3"); Open (lit "div") (class_is "description"); Chars (lit what)] h.
Theorem C99_added : forall fmt repr reprs ffmt e o l r page b n args ret sig ex,
  class_html fmt repr reprs ffmt e o l r = Ok page -> distinct_ids fmt (c_pool l) (c_methods l) ->
  In b (c_methods r) -> (forall a, In a (c_methods l) -> ~ same_identity fmt (c_pool l) (c_pool r) a b) -> known_method (c_pool r) b n args ret sig ex ->
  exists h grid, within h page /\ headed h (esc (method_shown n args ret)) "Method Added" /\ shows_table h 2 grid /\ alone_rows (c_pool r) b n args ret sig ex grid.
Proof.
  intros fmt repr reprs ffmt e o l r page b n args ret sig ex H DL Hb N K. destruct (page_method _ _ _ _ _ _ _ _ _ H) as (evs & E & G). destruct (G _ (added_event _ _ _ _ _ _ _ E DL Hb N)) as (c & h & _ & G2 & G3).
  destruct (added_page _ _ _ _ _ _ _ _ _ _ _ G2 K) as (P1 & grid & P2 & P3). exists h, grid. split; [exact G3|]. split; [split; [eapply added_section; [exact G2|exact (heading_of _ _ _ _ _ _ (km_method _ _ _ _ _ _ _ K))]|exact P1]|]. now split.
Qed.
Print Assumptions C99_added.
Theorem C99_removed : forall fmt repr reprs ffmt e o l r page a n args ret sig ex,
  class_html fmt repr reprs ffmt e o l r = Ok page -> distinct_ids fmt (c_pool l) (c_methods l) ->
  In a (c_methods l) -> (forall b, In b (c_methods r) -> ~ same_identity fmt (c_pool l) (c_pool r) a b) -> known_method (c_pool l) a n args ret sig ex ->
  exists h grid, within h page /\ headed h (esc (method_shown n args ret)) "Method Removed" /\ shows_table h 2 grid /\ alone_rows (c_pool l) a n args ret sig ex grid.
Proof.
  intros fmt repr reprs ffmt e o l r page a n args ret sig ex H DL Ha N K. destruct (page_method _ _ _ _ _ _ _ _ _ H) as (evs & E & G). destruct (G _ (removed_event _ _ _ _ _ _ _ E DL Ha N)) as (c & h & _ & G2 & G3).
  destruct (removed_page _ _ _ _ _ _ _ _ _ _ _ G2 K) as (P1 & grid & P2 & P3). exists h, grid. split; [exact G3|]. split; [split; [eapply removed_section; [exact G2|exact (heading_of _ _ _ _ _ _ (km_method _ _ _ _ _ _ _ K))]|exact P1]|]. now split.
Qed.
Print Assumptions C99_removed.
Lemma no_same l r a b (k k' : str) : get_identifier no_fmt l a = Ok (PStr k) -> get_identifier no_fmt r b = Ok (PStr k') -> seqb k k' = false -> ~ same_identity no_fmt l r a b.
Proof. intros H1 H2 N (x & y & E1 & E2 & E). rewrite H1 in E1. rewrite H2 in E2. injection E1 as <-. injection E2 as <-. unfold pyeq in E. cbn [py_eq] in E. congruence. Qed.
Example C99_added_ex : In (mkmember 1025 16 9 [] true) (c_methods c_h) /\ (forall a, In a (c_methods c_left) -> ~ same_identity no_fmt (c_pool c_left) (c_pool c_h) a (mkmember 1025 16 9 [] true)) /\
  known_method (c_pool c_h) (mkmember 1025 16 9 [] true) (lit "n") [TPrim PLong] None None [].
Proof.
  split; [right; now left|]. split.
  - intros a [<-|[<-|[]]]; eapply no_same; vm_compute; reflexivity.
  - constructor; [constructor; try (vm_compute; reflexivity); cbn; intros [H|[]]; discriminate|apply P_Print.bits_ok; [cbn; lia|vm_compute; reflexivity]|vm_compute; reflexivity..].
Qed.
Example C99_removed_ex : In (mkmember 1025 7 9 [] true) (c_methods c_left) /\ (forall b, In b (c_methods c_h) -> ~ same_identity no_fmt (c_pool c_left) (c_pool c_h) (mkmember 1025 7 9 [] true) b).
Proof. split; [right; now left|]. intros b [<-|[<-|[]]]; eapply no_same; vm_compute; reflexivity. Qed.
(** Fields added (or removed) are not named: the page is the same whichever it is. *)
Definition with_field (i : Z) : classinfo := mkclass (52, 0) p_left 33 2 15 [] (if i =? 0 then [] else [mkmember 1 i 4 [] false]) [] [].
Theorem C99_field_refuted : exists l r r' b b' page, c_fields l = [] /\ c_fields r = [b] /\ c_fields r' = [b'] /\
  m_name (c_pool r) b = Ok (PStr (lit "f")) /\ m_name (c_pool r') b' = Ok (PStr (lit "g")) /\ h_page l r = Ok page /\ h_page l r' = Ok page.
Proof.
  exists (with_field 0), (with_field 3), (with_field 5). eexists _, _. destruct (page_ok (with_field 0) (with_field 3)) as (page & P); [vm_compute; reflexivity|]. exists page.
  do 3 (split; [reflexivity|]). split; [vm_compute; reflexivity|]. split; [vm_compute; reflexivity|]. split; [exact P|]. rewrite <- P. vm_compute. reflexivity.
Qed.
Print Assumptions C99_field_refuted.

(** ** C100 *)
Definition class_rows (l r : classinfo) this super ifs sig this' super' ifs' sig' (grid : list (list str)) : Prop :=
  exists r1 r2 r3 r4 r5 r6 r7 r8,
     value_rows "Class Name" (this = this') True (dotted this) (dotted this') r1 /\
     value_rows "Class Flags" (c_flags l = c_flags r) True (class_flags_shown (c_flags l)) (class_flags_shown (c_flags r)) r2 /\
     value_rows "Extends" (super = super') True (dotted super) (dotted super') r3 /\
     value_rows "Implements" (incl ifs ifs' /\ incl ifs' ifs) (ifs <> []) (or_none (commas_sp (map dotted ifs))) (or_none (commas_sp (map dotted ifs'))) r4 /\
     value_rows "Java Version" (c_version l = c_version r) True (version_shown (c_version l)) (version_shown (c_version r)) r5 /\
     value_rows "Java Platform" (platform_from_version (fst (c_version l)) (snd (c_version l)) = platform_from_version (fst (c_version r)) (snd (c_version r))) True
       (opt_text (platform_from_version (fst (c_version l)) (snd (c_version l)))) (opt_text (platform_from_version (fst (c_version r)) (snd (c_version r)))) r6 /\
     value_rows "Generics Signature" (sig = sig') (has_text sig) (sig_shown sig) (sig_shown sig') r7 /\
     value_rows "Deprecated" (is_deprecated (c_attrs l) = is_deprecated (c_attrs r)) (is_deprecated (c_attrs l) = true)
       (truth (is_deprecated (c_attrs l))) (truth (is_deprecated (c_attrs r))) r8 /\
     grid = r1 ++ r2 ++ r3 ++ r4 ++ r5 ++ r6 ++ r7 ++ r8.
Theorem C100_class : forall fmt repr reprs ffmt e o l r page this super ifs sig this' super' ifs' sig',
  class_html fmt repr reprs ffmt e o l r = Ok page -> known_class l this super ifs sig -> known_class r this' super' ifs' sig' ->
  exists grid, shows_table page 2 grid /\ class_rows l r this super ifs sig this' super' ifs' sig' grid.
Proof.
  intros fmt repr reprs ffmt e o l r page this super ifs sig this' super' ifs' sig' H KL KR. destruct (class_parts _ _ _ _ _ _ _ _ _ H) as (i & va & ia & po & fs & ms & n & _ & P & _).
  destruct (pp_info_ok _ _ _ _ _ _ _ _ _ _ _ _ _ _ P) as (c & C & HH). destruct (class_page _ _ _ _ _ _ _ _ _ _ _ _ _ _ _ C HH KL KR) as (r1 & r2 & r3 & r4 & r5 & r6 & r7 & r8 & V1 & V2 & V3 & V4 & V5 & V6 & V7 & V8 & V).
  exists (r1 ++ r2 ++ r3 ++ r4 ++ r5 ++ r6 ++ r7 ++ r8). split; [eapply shows_within; [apply (pp_info _ _ _ _ _ _ _ _ _ _ _ _ _ _ P)|exact V]|]. exists r1, r2, r3, r4, r5, r6, r7, r8. repeat (split; [assumption|]). reflexivity.
Qed.
Print Assumptions C100_class.
Example C100_class_ex : known_class c_left (lit "A") (lit "B") [lit "B"] None /\ known_class c_h (lit "A") (lit "B") [lit "B"] None /\ c_flags c_left <> c_flags c_h.
Proof. split; [constructor; vm_compute; reflexivity|]. split; [constructor; vm_compute; reflexivity|]. vm_compute. discriminate. Qed.
Theorem C100_field : forall fmt repr reprs ffmt e o l r page a b n t sig cv n' t' sig' cv',
  class_html fmt repr reprs ffmt e o l r = Ok page -> distinct_ids fmt (c_pool l) (c_fields l) -> distinct_ids fmt (c_pool r) (c_fields r) ->
  In a (c_fields l) -> In b (c_fields r) -> same_identity fmt (c_pool l) (c_pool r) a b ->
  known_field (c_pool l) a n t sig cv -> known_field (c_pool r) b n' t' sig' cv' ->
  exists h r1 r2 r3 r4 r5 r6, within h page /\ section h (esc n) /\ shows_table h 2 (r1 ++ r2 ++ r3 ++ r4 ++ r5 ++ r6) /\
     value_rows "Field Name" (n = n') True (esc n) (esc n') r1 /\
     value_rows "Field Type" (t = t') True (type_name t) (type_name t') r2 /\
     value_rows "Field Flags" (m_flags a = m_flags b) True (flags_shown field_table (m_flags a)) (flags_shown field_table (m_flags b)) r3 /\
     value_rows "Generics Signature" (sig = sig') (has_text sig) (sig_shown sig) (sig_shown sig') r4 /\
     value_rows "Const Value" (opt_rel pyeq cv cv') (py_true cv = true) (const_shown repr cv) (const_shown repr cv') r5 /\
     value_rows "Deprecated" (is_deprecated (m_attrs a) = is_deprecated (m_attrs b)) (is_deprecated (m_attrs a) = true)
       (truth (is_deprecated (m_attrs a))) (truth (is_deprecated (m_attrs b))) r6.
Proof.
  intros fmt repr reprs ffmt e o l r page a b n t sig cv n' t' sig' cv' H DL DR Ha Hb S KL KR. destruct (field_pair_page _ _ _ _ _ _ _ _ _ _ _ H DL DR Ha Hb S) as (c & h & C & HH & W).
  destruct (field_page _ _ _ _ _ _ _ _ _ _ _ _ _ _ _ _ _ _ C HH KL KR) as (_ & r1 & r2 & r3 & r4 & r5 & r6 & V1 & V2 & V3 & V4 & V5 & V6 & V).
  exists h, r1, r2, r3, r4, r5, r6. split; [exact W|]. split; [eapply field_section; [exact HH|exact (kf_name _ _ _ _ _ _ KL)]|]. repeat (split; [assumption|]). assumption.
Qed.
Print Assumptions C100_field.
Example C100_field_ex : In (mkmember 1 3 4 [] false) (c_fields c_left) /\ In (mkmember 2 3 4 [] false) (c_fields c_h) /\ same_identity no_fmt p_left p_h (mkmember 1 3 4 [] false) (mkmember 2 3 4 [] false) /\
  known_field p_left (mkmember 1 3 4 [] false) (lit "f") (TPrim PInt_) None None /\ known_field p_h (mkmember 2 3 4 [] false) (lit "f") (TPrim PInt_) None None.
Proof.
  split; [now left|]. split; [now left|]. split; [apply same_by with (lit "f"); vm_compute; reflexivity|].
  split; constructor; try (vm_compute; reflexivity); apply P_Print.bits_ok; try (vm_compute; reflexivity); cbn; lia.
Qed.
(** A constant of value 0, e.g. final int f = 0, is not listed; and the names of classes
    and types, and what annotations say, are written without escaping: a class may be
    named A<b>, which then is markup. *)
Definition raw (t : html) : bool := match t with Chars s => existsb (fun c => c =? 60) s | _ => false end.
Definition odd_class : classinfo := mkclass (52, 0) [KNone; KUtf8 (lit "A<b>"); KRef 7 1] 33 2 2 [] [] [] [].
Theorem C100_escape_refuted : exists l page, get_this l = Ok (PStr (lit "A<b>")) /\ h_page l l = Ok page /\ existsb raw page = true.
Proof.
  exists odd_class. destruct (page_ok odd_class odd_class) as (page & P); [vm_compute; reflexivity|]. exists page. split; [vm_compute; reflexivity|]. split; [exact P|].
  assert (Q : match h_page odd_class odd_class with Ok p => existsb raw p | Err _ => false end = true) by (vm_compute; reflexivity). now rewrite P in Q.
Qed.
Print Assumptions C100_escape_refuted.
Definition zero_class : classinfo := mkclass (52, 0) [KNone; KUtf8 (lit "A"); KRef 7 1; KUtf8 (lit "f"); KUtf8 (lit "I"); KUtf8 (lit "ConstantValue"); KInt 0] 33 2 2 [] [mkmember 25 3 4 [(PStr (lit "ConstantValue"), [0; 6])] false] [] [].
Theorem C100_zero_refuted : exists l a page, c_fields l = [a] /\ deref_constantvalue (c_pool l) a = Ok (Some (PInt 0)) /\ h_page l l = Ok page /\ existsb (says "Const Value") page = false.
Proof.
  exists zero_class. eexists. destruct (page_ok zero_class zero_class) as (page & P); [vm_compute; reflexivity|]. exists page. split; [reflexivity|]. split; [vm_compute; reflexivity|]. split; [exact P|].
  assert (Q : match h_page zero_class zero_class with Ok p => negb (existsb (says "Const Value") p) | Err _ => false end = true) by (vm_compute; reflexivity). rewrite P in Q. now destruct (existsb _ page).
Qed.
Print Assumptions C100_zero_refuted.

(** ** C101 *)
Definition tool_text (reprs : str -> str) (ffmt : pyval -> str) : jconst -> str * str := const_text reprs (fun b => ffmt (PF32 b)) (fun b => ffmt (PF64 b)).
(** Pools that differ: every index has its row; the rows are these if the pools have one size *)
Theorem C101_changed_partial : forall fmt repr reprs ffmt e o l r page jl jr, class_html fmt repr reprs ffmt e o l r = Ok page ->
  pool_shows jl (c_pool l) -> pool_shows jr (c_pool r) -> ~ same_pool (c_pool l) (c_pool r) -> no_zero jl -> no_zero jr ->
  exists rows, shows_table page 5 (dual_const_head :: rows) /\
  (forall i, 1 <= i <= Z.max (jslots jl) (jslots jr) -> In (const_row (tool_text reprs ffmt) jl jr i) rows) /\
  (jslots jl = jslots jr -> rows = map (const_row (tool_text reprs ffmt) jl jr) (count_up 1 (Z.to_nat (jslots jl)))).
Proof.
  intros fmt repr reprs ffmt e o l r page jl jr H PL PR D ZL ZR. destruct (class_parts _ _ _ _ _ _ _ _ _ H) as (i & va & ia & po & fs & ms & n & _ & P & _). destruct (pp_po_ok _ _ _ _ _ _ _ _ _ _ _ _ _ _ P) as (c & C & HH).
  destruct (pool_page _ _ _ _ _ _ _ _ _ HH (proj2 (changed_iff _ _ _ C (quiet_pool _ _ _ _)) D) PL PR ZL ZR) as (rows & T & R1 & R2). exists rows. split; [eapply shows_within; [apply (pp_po _ _ _ _ _ _ _ _ _ _ _ _ _ _ P)|exact T]|]. now split.
Qed.
Print Assumptions C101_changed_partial.
Definition j_left : list jconst := [JUtf8 (lit "A"); JClass 1; JUtf8 (lit "f"); JUtf8 (lit "I"); JUtf8 (lit "g"); JUtf8 (lit "J");
  JUtf8 (lit "m"); JUtf8 (lit "(I)V"); JUtf8 (lit "(J)V"); JUtf8 (lit "Code"); JUtf8 (lit "LineNumberTable"); JUtf8 (lit "hello"); JString 12; JUtf8 (lit "B"); JClass 14].
Lemma zero_by l : forallb (fun k => negb (zero_const k)) l = true -> no_zero l.
Proof.
  intros H i k. unfold jat. generalize 1. induction l as [|c l IH]; intros b E; [discriminate|]. cbn [jat_from] in E. cbn [forallb] in H. apply andb_prop in H as [H1 H2]. destruct (i =? b); [injection E as <-; now destruct (zero_const c)|]. exact (IH H2 _ E).
Qed.
Example C101_changed_ex : exists page, h_page c_left c_h = Ok page /\ pool_shows j_left (c_pool c_left) /\ pool_shows (j_left ++ [JUtf8 (lit "n"); JUtf8 (lit "h")]) (c_pool c_h) /\ ~ same_pool (c_pool c_left) (c_pool c_h) /\ no_zero j_left /\ no_zero (j_left ++ [JUtf8 (lit "n"); JUtf8 (lit "h")]).
Proof.
  destruct h_page_ok as (page & P). exists page. split; [exact P|]. split; [apply (ClassFile_Proofs.pool_shows_parsed j_left)|]. split; [exact (ClassFile_Proofs.pool_shows_parsed (j_left ++ [JUtf8 (lit "n"); JUtf8 (lit "h")]))|]. split; [intro H; apply Anno_Proofs.Forall2_length in H; discriminate|]. split; apply zero_by; vm_compute; reflexivity.
Qed.
Theorem C101_unchanged : forall fmt repr reprs ffmt e o l r page jl, class_html fmt repr reprs ffmt e o l r = Ok page ->
  pool_shows jl (c_pool l) -> same_pool (c_pool l) (c_pool r) -> shows_table page 3 (const_head :: const_rows (tool_text reprs ffmt) 1 jl).
Proof.
  intros fmt repr reprs ffmt e o l r page jl H PL S. destruct (class_parts _ _ _ _ _ _ _ _ _ H) as (i & va & ia & po & fs & ms & n & _ & P & _). destruct (pp_po_ok _ _ _ _ _ _ _ _ _ _ _ _ _ _ P) as (c & C & HH).
  eapply shows_within; [apply (pp_po _ _ _ _ _ _ _ _ _ _ _ _ _ _ P)|]. apply (pool_alone _ _ _ _ _ _ _ _ HH); [|exact PL]. destruct (is_change c) eqn:Q; [|reflexivity]. exfalso. now apply (proj1 (changed_iff _ _ _ C (quiet_pool _ _ _ _)) Q).
Qed.
Print Assumptions C101_unchanged.
Example C101_unchanged_ex : exists page, h_page c_left c_left = Ok page /\ pool_shows j_left (c_pool c_left) /\ same_pool (c_pool c_left) (c_pool c_left).
Proof.
  destruct (page_ok c_left c_left) as (page & P); [vm_compute; reflexivity|]. exists page. split; [exact P|]. split; [apply (ClassFile_Proofs.pool_shows_parsed j_left)|]. apply (proj1 (quiet_pool no_repr no_fmt c_left c_left)). eexists. split; vm_compute; reflexivity.
Qed.
(** Where pools differ the number 0 is left blank. *)
Definition num_class (z : Z) : classinfo := mkclass (52, 0) [KNone; KUtf8 (lit "A"); KRef 7 1; KInt z] 33 2 2 [] [] [] [].
Theorem C101_zero_refuted : exists l r page, get_const (c_pool l) 3 = Ok (KInt 0) /\ get_const (c_pool r) 3 = Ok (KInt 7) /\ h_page l r = Ok page /\ existsb (says "7") page = true /\ existsb (says "0") page = false.
Proof.
  exists (num_class 0), (num_class 7). destruct (page_ok (num_class 0) (num_class 7)) as (page & P); [vm_compute; reflexivity|]. exists page. split; [reflexivity|]. split; [reflexivity|]. split; [exact P|].
  assert (Q : match h_page (num_class 0) (num_class 7) with Ok p => existsb (says "7") p && negb (existsb (says "0") p) | Err _ => false end = true) by (vm_compute; reflexivity). rewrite P in Q. apply andb_prop in Q as [Q1 Q2]. split; [exact Q1|]. now destruct (existsb (says "0") page).
Qed.
Print Assumptions C101_zero_refuted.

(** ** C102 *)
Theorem C102_partial : forall fmt repr reprs ffmt e o l r page, class_html fmt repr reprs ffmt e o l r = Ok page -> e_nojquery e = true -> same_pool (c_pool l) (c_pool r) ->
  distinct_ids fmt (c_pool l) (c_fields l) -> (forall a b, In a (c_fields l) -> In b (c_fields r) -> ~ same_identity fmt (c_pool l) (c_pool r) a b) -> c_methods r = [] ->
  well_formed page [] = true.
Proof. exact page_wf. Qed.
Print Assumptions C102_partial.
Definition bare_class : classinfo := mkclass (52, 0) p_left 33 2 15 [15] [mkmember 1 3 4 [] false] [] [].
Definition bare_left : classinfo := mkclass (52, 0) p_left 33 2 15 [15] [mkmember 1 5 4 [] false] (c_methods c_left) [].
Example C102_ex : exists page, h_page bare_left bare_class = Ok page /\ same_pool (c_pool bare_left) (c_pool bare_class) /\ distinct_ids no_fmt (c_pool bare_left) (c_fields bare_left) /\
  (forall a b, In a (c_fields bare_left) -> In b (c_fields bare_class) -> ~ same_identity no_fmt (c_pool bare_left) (c_pool bare_class) a b).
Proof.
  destruct (page_ok bare_left bare_class) as (page & P); [vm_compute; reflexivity|]. exists page. split; [exact P|]. split; [apply (proj1 (quiet_pool no_repr no_fmt bare_left bare_class)); eexists; split; vm_compute; reflexivity|].
  split; [apply distinct_by with [PStr (lit "g")]; vm_compute; reflexivity|]. intros a b [<-|[]] [<-|[]]. eapply no_same; vm_compute; reflexivity.
Qed.
(** But never with a method, or a field, that is on both sides. *)
Theorem C102_method_ill : forall fmt repr reprs ffmt e o l r page a b n, class_html fmt repr reprs ffmt e o l r = Ok page -> distinct_ids fmt (c_pool l) (c_methods l) -> distinct_ids fmt (c_pool r) (c_methods r) ->
  In a (c_methods l) -> In b (c_methods r) -> same_identity fmt (c_pool l) (c_pool r) a b -> m_name (c_pool l) a = Ok (PStr n) -> m_name (c_pool r) b = Ok (PStr n) -> well_formed page [] = false.
Proof. exact method_ill. Qed.
Print Assumptions C102_method_ill.
Theorem C102_field_ill : forall fmt repr reprs ffmt e o l r page a b n, class_html fmt repr reprs ffmt e o l r = Ok page -> distinct_ids fmt (c_pool l) (c_fields l) -> distinct_ids fmt (c_pool r) (c_fields r) ->
  In a (c_fields l) -> In b (c_fields r) -> same_identity fmt (c_pool l) (c_pool r) a b -> m_name (c_pool l) a = Ok (PStr n) -> m_name (c_pool r) b = Ok (PStr n) -> well_formed page [] = false.
Proof. exact field_ill. Qed.
Print Assumptions C102_field_ill.
Example C102_ill_ex : exists page, h_page c_left c_h = Ok page /\ m_name p_left a_left = Ok (PStr (lit "m")) /\ m_name p_h a_h = Ok (PStr (lit "m")).
Proof. destruct h_page_ok as (page & P). exists page. split; [exact P|]. split; vm_compute; reflexivity. Qed.
Theorem C102_pair_refuted : exists l r page, h_page l r = Ok page /\ well_formed page [] = false.
Proof.
  exists c_left, c_h. destruct h_page_ok as (page & P). exists page. split; [exact P|].
  assert (Q : match h_page c_left c_h with Ok p => negb (well_formed p []) | Err _ => false end = true) by (vm_compute; reflexivity). rewrite P in Q. now destruct (well_formed page []).
Qed.
Print Assumptions C102_pair_refuted.
(** nor, whatever the classes, with the jquery script, which is the default *)
Lemma twice_ill h t a : In (Open t a) h -> distinct_names a = false -> forall op, well_formed h op = false.
Proof.
  intros H D. induction h as [|x h IH]; [destruct H|]. intro op. destruct H as [->|H].
  - cbn [well_formed]. now rewrite D.
  - specialize (IH H). destruct x; cbn [well_formed]; rewrite ?IH, ?Bool.andb_false_r; try reflexivity. destruct op as [|u op']; [reflexivity|]. now rewrite IH, Bool.andb_false_r.
Qed.
Theorem C102_jquery_ill : forall fmt repr reprs ffmt e o l r page, class_html fmt repr reprs ffmt e o l r = Ok page -> e_nojquery e = false -> well_formed page [] = false.
Proof.
  intros fmt repr reprs ffmt e o l r page H J. destruct (class_parts _ _ _ _ _ _ _ _ _ H) as (info & va & ia & po & fs & ms & n & _ & _ & ->).
  apply twice_ill with (t := lit "script") (a := [(lit "type", lit "text/javascript"); (lit "src", jquery); (lit "type", lit "text/javascript")]); [|vm_compute; reflexivity].
  unfold page_html, head_html. rewrite J. right. unfold el at 1. right. apply in_or_app. left. apply in_or_app. left. unfold el at 1. right. apply in_or_app. left. apply in_or_app. right. apply in_or_app. right. apply in_or_app. left. now left.
Qed.
Print Assumptions C102_jquery_ill.
Example C102_jquery_ex : exists page, class_html no_fmt h_repr no_repr no_fmt (mkenv [] [] [] false) strict bare_left bare_class = Ok page.
Proof.
  assert (Q : match class_html no_fmt h_repr no_repr no_fmt (mkenv [] [] [] false) strict bare_left bare_class with Ok _ => true | Err _ => false end = true) by (vm_compute; reflexivity).
  destruct (class_html _ _ _ _ _ _ _ _) as [p|]; [now exists p|discriminate].
Qed.
(** nor where a method is added, or pools differ in some entries but not in all *)
Theorem C102_added_refuted : exists l r page, c_methods l = [] /\ c_methods r = [mkmember 1025 7 9 [] true] /\ h_page l r = Ok page /\ well_formed page [] = false.
Proof.
  exists bare_class, (mkclass (52, 0) p_left 33 2 15 [15] [] [mkmember 1025 7 9 [] true] []). destruct (page_ok bare_class (mkclass (52, 0) p_left 33 2 15 [15] [] [mkmember 1025 7 9 [] true] [])) as (page & P); [vm_compute; reflexivity|]. exists page.
  do 2 (split; [reflexivity|]). split; [exact P|].
  assert (Q : match h_page bare_class (mkclass (52, 0) p_left 33 2 15 [15] [] [mkmember 1025 7 9 [] true] []) with Ok p => negb (well_formed p []) | Err _ => false end = true) by (vm_compute; reflexivity). rewrite P in Q. now destruct (well_formed page []).
Qed.
Print Assumptions C102_added_refuted.
Theorem C102_pool_refuted : exists l r page, c_methods l = [] /\ c_fields l = [] /\ c_methods r = [] /\ c_fields r = [] /\ h_page l r = Ok page /\ well_formed page [] = false.
Proof.
  exists (num_class 5), (num_class 7). destruct (page_ok (num_class 5) (num_class 7)) as (page & P); [vm_compute; reflexivity|]. exists page. do 4 (split; [reflexivity|]). split; [exact P|].
  assert (Q : match h_page (num_class 5) (num_class 7) with Ok p => negb (well_formed p []) | Err _ => false end = true) by (vm_compute; reflexivity). rewrite P in Q. now destruct (well_formed page []).
Qed.
Print Assumptions C102_pool_refuted.

(** Property C129: tables spread over several attributes. *)
From Verif Require Import Base Pack_Model ConstPool_Model ConstPool_Spec ClassFile_Model ClassFile_Spec ClassFile_Proofs Descr_Model Opcodes_Model Change_Model Classdiff_Model Classdiff_Class Tables_Spec P_ClassFile P_Classdiff.

Lemma last_of_all l n al ds : all_named l n al ds -> last_named l al n = match rev ds with [] => None | d :: _ => Some d end.
Proof.
  induction 1 as [|a al ds E H IH|a al ds E H IH]; [reflexivity| |]; cbn [last_named].
  - rewrite IH, E, seqb_refl. cbn [rev]. destruct (rev ds); reflexivity.
  - rewrite IH. destruct (rev ds); [|reflexivity]. destruct (jutf8_at l (ja_name a)) as [m|]; [|reflexivity]. destruct (seqb_spec n m) as [->|]; [now destruct E|reflexivity].
Qed.
Lemma concat_last {A} (ts : list (list A)) t : concat (ts ++ [t]) = t <-> Forall (fun u => u = []) ts.
Proof.
  rewrite concat_app. cbn [concat]. rewrite app_nil_r. split.
  - intro H. assert (E : concat ts = []) by (apply (f_equal (@length A)) in H; rewrite app_length in H; destruct (concat ts); [reflexivity|cbn [length] in H; lia]).
    clear H. induction ts as [|u ts IH]; [constructor|]. cbn [concat] in E. apply app_eq_nil in E as [-> E]. constructor; [reflexivity|now apply IH].
  - intro H. replace (concat ts) with (@nil A); [reflexivity|]. induction H as [|u ts -> H IH]; [reflexivity|exact IH].
Qed.
Lemma split_last {A} (ts : list A) : ts = [] \/ exists us t, ts = us ++ [t].
Proof. induction ts as [|t us _] using rev_ind; [now left|right; eauto]. Qed.

(** ** C129 *)

(** get_linenumbertable gives the entries of all line number tables of the code
    exactly if all but the last are empty.  (It should in any case: C129_refuted.) *)
Theorem C129_lines_partial : forall (l : list jconst) (jk : jcode) (k : code) (ts : list (list (Z * Z))),
  code_shows l jk k -> Forall (fun t => short_list t = true /\ forallb pair_ok t = true) ts ->
  all_named l (lit "LineNumberTable") (jk_attrs jk) (map enc_pairs ts) ->
  exists t, get_linenumbertable k = Ok t /\ t = last ts [] /\ (t = concat ts <-> Forall (fun u => u = []) (removelast ts)).
Proof.
  intros l jk k ts HS HT HA. apply last_of_all in HA. destruct (split_last ts) as [->|(us & t & ->)].
  - cbn [map rev] in HA. exists []. split; [|split; [reflexivity|split; [constructor|reflexivity]]]. unfold get_linenumbertable. destruct HS as (_ & _ & _ & _ & HG & _). now rewrite HG, HA.
  - rewrite map_app, rev_app_distr in HA. cbn [map rev app] in HA. apply Forall_app in HT as [_ HT]. inversion HT as [|? ? [S1 S2] _]; subst. exists t. split; [now apply (C62_linenumbers l jk)|].
    rewrite last_last, removelast_last. split; [reflexivity|]. rewrite <- concat_last with (t := t). split; congruence.
Qed.
Print Assumptions C129_lines_partial.
(** The same for the tables of local variables *)
Theorem C129_variables_partial : forall (l : list jconst) (jk : jcode) (k : code) (n : str) (ts : list (list (list Z))),
  code_shows l jk k -> Forall (fun t => short_list t = true /\ forallb row_ok t = true) ts ->
  all_named l n (jk_attrs jk) (map enc_rows ts) ->
  exists t, var_table k n = Ok t /\ t = last ts [] /\ (t = concat ts <-> Forall (fun u => u = []) (removelast ts)).
Proof.
  intros l jk k n ts HS HT HA. apply last_of_all in HA. destruct (split_last ts) as [->|(us & t & ->)].
  - cbn [map rev] in HA. exists []. split; [|split; [reflexivity|split; [constructor|reflexivity]]]. unfold var_table. destruct HS as (_ & _ & _ & _ & HG & _). now rewrite HG, HA.
  - rewrite map_app, rev_app_distr in HA. cbn [map rev app] in HA. apply Forall_app in HT as [_ HT]. inversion HT as [|? ? [S1 S2] _]; subst. exists t. split; [now apply (C62_variables l jk)|].
    rewrite last_last, removelast_last. split; [reflexivity|]. rewrite <- concat_last with (t := t). split; congruence.
Qed.
Print Assumptions C129_variables_partial.

(** ** A class with code that has two line number tables *)
Definition j_two : list jconst := [JClass 2; JUtf8 (lit "A"); JClass 4; JUtf8 (lit "java/lang/Object"); JUtf8 (lit "m"); JUtf8 (lit "()V"); JUtf8 (lit "Code"); JUtf8 (lit "LineNumberTable"); JUtf8 (lit "LocalVariableTable")].
Definition code_two (line : Z) : jcode := mkjcode 1 2 [0; 0; 177] [] [mkjattr 8 (enc_pairs [(0, line)]); mkjattr 9 (enc_rows []); mkjattr 8 (enc_pairs [(2, 12)]); mkjattr 9 (enc_rows [[0; 1; 5; 6; 0]])].
Definition class_two (line : Z) : jclassfile := mkjclass 0 52 j_two 33 1 3 [] [] [mkjmember 9 5 6 [mkjattr 7 (enc_code (code_two line))]] [].
Lemma four_named d1 d2 d3 d4 : all_named j_two (lit "LineNumberTable") [mkjattr 8 d1; mkjattr 9 d2; mkjattr 8 d3; mkjattr 9 d4] [d1; d3] /\
  all_named j_two (lit "LocalVariableTable") [mkjattr 8 d1; mkjattr 9 d2; mkjattr 8 d3; mkjattr 9 d4] [d2; d4].
Proof.
  assert (E8 : forall d, jutf8_at j_two (ja_name (mkjattr 8 d)) = Some (lit "LineNumberTable")) by (intro d; vm_compute; reflexivity).
  assert (E9 : forall d, jutf8_at j_two (ja_name (mkjattr 9 d)) = Some (lit "LocalVariableTable")) by (intro d; vm_compute; reflexivity).
  assert (NE : Some (lit "LineNumberTable") <> Some (lit "LocalVariableTable")) by (vm_compute; discriminate). split.
  - apply (an_this _ _ (mkjattr 8 d1)); [apply E8|]. apply an_other; [rewrite E9; congruence|]. apply (an_this _ _ (mkjattr 8 d3)); [apply E8|]. apply an_other; [rewrite E9; congruence|]. apply an_nil.
  - apply an_other; [rewrite E8; congruence|]. apply (an_this _ _ (mkjattr 9 d2)); [apply E9|]. apply an_other; [rewrite E8; congruence|]. apply (an_this _ _ (mkjattr 9 d4)); [apply E9|]. apply an_nil.
Qed.
Lemma two_named line n ds : n = lit "LineNumberTable" /\ ds = map enc_pairs [[(0, line)]; [(2, 12)]] \/ n = lit "LocalVariableTable" /\ ds = map enc_rows [[]; [[0; 1; 5; 6; 0]]] -> all_named j_two n (jk_attrs (code_two line)) ds.
Proof. unfold code_two. cbn [jk_attrs]. intros [[-> ->]|[-> ->]]; cbn [map]; apply four_named. Qed.
Lemma two_ok line : line = 10 \/ line = 20 -> jclassfile_ok (class_two line) = true /\ jcode_ok j_two (code_two line) = true.
Proof. intros [->| ->]; split; vm_compute; reflexivity. Qed.
(** What the library makes of it *)
Lemma two_read line : line = 10 \/ line = 20 -> exists r m k, unpack_class (enc_class (class_two line)) MNone = Ok r /\ c_methods r = [m] /\ get_code (c_pool r) m = Ok (Some k) /\ code_shows j_two (code_two line) k.
Proof.
  intro H. destruct (two_ok line H) as [H1 H2]. destruct (C09_unpack_class (class_two line) [] H1) as (r & U & _ & _ & _ & HS). rewrite app_nil_r in U. exists r.
  destruct HS as (_ & HP & _ & _ & _ & _ & _ & HM & _). cbn [class_two jc_methods jc_pool] in HM, HP. inversion HM as [|? m ? ms (_ & _ & _ & _ & HA) HN E1 E2]; subst. inversion HN; subst. exists m.
  destruct (C09_code_roundtrip j_two (c_pool r) _ (code_two line) m HP H2 HA) as (k & K1 & K2); [cbn [jm_attrs]; destruct H as [->| ->]; vm_compute; reflexivity|]. exists k. auto.
Qed.
Example C129_ex : exists k, code_shows j_two (code_two 10) k /\
  all_named j_two (lit "LineNumberTable") (jk_attrs (code_two 10)) (map enc_pairs [[(0, 10)]; [(2, 12)]]) /\ get_linenumbertable k = Ok [(2, 12)] /\
  all_named j_two (lit "LocalVariableTable") (jk_attrs (code_two 10)) (map enc_rows [[]; [[0; 1; 5; 6; 0]]]) /\ var_table k (lit "LocalVariableTable") = Ok [[0; 1; 5; 6; 0]].
Proof.
  destruct (two_read 10 (or_introl eq_refl)) as (r & m & k & _ & _ & _ & HS). exists k. split; [exact HS|].
  assert (A1 : all_named j_two (lit "LineNumberTable") (jk_attrs (code_two 10)) (map enc_pairs [[(0, 10)]; [(2, 12)]])) by (apply two_named; left; split; reflexivity).
  assert (A2 : all_named j_two (lit "LocalVariableTable") (jk_attrs (code_two 10)) (map enc_rows [[]; [[0; 1; 5; 6; 0]]])) by (apply two_named; right; split; reflexivity).
  split; [exact A1|]. split; [|split; [exact A2|]].
  - destruct (C129_lines_partial j_two _ k [[(0, 10)]; [(2, 12)]] HS ltac:(repeat constructor) A1) as (t & H & -> & _). exact H.
  - destruct (C129_variables_partial j_two _ k _ [[]; [[0; 1; 5; 6; 0]]] HS ltac:(repeat constructor) A2) as (t & H & -> & _). exact H.
Qed.

(** The first of two line number tables is lost: the line of the first instruction is
    not known though the class file has it, and classdiff does not see that it
    differs. *)
Theorem C129_refuted : exists (a b : Z) (r r' : classinfo) (m : member) (k : code), a <> b /\
  jclassfile_ok (class_two a) = true /\ jclassfile_ok (class_two b) = true /\
  unpack_class (enc_class (class_two a)) MNone = Ok r /\ unpack_class (enc_class (class_two b)) MNone = Ok r' /\
  all_named j_two (lit "LineNumberTable") (jk_attrs (code_two a)) [enc_pairs [(0, a)]; enc_pairs [(2, 12)]] /\
  all_named j_two (lit "LineNumberTable") (jk_attrs (code_two b)) [enc_pairs [(0, b)]; enc_pairs [(2, 12)]] /\
  c_methods r = [m] /\ get_code (c_pool r) m = Ok (Some k) /\ (exists t, get_linenumbertable k = Ok t /\ get_line_for_offset t 0 = 0) /\
  classdiff no_fmt no_repr no_fmt strict r r' = Ok 0.
Proof.
  destruct (two_read 10 (or_introl eq_refl)) as (r & m & k & U & M & K & HS). destruct (two_read 20 (or_intror eq_refl)) as (r' & _ & _ & U' & _). exists 10, 20, r, r', m, k.
  assert (A1 : all_named j_two (lit "LineNumberTable") (jk_attrs (code_two 10)) (map enc_pairs [[(0, 10)]; [(2, 12)]])) by (apply two_named; left; split; reflexivity).
  split; [discriminate|]. split; [exact (proj1 (two_ok 10 (or_introl eq_refl)))|]. split; [exact (proj1 (two_ok 20 (or_intror eq_refl)))|]. split; [exact U|]. split; [exact U'|]. split; [exact A1|]. split; [apply two_named; left; split; reflexivity|]. split; [exact M|]. split; [exact K|]. split.
  - destruct (C129_lines_partial j_two _ k [[(0, 10)]; [(2, 12)]] HS ltac:(repeat constructor) A1) as (t & H & -> & _). exists [(2, 12)]. split; [exact H|reflexivity].
  - assert (E : match unpack_class (enc_class (class_two 10)) MNone, unpack_class (enc_class (class_two 20)) MNone with Ok x, Ok y => classdiff no_fmt no_repr no_fmt strict x y | _, _ => Ok 7 end = Ok 0) by (vm_compute; reflexivity).
    rewrite U, U' in E. exact E.
Qed.
Print Assumptions C129_refuted.

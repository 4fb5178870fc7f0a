(** Printed declarations determine the name, the types, the exceptions and the
    flags that have a word. *)
From Verif Require Import Base ConstPool_Spec ClassFile_Spec Descr_Spec Descr_Proofs Info_Spec Info_Class Print_Spec Print_Decl.

Definition word_char (c : Z) : bool := negb ((c =? 32) || (c =? 40) || (c =? 41) || (c =? 44)).
Lemma ident_chars n : ident n = true -> n <> [] /\ forallb word_char n = true.
Proof. unfold ident. intro H. apply andb_prop in H as [H1 H2]. split; [intros ->; discriminate|exact H2]. Qed.
Lemma chars_no c n : forallb word_char n = true -> In c [32; 40; 41; 44] -> ~ In c n.
Proof.
  intros H Hc HI. rewrite forallb_forall in H. specialize (H c HI). unfold word_char in H.
  destruct Hc as [<-|[<-|[<-|[<-|[]]]]]; discriminate.
Qed.
Lemma dotted_chars n : forallb word_char n = true -> forallb word_char (dotted n) = true.
Proof.
  unfold dotted. induction n as [|c n IH]; [reflexivity|]. cbn [forallb map]. intro H. apply andb_prop in H as [H1 H2].
  rewrite IH by assumption. destruct (c =? 47); [reflexivity|]. now rewrite H1.
Qed.
Lemma type_chars t : ident_type t = true -> forallb word_char (type_name t) = true /\ no_keyword t = true.
Proof.
  unfold type_name. induction t as [[]|n|t IH]; intro H; try (split; reflexivity).
  - cbn [ident_type] in H. apply andb_prop in H as [H1 H2]. apply ident_chars in H1 as [_ H1].
    split; [|exact H2]. cbn [elem elem_name dims repeat concat]. rewrite app_nil_r. now apply dotted_chars.
  - destruct (IH H) as [I1 I2]. split; [|exact I2]. cbn [elem dims repeat concat].
    rewrite forallb_app in *. apply andb_prop in I1 as [-> I1]. cbn [andb]. rewrite forallb_app, I1. reflexivity.
Qed.
Lemma keyword_chars t f : forallb (fun e => forallb word_char (lit (snd e))) t = true -> Forall (fun w => forallb word_char w = true) (keywords t f).
Proof.
  unfold keywords. induction t as [|e t IH]; [constructor|]. cbn [forallb filter]. intros H. apply andb_prop in H as [H1 H2].
  destruct (Z.testbit f (fst e)); [|auto]. cbn [map]. constructor; auto.
Qed.
(** ** Bits from words *)
Lemma keywords_in t f b w : NoDup (map (fun e => lit (snd e)) t) -> In (b, w) t -> (In (lit w) (keywords t f) <-> Z.testbit f b = true).
Proof.
  intros HN HI. unfold keywords. split.
  - intro H. apply in_map_iff in H as ((b', w') & E & H). apply filter_In in H as [H1 H2]. cbn [fst snd] in *.
    assert (b' = b) as <-; [|exact H2].
    clear H2. revert HN HI H1 E. induction t as [|[b0 w0] t IH]; [intros _ []|]. cbn [map snd]. intro HN. inversion HN as [|? ? Hn HN']; subst.
    intros [E1|E1] [E2|E2] E.
    + congruence.
    + injection E1 as -> ->. exfalso. apply Hn. rewrite <- E. apply in_map_iff. exists (b', w'). now split.
    + injection E2 as -> ->. exfalso. apply Hn. rewrite E. apply in_map_iff. exists (b, w). now split.
    + now apply IH.
  - intro H. apply in_map_iff. exists (b, w). split; [reflexivity|]. apply filter_In. now split.
Qed.
Lemma keywords_bits t f f' : NoDup (map (fun e => lit (snd e)) t) -> keywords t f = keywords t f' ->
  forall b w, In (b, w) t -> Z.testbit f b = Z.testbit f' b.
Proof.
  intros HN E b w HI. pose proof (keywords_in t f b w HN HI) as H1. pose proof (keywords_in t f' b w HN HI) as H2. rewrite E in H1.
  destruct (Z.testbit f b), (Z.testbit f' b); try reflexivity.
  - symmetry. apply H2. now apply H1.
  - apply H1. now apply H2.
Qed.
Lemma nodup_dec_words (l : list str) : (fix nd (l : list str) := match l with [] => true | x :: l' => negb (smem x l') && nd l' end) l = true -> NoDup l.
Proof.
  induction l as [|x l IH]; [constructor|]. intro H. apply andb_prop in H as [H1 H2]. constructor; [|auto].
  intro HI. apply smem_In in HI. rewrite HI in H1. discriminate.
Qed.
Lemma table_nodup s : NoDup (map (fun e => lit (snd e)) (sig_table s)).
Proof. destruct s; apply nodup_dec_words; reflexivity. Qed.

(** ** Declarations *)
Lemma split_unique {A} (P : A -> Prop) pre1 : forall w1 post1 pre2 w2 post2, Forall (fun x => ~ P x) pre1 -> Forall (fun x => ~ P x) pre2 ->
  P w1 -> P w2 -> pre1 ++ w1 :: post1 = pre2 ++ w2 :: post2 -> pre1 = pre2 /\ w1 = w2 /\ post1 = post2.
Proof.
  induction pre1 as [|x pre1 IH]; intros w1 post1 [|y pre2] w2 post2 H1 H2 P1 P2 E; cbn [app] in E.
  - injection E as -> ->. auto.
  - injection E as -> E. inversion H2; subst. contradiction.
  - injection E as <- E. inversion H1; subst. contradiction.
  - injection E as -> E. inversion H1; subst. inversion H2; subst. destruct (IH w1 post1 pre2 w2 post2) as (-> & -> & ->); auto.
Qed.

Lemma throws_ident ex : forallb (fun x => class_name x && ident x) ex = true ->
  forallb class_name ex = true /\ Forall (fun x => forallb word_char x = true) (map dotted ex) /\ Forall (fun x => ~ In 46 x) ex.
Proof.
  induction ex as [|x ex IH]; [intros; repeat split; constructor|]. cbn [forallb map]. intro H. apply andb_prop in H as [H1 H2].
  apply andb_prop in H1 as [H0 H1]. destruct (IH H2) as (I1 & I2 & I3). rewrite H0, I1. split; [reflexivity|]. split; constructor; auto.
  - apply dotted_chars. now apply ident_chars.
  - apply (name_char_not 46 x); [destruct x; [discriminate|exact H0]|auto].
Qed.
Lemma Forall_no c l : In c [32; 40; 41; 44] -> Forall (fun x => forallb word_char x = true) l -> Forall (fun x => ~ In c x) l.
Proof. intros Hc. induction 1; constructor; auto. now apply chars_no. Qed.

Lemma dotted_map_inj l : forall l', Forall (fun x => ~ In 46 x) l -> Forall (fun x => ~ In 46 x) l' -> map dotted l = map dotted l' -> l = l'.
Proof.
  induction l as [|x l IH]; intros [|y l'] H1 H2 E; try discriminate; [reflexivity|]. inversion H1; subst. inversion H2; subst.
  cbn [map] in E. injection E as E1 E2. f_equal; [now apply slash_dot_inj|auto].
Qed.
Lemma types_inj l : forall l', forallb jtype_ok l = true -> forallb jtype_ok l' = true -> forallb ident_type l = true -> forallb ident_type l' = true ->
  map type_name l = map type_name l' -> l = l'.
Proof.
  induction l as [|x l IH]; intros [|y l'] H1 H2 H3 H4 E; try discriminate; [reflexivity|]. cbn [forallb map] in *.
  apply andb_prop in H1 as [A1 A2]. apply andb_prop in H2 as [B1 B2]. apply andb_prop in H3 as [C1 C2]. apply andb_prop in H4 as [D1 D2].
  injection E as E1 E2. f_equal; [|auto]. apply type_name_inj; auto; now apply type_chars.
Qed.
Lemma commas_inj l l' : Forall (fun x => x <> [] /\ forallb word_char x = true) l -> Forall (fun x => x <> [] /\ forallb word_char x = true) l' ->
  commas l = commas l' -> l = l'.
Proof.
  assert (D : forall l, Forall (fun x => x <> [] /\ forallb word_char x = true) l -> Forall (fun x => x <> []) l /\ Forall (fun x => ~ In 44 x) l).
  { clear. induction 1 as [|x l [H1 H2] _ [I1 I2]]; split; constructor; auto. apply chars_no; [assumption|right; right; right; now left]. }
  intros H1 H2 E. destruct (D _ H1) as [N1 C1]. destruct (D _ H2) as [N2 C2]. unfold commas in E.
  destruct l as [|x l]; destruct l' as [|y l'].
  - reflexivity.
  - exfalso. symmetry in E. apply join_nonempty in E; [assumption|discriminate|assumption].
  - exfalso. apply join_nonempty in E; [assumption|discriminate|assumption].
  - now apply (join_inj 44); [| | discriminate | discriminate |].
Qed.
Lemma types_words l : forallb jtype_ok l = true -> forallb ident_type l = true ->
  Forall (fun x => x <> [] /\ forallb word_char x = true) (map type_name l).
Proof.
  induction l as [|x l IH]; [constructor|]. cbn [forallb map]. intros H1 H2. apply andb_prop in H1 as [A1 A2]. apply andb_prop in H2 as [B1 B2].
  constructor; [|auto]. split; [now apply type_name_nonempty|now apply type_chars].
Qed.
Lemma throws_words_ok ex : forallb (fun x => class_name x && ident x) ex = true -> Forall (fun x => x <> [] /\ forallb word_char x = true) (map dotted ex).
Proof.
  intro H. destruct (throws_ident ex H) as (H1 & H2 & _). clear H. rewrite forallb_forall in H1. rewrite Forall_forall in *. intros y Hy. split; [|auto].
  apply in_map_iff in Hy as (x & <- & Hx). apply dotted_nonempty. auto.
Qed.

Definition ret_words (n : str) (r : option jtype) : list str := if seqb n (lit "<init>") then [] else [ret_name r].
Definition throw_words (ex : list str) : list str := match ex with [] => [] | _ => [lit "throws"; commas (map dotted ex)] end.

Lemma field_parts f n t : member_words f n (SField t) [] = keywords field_table f ++ [type_name t; n].
Proof. unfold member_words. cbn [sig_table]. now rewrite app_nil_r. Qed.
Lemma method_parts f n a r ex : member_words f n (SMethod a r) ex =
  (keywords method_table f ++ ret_words n r) ++ (n ++ lit "(" ++ commas (map type_name a) ++ lit ")") :: throw_words ex.
Proof. unfold member_words, ret_words, throw_words. cbn [sig_table]. rewrite <- !app_assoc. reflexivity. Qed.
Lemma words_none f n s ex : decl_ok n s ex -> Forall (fun w => ~ In 32 w) (member_words f n s ex) /\ member_words f n s ex <> [].
Proof.
  intros [H1 H2 H3 H4 H5]. apply ident_chars in H1 as [Hn Hc].
  assert (S32 : In 32 [32; 40; 41; 44]) by now left.
  destruct s as [t|a r].
  - destruct H5 as [-> _]. rewrite field_parts. split; [|destruct (keywords field_table f); discriminate]. apply Forall_app. split.
    + apply Forall_no; [assumption|]. now apply keyword_chars.
    + repeat constructor; apply chars_no; auto. now apply type_chars.
  - rewrite method_parts. split; [|destruct (keywords method_table f ++ ret_words n r); discriminate].
    cbn [sig_ok ident_sig] in *. apply andb_prop in H3 as [H31 H32]. apply andb_prop in H2 as [H2 _]. apply andb_prop in H2 as [H2 _].
    apply Forall_app. split; [apply Forall_app; split|constructor].
    + apply Forall_no; [assumption|]. now apply keyword_chars.
    + unfold ret_words. destruct (seqb n (lit "<init>")); repeat constructor. destruct r as [t|]; cbn [ret_name].
      * apply andb_prop in H32 as [H32 _]. apply chars_no; [now apply type_chars|assumption].
      * apply chars_no; [reflexivity|assumption].
    + intro HI. apply in_app_or in HI as [HI|HI]; [now apply (chars_no 32) in HI|].
      apply in_app_or in HI as [HI|HI]; [destruct HI as [HI|[]]; discriminate|].
      apply in_app_or in HI as [HI|HI]; [|destruct HI as [HI|[]]; discriminate].
      revert HI. apply join_no'; [intros [E|[]]; discriminate|].
      pose proof (types_words a H2 H31) as HT. clear - HT. induction HT as [|x l [_ Hx] _ IH]; constructor; auto. apply chars_no; [assumption|now left].
    + unfold throw_words. destruct ex as [|e ex]; [constructor|]. constructor; [apply chars_no; [reflexivity|assumption]|]. constructor; [|constructor].
      apply join_no'; [intros [E|[]]; discriminate|]. apply Forall_no; [assumption|]. now apply throws_ident.
Qed.
Lemma method_word_open n x : In 40 (n ++ lit "(" ++ x).
Proof. apply in_or_app. right. now left. Qed.
Lemma words_open f n s ex : decl_ok n s ex ->
  match s with
  | SField _ => Forall (fun w => ~ In 40 w) (member_words f n s ex)
  | SMethod a r => Forall (fun w => ~ In 40 w) (keywords method_table f ++ ret_words n r)
  end.
Proof.
  intros [H1 H2 H3 H4 H5]. apply ident_chars in H1 as [Hn Hc].
  assert (S40 : In 40 [32; 40; 41; 44]) by (right; now left).
  destruct s as [t|a r].
  - destruct H5 as [-> _]. rewrite field_parts. apply Forall_app. split.
    + apply Forall_no; [assumption|]. now apply keyword_chars.
    + repeat constructor; apply chars_no; auto. now apply type_chars.
  - cbn [ident_sig] in H3. apply andb_prop in H3 as [H31 H32]. apply Forall_app. split.
    + apply Forall_no; [assumption|]. now apply keyword_chars.
    + unfold ret_words. destruct (seqb n (lit "<init>")); repeat constructor. destruct r as [t|]; cbn [ret_name].
      * apply andb_prop in H32 as [H32 _]. apply chars_no; [now apply type_chars|assumption].
      * apply chars_no; [reflexivity|assumption].
Qed.
Lemma ret_name_inj r r' : ret_ok r = true -> ret_ok r' = true ->
  match r with Some t => ident_type t && negb (seqb (type_name t) (lit "void")) | None => true end = true ->
  match r' with Some t => ident_type t && negb (seqb (type_name t) (lit "void")) | None => true end = true ->
  ret_name r = ret_name r' -> r = r'.
Proof.
  destruct r as [t|], r' as [t'|]; cbn [ret_ok ret_name]; intros H1 H2 H3 H4 E; try reflexivity.
  - apply andb_prop in H3 as [H3 _]. apply andb_prop in H4 as [H4 _]. f_equal. apply type_name_inj; auto; now apply type_chars.
  - apply andb_prop in H3 as [_ H3]. rewrite E in H3. discriminate.
  - apply andb_prop in H4 as [_ H4]. rewrite <- E in H4. discriminate.
Qed.

Lemma decl_determines f1 n1 s1 ex1 f2 n2 s2 ex2 : decl_ok n1 s1 ex1 -> decl_ok n2 s2 ex2 ->
  member_decl f1 n1 s1 ex1 = member_decl f2 n2 s2 ex2 ->
  n1 = n2 /\ s1 = s2 /\ ex1 = ex2 /\ (forall b w, In (b, w) (sig_table s1) -> Z.testbit f1 b = Z.testbit f2 b).
Proof.
  intros O1 O2 E. unfold member_decl in E.
  assert (EW : member_words f1 n1 s1 ex1 = member_words f2 n2 s2 ex2).
  { destruct (words_none f1 _ _ _ O1) as [A1 A2]. destruct (words_none f2 _ _ _ O2) as [B1 B2]. exact (join_inj 32 _ _ A1 B1 A2 B2 E). }
  clear E. pose proof (words_open f1 _ _ _ O1) as P1. pose proof (words_open f2 _ _ _ O2) as P2.
  destruct s1 as [t1|a1 r1], s2 as [t2|a2 r2].
  - destruct O1 as [I1 S1 D1 T1 [-> X1]]. destruct O2 as [I2 S2 D2 T2 [-> X2]]. rewrite !field_parts in EW.
    assert (EE : (keywords field_table f1 ++ [type_name t1]) ++ [n1] = (keywords field_table f2 ++ [type_name t2]) ++ [n2])
      by (rewrite <- !app_assoc; exact EW).
    apply app_inj_tail in EE as [EE ->]. apply app_inj_tail in EE as [EK ET].
    split; [reflexivity|]. split; [f_equal; apply type_name_inj; auto; now apply type_chars|]. split; [reflexivity|].
    apply keywords_bits; [exact (table_nodup (SField t1))|exact EK].
  - exfalso. rewrite EW, method_parts in P1. apply Forall_app in P1 as [_ P1]. inversion P1 as [|x l Hx]; subst. apply Hx. apply method_word_open.
  - exfalso. rewrite <- EW, method_parts in P2. apply Forall_app in P2 as [_ P2]. inversion P2 as [|x l Hx]; subst. apply Hx. apply method_word_open.
  - rewrite !method_parts in EW.
    apply (split_unique (fun w => In 40 w)) in EW as (EP & EN & ET); [|assumption|assumption|apply method_word_open|apply method_word_open].
    destruct O1 as [I1 S1 D1 T1 X1]. destruct O2 as [I2 S2 D2 T2 X2]. cbn [sig_ok ident_sig] in *.
    apply andb_prop in S1 as [S1 R1]. apply andb_prop in S1 as [S1 _]. apply andb_prop in S2 as [S2 R2]. apply andb_prop in S2 as [S2 _].
    apply andb_prop in D1 as [D1 V1]. apply andb_prop in D2 as [D2 V2].
    pose proof (proj2 (ident_chars _ I1)) as C1. pose proof (proj2 (ident_chars _ I2)) as C2.
    assert (S40 : In 40 [32; 40; 41; 44]) by (right; now left).
    assert (EJ : n1 = n2 /\ commas (map type_name a1) ++ lit ")" = commas (map type_name a2) ++ lit ")").
    { pose proof (chars_no 40 n1 C1 S40) as F1. pose proof (chars_no 40 n2 C2 S40) as F2. clear - EN F1 F2. revert n2 EN F2.
      induction n1 as [|x n1 IH]; intros [|y n2] E F2; cbn [app] in E.
      - injection E as E. auto.
      - injection E as E1 _. exfalso. apply F2. left. now symmetry.
      - injection E as E1 _. exfalso. apply F1. now left.
      - injection E as -> E. destruct (IH (fun H => F1 (or_intror H)) n2 E (fun H => F2 (or_intror H))) as [-> G]. now split. }
    destruct EJ as [<- EA]. apply app_inj_tail in EA as [EA _].
    apply commas_inj in EA; [|now apply types_words|now apply types_words]. apply types_inj in EA; auto. subst a2.
    assert (EX : ex1 = ex2).
    { unfold throw_words in ET. pose proof (throws_words_ok _ T1) as W1. pose proof (throws_words_ok _ T2) as W2.
      destruct ex1 as [|e1 x1], ex2 as [|e2 x2]; try discriminate; [reflexivity|]. injection ET as ET.
      apply dotted_map_inj; [now apply throws_ident|now apply throws_ident|]. now apply commas_inj. }
    subst ex2.
    assert (EK : keywords method_table f1 = keywords method_table f2 /\ r1 = r2).
    { unfold ret_words in EP. destruct (seqb_spec n1 (lit "<init>")) as [En|_].
      - rewrite !app_nil_r in EP. split; [exact EP|]. rewrite (X1 En), (X2 En). reflexivity.
      - apply app_inj_tail in EP as [EP ER]. split; [exact EP|]. now apply ret_name_inj. }
    destruct EK as [EK <-]. split; [reflexivity|]. split; [reflexivity|]. split; [reflexivity|].
    apply keywords_bits; [exact (table_nodup (SMethod a1 r1))|exact EK].
Qed.

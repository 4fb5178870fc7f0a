(** The document of two classes is determined by them. *)
From Verif Require Import Base Pack_Model ConstPool_Model ConstPool_Spec ClassFile_Model Descr_Model Descr_Spec Opcodes_Model Opcodes_Spec Anno_Model
  Change_Model Classdiff_Model Classdiff_Spec Classdiff_Members Classdiff_Class Classdiff_Merge Info_Model Info_Spec Print_Spec Html_Spec Html_Page Html_Values Html_Class
  Text_Spec Text_Proofs Text_Class Text_Unique Doc_Spec Doc_Proofs Doc_Class.

(** ** One piece *)
Lemma item_fun q e p p' : item q e p -> item q e p' -> p = p'.
Proof.
  intros [A1 A2|A1 A2|i A1 A2] [B1 B2|B1 B2|i' B1 B2]; try reflexivity; try tauto. assert (i = i') as ->; [|reflexivity]. destruct i, i'; try reflexivity; [symmetry; apply B2, A2|apply A2, B2]; reflexivity.
Qed.
Lemma items_fun qs es ps ps' : items qs es ps -> items qs es ps' -> ps = ps'.
Proof. intros [_ H] [_ H']. revert H H'. apply Forall2_fun. intros a b b' _. apply item_fun. Qed.
Lemma body_item_fun K H p p' : body_item K H p -> body_item K H p' -> p = p'.
Proof. intros [A|? ? A D1 D2 A2|? ? A D1 D2 A2] [B|? ? B E1 E2 B2|? ? B E1 E2 B2]; try reflexivity; try contradiction; rewrite D1 in E1; rewrite D2 in E2; injection E1 as <-; injection E2 as <-; contradiction. Qed.

Section Unique.
Variable fmt : pyval -> str.
Variable reprs : str -> str.
Variable ffmt : pyval -> str.
Variable o : options.

Lemma code_doc_fun lp rp K H t t' : code_doc fmt reprs o lp rp K H t -> code_doc fmt reprs o lp rp K H t' -> t = t'.
Proof.
  intros A B. destruct A as [K H ts t A1 A2|K|H|]; inversion B as [K' H' ts' x B1 B2| | |]; subst; try reflexivity. now rewrite (items_fun _ _ _ _ A1 B1), (body_item_fun _ _ _ _ A2 B2).
Qed.
Lemma field_doc_fun lp rp a b t t' : field_doc fmt reprs o lp rp a b t -> field_doc fmt reprs o lp rp a b t' -> t = t'.
Proof.
  intros (F & G & ts & H1 & H2 & H3 & ->) (F' & G' & ts' & H1' & H2' & H3' & ->). pose proof (field_fun _ _ _ _ _ H1 H1') as ->. pose proof (field_fun _ _ _ _ _ H2 H2') as ->. now rewrite (items_fun _ _ _ _ H3 H3').
Qed.
Lemma method_doc_fun lp rp a b t t' : method_doc fmt reprs o lp rp a b t -> method_doc fmt reprs o lp rp a b t' -> t = t'.
Proof.
  intros (F & G & ts & tc & H1 & H2 & H3 & H4 & ->) (F' & G' & ts' & tc' & H1' & H2' & H3' & H4' & ->). pose proof (method_fun _ _ _ _ _ H1 H1') as ->. pose proof (method_fun _ _ _ _ _ H2 H2') as ->.
  now rewrite (items_fun _ _ _ _ H3 H3'), (code_doc_fun _ _ _ _ _ _ H4 H4').
Qed.
Lemma field_alone_fun p c w i m t t' : field_alone fmt p c w i m t -> field_alone fmt p c w i m t' -> t = t'.
Proof. intros (F & H & ->) (F' & H' & ->). now rewrite (field_fun _ _ _ _ _ H H'). Qed.
Lemma method_alone_fun p c w i m t t' : method_alone fmt p c w i m t -> method_alone fmt p c w i m t' -> t = t'.
Proof. intros (F & H & ->) (F' & H' & ->). now rewrite (method_fun _ _ _ _ _ H H'). Qed.
Lemma members_doc_fun c what (same : member -> member -> Prop) (added removed : member -> piece -> Prop) (changed : member -> member -> piece -> Prop) ls rs t t' :
  (forall l l' r, In l ls -> In l' ls -> In r rs -> same l r -> same l' r -> l = l') ->
  (forall m a b, added m a -> added m b -> a = b) -> (forall m a b, removed m a -> removed m b -> a = b) -> (forall l r a b, changed l r a -> changed l r b -> a = b) ->
  members_doc o c what same added removed changed ls rs t -> members_doc o c what same added removed changed ls rs t' -> t = t'.
Proof.
  intros FS FA FR FC (x & y & p & ta & tr & tc & P1 & P2 & P3 & A & R & C & ->) (x' & y' & p' & ta' & tr' & tc' & P1' & P2' & P3' & A' & R' & C' & ->).
  pose proof (picks_fun _ _ _ _ P1 P1') as <-. pose proof (picks_fun _ _ _ _ P2 P2') as <-. pose proof (pairing_fun _ _ _ FS _ _ P3 P3') as <-.
  rewrite (Forall2_fun _ _ (fun m a b _ => FA m a b) _ _ A A'), (Forall2_fun _ _ (fun m a b _ => FR m a b) _ _ R R'), (Forall2_fun _ _ (fun m a b _ => FC (fst m) (snd m) a b) _ _ C C'). reflexivity.
Qed.
Theorem piece_fun l r t t' : class_piece fmt reprs ffmt o l r t -> class_piece fmt reprs ffmt o l r t' -> t = t'.
Proof.
  intros (L & R & th & ta & ti & tp & tf & tm & KL & KR & H1 & H2 & H3 & H4 & H5 & H6 & ->) (L' & R' & th' & ta' & ti' & tp' & tf' & tm' & KL' & KR' & H1' & H2' & H3' & H4' & H5' & H6' & ->).
  pose proof (class_fun _ _ _ _ KL KL') as <-. pose proof (class_fun _ _ _ _ KR KR') as <-.
  rewrite (items_fun _ _ _ _ H1 H1'), (item_fun _ _ _ _ H2 H2'), (item_fun _ _ _ _ H3 H3'), (item_fun _ _ _ _ H4 H4').
  assert (E5 : tf = tf').
  { refine (members_doc_fun _ _ _ _ _ _ _ _ _ _ _ (field_alone_fun _ _ _ _) (field_alone_fun _ _ _ _) (field_doc_fun _ _) H5 H5'). intros a a' b Ha Ha' Hb S S'.
    destruct (in_known _ _ _ (cs_fields _ _ _ KL) Ha) as (F & HF), (in_known _ _ _ (cs_fields _ _ _ KL) Ha') as (F' & HF'), (in_known _ _ _ (cs_fields _ _ _ KR) Hb) as (G & HG).
    apply (one_left fmt (c_pool l) (c_pool r) (c_fields l) a a' b (cs_field_ids _ _ _ KL) Ha Ha'); eapply field_same_iff; eassumption. }
  assert (E6 : tm = tm').
  { refine (members_doc_fun _ _ _ _ _ _ _ _ _ _ _ (method_alone_fun _ _ _ _) (method_alone_fun _ _ _ _) (method_doc_fun _ _) H6 H6'). intros a a' b Ha Ha' Hb S S'.
    destruct (in_known _ _ _ (cs_methods _ _ _ KL) Ha) as (F & HF), (in_known _ _ _ (cs_methods _ _ _ KL) Ha') as (F' & HF'), (in_known _ _ _ (cs_methods _ _ _ KR) Hb) as (G & HG).
    apply (one_left fmt (c_pool l) (c_pool r) (c_methods l) a a' b (cs_method_ids _ _ _ KL) Ha Ha'); eapply method_same_iff; eassumption. }
  rewrite E5, E6. reflexivity.
Qed.

(** ** One object for a piece *)
Definition sharp (p : piece) : Prop := forall j j', snd p j -> snd p j' -> j = j'.
Definition exact_data (q : datum) : Prop := forall a b a' b', q_data q a b -> q_data q a' b' -> a = a' /\ b = b'.
Lemma sharp_single st q c i s : exact_data q -> sharp (st, single q c i s).
Proof. intros F j j' (a & b & H & ->) (a' & b' & H' & ->). cbn [snd] in *. destruct (F _ _ _ _ H H') as [-> ->]. reflexivity. Qed.
Lemma sharp_item q e p : exact_data q -> item q e p -> sharp p.
Proof. intros F [A1 A2|A1 A2|i A1 A2]; now apply sharp_single. Qed.
Lemma sharp_items qs es ps : Forall exact_data qs -> items qs es ps -> Forall sharp ps.
Proof.
  intros F [L H]. revert es ps L H. induction F as [|q qs Hq F IH]; intros [|e es] ps L H; try discriminate L; cbn [combine] in H; inversion H as [|? p ? ps' H1 H2]; subst; [constructor|].
  constructor; [exact (sharp_item _ _ _ Hq H1)|]. apply (IH es); [now injection L|exact H2].
Qed.
Lemma sharp_alone c w i s : sharp (alone c w i s).
Proof. intros j j' -> ->. reflexivity. Qed.
Lemma sharp_group cl lb h u st ps : Forall sharp ps -> sharp (group_as o cl lb h u st ps).
Proof.
  intros F j j' (js & H & ->) (js' & H' & ->). do 2 f_equal. eapply Forall2_fun; [|exact H|exact H']. intros p a b Hp. apply filter_In in Hp as [Hp _]. rewrite Forall_forall in F. now apply F.
Qed.
Lemma value_exact c w x y : exact_data (value c w x y).
Proof. intros a b a' b' [-> ->] [-> ->]. now split. Qed.
Lemma maybe_exact c w x y : exact_data (maybe c w x y).
Proof. intros a b a' b' [-> ->] [-> ->]. now split. Qed.
Lemma mnemonic_fun c n n' : mnemonic c n -> mnemonic c n' -> n = n'.
Proof. unfold mnemonic. destruct (c =? 194); [now intros -> ->|]. intros A B. congruence. Qed.
Lemma body_shown_fun b x x' : body_shown b x -> body_shown b x' -> x = x'.
Proof.
  intros (dl & xs & D & F & ->) (dl' & xs' & D' & F' & ->). rewrite D in D'. injection D' as <-. f_equal. eapply Forall2_fun; [|exact F|exact F'].
  intros i u v _ (n & N & ->) (n' & N' & ->). now rewrite (mnemonic_fun _ _ _ N N').
Qed.
Lemma code_shown_fun K x x' : code_shown K x -> code_shown K x' -> x = x'.
Proof. destruct K as [K|]; cbn [code_shown]; [apply body_shown_fun|congruence]. Qed.
Lemma body_exact K H : exact_data (body_data K H).
Proof. intros a b a' b' (x & y & X & Y & -> & ->) (x' & y' & X' & Y' & -> & ->). now rewrite (code_shown_fun _ _ _ X X'), (code_shown_fun _ _ _ Y Y'). Qed.
Lemma shown_fun p P dl x x' : constants_shown fmt reprs p P dl x -> constants_shown fmt reprs p P dl x' -> x = x'.
Proof.
  intros (is & xs & P1 & F & ->) (is' & xs' & P1' & F' & ->). pose proof (picks_fun _ _ _ _ P1 P1') as <-. do 2 f_equal. eapply Forall2_fun; [|exact F|exact F'].
  intros i u v _ (n & k & rest & w & N & A & V & ->) (n' & k' & rest' & w' & N' & A' & V' & ->). rewrite A in A'. injection A' as <- <-. rewrite V in V'. apply ok_inj in V'. subst w'. now rewrite (mnemonic_fun _ _ _ N N').
Qed.
Lemma constants_fun lp rp l r a b a' b' : constants_data fmt reprs lp rp l r a b -> constants_data fmt reprs lp rp l r a' b' -> a = a' /\ b = b'.
Proof.
  assert (X : forall a b a' b', constants_data fmt reprs lp rp l r a b -> (exists dl dr, length l = length r /\ disassemble l = (dl, None) /\ disassemble r = (dr, None) /\ same_ops dl dr /\ ~ same_body tool_resolved lp rp l r /\
    constants_shown fmt reprs lp (fun x => exists y, In y dr /\ other_constant lp rp x y) dl a' /\ constants_shown fmt reprs rp (fun y => exists x, In x dl /\ other_constant lp rp x y) dr b') -> a = a' /\ b = b').
  { clear a b a' b'. intros a b a' b' H (dl & dr & E & D1 & D2 & S & N & C1 & C2). destruct H as [E'|dl' dr' D1' D2' S'|B|dl' dr' a b E' D1' D2' S' N' C1' C2']; try contradiction.
    - rewrite D1 in D1'. rewrite D2 in D2'. injection D1' as <-. injection D2' as <-. contradiction.
    - rewrite D1 in D1'. rewrite D2 in D2'. injection D1' as <-. injection D2' as <-. split; eapply shown_fun; eassumption. }
  intros H H'. destruct H as [E|dl dr D1 D2 S|B|dl dr a b E D1 D2 S N C1 C2].
  4:{ destruct (X a' b' a b H') as [-> ->]; [|now split]. exists dl, dr. auto 8. }
  all: destruct H' as [E'|dl' dr' D1' D2' S'|B'|dl' dr' a' b' E' D1' D2' S' N' C1' C2']; try (now split).
  all: match goal with |- None = ?u /\ None = ?v => apply (X None None u v) end; [|exists dl', dr'; auto 8]; first [apply constants_length; assumption|apply (constants_ops _ _ _ _ _ _ dl dr); assumption|apply constants_same; assumption].
Qed.
Lemma code_exact lp rp K H : Forall exact_data (code_data_of fmt reprs lp rp K H ++ [body_data K H]).
Proof.
  unfold code_data_of. cbv zeta. cbn [app]. repeat apply Forall_cons; try apply value_exact; [|apply body_exact|apply Forall_nil]. intros a b a' b'. cbn [q_data]. destruct K as [K|], H as [H|]; [apply constants_fun|..]; intros [-> ->] [-> ->]; now split.
Qed.
Lemma sharp_still lp rp K H : Forall sharp (still_items fmt reprs o lp rp K H).
Proof.
  unfold still_items. pose proof (code_exact lp rp K H) as F. revert F. generalize (code_data_of fmt reprs lp rp K H ++ [body_data K H]) as qs. intro qs.
  generalize [ignore_absolute_lines o; ignore_relative_lines o; false; false; false; false; false] as is. induction qs as [|q qs IH]; intros [|i is] F; cbn [combine map]; try apply Forall_nil. inversion F as [|? ? F1 F2]; subst.
  apply Forall_cons; [|now apply IH]. cbn [fst snd]. unfold still_item. now apply sharp_single.
Qed.
Lemma sharp_code lp rp K H t : code_doc fmt reprs o lp rp K H t -> sharp t.
Proof.
  intros [K' H' ts t' A B|K'|H'|]; unfold code_group; apply sharp_group; [|apply sharp_still|apply sharp_still|apply Forall_nil]. pose proof (code_exact lp rp (Some K') (Some H')) as F. apply Forall_app in F as [F _]. apply Forall_app. split; [exact (sharp_items _ _ _ F A)|].
  apply Forall_cons; [|apply Forall_nil]. destruct B; apply sharp_single, body_exact.
Qed.
Ltac data_tac := cbv zeta; repeat apply Forall_cons; try apply Forall_nil; first [apply value_exact|apply maybe_exact|idtac].
Lemma sharp_field lp rp a b t : field_doc fmt reprs o lp rp a b t -> sharp t.
Proof. intros (F & G & ts & H1 & H2 & H3 & ->). apply sharp_group. refine (sharp_items _ _ _ _ H3). unfold fields_data, annos_data. data_tac. Qed.
Lemma sharp_method lp rp a b t : method_doc fmt reprs o lp rp a b t -> sharp t.
Proof.
  intros (F & G & ts & tc & H1 & H2 & H3 & H4 & ->). apply sharp_group. apply Forall_app. split; [|apply Forall_cons; [exact (sharp_code _ _ _ _ _ H4)|apply Forall_nil]].
  refine (sharp_items _ _ _ _ H3). unfold methods_data, annos_data. data_tac.
Qed.
Lemma sharp_all {A} (P : A -> piece -> Prop) l ts : (forall x t, P x t -> sharp t) -> Forall2 P l ts -> Forall sharp ts.
Proof. intros F H. induction H; constructor; [eapply F; eassumption|assumption]. Qed.
Lemma sharp_members c what same (added removed : member -> piece -> Prop) (changed : member -> member -> piece -> Prop) ls rs t : (forall x t, added x t -> sharp t) -> (forall x t, removed x t -> sharp t) -> (forall x y t, changed x y t -> sharp t) ->
  members_doc o c what same added removed changed ls rs t -> sharp t.
Proof.
  intros FA FR FC (x & y & p & ta & tr & tc & _ & _ & _ & A & R & C & ->). apply sharp_group. apply Forall_app. split; [exact (sharp_all _ _ _ FA A)|]. apply Forall_app. split; [exact (sharp_all _ _ _ FR R)|].
  refine (sharp_all _ _ _ _ C). intros [u v] t0. apply FC.
Qed.
Theorem document_unique l r kl kr j j' : pool_shows kl (c_pool l) -> pool_shows kr (c_pool r) -> class_doc fmt reprs ffmt o l r j -> class_doc fmt reprs ffmt o l r j' -> j = j'.
Proof.
  intros PL PR (t & H & HJ) (t' & H' & HJ'). pose proof (piece_fun _ _ _ _ H H') as <-. revert j j' HJ HJ'. change (sharp t). destruct H as (L & R & th & ta & ti & tp & tf & tm & KL & KR & H1 & H2 & H3 & H4 & H5 & H6 & ->).
  apply sharp_group. repeat apply Forall_cons; [..|apply Forall_nil].
  - apply sharp_group. refine (sharp_items _ _ _ _ H1). unfold header_data. data_tac.
  - exact (sharp_item _ _ _ (value_exact _ _ _ _) H2).
  - exact (sharp_item _ _ _ (value_exact _ _ _ _) H3).
  - refine (sharp_item _ _ _ _ H4). intros a b a' b' [(x & -> & X) (y & -> & Y)] [(x' & -> & X') (y' & -> & Y')]. rewrite (X _ PL), (X' _ PL), (Y _ PR), (Y' _ PR). now split.
  - refine (sharp_members _ _ _ _ _ _ _ _ _ _ _ _ H5).
    + intros m t (F & _ & ->). apply sharp_alone.
    + intros m t (F & _ & ->). apply sharp_alone.
    + intros a b t. apply sharp_field.
  - refine (sharp_members _ _ _ _ _ _ _ _ _ _ _ _ H6).
    + intros m t (F & _ & ->). apply sharp_alone.
    + intros m t (F & _ & ->). apply sharp_alone.
    + intros a b t. apply sharp_method.
Qed.
End Unique.

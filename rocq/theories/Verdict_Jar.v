(** The verdict on jars and distributions is symmetric and transitive. *)
From Verif Require Import Base Pack_Model ConstPool_Model ConstPool_Spec ClassFile_Model Manifest_Model Change_Model Change_Spec Change_Proofs Change_Report Classdiff_Model Classdiff_Spec Classdiff_Class Classdiff_Passes Change_Tame
  Zip_Model Zip_Spec Zip_Proofs Dir_Spec Dir_Proofs Jardiff_Model Jardiff_Spec Jardiff_Proofs Jardiff_Jar Distdiff_Model Distdiff_Spec Distdiff_Proofs Distdiff_Dist Verdict_Spec Verdict_Class.
From Coq Require Import Permutation.

(** ** Manifests *)
Lemma differs_sym l r k : differs_in l r k -> differs_in r l k.
Proof. intros (v & [H|H]); exists v; auto. Qed.
Lemma item_dec (i : str * str) (l : section) : In i l \/ ~ In i l.
Proof. destruct (in_dec (fun a b : str * str => ltac:(repeat decide equality) : {a = b} + {a <> b}) i l); auto. Qed.
Lemma differs_trans a b c k : differs_in a c k -> differs_in a b k \/ differs_in b c k.
Proof. intros (v & [[H K]|[H K]]); destruct (item_dec (k, v) b) as [B|B]; [right|left|left|right]; exists v; auto. Qed.
Lemma keys_sym o l r : only_ignored_keys o l r -> only_ignored_keys (swapped o) r l.
Proof. intros [H K]. split; [exact H|]. intros k Hk. apply K. now apply differs_sym. Qed.
Lemma keys_trans o a b c : only_ignored_keys o a b -> only_ignored_keys o b c -> only_ignored_keys o a c.
Proof. intros [H K] [_ K']. split; [exact H|]. intros k Hk. destruct (differs_trans a b c k Hk); auto. Qed.
Lemma manifest_ok_sym o l r : manifest_ok o l r -> manifest_ok (swapped o) r l.
Proof.
  intros [H|[H1 H2]]; [now left|right]. split.
  - destruct H1 as [H1|H1]; [left; now symmetry|right; now apply keys_sym].
  - intro n. specialize (H2 n). destruct (dget (m_subs l) n), (dget (m_subs r) n); auto. destruct H2 as [H|[H|H]]; [left; now symmetry|right; left; exact H|right; right; now apply keys_sym].
Qed.
Lemma manifest_ok_trans o a b c : manifest_ok o a b -> manifest_ok o b c -> manifest_ok o a c.
Proof.
  intros [H|[H1 H2]] [K|[K1 K2]]; try (now left). right. split.
  - destruct H1 as [H1|H1], K1 as [K1|K1]; [left; congruence|right; rewrite H1; exact K1|right; rewrite <- K1; exact H1|right; eapply keys_trans; eassumption].
  - intro n. specialize (H2 n). specialize (K2 n). destruct (dget (m_subs a) n) as [x|], (dget (m_subs b) n) as [y|], (dget (m_subs c) n) as [z|]; auto.
    destruct H2 as [-> |[H|H]]; [exact K2|auto|]. destruct K2 as [<- |[K|K]]; [auto|auto|right; right; eapply keys_trans; eassumption].
Qed.
Lemma manifest_same_sym l r : manifest_same l r -> manifest_same r l.
Proof. intros [H K]. split; [now symmetry|]. intro n. now symmetry. Qed.
Lemma manifest_same_trans a b c : manifest_same a b -> manifest_same b c -> manifest_same a c.
Proof. intros [H K] [H' K']. split; [congruence|]. intro n. now rewrite K. Qed.

Section Jars.
Variable fmt : pyval -> str.
Variable reprs : str -> str.
Variable ffmt : pyval -> str.
Variable up : Z -> str.
Notation cmp := (comparable fmt reprs ffmt up).
Notation acc := (acceptable fmt reprs ffmt up).

Lemma class_zero_sym o l r s s' : proper_class fmt l -> proper_class fmt r -> classdiff fmt reprs ffmt o l r = Ok s -> classdiff fmt reprs ffmt (swapped o) r l = Ok s' -> s = 0 -> s' = 0.
Proof. intros PL PR H H' ->. apply (classdiff_sym fmt reprs ffmt o l r PL PR) in H. congruence. Qed.
(** What the code reads of an entry is a function of the name and the data. *)
Lemma acc_sym o n d d' : (class_file n -> forall c, unpack_class d MNone = Ok c -> proper_class fmt c) -> (class_file n -> forall c, unpack_class d' MNone = Ok c -> proper_class fmt c) ->
  acc o n d d' -> cmp (swapped o) n d' d -> acc (swapped o) n d' d.
Proof.
  intros PD PD' H C. destruct H as [l r M P1 P2 H|l r M S P1 P2 H|M S B H|l r s M S K U1 U2 E H|M S K H].
  - apply (acc_manifest _ _ _ _ _ _ _ _ r l); auto. destruct H; [now left|right; now apply manifest_ok_sym].
  - apply (acc_sigfile _ _ _ _ _ _ _ _ r l); auto. destruct H; [now left|right; now apply manifest_same_sym].
  - now apply acc_sigblock.
  - destruct C as [? ? [X|X]|r' l' s' _ _ _ U2' U1' E'|? ? X|? X X']; [contradiction|exfalso; apply S; now left| |exfalso; apply S; now right|contradiction].
    rewrite U2 in U2'. injection U2' as <-. rewrite U1 in U1'. injection U1' as <-. apply (acc_class _ _ _ _ _ _ _ _ r l s'); auto. destruct H as [H|H]; [now left|right]. eapply class_zero_sym; [| |exact E|exact E'|exact H]; eauto.
  - now apply acc_data.
Qed.
Lemma acc_trans o n d e d' : (class_file n -> forall c, unpack_class d MNone = Ok c -> proper_class fmt c) -> (class_file n -> forall c, unpack_class e MNone = Ok c -> proper_class fmt c) ->
  (class_file n -> forall c, unpack_class d' MNone = Ok c -> proper_class fmt c) -> acc o n d e -> acc o n e d' -> cmp o n d d' -> acc o n d d'.
Proof.
  intros PD PE PD' H K C. unfold parses in *.
  destruct H as [l r M P1 P2 H|l r M S P1 P2 H|M S B H|l r s M S KC U1 U2 E H|M S KC H].
  - destruct K as [l' r' M' P1' P2' K|? ? M'|M'|? ? ? M'|M']; try contradiction. unfold parses in *. rewrite P2 in P1'. injection P1' as <-. apply (acc_manifest _ _ _ _ _ _ _ _ l r'); auto.
    destruct H as [H|H]; [now left|]. destruct K as [K|K]; [now left|right; eapply manifest_ok_trans; eassumption].
  - destruct K as [? ? M'|l' r' _ _ P1' P2' K|_ X|? ? ? _ X|_ X]; try contradiction; [|exfalso; apply X; now left|exfalso; apply X; now left]. unfold parses in *. rewrite P2 in P1'. injection P1' as <-. apply (acc_sigfile _ _ _ _ _ _ _ _ l r'); auto.
    destruct H as [H|H]; [now left|]. destruct K as [K|K]; [now left|right; eapply manifest_same_trans; eassumption].
  - now apply acc_sigblock.
  - destruct K as [? ? M'|? ? _ X|_ _ X|l' r' s' _ _ _ U1' U2' E' K|_ _ X]; try contradiction; [exfalso; apply S; now left|exfalso; apply S; now right|]. rewrite U2 in U1'. injection U1' as <-.
    destruct C as [? ? [X|X]|l2 r2 s2 _ _ _ V1 V2 E2|? ? X|? X X']; [contradiction|exfalso; apply S; now left| |exfalso; apply S; now right|contradiction].
    rewrite U1 in V1. injection V1 as <-. rewrite U2' in V2. injection V2 as <-. apply (acc_class _ _ _ _ _ _ _ _ l r' s2); auto. destruct H as [H|H]; [now left|]. destruct K as [K|K]; [now left|right]. subst s s'.
    assert (X : classdiff fmt reprs ffmt o l r' = Ok 0) by (eapply classdiff_trans; [| | |exact E|exact E']; eauto). congruence.
  - now apply acc_data.
Qed.
(** An entry that may be missing may also differ. *)
Lemma acc_missing o n d d' : ~ signature up (lit "META-INF/MANIFEST.MF") -> one_sided_ok up o n -> cmp o n d d' -> acc o n d d'.
Proof.
  intros HM H C. destruct C as [l r [X|X] P1 P2|l r s M S K U1 U2 E|M S B|M S K].
  - apply (acc_manifest _ _ _ _ _ _ _ _ l r); auto. left. destruct H as [[H _]|[_ H]]; [|exact H]. unfold the_manifest in X. subst n. contradiction.
  - assert (~ the_manifest n) by (unfold the_manifest; intros ->; apply HM; now left). apply (acc_sigfile _ _ _ _ _ _ _ _ l r); auto. destruct H as [[_ H]|[H _]]; [now left|exfalso; apply H; now left].
  - apply (acc_class _ _ _ _ _ _ _ _ l r s); auto. destruct H as [[H _]|[_ H]]; [contradiction|now left].
  - apply acc_sigblock; auto. destruct H as [[_ H]|[H _]]; [exact H|exfalso; apply H; now right].
  - apply acc_data; auto. destruct H as [[H _]|[_ H]]; [contradiction|exact H].
Qed.
Lemma name_dec n (l : list str) : In n l \/ ~ In n l.
Proof. destruct (in_dec (list_eq_dec Z.eq_dec) n l); auto. Qed.
Lemma data_dec (d d' : bytes) : d = d' \/ d <> d'.
Proof. destruct (list_eq_dec Z.eq_dec d d'); auto. Qed.

Section Runs.
Variable text : bytes -> res str.
Notation jd order := (jardiff fmt reprs ffmt text order up).
Lemma proper_entry a n d : proper_jar fmt a -> content a n d -> class_file n -> forall c, unpack_class d MNone = Ok c -> proper_class fmt c.
Proof. intros (_ & _ & _ & H) HC K c. now apply H with (n := n). Qed.
Lemma jar_zero_sym order order' o l r s' : (forall s, Permutation (order s) s) -> (forall s, Permutation (order' s) s) -> proper_jar fmt l -> proper_jar fmt r ->
  jd order o (Ok l) (Ok r) = Ok 0 -> jd order' (swapped o) (Ok r) (Ok l) = Ok s' -> s' = 0.
Proof.
  intros OP OP' PL PR H H'. pose proof PL as (Kl & Ol & Sl & _). pose proof PR as (Kr & Or & Sr & _).
  apply (jardiff_zero fmt reprs ffmt text order up OP l r Kl Kr Ol Or Sl Sr o) in H. destruct H as (H1 & H2 & H3).
  assert (HC : on_differing (cmp (swapped o)) r l) by (apply (jardiff_ends fmt reprs ffmt text order' up OP' r l Kr Kl Or Ol Sr Sl (swapped o)); eauto).
  assert (HZ : jd order' (swapped o) (Ok r) (Ok l) = Ok 0); [|congruence].
  apply (jardiff_zero fmt reprs ffmt text order' up OP' r l Kr Kl Or Ol Sr Sl (swapped o)). split; [exact H2|]. split; [exact H1|].
  intros n d d' HD C1 C2 NE. apply acc_sym; [exact (proper_entry l n d' PL C2)|exact (proper_entry r n d PR C1)| |exact (HC n d d' HD C1 C2 NE)]. apply H3; auto.
Qed.
Theorem jardiff_sym order order' o l r s s' : (forall s, Permutation (order s) s) -> (forall s, Permutation (order' s) s) -> proper_jar fmt l -> proper_jar fmt r ->
  jd order o (Ok l) (Ok r) = Ok s -> jd order' (swapped o) (Ok r) (Ok l) = Ok s' -> s = s'.
Proof.
  intros OP OP' PL PR H H'. pose proof PL as (Kl & Ol & Sl & _). pose proof PR as (Kr & Or & Sr & _).
  pose proof (jardiff_status fmt reprs ffmt text order up OP l r o s H) as D. pose proof (jardiff_status fmt reprs ffmt text order' up OP' r l (swapped o) s' H') as D'.
  destruct D as [-> | ->]; [symmetry; eapply jar_zero_sym; [exact OP|exact OP'|exact PL|exact PR|exact H|exact H']|]. destruct D' as [-> | ->]; [|reflexivity].
  rewrite <- (swapped_twice o) in H. eapply jar_zero_sym; [exact OP'|exact OP|exact PR|exact PL|exact H'|exact H].
Qed.
Theorem jardiff_trans order1 order2 order3 o a b c s : (forall s, Permutation (order1 s) s) -> (forall s, Permutation (order2 s) s) -> (forall s, Permutation (order3 s) s) ->
  ~ signature up (lit "META-INF/MANIFEST.MF") -> proper_jar fmt a -> proper_jar fmt b -> proper_jar fmt c ->
  jd order1 o (Ok a) (Ok b) = Ok 0 -> jd order2 o (Ok b) (Ok c) = Ok 0 -> jd order3 o (Ok a) (Ok c) = Ok s -> s = 0.
Proof.
  intros O1 O2 O3 HM PA PB PC H1 H2 H3. pose proof PA as (Ka & Oa & Sa & _). pose proof PB as (Kb & Ob & Sb & _). pose proof PC as (Kc & Oc & Sc & _).
  apply (jardiff_zero fmt reprs ffmt text order1 up O1 a b Ka Kb Oa Ob Sa Sb o) in H1. apply (jardiff_zero fmt reprs ffmt text order2 up O2 b c Kb Kc Ob Oc Sb Sc o) in H2.
  destruct H1 as (L1 & R1 & D1). destruct H2 as (L2 & R2 & D2).
  assert (HC : on_differing (cmp o) a c) by (apply (jardiff_ends fmt reprs ffmt text order3 up O3 a c Ka Kc Oa Oc Sa Sc o); eauto).
  assert (HZ : jd order3 o (Ok a) (Ok c) = Ok 0); [|congruence].
  apply (jardiff_zero fmt reprs ffmt text order3 up O3 a c Ka Kc Oa Oc Sa Sc o). split; [|split].
  - intros n Ha Hc. destruct (name_dec n (names b)); auto.
  - intros n Hc Ha. destruct (name_dec n (names b)); auto.
  - intros n d d' HD C1 C2 NE. pose proof (HC n d d' HD C1 C2 NE) as C. destruct (name_dec n (names b)) as [HB|HB].
    + apply names_content in HB as [e HB]. destruct (data_dec d e) as [-> |N1]; [now apply D2|]. destruct (data_dec e d') as [-> |N2]; [now apply D1|].
      apply (acc_trans o n d e d'); [exact (proper_entry a n d PA C1)|exact (proper_entry b n e PB HB)|exact (proper_entry c n d' PC C2)|now apply D1|now apply D2|exact C].
    + apply acc_missing; [exact HM| |exact C]. apply L1; [apply names_content; eauto|exact HB].
Qed.

(** ** Distributions *)
Lemma dirs_sym l r : Dir_Spec.comparable l r -> Dir_Spec.comparable r l.
Proof.
  revert l r. fix IH 3. intros l r H. destruct H as [ll lk rl rk H1 H2]. constructor.
  - intros f a b Ha Hb. destruct (H1 f b a Hb Ha) as [(l1 & d1 & m1 & l2 & d2 & m2 & -> & -> & E)|HC]; [left|right; exact (IH _ _ HC)]. exists l2, d2, m2, l1, d1, m1. split; [reflexivity|]. split; [reflexivity|]. intros. symmetry. apply E; now symmetry.
  - assert (G : forall f a b, In (f, a) lk -> In (f, b) rk -> is_dir b = true -> is_dir a = true).
    { intros f a b Ha Hb. destruct (H1 f a b Ha Hb) as [(l1 & d1 & m1 & l2 & d2 & m2 & -> & -> & E)|HC]; [discriminate|]. now destruct HC. }
    intros f a b f' a' b' Ha Hb Ha' Hb' X Y. apply (H2 f b a f' b' a'); eauto.
Qed.
Lemma file_dec p : forall t, plain t -> file_at t p \/ ~ file_at t p.
Proof.
  induction p as [|f q IH]; intros t HT.
  - rewrite file_at_nil. destruct (is_dir t); [right; discriminate|now left].
  - destruct HT as [l d m|l|kids N F]; [right; rewrite file_at_leaf by reflexivity; discriminate..|]. rewrite file_at_cons by exact N. destruct (Dir_Model.kid f kids) as [n|] eqn:E.
    + assert (HN : plain n) by (rewrite Forall_forall in F; exact (F _ (kid_In _ _ _ E))). destruct (IH n HN) as [H|H]; [left; eauto|right]. intros (n' & X & Y). injection X as <-. contradiction.
    + right. intros (n' & X & _). discriminate.
Qed.
Lemma file_data p : forall a b d, plain a -> plain b -> Dir_Spec.comparable a b -> data_at a p d -> file_at b p -> exists e, data_at b p e.
Proof.
  induction p as [|f q IH]; intros a b d PA PB HC HA HB.
  - destruct HC as [ll lk rl rk H1 H2]. apply file_at_nil in HB. discriminate.
  - destruct HC as [ll lk rl rk H1 H2]. inversion PA as [| |? NA FA]; subst. inversion PB as [| |? NB FB]; subst. apply data_at_cons in HA as (n & EA & HA); [|exact NA]. apply file_at_cons in HB as (m & EB & HB); [|exact NB].
    apply kid_In in EA. pose proof (kid_In _ _ _ EB) as IB. rewrite Forall_forall in FA, FB. destruct (H1 f n m EA IB) as [(l1 & d1 & m1 & l2 & d2 & m2 & -> & -> & _)|HC].
    + apply file_at_leaf in HB; [|reflexivity]. subst q. exists d2. apply data_at_cons; [exact NB|]. exists (File l2 d2 m2). split; [exact EB|]. exists l2, m2. constructor.
    + destruct (IH n m d (FA _ EA) (FB _ IB) HC HA HB) as [e HE]. exists e. apply data_at_cons; eauto.
Qed.
Lemma trailing_sym a b : trailing_only a b -> trailing_only b a.
Proof. intros (ls & rs & H1 & H2 & H3). exists rs, ls. split; [exact H2|]. split; [exact H1|]. intro i. destruct (H3 i) as (u & X & Y). eauto. Qed.
Lemma trailing_trans a b c : trailing_only a b -> trailing_only b c -> trailing_only a c.
Proof.
  intros (ls & rs & H1 & H2 & H3) (rs' & ts & K1 & K2 & K3). rewrite (lines_fun _ _ H2 _ K1) in K3. exists ls, ts. split; [exact H1|]. split; [exact K2|]. intro i. destruct (H3 i) as (u & X & Y). destruct (K3 i) as (v & X' & Y'). rewrite <- (stripped_fun _ _ _ Y X') in Y'. eauto.
Qed.
Variable unzip : bytes -> jar.
Section Files.
Variable n : str.
Variables d d' : bytes.
Hypothesis PC : is_kind n KClass -> forall c, unpack_class d MNone = Ok c -> proper_class fmt c.
Hypothesis PC' : is_kind n KClass -> forall c, unpack_class d' MNone = Ok c -> proper_class fmt c.
Hypothesis PJ : is_kind n KJar -> forall a, unzip d = Ok a -> proper_jar fmt a.
Hypothesis PJ' : is_kind n KJar -> forall a, unzip d' = Ok a -> proper_jar fmt a.
Lemma jardiff_opens order o x y s : jd order o x y = Ok s -> exists a b, x = Ok a /\ y = Ok b.
Proof.
  unfold jardiff. destruct (check _) as [c|] eqn:E; cbn [rbind]; [|discriminate]. intros _.
  assert (HX : completes (jar_change fmt reprs ffmt text order up x y)) by (now exists c). clear E c.
  unfold jar_change in HX. apply completes_super in HX as [_ HX]. rewrite !Forall_cons_eq in HX. destruct HX as (_ & HX & _). unfold jar_contents in HX. apply completes_kids in HX; [|reflexivity|reflexivity|now left]. destruct HX as [HX _].
  destruct x as [a|e]; [|discriminate HX]. destruct y as [b|e]; [eauto|discriminate HX].
Qed.
Lemma file_acc_sym order order' o : (forall s, Permutation (order s) s) -> (forall s, Permutation (order' s) s) ->
  file_acceptable fmt reprs ffmt text order up unzip o n d d' -> file_comparable fmt reprs ffmt text order' up unzip (swapped o) n d' d ->
  file_acceptable fmt reprs ffmt text order' up unzip (swapped o) n d' d.
Proof.
  intros OP OP' H C. destruct H as [s K E H|a b s K U1 U2 E H|a b K T1 T2 H|a b K P1 P2 H|K].
  - destruct C as [s' _ E'|? ? ? X|? ? X|? ? X|X]; try discriminate (kinds_clash _ _ _ K X). apply (facc_jar _ _ _ _ _ _ _ _ _ _ _ s'); auto. destruct H as [H| ->]; [now left|right].
    destruct (jardiff_opens _ _ _ _ _ E) as (x & y & Ex & Ey). rewrite Ex, Ey in E, E'. eapply jar_zero_sym; [exact OP|exact OP'|exact (PJ K x Ex)|exact (PJ' K y Ey)|exact E|exact E'].
  - destruct C as [? X|b' a' s' _ U2' U1' E'|? ? X|? ? X|X]; try discriminate (kinds_clash _ _ _ K X). rewrite U2 in U2'. injection U2' as <-. rewrite U1 in U1'. injection U1' as <-.
    apply (facc_class _ _ _ _ _ _ _ _ _ _ _ b a s'); auto. destruct H as [H|H]; [now left|right]. eapply class_zero_sym; [| |exact E|exact E'|exact H]; eauto.
  - apply (facc_text _ _ _ _ _ _ _ _ _ _ _ b a); auto. destruct H as [H|[H|[H1 H2]]]; [left; now symmetry|right; now left|right; right; split; [exact H1|now apply trailing_sym]].
  - apply (facc_manifest _ _ _ _ _ _ _ _ _ _ _ b a); auto. destruct H as [H|H]; [now left|right; now apply manifest_ok_sym].
  - now apply facc_data.
Qed.
Variable e : bytes.
Hypothesis PCe : is_kind n KClass -> forall c, unpack_class e MNone = Ok c -> proper_class fmt c.
Hypothesis PJe : is_kind n KJar -> forall a, unzip e = Ok a -> proper_jar fmt a.
Hypothesis HM : ~ signature up (lit "META-INF/MANIFEST.MF").
Lemma file_acc_trans order1 order2 order3 o : (forall s, Permutation (order1 s) s) -> (forall s, Permutation (order2 s) s) -> (forall s, Permutation (order3 s) s) ->
  file_acceptable fmt reprs ffmt text order1 up unzip o n d e -> file_acceptable fmt reprs ffmt text order2 up unzip o n e d' -> file_comparable fmt reprs ffmt text order3 up unzip o n d d' ->
  file_acceptable fmt reprs ffmt text order3 up unzip o n d d'.
Proof.
  intros O1 O2 O3 H K C. destruct H as [s KK E H|a b s KK U1 U2 E H|a b KK T1 T2 H|a b KK P1 P2 H|KK].
  - destruct C as [s3 _ E3|? ? ? X|? ? X|? ? X|X]; try discriminate (kinds_clash _ _ _ KK X). destruct K as [s2 _ E2 K|? ? ? X|? ? X|? ? X|X]; try discriminate (kinds_clash _ _ _ KK X).
    apply (facc_jar _ _ _ _ _ _ _ _ _ _ _ s3); auto. destruct H as [H| ->]; [now left|]. destruct K as [K| ->]; [now left|right].
    destruct (jardiff_opens _ _ _ _ _ E) as (x & y & Ex & Ey). destruct (jardiff_opens _ _ _ _ _ E3) as (_ & z & _ & Ez). rewrite Ex, Ey in E. rewrite Ey, Ez in E2. rewrite Ex, Ez in E3. eapply (jardiff_trans order1 order2 order3); [exact O1|exact O2|exact O3|exact HM|exact (PJ KK x Ex)|exact (PJe KK y Ey)|exact (PJ' KK z Ez)|exact E|exact E2|exact E3].
  - destruct C as [? X|a3 b3 s3 _ V1 V2 E3|? ? X|? ? X|X]; try discriminate (kinds_clash _ _ _ KK X). destruct K as [? X|a2 b2 s2 _ W1 W2 E2 K|? ? X|? ? X|X]; try discriminate (kinds_clash _ _ _ KK X).
    rewrite U1 in V1. injection V1 as <-. rewrite U2 in W1. injection W1 as <-. rewrite V2 in W2. injection W2 as <-. apply (facc_class _ _ _ _ _ _ _ _ _ _ _ a b3 s3); auto. destruct H as [H| ->]; [now left|]. destruct K as [K| ->]; [now left|right].
    assert (X : classdiff fmt reprs ffmt o a b3 = Ok 0) by (eapply classdiff_trans; [| | |exact E|exact E2]; eauto). congruence.
  - destruct K as [? X|? ? ? X|a2 b2 _ S1 S2 K|? ? X|X]; try discriminate (kinds_clash _ _ _ KK X). rewrite T2 in S1. injection S1 as <-. apply (facc_text _ _ _ _ _ _ _ _ _ _ _ a b2); auto.
    destruct H as [<- |[H|[H1 H2]]]; [exact K|auto|]. destruct K as [<- |[K|[K1 K2]]]; [auto|auto|right; right; split; [exact H1|eapply trailing_trans; eassumption]].
  - destruct K as [? X|? ? ? X|? ? X|a2 b2 _ S1 S2 K|X]; try discriminate (kinds_clash _ _ _ KK X). unfold parses in *. rewrite P2 in S1. injection S1 as <-. apply (facc_manifest _ _ _ _ _ _ _ _ _ _ _ a b2); auto.
    destruct H as [H|H]; [now left|]. destruct K as [K|K]; [now left|right; eapply manifest_ok_trans; eassumption].
  - now apply facc_data.
Qed.
End Files.
(** The order in which the entries of a jar are listed is of no account. *)
Lemma file_acc_any order order' o n d d' : (forall s, Permutation (order s) s) -> (forall s, Permutation (order' s) s) ->
  (is_kind n KJar -> forall a, unzip d = Ok a -> proper_jar fmt a) -> (is_kind n KJar -> forall a, unzip d' = Ok a -> proper_jar fmt a) ->
  file_acceptable fmt reprs ffmt text order up unzip o n d d' -> file_acceptable fmt reprs ffmt text order' up unzip o n d d'.
Proof.
  intros OP OP' PL PR H. destruct H as [s K E H|a b s K U1 U2 E H|a b K T1 T2 H|a b K P1 P2 H|K]; [|eapply facc_class; eauto|eapply facc_text; eauto|eapply facc_manifest; eauto|now apply facc_data].
  destruct (jardiff_opens _ _ _ _ _ E) as (x & y & Ex & Ey). pose proof (PL K x Ex) as (Kx & Ox & Sx & _). pose proof (PR K y Ey) as (Ky & Oy & Sy & _).
  assert (HE : exists s', jd order' o (Ok x) (Ok y) = Ok s' /\ (s = 0 -> s' = 0)).
  { rewrite Ex, Ey in E. assert (HC : on_differing (cmp o) x y) by (apply (jardiff_ends fmt reprs ffmt text order up OP x y Kx Ky Ox Oy Sx Sy o); eauto).
    apply (jardiff_ends fmt reprs ffmt text order' up OP' x y Kx Ky Ox Oy Sx Sy o) in HC as [s' E']. exists s'. split; [exact E'|]. intros ->. apply (jardiff_zero fmt reprs ffmt text order up OP x y Kx Ky Ox Oy Sx Sy o) in E.
    apply (jardiff_zero fmt reprs ffmt text order' up OP' x y Kx Ky Ox Oy Sx Sy o) in E. congruence. }
  destruct HE as (s' & E' & HS). apply (facc_jar _ _ _ _ _ _ _ _ _ _ _ s'); [exact K|now rewrite Ex, Ey|]. destruct H as [H|H]; auto.
Qed.
(** A file whose name is matched may differ. *)
Lemma file_acc_matched order o n d d' : fmatched o n -> file_comparable fmt reprs ffmt text order up unzip o n d d' -> file_acceptable fmt reprs ffmt text order up unzip o n d d'.
Proof. intros H C. destruct C; [eapply facc_jar|eapply facc_class|eapply facc_text|eapply facc_manifest|apply facc_data]; eauto. Qed.
Notation dd order := (distdiff fmt reprs ffmt text order up unzip).
Lemma dist_zero_sym order order' o sh l r s' : (forall s, Permutation (order s) s) -> (forall s, Permutation (order' s) s) -> proper_tree fmt unzip l -> proper_tree fmt unzip r -> Dir_Spec.comparable l r ->
  dd order l r o sh = Ok 0 -> dd order' r l (swapped o) sh = Ok s' -> s' = 0.
Proof.
  intros OP OP' (Pl & Nl & Fl) (Pr & Nr & Fr) HC H H'. pose proof (dirs_sym _ _ HC) as HC'.
  apply (distdiff_zero fmt reprs ffmt text order up unzip OP l r Pl Pr Nl Nr HC o sh) in H. destruct H as (H1 & H2 & H3).
  assert (CC : on_common text sh (file_comparable fmt reprs ffmt text order' up unzip (swapped o)) r l) by (apply (distdiff_ends fmt reprs ffmt text order' up unzip OP' r l Pr Pl Nr Nl HC' (swapped o) sh); eauto).
  assert (HZ : dd order' r l (swapped o) sh = Ok 0); [|congruence].
  apply (distdiff_zero fmt reprs ffmt text order' up unzip OP' r l Pr Pl Nr Nl HC' (swapped o) sh). split; [exact H2|]. split; [exact H1|].
  destruct H3 as [H3|H3]; [now left|]. destruct CC as [CC|CC]; [now left|right]. intros p d d' D1 D2. destruct (CC p d d' D1 D2) as [C1 C2]. split; [|exact C2]. intro NE. destruct (Fl p d' D2) as [L1 L2]. destruct (Fr p d D1) as [R1 R2].
  apply (file_acc_sym (name_of p) d' d L1 R1 L2 R2 order order' o OP OP'); [|now apply C1]. apply H3; auto.
Qed.
Theorem distdiff_sym order order' o sh l r s s' : (forall s, Permutation (order s) s) -> (forall s, Permutation (order' s) s) -> proper_tree fmt unzip l -> proper_tree fmt unzip r -> Dir_Spec.comparable l r ->
  dd order l r o sh = Ok s -> dd order' r l (swapped o) sh = Ok s' -> s = s'.
Proof.
  intros OP OP' PL PR HC H H'. pose proof PL as (Pl & Nl & _). pose proof PR as (Pr & Nr & _). pose proof (dirs_sym _ _ HC) as HC'.
  pose proof (distdiff_status fmt reprs ffmt text order up unzip OP l r o sh s H) as D. pose proof (distdiff_status fmt reprs ffmt text order' up unzip OP' r l (swapped o) sh s' H') as D'.
  destruct D as [-> | ->]; [symmetry; eapply dist_zero_sym; [exact OP|exact OP'|exact PL|exact PR|exact HC|exact H|exact H']|]. destruct D' as [-> | ->]; [|reflexivity].
  rewrite <- (swapped_twice o) in H. eapply dist_zero_sym; [exact OP'|exact OP|exact PR|exact PL|exact HC'|exact H'|exact H].
Qed.
(** Chains: for file names the options treat alike whether the file is common or not. *)
Theorem distdiff_trans order1 order2 order3 o sh a b c s : (forall s, Permutation (order1 s) s) -> (forall s, Permutation (order2 s) s) -> (forall s, Permutation (order3 s) s) ->
  ~ signature up (lit "META-INF/MANIFEST.MF") -> proper_tree fmt unzip a -> proper_tree fmt unzip b -> proper_tree fmt unzip c ->
  Dir_Spec.comparable a b -> Dir_Spec.comparable b c -> Dir_Spec.comparable a c ->
  (forall p, file_at a p -> file_at c p -> ~ file_at b p -> fmatched o (slashes p) -> fmatched o (name_of p)) ->
  dd order1 a b o sh = Ok 0 -> dd order2 b c o sh = Ok 0 -> dd order3 a c o sh = Ok s -> s = 0.
Proof.
  intros O1 O2 O3 HM (Pa & Na & Fa) (Pb & Nb & Fb) (Pc & Nc & Fc) C1 C2 C3 HN H1 H2 H3.
  apply (distdiff_zero fmt reprs ffmt text order1 up unzip O1 a b Pa Pb Na Nb C1 o sh) in H1. apply (distdiff_zero fmt reprs ffmt text order2 up unzip O2 b c Pb Pc Nb Nc C2 o sh) in H2.
  destruct H1 as (L1 & R1 & D1). destruct H2 as (L2 & R2 & D2).
  assert (CC : on_common text sh (file_comparable fmt reprs ffmt text order3 up unzip o) a c) by (apply (distdiff_ends fmt reprs ffmt text order3 up unzip O3 a c Pa Pc Na Nc C3 o sh); eauto).
  assert (HZ : dd order3 a c o sh = Ok 0); [|congruence].
  assert (FD : forall t p, plain t -> file_at t p \/ ~ file_at t p) by (intros t p; apply file_dec).
  apply (distdiff_zero fmt reprs ffmt text order3 up unzip O3 a c Pa Pc Na Nc C3 o sh). split; [|split].
  - intros p Ha Hc. destruct (FD b p Pb); auto.
  - intros p Hc Ha. destruct (FD b p Pb); auto.
  - destruct CC as [CC|CC]; [now left|]. destruct D1 as [D1|D1]; [now left|]. destruct D2 as [D2|D2]; [now left|]. right. intros p d d' E1 E2. destruct (CC p d d' E1 E2) as [X1 X2]. split; [|exact X2]. intro NE. specialize (X1 NE).
    assert (FA : file_at a p) by (exact (data_file _ _ _ E1)). assert (FC : file_at c p) by (exact (data_file _ _ _ E2)).
    destruct (FD b p Pb) as [HB|HB].
    + assert (exists e, data_at b p e) as [e EB] by (exact (file_data p a b d Pa Pb C1 E1 HB)). destruct (D1 p d e E1 EB) as [Y1 _]. destruct (D2 p e d' EB E2) as [Y2 _].
      destruct (Fa p d E1) as [A1 A2]. destruct (Fb p e EB) as [B1 B2]. destruct (Fc p d' E2) as [G1 G2].
      destruct (data_dec d e) as [-> |N1]; [now apply (file_acc_any order2 order3); auto|]. destruct (data_dec e d') as [-> |N2]; [now apply (file_acc_any order1 order3); auto|].
      apply (file_acc_trans (name_of p) d d' A1 G1 A2 G2 e B1 B2 HM order1 order2 order3 o O1 O2 O3); auto.
    + apply file_acc_matched; [|exact X1]. apply HN; auto.
Qed.
End Runs.
End Jars.

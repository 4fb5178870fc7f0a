(** The verdict on classes is symmetric and transitive. *)
From Verif Require Import Base Pack_Model ConstPool_Model ConstPool_Spec ConstPool_Deref Opcodes_Model ClassFile_Model Descr_Model Anno_Model Anno_Spec Anno_Proofs
  Change_Model Classdiff_Model Classdiff_Spec Classdiff_Members Classdiff_Passes Change_Tame Verdict_Spec Verdict_Anno.
From Coq Require Import Permutation.

(** ** Building blocks *)
Lemma derefs_fun p i v w : derefs p i v -> derefs p i w -> v = w.
Proof. intros H1 H2. apply deref_const_iff in H1. apply deref_const_iff in H2. congruence. Qed.
Lemma agree_flip {A} (R S : A -> A -> Prop) (l r : res A) : (forall a b, l = Ok a -> r = Ok b -> R a b -> S b a) -> agree R l r -> agree S r l.
Proof. intros H (a & b & E1 & E2 & HR). exists b, a. auto. Qed.
Lemma agree_comp {A} (R S T : A -> A -> Prop) (x y z : res A) : (forall a b c, x = Ok a -> y = Ok b -> z = Ok c -> R a b -> S b c -> T a c) -> agree R x y -> agree S y z -> agree T x z.
Proof. intros H (a & b & E1 & E2 & HR) (b' & c & E3 & E4 & HS). rewrite E2 in E3. injection E3 as <-. exists a, c. eauto. Qed.
Lemma opt_flip {A} (R S : A -> A -> Prop) l r : (forall a b, R a b -> S b a) -> opt_rel R l r -> opt_rel S r l.
Proof. intros H HR. destruct HR; constructor; auto. Qed.
Lemma opt_comp {A} (R S T : A -> A -> Prop) x y z : (forall a b c, R a b -> S b c -> T a c) -> opt_rel R x y -> opt_rel S y z -> opt_rel T x z.
Proof. intros H HR HS. destruct HR; inversion HS; subst; constructor; eauto. Qed.
Lemma F2_flip {A B} (R : A -> B -> Prop) (S : B -> A -> Prop) l r : (forall a b, R a b -> S b a) -> Forall2 R l r -> Forall2 S r l.
Proof. intros H HF. induction HF; constructor; auto. Qed.
Lemma F2_comp {A B C} (R : A -> B -> Prop) (S : B -> C -> Prop) (T : A -> C -> Prop) x y z : (forall a b c, R a b -> S b c -> T a c) -> Forall2 R x y -> Forall2 S y z -> Forall2 T x z.
Proof. intros H HF. revert z. induction HF; intros z HS; inversion HS; subst; constructor; eauto. Qed.
Lemma agree_eq_sym {A} (l r : res A) : agree eq l r -> agree eq r l.
Proof. apply agree_flip. intros; now symmetry. Qed.
Lemma agree_eq_trans {A} (x y z : res A) : agree eq x y -> agree eq y z -> agree eq x z.
Proof. apply agree_comp. intros; congruence. Qed.
Lemma agree_pyeq_sym l r : agree pyeq l r -> agree pyeq r l.
Proof. apply agree_flip. intros; now apply pyeq_sym. Qed.
Lemma agree_pyeq_trans x y z : agree pyeq x y -> agree pyeq y z -> agree pyeq x z.
Proof. apply agree_comp. intros; eapply pyeq_trans; eassumption. Qed.
Lemma agree_opt_sym l r : agree (opt_rel pyeq) l r -> agree (opt_rel pyeq) r l.
Proof. apply agree_flip. intros a b _ _. apply opt_flip, pyeq_sym. Qed.
Lemma agree_opt_trans x y z : agree (opt_rel pyeq) x y -> agree (opt_rel pyeq) y z -> agree (opt_rel pyeq) x z.
Proof. apply agree_comp. intros a b c _ _ _. apply opt_comp. intros; eapply pyeq_trans; eassumption. Qed.

(** ** Annotations *)
Lemma same_annos_sym lp rp la ra : same_annos lp rp la ra -> same_annos rp lp ra la.
Proof. intros [H1 H2]. split; [revert H1|revert H2]; apply agree_flip; intros a b Ha Hb; apply annos_sym; eapply annotations_keyed; eassumption. Qed.
Lemma same_annos_trans ap bp cp aa ba ca : same_annos ap bp aa ba -> same_annos bp cp ba ca -> same_annos ap cp aa ca.
Proof. intros [H1 H2] [H3 H4]. split; [revert H1 H3|revert H2 H4]; apply agree_comp; intros a b c Ha Hb Hc; apply annos_trans; eapply annotations_keyed; eassumption. Qed.

(** ** Code *)
Lemma same_insn_sym R lp rp a b : same_insn R lp rp a b -> same_insn R rp lp b a.
Proof.
  intros (H1 & H2 & H3). split; [now symmetry|]. split; [now symmetry|]. rewrite <- H2. destruct (R (i_code a)); [|now symmetry].
  destruct H3 as (i & j & rest & v & w & G1 & G2 & G3 & G4 & G5). exists j, i, rest, w, v. repeat (split; [assumption|]). now apply pyeq_sym.
Qed.
Lemma same_insn_trans R ap bp cp a b c : same_insn R ap bp a b -> same_insn R bp cp b c -> same_insn R ap cp a c.
Proof.
  intros (H1 & H2 & H3) (H4 & H5 & H6). split; [congruence|]. split; [congruence|]. rewrite <- H2 in H6. destruct (R (i_code a)); [|congruence].
  destruct H3 as (i & j & rest & v & w & G1 & G2 & G3 & G4 & G5). destruct H6 as (j' & k & rest' & w' & x & K1 & K2 & K3 & K4 & K5). rewrite G2 in K1. injection K1 as <- <-.
  rewrite <- (derefs_fun _ _ _ _ G4 K3) in K5. exists i, k, rest, v, x. repeat (split; [assumption|]). eapply pyeq_trans; eassumption.
Qed.
Lemma same_body_sym R lp rp l r : same_body R lp rp l r -> same_body R rp lp r l.
Proof. intros (H1 & dl & dr & H2 & H3 & H4). split; [now symmetry|]. exists dr, dl. split; [exact H3|]. split; [exact H2|]. revert H4. apply F2_flip. intros. now apply same_insn_sym. Qed.
Lemma same_body_trans R ap bp cp a b c : same_body R ap bp a b -> same_body R bp cp b c -> same_body R ap cp a c.
Proof.
  intros (H1 & dl & dr & H2 & H3 & H4) (K1 & dl' & dr' & K2 & K3 & K4). split; [congruence|]. rewrite H3 in K2. injection K2 as <-. exists dl, dr'. split; [exact H2|]. split; [exact K3|].
  revert H4 K4. apply F2_comp. intros x y z. apply same_insn_trans.
Qed.
Lemma catches_fun p e s t : catches p e s -> catches p e t -> s = t.
Proof. intros H1 H2. destruct H1, H2; try contradiction; [reflexivity|]. f_equal. eapply derefs_fun; eassumption. Qed.
Lemma same_handler_sym lp rp a b : same_handler lp rp a b -> same_handler rp lp b a.
Proof. intros (H1 & H2 & H3 & s & t & H4 & H5 & H6). repeat (split; [now symmetry|]). exists t, s. split; [exact H5|]. split; [exact H4|]. revert H6. apply opt_flip, pyeq_sym. Qed.
Lemma same_handler_trans ap bp cp a b c : same_handler ap bp a b -> same_handler bp cp b c -> same_handler ap cp a c.
Proof.
  intros (H1 & H2 & H3 & s & t & H4 & H5 & H6) (K1 & K2 & K3 & t' & u & K4 & K5 & K6). repeat (split; [congruence|]). rewrite (catches_fun _ _ _ _ K4 H5) in K6. exists s, u. split; [exact H4|]. split; [exact K5|].
  revert H6 K6. apply opt_comp. intros; eapply pyeq_trans; eassumption.
Qed.
Lemma lines_ok_sym o l r : lines_ok o l r -> lines_ok (swapped o) r l.
Proof. intros [[H|H] [K|K]]; split; cbn; auto. Qed.
Lemma lines_ok_trans o a b c : lines_ok o a b -> lines_ok o b c -> lines_ok o a c.
Proof. intros [[H|H] [K|K]] [[H'|H'] [K'|K']]; split; cbn; auto; left; congruence. Qed.
Lemma code_ok_sym o R lp rp l r : code_ok o R lp rp l r -> code_ok (swapped o) R rp lp r l.
Proof.
  intros (H1 & H2 & H3 & H4 & H5). split; [revert H1; apply agree_flip; intros a b _ _; apply lines_ok_sym|]. split; [now symmetry|]. split; [now symmetry|]. split; [revert H4; apply F2_flip; intros; now apply same_handler_sym|now apply same_body_sym].
Qed.
Lemma code_ok_trans o R ap bp cp a b c : code_ok o R ap bp a b -> code_ok o R bp cp b c -> code_ok o R ap cp a c.
Proof.
  intros (H1 & H2 & H3 & H4 & H5) (K1 & K2 & K3 & K4 & K5). split; [revert H1 K1; apply agree_comp; intros x y z _ _ _; apply lines_ok_trans|]. split; [congruence|]. split; [congruence|].
  split; [revert H4 K4; apply F2_comp; intros x y z; apply same_handler_trans|eapply same_body_trans; eassumption].
Qed.

(** ** Members *)
Section Fmt.
Variable fmt : pyval -> str.
Lemma deprecation_sym o a b : deprecation_ok o a b -> deprecation_ok (swapped o) b a.
Proof. intros [H|H]; [left; now symmetry|right; exact H]. Qed.
Lemma deprecation_trans o a b c : deprecation_ok o a b -> deprecation_ok o b c -> deprecation_ok o a c.
Proof. intros [H|H] [K|K]; [left; congruence|right; assumption..]. Qed.
Lemma fld_ok_sym o lp rp l r : fld_ok o lp rp l r -> fld_ok (swapped o) rp lp r l.
Proof. intros (H1 & H2 & H3 & H4 & H5 & H6 & H7). repeat split; auto using agree_pyeq_sym, agree_opt_sym, same_annos_sym, deprecation_sym; apply same_annos_sym in H4; apply H4. Qed.
Lemma fld_ok_trans o ap bp cp a b c : fld_ok o ap bp a b -> fld_ok o bp cp b c -> fld_ok o ap cp a c.
Proof.
  intros (H1 & H2 & H3 & H4 & H5 & H6 & H7) (K1 & K2 & K3 & K4 & K5 & K6 & K7). split; [eapply agree_pyeq_trans; eassumption|]. split; [eapply agree_pyeq_trans; eassumption|]. split; [eapply agree_opt_trans; eassumption|]. split; [eapply same_annos_trans; eassumption|].
  split; [congruence|]. split; [eapply agree_opt_trans; eassumption|eapply deprecation_trans; eassumption].
Qed.
Lemma mth_ok_sym o R lp rp l r : mth_ok fmt o R lp rp l r -> mth_ok fmt (swapped o) R rp lp r l.
Proof.
  intros (H1 & H2 & H3 & H4 & H5 & H6 & H7 & H8 & H9). split; [now apply agree_pyeq_sym|]. split; [now apply agree_eq_sym|]. split; [now apply agree_eq_sym|]. split; [now apply agree_opt_sym|]. split; [now apply same_annos_sym|]. split; [now symmetry|].
  split; [revert H7; apply agree_flip; intros a b _ _; apply F2_flip, pyeq_sym|]. split; [now apply deprecation_sym|]. revert H9. apply agree_flip. intros a b _ _. apply opt_flip. intros. now apply code_ok_sym.
Qed.
Lemma mth_ok_trans o R ap bp cp a b c : mth_ok fmt o R ap bp a b -> mth_ok fmt o R bp cp b c -> mth_ok fmt o R ap cp a c.
Proof.
  intros (H1 & H2 & H3 & H4 & H5 & H6 & H7 & H8 & H9) (K1 & K2 & K3 & K4 & K5 & K6 & K7 & K8 & K9). split; [eapply agree_pyeq_trans; eassumption|]. split; [eapply agree_eq_trans; eassumption|]. split; [eapply agree_eq_trans; eassumption|]. split; [eapply agree_opt_trans; eassumption|].
  split; [eapply same_annos_trans; eassumption|]. split; [congruence|]. split; [revert H7 K7; apply agree_comp; intros x y z _ _ _; apply F2_comp; intros; eapply pyeq_trans; eassumption|]. split; [eapply deprecation_trans; eassumption|].
  revert H9 K9. apply agree_comp. intros x y z _ _ _. apply opt_comp. intros; eapply code_ok_trans; eassumption.
Qed.
Lemma same_members_sym (M N : member -> member -> Prop) lp rp ls rs : (forall a b, M a b -> N b a) -> same_members fmt M lp rp ls rs -> same_members fmt N rp lp rs ls.
Proof.
  intros HMN (ls' & HP & HF). apply (F2_flip _ (fun r l => same_identity fmt rp lp r l /\ N r l)) in HF.
  - exact (Forall2_perm _ _ _ _ HF (Permutation_sym HP)).
  - intros a b [H1 H2]. split; [|now apply HMN]. now apply agree_pyeq_sym.
Qed.
Lemma same_members_trans (M N T : member -> member -> Prop) ap bp cp xs ys zs : (forall a b c, M a b -> N b c -> T a c) ->
  same_members fmt M ap bp xs ys -> same_members fmt N bp cp ys zs -> same_members fmt T ap cp xs zs.
Proof.
  intros HT (xs' & P1 & F1) (ys' & P2 & F2). destruct (Forall2_perm _ _ _ _ F1 P2) as (xs2 & P3 & F3). exists xs2. split; [etransitivity; eassumption|]. revert F3 F2. apply F2_comp. intros a b c [H1 H2] [K1 K2].
  split; [eapply agree_pyeq_trans; eassumption|eauto].
Qed.

(** ** Classes *)
Lemma same_set_sym l r : same_set l r -> same_set r l.
Proof. intros [H1 H2]. now split. Qed.
Lemma same_set_trans a b c : same_set a b -> same_set b c -> same_set a c.
Proof.
  intros [H1 H2] [K1 K2]. split.
  - intros x Hx. destruct (H1 x Hx) as (y & Hy & E). destruct (K1 y Hy) as (z & Hz & E'). exists z. split; [exact Hz|eapply pyeq_trans; eassumption].
  - intros z Hz. destruct (K2 z Hz) as (y & Hy & E). destruct (H2 y Hy) as (x & Hx & E'). exists x. split; [exact Hx|eapply pyeq_trans; eassumption].
Qed.
Lemma version_sym o v w : version_ok o v w -> version_ok (swapped o) w v.
Proof. intros [H|[[H K]|[H K]]]; [left; now symmetry|right; right; now split|right; left; now split]. Qed.
Lemma version_trans o u v w : version_ok o u v -> version_ok o v w -> version_ok o u w.
Proof.
  unfold version_ok, older. destruct u as [a b], v as [c d], w as [e f]. cbn [fst snd]. intros [H|[[H1 H2]|[H1 H2]]] [K|[[K1 K2]|[K1 K2]]]; try (injection H as -> ->); try (injection K as -> ->); auto;
    try (right; left; split; [assumption|lia]); try (right; right; split; [assumption|lia]).
  all: destruct (Z.lt_trichotomy a e) as [L|[->|L]]; [right; left; split; [assumption|lia]| |right; right; split; [assumption|lia]]; destruct (Z.lt_trichotomy b f) as [L|[->|L]]; [right; left; split; [assumption|lia]|now left|right; right; split; [assumption|lia]].
Qed.
Lemma same_entry_sym a b : same_entry a b -> same_entry b a.
Proof. unfold same_entry. destruct a; intro H; try (subst b; reflexivity); destruct H as (y & -> & H); eexists; (split; [reflexivity|now apply pyeq_sym]). Qed.
Lemma same_entry_trans a b c : same_entry a b -> same_entry b c -> same_entry a c.
Proof. unfold same_entry. destruct a; intros H K; try (subst b; exact K); destruct H as (y & -> & H); destruct K as (z & -> & K); eexists; (split; [reflexivity|eapply pyeq_trans; eassumption]). Qed.
Lemma same_pool_listable l r : same_pool l r -> listable l -> listable r.
Proof.
  unfold same_pool, listable. intros H. destruct H as [|a b l r _ HF]; [auto|]. cbn [tl]. induction HF as [|x y l r E HF IH]; [auto|]. intro H. inversion H as [|? ? H1 H2]; subst. constructor; [|now apply IH].
  destruct x; cbn [same_entry] in E; try (subst y; exact H1); destruct E as (z & -> & _); exact I.
Qed.
Lemma pool_ok_sym o l r : pool_ok o l r -> pool_ok (swapped o) r l.
Proof. intros [H|(H & K & L)]; [left; revert H; apply F2_flip, same_entry_sym|right; cbn; auto]. Qed.
Lemma same_pool_sym l r : same_pool l r -> same_pool r l.
Proof. apply F2_flip, same_entry_sym. Qed.
Lemma pool_ok_trans o a b c : pool_ok o a b -> pool_ok o b c -> pool_ok o a c.
Proof.
  intros [H|(H & K & L)] [H'|(H' & K' & L')].
  - left. revert H H'. apply F2_comp, same_entry_trans.
  - right. split; [exact H'|]. split; [|exact L']. exact (same_pool_listable _ _ (same_pool_sym _ _ H) K').
  - right. split; [exact H|]. split; [exact K|]. exact (same_pool_listable _ _ H' L).
  - right. auto.
Qed.
Lemma class_ok_sym o R l r : class_ok fmt o R l r -> class_ok fmt (swapped o) R r l.
Proof.
  intros ((H1 & H2 & H3 & H4 & H5 & H6 & H7) & H8 & H9 & H10 & H11). split.
  { split; [now apply agree_pyeq_sym|]. split; [now apply version_sym|]. split; [now apply agree_pyeq_sym|]. split; [revert H4; apply agree_flip; intros a b _ _; apply same_set_sym|]. split; [now symmetry|]. split; [now apply deprecation_sym|now apply agree_opt_sym]. }
  split; [now apply same_annos_sym|]. split; [now apply pool_ok_sym|]. split; [revert H10; apply same_members_sym; intros; now apply fld_ok_sym|revert H11; apply same_members_sym; intros; now apply mth_ok_sym].
Qed.
Lemma class_ok_trans o R a b c : class_ok fmt o R a b -> class_ok fmt o R b c -> class_ok fmt o R a c.
Proof.
  intros ((H1 & H2 & H3 & H4 & H5 & H6 & H7) & H8 & H9 & H10 & H11) ((K1 & K2 & K3 & K4 & K5 & K6 & K7) & K8 & K9 & K10 & K11). split.
  { split; [eapply agree_pyeq_trans; eassumption|]. split; [eapply version_trans; eassumption|]. split; [eapply agree_pyeq_trans; eassumption|]. split; [revert H4 K4; apply agree_comp; intros x y z _ _ _; apply same_set_trans|]. split; [congruence|]. split; [eapply deprecation_trans; eassumption|eapply agree_opt_trans; eassumption]. }
  split; [eapply same_annos_trans; eassumption|]. split; [eapply pool_ok_trans; eassumption|]. split; [revert H10 K10; apply same_members_trans; intros; eapply fld_ok_trans; eassumption|revert H11 K11; apply same_members_trans; intros; eapply mth_ok_trans; eassumption].
Qed.
Variable reprs : str -> str.
Variable ffmt : pyval -> str.
Theorem classdiff_sym o l r : proper_class fmt l -> proper_class fmt r -> classdiff fmt reprs ffmt o l r = Ok 0 -> classdiff fmt reprs ffmt (swapped o) r l = Ok 0.
Proof.
  intros [L1 L2] [R1 R2] H. apply classdiff_iff in H. apply class_passes_sound in H; try assumption. apply classdiff_iff. apply class_passes_complete; try assumption. now apply class_ok_sym.
Qed.
Theorem classdiff_trans o a b c : proper_class fmt a -> proper_class fmt b -> proper_class fmt c ->
  classdiff fmt reprs ffmt o a b = Ok 0 -> classdiff fmt reprs ffmt o b c = Ok 0 -> classdiff fmt reprs ffmt o a c = Ok 0.
Proof.
  intros [A1 A2] [B1 B2] [C1 C2] H K. apply classdiff_iff in H, K. apply class_passes_sound in H; try assumption. apply class_passes_sound in K; try assumption. apply classdiff_iff. apply class_passes_complete; try assumption. eapply class_ok_trans; eassumption.
Qed.
Lemma swapped_twice o : swapped (swapped o) = o.
Proof. now destruct o. Qed.
End Fmt.

(** Proofs about jarutil create. *)
From Verif Require Import Base Manifest_Model Zip_Model Zip_Tree Dir_Spec Sign_Model Sign_Spec Tool_Model Tool_Spec.
From Verif Require Report_Model Report_Paths Manifest_RT Manifest_Parse.
From Coq Require Import Permutation.
Import Report_Model (join, split_slash, is_abs).

(** ** Paths *)
Definition counts (c : str) : bool := negb (seqb c [] || seqb c (lit ".")).
Lemma counts_iff c : counts c = true <-> c <> [] /\ c <> lit ".".
Proof. unfold counts. rewrite negb_true_iff, orb_false_iff. now rewrite !seqb_neq. Qed.
Lemma picks_filter {A} (Q : A -> Prop) (f : A -> bool) l r : (forall x, f x = true <-> Q x) -> picks Q l r <-> r = filter f l.
Proof.
  intro HQ. split.
  - induction 1 as [|a l r H _ IH|a l r H _ IH]; cbn [filter]; [reflexivity| |].
    + rewrite (proj2 (HQ a) H). now rewrite IH.
    + destruct (f a) eqn:E; [exfalso; apply H; now apply HQ|exact IH].
  - intros ->. induction l as [|a l IH]; cbn [filter]; [constructor|]. destruct (f a) eqn:E; [apply picks_in; [now apply HQ|exact IH]|].
    apply picks_out; [|exact IH]. intro H. apply HQ in H. congruence.
Qed.
Lemma split_concat parts : parts <> [] -> Forall (fun c => ~ In 47 c) parts -> split_slash (concat_with [47] parts) = parts.
Proof.
  induction parts as [|w [|w' l] IH]; intros H HF; [congruence| |]; inversion HF; subst.
  - cbn [concat_with]. now apply Report_Paths.split_word.
  - change (concat_with [47] (w :: w' :: l)) with (w ++ 47 :: concat_with [47] (w' :: l)). rewrite Report_Paths.split_app.
    rewrite Report_Paths.split_word by assumption. rewrite IH; [reflexivity|discriminate|assumption].
Qed.
Lemma path_split p q : path_to p q -> p = [] /\ q = [] \/ Forall (fun c => ~ In 47 c /\ c <> lit "..") (split_slash p) /\ q = filter counts (split_slash p).
Proof.
  intros (parts & -> & HF & HP). apply (picks_filter _ counts _ _ counts_iff) in HP. destruct parts as [|w l]; [left; auto|]. right.
  rewrite split_concat; [auto|discriminate|]. eapply Forall_impl; [|exact HF]. now intros c [H _].
Qed.
Lemma norm_no_up rooted : forall comps acc, Forall (fun c => c <> lit "..") comps -> norm_comps rooted acc comps = acc ++ filter counts comps.
Proof.
  induction comps as [|c comps IH]; intros acc H; cbn [norm_comps filter]; [now rewrite app_nil_r|]. inversion H; subst.
  unfold counts at 1. destruct (seqb c [] || seqb c (lit ".")); cbn [negb]; [now apply IH|].
  rewrite (proj2 (seqb_neq c (lit ".."))) by assumption. cbn [negb]. rewrite IH by assumption. now rewrite <- app_assoc.
Qed.
Lemma no_lead_app a b : Forall (fun c => c = 47) a -> no_lead (a ++ b) = no_lead b.
Proof. induction 1 as [|c a Hc _ IH]; [reflexivity|]. subst. cbn [app no_lead]. exact IH. Qed.
Lemma written_name p q : path_to p q -> q <> [] -> no_lead (normpath p) = Ok (concat_with [47] q).
Proof.
  intros HP Hq. destruct (path_split p q HP) as [[_ H]|[HF E]]; [congruence|].
  unfold normpath. set (lead := if starts_with (lit "//") p && negb (starts_with (lit "///") p) then lit "//" else if starts_with (lit "/") p then lit "/" else []).
  rewrite norm_no_up by (eapply Forall_impl; [|exact HF]; now intros c [_ H]). cbn [app]. rewrite <- E.
  assert (HL : Forall (fun c => c = 47) lead).
  { unfold lead. destruct (starts_with (lit "//") p && negb (starts_with (lit "///") p)); [repeat constructor|]. destruct (starts_with (lit "/") p); repeat constructor. }
  destruct q as [|w q']; [congruence|]. assert (Hw : counts w = true /\ ~ In 47 w).
  { assert (H : In w (filter counts (split_slash p))) by (rewrite <- E; now left). apply filter_In in H as [H1 H2]. split; [exact H2|].
    rewrite Forall_forall in HF. now apply HF. }
  destruct Hw as [Hw1 Hw2]. destruct w as [|c w']; [discriminate|].
  assert (HC : exists r, concat_with [47] ((c :: w') :: q') = c :: r) by (destruct q'; eexists; reflexivity). destruct HC as [r HC].
  change (slashes ((c :: w') :: q')) with (concat_with [47] ((c :: w') :: q')). rewrite HC.
  transitivity (no_lead (lead ++ c :: r)); [destruct lead; reflexivity|]. rewrite no_lead_app by exact HL. cbn [no_lead].
  destruct (Z.eqb_spec c 47) as [->|]; [exfalso; apply Hw2; now left|]. f_equal. symmetry. exact HC.
Qed.
Lemma filter_snoc {A} (f : A -> bool) l a : filter f (l ++ [a]) = filter f l ++ (if f a then [a] else []).
Proof. rewrite filter_app. reflexivity. Qed.
Lemma concat_snoc l a : l <> [] -> concat_with [47] (l ++ [a]) = concat_with [47] l ++ 47 :: a.
Proof.
  induction l as [|w [|w' l] IH]; intro H; [congruence|reflexivity|].
  change (concat_with [47] ((w :: w' :: l) ++ [a])) with (w ++ [47] ++ concat_with [47] ((w' :: l) ++ [a])). rewrite IH by discriminate.
  change (concat_with [47] (w :: w' :: l)) with (w ++ [47] ++ concat_with [47] (w' :: l)). now rewrite <- !app_assoc.
Qed.
Lemma concat_snoc_nil l a : l <> [] -> concat_with [47] (l ++ [[]]) ++ a = concat_with [47] (l ++ [a]).
Proof. intro H. rewrite !concat_snoc by exact H. now rewrite <- app_assoc. Qed.
Lemma ends_slash_iff a : ends_with [47] a = true <-> exists x, a = x ++ [47].
Proof. unfold ends_with. rewrite Manifest_Parse.starts_with_iff. cbn [rev app]. split.
  - intros [r H]. exists (rev r). apply (f_equal (@rev Z)) in H. rewrite rev_involutive in H. now rewrite H.
  - intros [x ->]. exists (rev x). now rewrite rev_app_distr.
Qed.
Lemma path_join p q b : path_to p q -> step b -> path_to (join p b) (q ++ [b]).
Proof.
  intros (parts & -> & HF & HP) (Hb1 & Hb2 & Hb3 & Hb4). apply (picks_filter _ counts _ _ counts_iff) in HP.
  assert (Hb : counts b = true) by (apply counts_iff; auto). unfold join.
  replace (is_abs b) with false.
  2:{ symmetry. unfold is_abs. destruct b as [|c b']; [reflexivity|]. cbn [starts_with]. destruct (Z.eqb_spec 47 c) as [<-|]; [exfalso; apply Hb2; now left|reflexivity]. }
  set (p := concat_with [47] parts). assert (Cases : p = [] \/ (exists x, p = x ++ [47]) \/ (p <> [] /\ ends_with [47] p = false)).
  { destruct (ends_with [47] p) eqn:E2; [right; left; now apply ends_slash_iff|]. destruct p as [|c0 p0]; [now left|]. right. right. split; [discriminate|reflexivity]. }
  assert (HB : ~ In 47 b /\ b <> lit "..") by auto.
  destruct Cases as [Hp|[[x Hx]|[Hp He]]].
  - rewrite Hp. exists [b]. split; [reflexivity|]. split; [now constructor|]. apply (picks_filter _ counts _ _ counts_iff). cbn [filter]. rewrite Hb.
    assert (Hq : q = []); [|now rewrite Hq].
    subst q. destruct parts as [|w [|w' l]]; [reflexivity| |].
    + cbn in Hp. unfold p in Hp. cbn in Hp. subst w. reflexivity.
    + exfalso. unfold p in Hp. cbn [concat_with] in Hp. apply app_eq_nil in Hp as [_ Hp]. discriminate.
  - assert (Hp' : p <> []) by (rewrite Hx; intro H; apply app_eq_nil in H as [_ H]; discriminate).
    replace (ends_with [47] p) with true by (symmetry; apply ends_slash_iff; eauto).
    assert (HE : exists l, l <> [] /\ parts = l ++ [[]]).
    { destruct parts as [|w l _] using rev_ind; [unfold p in Hp'; now contradiction Hp'|]. exists l. destruct l as [|w0 l].
      - exfalso. unfold p in Hx. cbn in Hx. apply Forall_inv in HF. apply (proj1 HF). rewrite Hx. apply in_or_app. right. now left.
      - split; [discriminate|]. f_equal. f_equal. unfold p in Hx. rewrite concat_snoc in Hx by discriminate.
        destruct w as [|c w] using rev_ind; [reflexivity|]. exfalso. rewrite app_comm_cons, app_assoc in Hx. apply app_inj_tail in Hx as [_ ->].
        apply Forall_app in HF as [_ HF]. apply Forall_inv in HF. apply (proj1 HF). apply in_or_app. right. now left. }
    destruct HE as (l & Hl & ->). exists (l ++ [b]). split; [rewrite <- concat_snoc_nil by exact Hl; fold p; destruct p; [contradiction|reflexivity]|].
    apply Forall_app in HF as [HF _]. split; [apply Forall_app; split; [exact HF|now constructor]|]. apply (picks_filter _ counts _ _ counts_iff).
    subst q. rewrite !filter_snoc, Hb. cbn. now rewrite app_nil_r.
  - rewrite He. assert (parts <> []) by (intros ->; now contradiction Hp). exists (parts ++ [b]). split.
    + unfold p in *. rewrite concat_snoc by assumption. destruct (concat_with [47] parts); [contradiction|reflexivity].
    + split; [apply Forall_app; split; [exact HF|now constructor]|]. apply (picks_filter _ counts _ _ counts_iff). subst q. now rewrite filter_snoc, Hb.
Qed.
Lemma path_walk rel : forall p q, path_to p q -> Forall step rel -> path_to (walk_path p rel) (q ++ rel).
Proof.
  unfold walk_path. induction rel as [|b rel IH]; intros p q HP HF; cbn [fold_left]; [now rewrite app_nil_r|]. inversion HF; subst.
  replace (q ++ b :: rel) with ((q ++ [b]) ++ rel) by now rewrite <- app_assoc. apply IH; [now apply path_join|assumption].
Qed.

(** ** Trees *)
(** The entry of a file or directory itself. *)
Definition own (q : list str) (n : node) : str * bytes :=
  match n with File _ d _ => (concat_with [47] q, d) | _ => (concat_with [47] q ++ [47], []) end.
Lemma write_own p q n : path_to p q -> q <> [] -> tree n -> zip_write p n = Ok (own q n).
Proof. intros HP Hq HT. unfold zip_write. rewrite (written_name p q HP Hq). cbn [rbind]. destruct HT; reflexivity. Qed.

Definition items (x : list str * list (str * node) * list (str * node)) : list (list str * (str * node)) :=
  let '(rel, dirs, files) := x in map (fun k => (rel, k)) (dirs ++ files).
Lemma tree_kids l kids : tree (Dir l kids) -> l = false /\ Forall (fun k => step (fst k) /\ tree (snd k)) kids.
Proof. inversion 1; auto. Qed.
Lemma walk_items n : tree n -> forall rel, Forall step rel -> forall x, In x (concat (map items (walk rel n))) ->
  Forall step (fst x) /\ step (fst (snd x)) /\ tree (snd (snd x)).
Proof.
  induction n as [l d m|l|l kids IH] using node_ind'; intros HT rel HR x Hx; cbn [walk] in Hx; try contradiction.
  apply tree_kids in HT as [-> HK]. cbn [map concat] in Hx. apply in_app_iff in Hx as [Hx|Hx].
  - cbn [items] in Hx. apply in_map_iff in Hx as (k & <- & Hk). cbn [fst snd]. assert (Hk' : In k kids).
    { apply in_app_iff in Hk as [Hk|Hk]; apply filter_In in Hk; tauto. }
    rewrite Forall_forall in HK. specialize (HK k Hk'). tauto.
  - revert Hx. rewrite Forall_forall in IH, HK.
    induction kids as [|k kids IHk]; cbn [map concat]; [intros []|]. rewrite map_app, concat_app, in_app_iff. intros [Hx|Hx].
    + destruct (is_link (snd k)); [destruct Hx|]. specialize (HK k (or_introl eq_refl)). apply (IH k (or_introl eq_refl) (proj2 HK) (rel ++ [fst k])); [|exact Hx].
      rewrite Forall_app. split; [exact HR|]. constructor; [apply HK|constructor].
    + apply IHk; [intros y Hy; apply IH; now right|intros y Hy; apply HK; now right|exact Hx].
Qed.
Lemma partition_perm {A} (f : A -> bool) l : Permutation (filter f l ++ filter (fun x => negb (f x)) l) l.
Proof.
  induction l as [|a l IH]; [constructor|]. cbn [filter]. destruct (f a); cbn [negb app]; [now constructor|].
  eapply Permutation_trans; [apply Permutation_sym, Permutation_middle|]. now constructor.
Qed.
Lemma concat_heads {A B} (h : A -> B) (t : A -> list B) l : Permutation (map h l ++ concat (map t l)) (concat (map (fun a => h a :: t a) l)).
Proof.
  induction l as [|a l IH]; [constructor|]. cbn [map concat app]. constructor.
  eapply Permutation_trans; [rewrite app_assoc; apply Permutation_app_tail, Permutation_app_comm|]. rewrite <- app_assoc. apply Permutation_app_head. exact IH.
Qed.
Lemma concat_perm {A B} (f g : A -> list B) l : (forall a, In a l -> Permutation (f a) (g a)) -> Permutation (concat (map f l)) (concat (map g l)).
Proof.
  induction l as [|a l IH]; intro H; [constructor|]. cbn [map concat]. apply Permutation_app; [apply H; now left|]. apply IH. intros; apply H; now right.
Qed.
Definition entry (q : list str) (x : list str * (str * node)) : str * bytes := own (q ++ fst x ++ [fst (snd x)]) (snd (snd x)).
Lemma walk_contents q n : tree n -> forall rel,
  Permutation (own (q ++ rel) n :: map (entry q) (concat (map items (walk rel n)))) (contents (q ++ rel) n).
Proof.
  induction n as [l d m|l|l kids IH] using node_ind'; intros HT rel.
  - cbn. constructor. constructor.
  - inversion HT.
  - apply tree_kids in HT as [-> HK]. cbn [contents own]. constructor. cbn [walk map concat]. rewrite map_app.
    eapply Permutation_trans.
    { apply Permutation_app_tail. cbn [items]. rewrite map_map. apply Permutation_map. apply partition_perm. }
    assert (HC : forall F : str * node -> list (list str * list (str * node) * list (str * node)),
      map (entry q) (concat (map items (concat (map F kids)))) = concat (map (fun k => map (entry q) (concat (map items (F k)))) kids)).
    { intro F. clear. induction kids as [|k kids IHk]; [reflexivity|]. cbn [map concat]. rewrite map_app, concat_app, map_app. now rewrite IHk. }
    rewrite HC. eapply Permutation_trans; [apply concat_heads|]. apply concat_perm. intros k Hk. cbn [entry fst snd].
    rewrite Forall_forall in IH, HK. destruct (HK k Hk) as [Hs Ht].
    destruct (is_link (snd k)) eqn:El.
    + destruct (snd k) as [l d m|l kk|l] eqn:En; [|apply tree_kids in Ht as [-> _]; discriminate|inversion Ht]. cbn [map concat own contents]. unfold entry. cbn [fst snd]. rewrite En. cbn [own]. rewrite app_assoc. constructor. constructor.
    + unfold entry at 1. cbn [fst snd]. rewrite <- (app_assoc q). apply IH; assumption.
Qed.

Lemma contents_spec n : tree n -> forall q f d, In (f, d) (contents q n) <->
  exists r, (data_at n r d /\ f = concat_with [47] (q ++ r)) \/
            ((exists l kids, found n r (Dir l kids)) /\ d = [] /\ f = concat_with [47] (q ++ r) ++ [47]).
Proof.
  induction n as [l0 d0 m0|l0|l0 kids IH] using node_ind'; intros HT q f d; cbn [contents].
  - split.
    + intros [E|[]]. injection E as <- <-. exists []. left. rewrite app_nil_r. split; [|reflexivity]. exists l0, m0. constructor.
    + intros (r & [[(l & m & H) ->]|[(l & kids & H) _]]); inversion H; subst. rewrite app_nil_r. now left.
  - inversion HT.
  - apply tree_kids in HT as [-> HK]. rewrite Forall_forall in IH, HK. split.
    + intros [E|H].
      * injection E as <- <-. exists []. right. rewrite app_nil_r. split; [exists false, kids; constructor|auto].
      * apply in_concat in H as (c & Hc & H). apply in_map_iff in Hc as (k & <- & Hk). apply (IH k Hk (proj2 (HK k Hk))) in H as (r & H).
        exists (fst k :: r). rewrite <- app_assoc in H. cbn [app] in H. destruct k as [kn kk]. cbn [fst snd] in *.
        destruct H as [[(l & m & H) ->]|[(l & ks & H) HE]]; [left|right].
        -- split; [|reflexivity]. exists l, m. eapply found_down; eassumption.
        -- split; [|exact HE]. exists l, ks. eapply found_down; eassumption.
    + intros (r & H).
      assert (Hr : r = [] \/ exists kn kk r', r = kn :: r' /\ In (kn, kk) kids /\
        ((data_at kk r' d /\ f = concat_with [47] (q ++ r)) \/ ((exists l ks, found kk r' (Dir l ks)) /\ d = [] /\ f = concat_with [47] (q ++ r) ++ [47]))).
      { destruct H as [[(l & m & H) HE]|[(l & ks & H) HE]]; revert HE; (inversion H; subst; intro HE); auto; right; do 3 eexists; (split; [reflexivity|]); (split; [eassumption|]).
        - left. split; [do 2 eexists; eassumption|exact HE].
        - right. split; [do 2 eexists; eassumption|exact HE]. }
      destruct Hr as [->|(kn & kk & r' & -> & Hk & H')].
      * left. destruct H as [[(l & m & H) _]|[_ [-> ->]]]; [inversion H|]. now rewrite app_nil_r.
      * right. apply in_concat. exists (contents (q ++ [kn]) kk). split; [apply in_map_iff; now exists (kn, kk)|].
        apply (IH (kn, kk) Hk (proj2 (HK _ Hk))). exists r'. rewrite <- app_assoc. exact H'.
Qed.

Section Jar.
Variable fs : str -> option node.
Lemma write_tree_ok p q n : path_to p q -> q <> [] -> tree n -> exists z, write_tree p n = Ok z /\ Permutation z (contents q n).
Proof.
  intros HP Hq HT. unfold write_tree. rewrite (write_own p q n HP Hq HT). cbn [rbind].
  set (L := concat (map _ (walk [] n))).
  assert (HL : L = map (fun x : list str * (str * node) => (join (walk_path p (fst x)) (fst (snd x)), snd (snd x))) (concat (map items (walk [] n)))).
  { unfold L. clear. generalize (walk [] n) as w. induction w as [|[[rel dirs] files] w IH]; [reflexivity|]. cbn [map concat]. rewrite IH.
    rewrite (map_app _ (items (rel, dirs, files))). f_equal. cbn [items]. now rewrite map_map. }
  rewrite HL. rewrite Manifest_RT.mapM_map. rewrite (Manifest_RT.mapM_ok _ (entry q)).
  - cbn [rbind]. eexists. split; [reflexivity|]. pose proof (walk_contents q n HT []) as HC. now rewrite app_nil_r in HC.
  - intros [rel [k m]] Hx. cbn [fst snd]. destruct (walk_items n HT [] (Forall_nil _) _ Hx) as (H1 & H2 & H3). cbn [fst snd] in *.
    unfold entry. cbn [fst snd]. rewrite app_assoc. apply write_own; [|intro E; apply app_eq_nil in E as [_ E]; discriminate|exact H3].
    apply path_join; [now apply path_walk|exact H2].
Qed.
(** One argument of jarutil create: its path, the steps it leads down, and what is there. *)
Lemma create_jar_ok (args : list (str * list str * node)) :
  Forall (fun a => path_to (fst (fst a)) (snd (fst a)) /\ snd (fst a) <> [] /\ fs (fst (fst a)) = Some (snd a) /\ tree (snd a)) args ->
  exists z, create_jar fs (map (fun a => fst (fst a)) args) = Ok z /\
    Permutation z ((lit "META-INF/", []) :: (lit "META-INF/MANIFEST.MF", lit "Manifest-Version: 1.0" ++ [10; 10]) ::
                   concat (map (fun a => contents (snd (fst a)) (snd a)) args)).
Proof.
  intro HF. unfold create_jar. assert (E : man_data (new_manifest None) None = Ok (lit "Manifest-Version: 1.0" ++ [10; 10])) by (vm_compute; reflexivity).
  rewrite E. cbn [rbind].
  assert (HM : exists parts, mapM (fun p => match fs p with Some n => write_tree p n | None => Err FileNotFoundError end) (map (fun a => fst (fst a)) args) = Ok parts /\
    Permutation (concat parts) (concat (map (fun a => contents (snd (fst a)) (snd a)) args))).
  { induction HF as [|[[p q] n] args (H1 & H2 & H3 & H4) _ IH]; [exists []; split; [reflexivity|constructor]|]. cbn [map mapM fst snd] in *. rewrite H3.
    destruct (write_tree_ok p q n H1 H2 H4) as (z & -> & Hz). cbn [rbind]. destruct IH as (parts & -> & HP). cbn [rbind]. exists (z :: parts).
    split; [reflexivity|]. cbn [concat]. now apply Permutation_app. }
  destruct HM as (parts & -> & HP). cbn [rbind]. eexists. split; [reflexivity|]. constructor. constructor. exact HP.
Qed.
End Jar.

(** Proofs about archives and chunked reading. *)
From Verif Require Import Base Zip_Model Zip_Spec.
From Coq Require Import Permutation.

(** ** Chunks *)
Lemma chunk_loop_cuts {A} (n : nat) : (0 < n)%nat -> forall fuel (d : list A), (length d < fuel)%nat ->
  cuts n (chunk_loop fuel (Z.of_nat n) d) d.
Proof.
  intro Hn. induction fuel as [|fu IH]; intros d Hd; [lia|]. cbn [chunk_loop]. unfold read_n.
  replace (Z.of_nat n <? 0) with false by lia. rewrite Nat2Z.id.
  destruct d as [|x d]. { rewrite firstn_nil. constructor. }
  destruct (firstn n (x :: d)) as [|y c] eqn:E. { destruct n; [lia|discriminate]. }
  destruct (Nat.le_gt_cases (length (x :: d)) n) as [H|H].
  - rewrite firstn_all2 in E by exact H. rewrite <- E. rewrite skipn_all2 by exact H.
    destruct fu; cbn [chunk_loop]; [|unfold read_n; replace (Z.of_nat n <? 0) with false by lia; rewrite firstn_nil];
      (apply cuts_last; [discriminate|exact H]).
  - rewrite <- (firstn_skipn n (x :: d)) at 2. rewrite <- E. apply cuts_more.
    + apply firstn_length_le. lia.
    + intro F. apply (f_equal (@length A)) in F. rewrite skipn_length in F. cbn [length] in *. lia.
    + apply IH. rewrite skipn_length. cbn [length] in *. lia.
Qed.
Lemma chunks_cuts {A} (n : nat) (d : list A) : (0 < n)%nat -> cuts n (chunks (Z.of_nat n) d) d.
Proof. intro H. apply chunk_loop_cuts; [exact H|lia]. Qed.
Lemma cuts_concat {A} n cs (d : list A) : cuts n cs d -> concat cs = d.
Proof. induction 1; cbn [concat]; [reflexivity|now rewrite app_nil_r|now f_equal]. Qed.
Lemma chunks_concat {A} n (d : list A) : n <> 0 -> concat (chunks n d) = d.
Proof.
  intro H. destruct (Z.lt_ge_cases n 0) as [L|L].
  - unfold chunks. cbn [chunk_loop]. unfold read_n. replace (n <? 0) with true by lia. destruct d as [|x d]; [reflexivity|].
    cbn [length chunk_loop]. unfold read_n. replace (n <? 0) with true by lia. cbn [concat]. now rewrite app_nil_r.
  - apply (cuts_concat (Z.to_nat n)). rewrite <- (Z2Nat.id n) at 2 by lia. apply chunks_cuts. lia.
Qed.
Lemma chunks_pieces {A} n (d : list A) c : 0 < n -> In c (chunks n d) -> c <> [] /\ Z.of_nat (length c) <= n.
Proof.
  intros H Hi. assert (C : cuts (Z.to_nat n) (chunks n d) d). { rewrite <- (Z2Nat.id n) at 2 by lia. apply chunks_cuts. lia. }
  induction C as [|c' H1 H2|c' cs rest H1 H2 _ IH]; [contradiction| |]; destruct Hi as [->|Hi].
  - split; [exact H1|lia]. - contradiction.
  - split; [intros ->; cbn in H1; lia|lia]. - now apply IH.
Qed.

Lemma crc32_app a b v : crc32 (a ++ b) v = crc32 b (crc32 a v).
Proof.
  unfold crc32. rewrite fold_left_app. f_equal. f_equal. rewrite <- Z.lxor_assoc, Z.lxor_nilpotent, Z.lxor_0_l. reflexivity.
Qed.
Lemma crc32_nil v : crc32 [] v = v.
Proof. unfold crc32. cbn [fold_left]. now rewrite <- Z.lxor_assoc, Z.lxor_nilpotent, Z.lxor_0_l. Qed.
Lemma crc32_concat cs : forall v, fold_left (fun check data => crc32 data check) cs v = crc32 (concat cs) v.
Proof. induction cs as [|c cs IH]; intro v; cbn [fold_left concat]; [now rewrite crc32_nil|]. now rewrite IH, crc32_app. Qed.
Lemma file_crc32_spec n d : n <> 0 -> file_crc32 n d = crc32 d 0.
Proof. intro H. unfold file_crc32. rewrite crc32_concat. now rewrite chunks_concat. Qed.

Lemma digest_chunks_spec {S D} (algs : list (S * (S -> bytes -> S) * (S -> D))) cs :
  Forall (fun '(_, up, _) => (forall h, up h [] = h) /\ forall h a b, up (up h a) b = up h (a ++ b)) algs ->
  digest_chunks cs algs = map (fun '(h, up, final) => final (up h (concat cs))) algs.
Proof.
  unfold digest_chunks. revert algs. induction cs as [|c cs IH]; intros algs H; cbn [fold_left concat].
  - apply map_ext_in. intros [[h up] final] Hi. rewrite Forall_forall in H. apply H in Hi. cbn in Hi. now rewrite (proj1 Hi).
  - rewrite IH.
    + rewrite map_map. apply map_ext_in. intros [[h up] final] Hi. rewrite Forall_forall in H. apply H in Hi. cbn in Hi. now rewrite (proj2 Hi).
    + rewrite Forall_forall in *. intros x Hx. apply in_map_iff in Hx as ([[h up] final] & <- & Hi). apply (H _ Hi).
Qed.

(** ** Archives *)
Lemma nodup_names_In x l : In x (nodup_names l) <-> In x l.
Proof.
  induction l as [|y l IH]; [reflexivity|]. cbn [nodup_names]. destruct (smem y l) eqn:E.
  - rewrite IH. split; [now right|]. intros [->|H]; [now apply smem_In|exact H].
  - cbn [In]. now rewrite IH.
Qed.
Lemma nodup_names_NoDup l : NoDup (nodup_names l).
Proof.
  induction l as [|y l IH]; [constructor|]. cbn [nodup_names]. destruct (smem y l) eqn:E; [exact IH|]. constructor; [|exact IH].
  rewrite nodup_names_In. intro H. apply smem_In in H. congruence.
Qed.
Lemma insert_perm x l : Permutation (x :: l) (insert_name x l).
Proof.
  induction l as [|y l IH]; [reflexivity|]. cbn [insert_name]. destruct (sle x y); [reflexivity|]. rewrite <- IH. apply perm_swap.
Qed.
Lemma sort_perm l : Permutation l (sort_names l).
Proof. unfold sort_names. induction l as [|x l IH]; [reflexivity|]. cbn [fold_right]. rewrite <- insert_perm. now constructor. Qed.

Lemma find_skip {A} (P : A -> bool) l r : (forall x, In x l -> P x = false) -> find P (l ++ r) = find P r.
Proof. induction l as [|x l IH]; intro H; [reflexivity|]. cbn [app find]. rewrite (H x (or_introl eq_refl)). apply IH. intros; apply H; now right. Qed.
Lemma find_entry_content a n d : content a n d <-> exists e, find_entry (a_entries a) n = Some e /\ e_data e = d.
Proof.
  unfold content, find_entry. split.
  - intros (l1 & e & l2 & E & H1 & H2 & H3). exists e. split; [|exact H2]. rewrite E, rev_app_distr. cbn [rev].
    rewrite <- app_assoc. rewrite find_skip; [cbn [app find]; rewrite <- H1, seqb_refl; reflexivity|].
    intros x Hx. apply seqb_neq. intro F. apply H3. apply in_map_iff. exists x. split; [exact F|now apply in_rev].
  - intros (e & H1 & H2). rewrite <- (rev_involutive (a_entries a)).
    induction (rev (a_entries a)) as [|x l IH]; [discriminate|]. cbn [find] in H1. cbn [rev]. destruct (seqb_spec (e_name x) n) as [F|F].
    + injection H1 as ->. exists (rev l), e, []. repeat split; auto.
    + destruct (IH H1) as (l1 & e' & l2 & E & G1 & G2 & G3). exists l1, e', (l2 ++ [x]). rewrite E, <- app_assoc. repeat split; auto.
      rewrite map_app, in_app_iff. intros [K|[K|[]]]; contradiction.
Qed.
Lemma content_fun a n d d' : content a n d -> content a n d' -> d = d'.
Proof. intros H1 H2. apply find_entry_content in H1 as (e & E1 & <-), H2 as (e' & E2 & <-). congruence. Qed.
Lemma find_entry_In l n e : find_entry l n = Some e -> In e l /\ e_name e = n.
Proof. unfold find_entry. intro H. apply find_some in H as [H1 H2]. apply in_rev in H1. apply seqb_eq in H2. auto. Qed.
Lemma names_content a n : In n (names a) <-> exists d, content a n d.
Proof.
  split.
  - intro H. destruct (find_entry (a_entries a) n) as [e|] eqn:E. { exists (e_data e). apply find_entry_content. eauto. }
    exfalso. unfold names in H. apply in_map_iff in H as (e & H1 & H2). unfold find_entry in E.
    pose proof (find_none _ _ E e (proj1 (in_rev _ _) H2)) as H3. cbn beta in H3. apply seqb_neq in H3. contradiction.
  - intros (d & l1 & e & l2 & E & H & _). unfold names. rewrite E, map_app. apply in_or_app. right. now left.
Qed.
Lemma find_entry_names a n : In n (names a) -> exists e, find_entry (a_entries a) n = Some e.
Proof. intro H. apply names_content in H as (d & H). apply find_entry_content in H as (e & H & _). eauto. Qed.

Lemma last_slash_spec f : f <> [] -> exists b, last_slash f = Ok b /\ (b = true <-> directory f).
Proof.
  intro H. unfold last_slash. destruct (rev f) as [|c r] eqn:E.
  - exfalso. apply H. rewrite <- (rev_involutive f), E. reflexivity.
  - assert (Ef : f = rev r ++ [c]) by (rewrite <- (rev_involutive f), E; reflexivity). exists (c =? 47). split; [reflexivity|]. split.
    + intro K. exists (rev r). rewrite Ef. repeat f_equal. lia.
    + intros (p & Ep). rewrite Ef in Ep. apply app_inj_tail in Ep as [_ ->]. reflexivity.
Qed.

Lemma pieces_bytes : forall l r, pieces_differ (map PBytes l) (map PBytes r) = false <-> l = r.
Proof.
  induction l as [|x l IH]; intros [|y r]; cbn [map pieces_differ]; split; try discriminate; try reflexivity.
  - cbn [peqb]. destruct (seqb_spec x y) as [->|H]; [|discriminate]. intro K. apply IH in K. congruence.
  - intros [= -> ->]. cbn [peqb]. rewrite seqb_refl. now apply IH.
Qed.
Lemma chunks_inj {A} n (l r : list A) : n <> 0 -> chunks n l = chunks n r -> l = r.
Proof. intros H E. rewrite <- (chunks_concat n l H), <- (chunks_concat n r H). now f_equal. Qed.

Section Cmp.
Variable text : bytes -> res str.
Variable order : list str -> list str.
Hypothesis order_perm : forall l, Permutation (order l) l.

Lemma different_spec n l r f e e' : n <> 0 -> a_kind l = Zip -> a_kind r = Zip -> a_open l = true -> a_open r = true ->
  find_entry (a_entries l) f = Some e -> find_entry (a_entries r) f = Some e' -> sound e -> sound e' ->
  exists b, different text n l r f = Ok b /\ (b = false <-> e_data e = e_data e').
Proof.
  intros Hn K1 K2 O1 O2 F1 F2 S1 S2. unfold different, getinfo. rewrite K1, K2, F1, F2. cbn [rbind].
  destruct S1 as (_ & A1 & B1), S2 as (_ & A2 & B2). destruct ((e_size e =? e_size e') && (e_crc e =? e_crc e')) eqn:E.
  - unfold deep_different, chunk_zip_entry, getinfo. rewrite K1, K2, O1, O2, F1, F2. cbn [rbind].
    eexists. split; [reflexivity|]. rewrite pieces_bytes. split; [apply (chunks_inj n _ _ Hn)|congruence].
  - exists true. split; [reflexivity|]. split; [discriminate|]. intro Ed. rewrite A1, A2, B1, B2, Ed, !Z.eqb_refl in E. discriminate.
Qed.

(** Whatever the loop yields, it is right about the names [ll] and [rl]. *)
Lemma compare_loop_spec n l r : n <> 0 -> a_kind l = Zip -> a_kind r = Zip -> a_open l = true -> a_open r = true ->
  Forall sound (a_entries l) -> Forall sound (a_entries r) ->
  forall ll rl, NoDup ll -> NoDup rl -> (forall f, In f ll -> In f (names l)) -> (forall f, In f rl -> In f (names r)) ->
  exists evs, compare_loop text order n l r ll rl = (evs, None) /\ NoDup (map snd evs) /\
    forall f,
    (In (LEFT, f) evs <-> In f ll /\ ~ In f rl) /\ (In (RIGHT, f) evs <-> In f rl /\ ~ In f ll) /\
    (In (SAME, f) evs <-> In f ll /\ In f rl /\ ~ directory f /\ exists d, content l f d /\ content r f d) /\
    (In (DIFF, f) evs <-> In f ll /\ In f rl /\ ~ directory f /\ exists d d', content l f d /\ content r f d' /\ d <> d').
Proof.
  intros Hn K1 K2 O1 O2 S1 S2. induction ll as [|g ll IH]; intros rl N1 N2 I1 I2.
  - cbn [compare_loop]. eexists. split; [reflexivity|]. rewrite map_map. cbn [snd]. rewrite map_id. split.
    { eapply Permutation_NoDup; [symmetry; apply order_perm|exact N2]. }
    intro f. assert (P : In f (order rl) <-> In f rl) by (split; apply Permutation_in; [apply order_perm|symmetry; apply order_perm]).
    split; [|split; [|split]]; rewrite in_map_iff.
    + split; [intros (x & [=] & _)|intros [[] _]].
    + split; [intros (x & [= <-] & H); apply P in H; split; auto|intros [H _]; exists f; split; [reflexivity|now apply P]].
    + split; [intros (x & [=] & _)|intros [[] _]].
    + split; [intros (x & [=] & _)|intros [[] _]].
  - inversion N1 as [|? ? NG N1']; subst. cbn [compare_loop]. destruct (smem g rl) eqn:E.
    + apply smem_In in E. set (rl' := remove_name g rl).
      assert (R : forall f, In f rl' <-> In f rl /\ f <> g).
      { intro f. unfold rl', remove_name. rewrite filter_In. destruct (seqb_spec g f); cbn [negb]; split; intros [A B]; split; auto; congruence. }
      destruct (IH rl' N1') as (evs & E1 & E2 & E3).
      { now apply NoDup_filter. } { intros; apply I1; now right. } { intros f H; apply R in H; apply I2; tauto. }
      assert (GG : forall ev, ~ In (ev, g) evs).
      { intros ev H. destruct (E3 g) as (A & B & C & D). destruct ev; [apply A in H|apply B in H|apply D in H|apply C in H]; rewrite ?R in H; tauto. }
      assert (ND : forall ev, NoDup (map snd ((ev, g) :: evs))).
      { intro ev. cbn [map snd]. constructor; [|exact E2]. intro H. apply in_map_iff in H as ([ev' x] & <- & H). eapply GG; exact H. }
      assert (Hg : g <> []).
      { apply I2, find_entry_names in E as (e & F). apply find_entry_In in F as [F1 <-]. rewrite Forall_forall in S2. apply (S2 _ F1). }
      destruct (last_slash_spec g Hg) as (b & Eb & Db). rewrite Eb, E1. destruct b; cbn [app].
      * exists evs. split; [reflexivity|]. split; [exact E2|]. intro f. destruct (E3 f) as (A & B & C & D).
        destruct (seqb_spec f g) as [->|Nf].
        -- split; [|split; [|split]]; (split; [intro H; exfalso; eapply GG; exact H|]).
           ++ intros [_ H]. contradiction. ++ intros [_ H]. exfalso. apply H. now left.
           ++ intros (_ & _ & H & _). exfalso. apply H. now apply Db. ++ intros (_ & _ & H & _). exfalso. apply H. now apply Db.
        -- rewrite A, B, C, D, !R. cbn [In]. split; [|split; [|split]]; split; intuition congruence.
      * destruct (find_entry_names l g (I1 g (or_introl eq_refl))) as (e & Fe). destruct (find_entry_names r g (I2 g E)) as (e' & Fe').
        destruct (different_spec n l r g e e' Hn K1 K2 O1 O2 Fe Fe') as (b & Ed & Db').
        { rewrite Forall_forall in S1. apply S1. now apply find_entry_In in Fe. }
        { rewrite Forall_forall in S2. apply S2. now apply find_entry_In in Fe'. }
        assert (Cl : content l g (e_data e)) by (apply find_entry_content; eauto).
        assert (Cr : content r g (e_data e')) by (apply find_entry_content; eauto).
        assert (NDg : ~ directory g) by (intro H; apply Db in H; discriminate).
        rewrite Ed. destruct b; eexists; (split; [reflexivity|]); (split; [apply ND|]); intro f; destruct (E3 f) as (A & B & C & D).
        -- destruct (seqb_spec f g) as [->|Nf].
           ++ assert (Ne : e_data e <> e_data e') by (intro H; apply Db' in H; discriminate).
              cbn [app In]. split; [|split; [|split]]; split.
              ** intros [[=]|H]. exfalso; eapply GG; exact H. ** intros [_ H]; contradiction.
              ** intros [[=]|H]. exfalso; eapply GG; exact H. ** intros [_ H]; exfalso; apply H; now left.
              ** intros [[=]|H]. exfalso; eapply GG; exact H.
              ** intros (_ & _ & _ & d & H1 & H2). exfalso. apply Ne. rewrite (content_fun _ _ _ _ Cl H1), (content_fun _ _ _ _ Cr H2). reflexivity.
              ** intros _. split; [now left|]. split; [exact E|]. split; [exact NDg|]. eauto.
              ** intros _. now left.
           ++ cbn [app In]. rewrite A, B, C, D, !R. split; [|split; [|split]]; split; intuition congruence.
        -- assert (Ne : e_data e = e_data e') by (now apply Db').
           destruct (seqb_spec f g) as [->|Nf].
           ++ cbn [app In]. split; [|split; [|split]]; split.
              ** intros [[=]|H]. exfalso; eapply GG; exact H. ** intros [_ H]; contradiction.
              ** intros [[=]|H]. exfalso; eapply GG; exact H. ** intros [_ H]; exfalso; apply H; now left.
              ** intros _. split; [now left|]. split; [exact E|]. split; [exact NDg|]. exists (e_data e). split; [exact Cl|now rewrite Ne].
              ** intros _. now left.
              ** intros [[=]|H]. exfalso; eapply GG; exact H.
              ** intros (_ & _ & _ & d & d' & H1 & H2 & H3). exfalso. apply H3. rewrite <- (content_fun _ _ _ _ Cl H1), <- (content_fun _ _ _ _ Cr H2). exact Ne.
           ++ cbn [app In]. rewrite A, B, C, D, !R. split; [|split; [|split]]; split; intuition congruence.
    + assert (NE : ~ In g rl) by (intro H; apply smem_In in H; congruence).
      destruct (IH rl N1' N2) as (evs & E1 & E2 & E3). { intros; apply I1; now right. } { exact I2. }
      rewrite E1. eexists. split; [reflexivity|]. cbn [app].
      assert (GG : forall ev, ~ In (ev, g) evs).
      { intros ev H. destruct (E3 g) as (A & B & C & D). destruct ev; [apply A in H|apply B in H|apply D in H|apply C in H]; tauto. }
      split. { cbn [map snd]. constructor; [|exact E2]. intro H. apply in_map_iff in H as ([ev' x] & <- & H). eapply GG; exact H. }
      intro f. destruct (E3 f) as (A & B & C & D). cbn [In]. rewrite A, B, C, D. destruct (seqb_spec f g) as [->|Nf].
      * split; [|split; [|split]]; split; intuition congruence.
      * split; [|split; [|split]]; split; intuition congruence.
Qed.

Theorem compare_zips_spec n l r : n <> 0 -> a_kind l = Zip -> a_kind r = Zip -> a_open l = true -> a_open r = true ->
  Forall sound (a_entries l) -> Forall sound (a_entries r) ->
  exists evs, compare_zips text order n l r = (evs, None) /\ classified evs l r.
Proof.
  intros Hn K1 K2 O1 O2 S1 S2. unfold compare_zips, namelist. rewrite K1, K2.
  assert (P : forall f, In f (order (nodup_names (names l))) <-> In f (names l)).
  { intro f. rewrite <- (nodup_names_In f (names l)). split; apply Permutation_in; [apply order_perm|symmetry; apply order_perm]. }
  destruct (compare_loop_spec n l r Hn K1 K2 O1 O2 S1 S2 (order (nodup_names (names l))) (nodup_names (names r))) as (evs & E1 & E2 & E3).
  { eapply Permutation_NoDup; [symmetry; apply order_perm|apply nodup_names_NoDup]. } { apply nodup_names_NoDup. }
  { intros f H. now apply P. } { intros f H. now apply nodup_names_In. }
  exists evs. split; [exact E1|]. split; [exact E2|]. intro f. destruct (E3 f) as (A & B & C & D).
  rewrite P, nodup_names_In in A. rewrite P, nodup_names_In in B. rewrite P, nodup_names_In in C. rewrite P, nodup_names_In in D.
  split; [exact A|]. split; [exact B|]. split.
  - rewrite C. split; [tauto|]. intros (H & d & H1 & H2). repeat split; try assumption; try (apply names_content; eauto). eauto.
  - rewrite D. split; [tauto|]. intros (H & d & d' & H1 & H2 & H3). repeat split; try assumption; try (apply names_content; eauto). eauto 6.
Qed.

(** *** After closing *)
Lemma compare_closed_exploded n l r : a_kind l = Exploded -> compare text order n l r = ([], Some AttributeError).
Proof. intro K. unfold compare, compare_zips, namelist, close. cbn. now rewrite K. Qed.

(** A pair of entries that the comparison has to read. *)
Definition alike (l r : archive) (f : str) : Prop :=
  ~ directory f /\ exists e e', find_entry (a_entries l) f = Some e /\ find_entry (a_entries r) f = Some e' /\ e_size e = e_size e' /\ e_crc e = e_crc e'.

Lemma closed_loop n l r : n <> 0 -> a_kind l = Zip -> a_kind r = Zip -> a_open l = true -> a_open r = true ->
  Forall sound (a_entries l) -> Forall sound (a_entries r) ->
  forall ll rl, (forall f, In f ll -> In f (names l)) -> (forall f, In f rl -> In f (names r)) -> NoDup ll ->
  ((exists f, In f ll /\ In f rl /\ alike l r f) -> exists evs, compare_loop text order n (close l) (close r) ll rl = (evs, Some ValueError)) /\
  ((forall f, In f ll -> In f rl -> ~ alike l r f) ->
     compare_loop text order n (close l) (close r) ll rl = compare_loop text order n l r ll rl).
Proof.
  intros Hn K1 K2 O1 O2 S1 S2. induction ll as [|g ll IH]; intros rl I1 I2 N.
  - split; [intros (f & [] & _)|reflexivity].
  - inversion N as [|? ? NG N']; subst. cbn [compare_loop]. destruct (smem g rl) eqn:E.
    + apply smem_In in E.
      assert (R : forall f, In f (remove_name g rl) <-> In f rl /\ f <> g).
      { intro f. unfold remove_name. rewrite filter_In. destruct (seqb_spec g f); cbn [negb]; split; intros [A B]; split; auto; congruence. }
      destruct (IH (remove_name g rl)) as [IH1 IH2]. { intros; apply I1; now right. } { intros f H; apply R in H; apply I2; tauto. } { exact N'. }
      assert (Hg : g <> []).
      { apply I2, find_entry_names in E as (e & F). apply find_entry_In in F as [F1 <-]. rewrite Forall_forall in S2. apply (S2 _ F1). }
      destruct (last_slash_spec g Hg) as (b & Eb & Db). rewrite Eb.
      destruct (find_entry_names l g (I1 g (or_introl eq_refl))) as (e & Fe). destruct (find_entry_names r g (I2 g E)) as (e' & Fe').
      assert (DD : different text n (close l) (close r) g = if (e_size e =? e_size e') && (e_crc e =? e_crc e') then Err ValueError else Ok true).
      { unfold different, getinfo, deep_different, chunk_zip_entry, close. cbn [a_kind a_open a_entries]. rewrite K1, K2, Fe, Fe'. cbn [rbind]. reflexivity. }
      assert (DO : (e_size e =? e_size e') && (e_crc e =? e_crc e') = false -> different text n l r g = Ok true).
      { intro H. unfold different, getinfo. rewrite K1, K2, Fe, Fe'. cbn [rbind]. now rewrite H. }
      assert (NA : (~ directory g /\ (e_size e =? e_size e') && (e_crc e =? e_crc e') = true) <-> alike l r g).
      { split.
        - intros [H1 H2]. split; [exact H1|]. exists e, e'. repeat split; auto; lia.
        - intros [H1 (x & y & X & Y & H2 & H3)]. split; [exact H1|]. rewrite Fe in X. injection X as <-. rewrite Fe' in Y. injection Y as <-. lia. }
      destruct b.
      * assert (Dg : directory g) by now apply Db. split.
        -- intros (f & [->|Hf] & H1 & H2). { destruct H2. contradiction. }
           destruct IH1 as (evs & ->). { exists f. split; [exact Hf|]. split; [|exact H2]. apply R. split; [exact H1|]. intros ->. contradiction. }
           eexists; reflexivity.
        -- intro H. rewrite IH2; [reflexivity|]. intros f H1 H2. apply R in H2 as [H2 _]. apply H; [now right|exact H2].
      * assert (Dg : ~ directory g) by (intro H; apply Db in H; discriminate). rewrite DD.
        destruct ((e_size e =? e_size e') && (e_crc e =? e_crc e')) eqn:Q.
        -- split; [intros _; eexists; reflexivity|]. intro H. exfalso. apply (H g); [now left|exact E|]. apply NA. auto.
        -- rewrite (DO eq_refl). split.
           ++ intros (f & [->|Hf] & H1 & H2). { apply NA in H2. destruct H2. discriminate. }
              destruct IH1 as (evs & ->). { exists f. split; [exact Hf|]. split; [|exact H2]. apply R. split; [exact H1|]. intros ->. contradiction. }
              eexists; reflexivity.
           ++ intro H. rewrite IH2; [reflexivity|]. intros f H1 H2. apply R in H2 as [H2 _]. apply H; [now right|exact H2].
    + assert (NE : ~ In g rl) by (intro H; apply smem_In in H; congruence).
      destruct (IH rl) as [IH1 IH2]. { intros; apply I1; now right. } { exact I2. } { exact N'. } split.
      * intros (f & [->|Hf] & H1 & H2); [contradiction|]. destruct IH1 as (evs & ->); [eauto|]. eexists; reflexivity.
      * intro H. rewrite IH2; [reflexivity|]. intros f H1 H2. apply H; [now right|exact H2].
Qed.
Theorem compare_closed n l r : n <> 0 -> a_kind l = Zip -> a_kind r = Zip -> a_open l = true -> a_open r = true ->
  Forall sound (a_entries l) -> Forall sound (a_entries r) ->
  ((exists f, alike l r f) -> exists evs, compare text order n l r = (evs, Some ValueError)) /\
  ((forall f, ~ alike l r f) -> compare text order n l r = compare_zips text order n l r).
Proof.
  intros Hn K1 K2 O1 O2 S1 S2. unfold compare, compare_zips, namelist, close. cbn [a_kind a_entries]. rewrite K1, K2.
  assert (P : forall f, In f (order (nodup_names (names l))) <-> In f (names l)).
  { intro f. rewrite <- (nodup_names_In f (names l)). split; apply Permutation_in; [apply order_perm|symmetry; apply order_perm]. }
  destruct (closed_loop n l r Hn K1 K2 O1 O2 S1 S2 (order (nodup_names (names l))) (nodup_names (names r))) as [A B]; [..|unfold close in A, B; rewrite K1, K2 in A, B].
  { intros f H. now apply P. } { intros f H. now apply nodup_names_In. }
  { eapply Permutation_NoDup; [symmetry; apply order_perm|apply nodup_names_NoDup]. }
  split.
  - intros (f & H). apply A. exists f. destruct H as [H0 (e & e' & H1 & H2 & H3)]. split; [|split; [|split; [exact H0|eauto 6]]].
    + apply P. apply find_entry_In in H1 as [H1 <-]. now apply in_map.
    + apply nodup_names_In. apply find_entry_In in H2 as [H2 <-]. now apply in_map.
  - intro H. apply B. auto.
Qed.

(** *** Collecting *)
Definition of_event (e : event) (evs : list (event * str)) : list str :=
  map snd (filter (fun x => match fst x, e with LEFT, LEFT | RIGHT, RIGHT | DIFF, DIFF | SAME, SAME => true | _, _ => false end) evs).
Definition grown (g : option (list str)) (l : list str) : option (list str) := match g with Some x => Some (x ++ l) | None => None end.
Lemma grown_nil g : grown g [] = g.
Proof. destruct g; cbn; [now rewrite app_nil_r|reflexivity]. Qed.
Lemma grown_cons g f l : grown (append_to g f) l = grown g (f :: l).
Proof. destruct g; cbn; [now rewrite <- app_assoc|reflexivity]. Qed.
Lemma collect_loop_spec evs : forall ad re al sa,
  collect_loop evs (ad, re, al, sa) = (grown ad (of_event RIGHT evs), grown re (of_event LEFT evs), grown al (of_event DIFF evs), grown sa (of_event SAME evs)).
Proof.
  induction evs as [|[e f] evs IH]; intros ad re al sa.
  - cbn. now rewrite !grown_nil.
  - destruct e; cbn [collect_loop]; rewrite IH, grown_cons; reflexivity.
Qed.
Lemma of_event_In e f evs : In f (of_event e evs) <-> In (e, f) evs.
Proof.
  unfold of_event. rewrite in_map_iff. split.
  - intros ([e' f'] & <- & H). apply filter_In in H as [H1 H2]. cbn [fst snd] in *. destruct e', e; try discriminate; exact H1.
  - intro H. exists (e, f). split; [reflexivity|]. apply filter_In. split; [exact H|]. destruct e; reflexivity.
Qed.
End Cmp.

(** *** Directories presented as archives *)
Lemma text_never_bytes l r : l <> [] -> r <> [] -> pieces_differ (map PBytes l) (map PText r) = true /\ pieces_differ (map PText r) (map PBytes l) = true.
Proof. destruct l, r; cbn; auto; contradiction. Qed.

(** *** Totals *)
Lemma last_slash_is n : n <> [] -> last_slash n = Ok (is_directory n).
Proof.
  intro H. unfold last_slash, is_directory. destruct (rev n) as [|x l] eqn:E.
  { exfalso. apply H. rewrite <- (rev_involutive n), E. reflexivity. }
  reflexivity.
Qed.
Lemma tup4 (a b c d a' b' c' d' : Z) : a = a' -> b = b' -> c = c' -> d = d' -> Ok (a, b, c, d) = Ok (a', b', c', d').
Proof. now intros -> -> -> ->. Qed.
Lemma rollup_spec l : Forall (fun e => e_name e <> []) l -> forall f d c u,
  rollup_loop l (f, d, c, u) = Ok (f + Z.of_nat (length (filter (fun e => negb (is_directory (e_name e))) l)), d + Z.of_nat (length (filter (fun e => is_directory (e_name e)) l)),
    c + zsum (map e_csize (filter (fun e => negb (is_directory (e_name e))) l)), u + zsum (map e_size (filter (fun e => negb (is_directory (e_name e))) l))).
Proof.
  induction 1 as [|e l He Hl IH]; intros f d c u; cbn [rollup_loop filter map zsum fold_right length].
  - apply tup4; lia.
  - rewrite (last_slash_is _ He). cbn [rbind]. destruct (is_directory (e_name e)) eqn:Q; cbn [negb]; rewrite IH; cbn [length map zsum fold_right].
    + apply tup4; unfold zsum; try reflexivity; lia.
    + apply tup4; unfold zsum; lia.
Qed.

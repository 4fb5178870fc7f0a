(** Directories presented as archives: what ExplodedZipFile lists. *)
From Verif Require Import Base Zip_Model Zip_Spec Zip_Proofs.

Section NodeInd.
Variable P : node -> Prop.
Hypothesis HF : forall l d m, P (File l d m).
Hypothesis HO : forall l, P (Other l).
Hypothesis HD : forall l kids, Forall (fun k => P (snd k)) kids -> P (Dir l kids).
Fixpoint node_ind' (n : node) : P n :=
  match n with
  | File l d m => HF l d m
  | Other l => HO l
  | Dir l kids => HD l kids ((fix go (ks : list (str * node)) : Forall (fun k => P (snd k)) ks :=
      match ks with [] => Forall_nil _ | k :: ks' => Forall_cons k (node_ind' (snd k)) (go ks') end) kids)
  end.
End NodeInd.

Lemma walk_spec n : forall rel x, In x (walk rel n) <->
  exists p l kids, at_path n p (Dir l kids) /\ x = (rel ++ p, filter (fun k => is_dir (snd k)) kids, filter (fun k => negb (is_dir (snd k))) kids).
Proof.
  induction n as [l d m|l|l kids IH] using node_ind'; intros rel x; cbn [walk].
  - split; [intros []|]. intros (p & l' & kids & H & _). inversion H.
  - split; [intros []|]. intros (p & l' & kids & H & _). inversion H.
  - split.
    + intros [<-|H]. { exists [], l, kids. rewrite app_nil_r. split; [constructor|reflexivity]. }
      apply in_concat in H as (ys & H1 & H2). apply in_map_iff in H1 as ([k n] & <- & Hk). cbn [fst snd] in H2.
      destruct (is_link n) eqn:El; [contradiction|]. rewrite Forall_forall in IH. apply (IH _ Hk) in H2 as (p & l' & ks & A & ->).
      exists (k :: p), l', ks. rewrite <- app_assoc. split; [|reflexivity]. econstructor; eauto.
    + intros (p & l' & ks & A & ->). inversion A as [|? ? k n p' ? Hk El A']; subst.
      * left. now rewrite app_nil_r.
      * right. apply in_concat. exists (walk (rel ++ [k]) n). split.
        -- apply in_map_iff. exists (k, n). cbn [fst snd]. rewrite El. auto.
        -- rewrite Forall_forall in IH. apply (IH _ Hk). exists p', l', ks. rewrite <- app_assoc. auto.
Qed.

Lemma at_path_snoc n p k m : at_path n (p ++ [k]) m <-> exists l kids, at_path n p (Dir l kids) /\ In (k, m) kids /\ is_link m = false.
Proof.
  revert n. induction p as [|x p IH]; intro n; cbn [app]; split.
  - intro H. inversion H as [|l kids ? n' ? ? Hk El A]; subst. inversion A; subst. exists l, kids. split; [constructor|auto].
  - intros (l & kids & H & Hk & El). inversion H; subst. econstructor; eauto. constructor.
  - intro H. inversion H as [|l kids ? n' ? ? Hk El A]; subst. apply IH in A as (l' & ks & A & B). exists l', ks. split; [|exact B]. econstructor; eauto.
  - intros (l & kids & H & Hk & El). inversion H as [|l0 kids0 ? n' ? ? Hk0 El0 A]; subst. econstructor; eauto. apply IH. eauto 6.
Qed.

Definition file_entry (p : list str) (d : bytes) : zentry :=
  mkz (slashes p) (Z.of_nat (length d)) (Z.of_nat (length d)) (crc32 d 0) d.
Definition dir_entry (p : list str) : zentry := mkz (slashes p ++ [47]) 0 0 0 [].

Theorem collect_infos_spec top l kids e : top = Dir l kids ->
  (In e (collect_infos top) <->
   (exists p d m, at_path top p (File false d m) /\ e = file_entry p d) \/ (exists p l' ks, p <> [] /\ at_path top p (Dir l' ks) /\ e = dir_entry p)).
Proof.
  intros ->. unfold collect_infos. rewrite in_concat. split.
  - intros (ys & H1 & H2). apply in_map_iff in H1 as (x & <- & Hx). apply walk_spec in Hx as (p & l' & ks & A & ->).
    cbn [app infos_of] in H2. apply in_app_iff in H2 as [H2|H2].
    + right. destruct p as [|c p]; [contradiction|]. destruct H2 as [<-|[]]. exists (c :: p), l', ks. split; [discriminate|]. auto.
    + left. apply in_concat in H2 as (zs & Z1 & Z2). apply in_map_iff in Z1 as ([k f] & <- & Hf). apply filter_In in Hf as [Hf _]. cbn [fst snd] in Z2.
      destruct f as [[] d m| |]; try contradiction. destruct Z2 as [<-|[]]. exists (p ++ [k]), d, m. split; [apply at_path_snoc; eauto 6|].
      unfold file_entry. rewrite file_crc32_spec by (unfold CHUNKSIZE; lia). reflexivity.
  - intros [(p & d & m & A & ->)|(p & l' & ks & Hp & A & ->)].
    + destruct (@exists_last _ p) as (p' & k & ->). { intros ->. inversion A. }
      apply at_path_snoc in A as (l' & ks & A & Hk & _).
      eexists. split; [apply in_map; apply walk_spec; exists p', l', ks; split; [exact A|reflexivity]|]. cbn [app infos_of]. apply in_or_app. right.
      apply in_concat. exists [file_entry (p' ++ [k]) d]. split; [|now left]. apply in_map_iff. exists (k, File false d m). split.
      * cbn [fst snd]. unfold file_entry. rewrite file_crc32_spec by (unfold CHUNKSIZE; lia). reflexivity.
      * apply filter_In. split; [exact Hk|reflexivity].
    + eexists. split; [apply in_map; apply walk_spec; exists p, l', ks; split; [exact A|reflexivity]|]. cbn [app infos_of]. apply in_or_app. left.
      destruct p; [contradiction|]. now left.
Qed.

(** *** Names are unique *)
Definition clean (c : str) : Prop := c <> [] /\ ~ In 47 c.
Lemma split_first (x y s t : str) : ~ In 47 x -> ~ In 47 y -> x ++ 47 :: s = y ++ 47 :: t -> x = y /\ s = t.
Proof.
  revert y. induction x as [|a x IH]; intros [|b y] Hx Hy E; cbn [app] in E.
  - injection E as ->. auto. - injection E as <- _. exfalso. apply Hy. now left. - injection E as -> _. exfalso. apply Hx. now left.
  - injection E as -> E. destruct (IH y) as [-> ->]; auto; intro H; [apply Hx|apply Hy]; now right.
Qed.
Lemma slashes_cons c d p : slashes (c :: d :: p) = c ++ 47 :: slashes (d :: p).
Proof. reflexivity. Qed.
Lemma slashes_inj : forall p q, Forall clean p -> Forall clean q -> p <> [] -> q <> [] -> slashes p = slashes q -> p = q.
Proof.
  induction p as [|c p IH]; intros [|c' q] Hp Hq Np Nq E; try contradiction. apply Forall_cons_iff in Hp as [[Hc1 Hc2] Hp]. apply Forall_cons_iff in Hq as [[Hd1 Hd2] Hq].
  destruct p as [|d p], q as [|d' q]; rewrite ?slashes_cons in E; cbn [slashes concat_with] in E.
  - now subst.
  - exfalso. apply Hc2. rewrite E. apply in_or_app. right. now left.
  - exfalso. apply Hd2. rewrite <- E. apply in_or_app. right. now left.
  - apply split_first in E as [-> E]; [|assumption..]. f_equal. apply IH; auto; discriminate.
Qed.
Lemma slashes_end p s : Forall clean p -> p <> [] -> slashes p = s ++ [47] -> False.
Proof.
  revert s. induction p as [|c p IH]; intros s Hp Np E; [contradiction|]. apply Forall_cons_iff in Hp as [[Hc1 Hc2] Hp]. destruct p as [|d p].
  - cbn in E. apply Hc2. rewrite E. apply in_or_app. right. now left.
  - rewrite slashes_cons in E. destruct (@exists_last _ (slashes (d :: p))) as (s' & z & Es).
    { apply Forall_cons_iff in Hp as [[Hd1 _] _]. destruct p; [exact Hd1|]. rewrite slashes_cons. now destruct d. }
    rewrite Es in E. replace (c ++ 47 :: s' ++ [z]) with ((c ++ 47 :: s') ++ [z]) in E by (now rewrite <- app_assoc).
    apply app_inj_tail in E as [_ ->]. eapply IH; [exact Hp|discriminate|exact Es].
Qed.
Definition pname (k : list str * bool) : str := slashes (fst k) ++ if snd k then [47] else [].
Lemma pname_inj k k' : Forall clean (fst k) -> Forall clean (fst k') -> fst k <> [] -> fst k' <> [] -> pname k = pname k' -> k = k'.
Proof.
  destruct k as [p []], k' as [q []]; unfold pname; cbn [fst snd]; intros Hp Hq Np Nq E; rewrite ?app_nil_r in E.
  - apply app_inj_tail in E as [E _]. f_equal. now apply slashes_inj.
  - symmetry in E. exfalso. eapply slashes_end; [..|exact E]; assumption.
  - exfalso. eapply slashes_end; [..|exact E]; assumption.
  - f_equal. now apply slashes_inj.
Qed.
Lemma NoDup_map_inj {A B} (f : A -> B) l : (forall x y, In x l -> In y l -> f x = f y -> x = y) -> NoDup l -> NoDup (map f l).
Proof.
  intros H N. induction N as [|x l Hx N IH]; cbn [map]; constructor.
  - intro Hi. apply in_map_iff in Hi as (y & E & Hy). apply H in E; [subst; contradiction|now right|now left].
  - apply IH. intros; apply H; auto; now right.
Qed.
Lemma NoDup_app_intro {A} (l1 l2 : list A) : NoDup l1 -> NoDup l2 -> (forall x, In x l1 -> ~ In x l2) -> NoDup (l1 ++ l2).
Proof.
  induction 1 as [|x l Hx N IH]; intros N2 D; cbn [app]; [exact N2|]. constructor.
  - rewrite in_app_iff. intros [H|H]; [contradiction|]. apply (D x); [now left|exact H].
  - apply IH; [exact N2|]. intros y Hy. apply D. now right.
Qed.
(** The paths of the entries, with a mark for directories. *)
Lemma infos_keys n : proper_tree n -> forall rel, Forall clean rel ->
  exists K, map e_name (concat (map infos_of (walk rel n))) = map pname K /\ NoDup K /\
    Forall (fun k => (exists q, fst k = rel ++ q) /\ Forall clean (fst k) /\ fst k <> []) K.
Proof.
  induction n as [l d m|l|l kids IH] using node_ind'; intros HP rel HR; cbn [walk map concat]; try (exists []; repeat split; constructor).
  inversion HP as [| |? ? N C PK]; subst. clear HP.
  assert (SUB : forall ks, Forall (fun k => proper_tree (snd k) -> forall rel, Forall clean rel -> exists K, map e_name (concat (map infos_of (walk rel (snd k)))) = map pname K /\ NoDup K /\
      Forall (fun k => (exists q, fst k = rel ++ q) /\ Forall clean (fst k) /\ fst k <> []) K) ks ->
      NoDup (map fst ks) -> Forall (fun k => fst k <> [] /\ ~ In 47 (fst k)) ks -> Forall (fun k => proper_tree (snd k)) ks ->
      exists K, map e_name (concat (map infos_of (concat (map (fun k : str * node => if is_link (snd k) then [] else walk (rel ++ [fst k]) (snd k)) ks)))) = map pname K /\ NoDup K /\
      Forall (fun k => (exists c q, In c (map fst ks) /\ fst k = rel ++ c :: q /\ (snd k = false -> q <> [])) /\ Forall clean (fst k) /\ fst k <> []) K).
  { clear IH N C PK kids. induction ks as [|[c n] ks IHk]; intros IH N C PK. { exists []. repeat split; constructor. }
    cbn [map fst snd concat] in *. inversion IH as [|? ? IH1 IH2]; subst. inversion N as [|? ? N1 N2]; subst. inversion C as [|? ? C1 C2]; subst. inversion PK as [|? ? P1 P2]; subst.
    destruct (IHk IH2 N2 C2 P2) as (K2 & A2 & B2 & D2).
    assert (W : exists K1, map e_name (concat (map infos_of (if is_link n then [] else walk (rel ++ [c]) n))) = map pname K1 /\ NoDup K1 /\
      Forall (fun k => (exists q, fst k = (rel ++ [c]) ++ q /\ (snd k = false -> q <> [])) /\ Forall clean (fst k) /\ fst k <> []) K1).
    { destruct (is_link n). { exists []. repeat split; constructor. }
      destruct (IH1 P1 (rel ++ [c])) as (K1 & A1 & B1 & D1). { apply Forall_app. split; [exact HR|]. constructor; [exact C1|constructor]. }
      cbn [fst snd] in A1, D1. exists K1. split; [exact A1|]. split; [exact B1|]. apply Forall_forall. intros k Hk. rewrite Forall_forall in D1. destruct (D1 k Hk) as ((q & Eq) & CL & NN).
      split; [|auto]. exists q. split; [exact Eq|]. intros Ek ->. rewrite app_nil_r in Eq.
      (* an entry with the path of the subdirectory itself is its directory entry *)
      assert (Hin : In (pname k) (map e_name (concat (map infos_of (walk (rel ++ [c]) n))))) by (rewrite A1; now apply in_map).
      apply in_map_iff in Hin as (e & Ee & Hin). apply in_concat in Hin as (ys & Y1 & Y2). apply in_map_iff in Y1 as (x & <- & Hx).
      apply walk_spec in Hx as (p & l' & ks' & A & ->). cbn [infos_of] in Y2. destruct k as [kp kb]. cbn [fst snd] in *. subst kp kb.
      unfold pname in Ee. cbn [fst snd] in Ee. rewrite app_nil_r in Ee. apply in_app_iff in Y2 as [Y2|Y2].
      - destruct ((rel ++ [c]) ++ p) as [|z zs] eqn:Ez; [contradiction|]. destruct Y2 as [<-|[]]. cbn [e_name relpath] in Ee.
        eapply slashes_end; [exact CL|exact NN|symmetry; exact Ee].
      - apply in_concat in Y2 as (zs & Z1 & Z2). apply in_map_iff in Z1 as ([kn f] & <- & Hf). apply filter_In in Hf as [Hf _]. cbn [fst snd] in Z2.
        destruct f as [[] fd fm| |]; try contradiction. destruct Z2 as [<-|[]]. cbn [e_name] in Ee.
        assert (AP : proper_tree n) by exact P1.
        assert (CK : Forall clean (p ++ [kn])).
        { clear - AP A Hf. revert n AP A. induction p as [|x p IHp]; intros n AP A.
          - inversion A; subst. inversion AP as [| |? ? _ C _]; subst. rewrite Forall_forall in C. constructor; [exact (C _ Hf)|constructor].
          - inversion A as [|? ? ? n' ? ? Hk El A']; subst. inversion AP as [| |? ? _ C PK]; subst. rewrite Forall_forall in C, PK. cbn [app]. constructor; [exact (C _ Hk)|].
            apply (IHp n'); [exact (PK _ Hk)|exact A']. }
        apply slashes_inj in Ee.
        + rewrite <- !app_assoc in Ee. apply app_inv_head in Ee. apply (f_equal (@length str)) in Ee. rewrite !app_length in Ee. cbn [length] in Ee. lia.
        + rewrite <- app_assoc. apply Forall_app. split; [|exact CK]. exact CL.
        + exact CL.
        + destruct ((rel ++ [c]) ++ p); discriminate.
        + exact NN. }
    destruct W as (K1 & A1 & B1 & D1). exists (K1 ++ K2). split; [rewrite map_app, concat_app, !map_app; f_equal; [exact A1|exact A2]|]. split.
    - apply NoDup_app_intro; [exact B1|exact B2|]. intros k H1 H2. rewrite Forall_forall in D1, D2. destruct (D1 k H1) as ((q & Eq & _) & _). destruct (D2 k H2) as ((c' & q' & Hc' & Eq' & _) & _).
      rewrite Eq, <- app_assoc in Eq'. apply app_inv_head in Eq'. cbn [app] in Eq'. injection Eq' as -> _. contradiction.
    - apply Forall_app. split.
      + eapply Forall_impl; [|exact D1]. intros k ((q & Eq & Hq) & R1). cbn beta. split; [|exact R1]. exists c, q. split; [now left|]. rewrite Eq, <- app_assoc. auto.
      + eapply Forall_impl; [|exact D2]. intros k ((c' & q & Hc & R0) & R1). cbn beta. split; [|exact R1]. exists c', q. split; [now right|exact R0]. }
  destruct (SUB kids IH N C PK) as (K3 & A3 & B3 & D3). clear SUB.
  set (fs := filter (fun k : str * node => negb (is_dir (snd k))) kids).
  assert (FL : exists ks, map e_name (concat (map (fun f : str * node => match snd f with File false data _ => let size := Z.of_nat (length data) in
      [mkz (slashes (rel ++ [fst f])) size size (file_crc32 CHUNKSIZE data) data] | _ => [] end) fs)) = map pname (map (fun k => (rel ++ [k], false)) ks) /\ NoDup ks /\
      Forall (fun k => In k (map fst fs)) ks).
  { assert (NF : NoDup (map fst fs)). { unfold fs. clear - N. induction kids as [|[k n] ks IH]; cbn [filter map fst snd] in *; [constructor|]. inversion N as [|? ? N1 N2]; subst.
      destruct (negb (is_dir n)); [|auto]. cbn [map fst]. constructor; [|auto]. intro H. apply N1. apply in_map_iff in H as (x & <- & Hx). apply filter_In in Hx as [Hx _]. now apply in_map. }
    clearbody fs. clear - NF. induction fs as [|[k f] fs IH]. { exists []. repeat split; constructor. }
    cbn [map fst] in NF. inversion NF as [|? ? N1 N2]; subst. destruct (IH N2) as (ks & A & B & D).
    assert (D' : Forall (fun x => In x (map fst ((k, f) :: fs))) ks) by (eapply Forall_impl; [|exact D]; intros x Hx; now right).
    cbn [map concat fst snd]. destruct f as [[] d m| |]; cbn [app]; try (exists ks; repeat split; assumption).
    exists (k :: ks). split; [cbn [map e_name]; f_equal; [unfold pname; cbn [fst snd]; now rewrite app_nil_r|exact A]|]. split; [constructor; [|exact B]|constructor; [now left|exact D']].
    intro H. rewrite Forall_forall in D. apply N1. now apply D. }
  destruct FL as (ks & FA & FB & FD).
  assert (CK : forall k, In k ks -> clean k).
  { intros k Hk. rewrite Forall_forall in FD. apply FD in Hk. apply in_map_iff in Hk as (x & <- & Hx). apply filter_In in Hx as [Hx _]. rewrite Forall_forall in C. exact (C _ Hx). }
  exists ((match rel with [] => [] | _ => [(rel, true)] end) ++ map (fun k => (rel ++ [k], false)) ks ++ K3).
  split.
  { cbn [infos_of]. rewrite !map_app. rewrite <- app_assoc. f_equal; [destruct rel; reflexivity|]. f_equal; [exact FA|exact A3]. }
  split.
  - apply NoDup_app_intro; [destruct rel; repeat constructor; intros []| |].
    + apply NoDup_app_intro; [|exact B3|].
      * apply NoDup_map_inj; [|exact FB]. intros x y _ _ [= E]. apply app_inv_head in E. congruence.
      * intros x Hx H3. apply in_map_iff in Hx as (k & <- & Hk). rewrite Forall_forall in D3. destruct (D3 _ H3) as ((c & q & _ & E & Hq) & _). cbn [fst snd] in *.
        apply app_inv_head in E. injection E as _ <-. now apply Hq.
    + intros x Hx H. assert (x = (rel, true)) as -> by (destruct rel; [contradiction|destruct Hx as [<-|[]]; reflexivity]). apply in_app_iff in H as [H|H].
      * apply in_map_iff in H as (k & [=] & _).
      * rewrite Forall_forall in D3. destruct (D3 _ H) as ((c & q & _ & E & _) & _). cbn [fst] in E. rewrite <- (app_nil_r rel) in E at 1. apply app_inv_head in E. discriminate.
  - apply Forall_app. split; [|apply Forall_app; split].
    + destruct rel; [constructor|]. constructor; [|constructor]. cbn [fst]. split; [exists []; now rewrite app_nil_r|]. split; [exact HR|discriminate].
    + apply Forall_forall. intros x Hx. apply in_map_iff in Hx as (k & <- & Hk). cbn [fst]. split; [eauto|]. split; [|now destruct rel].
      apply Forall_app. split; [exact HR|]. constructor; [now apply CK|constructor].
    + eapply Forall_impl; [|exact D3]. intros k ((c & q & _ & E & _) & R1). cbn beta. split; [eauto|exact R1].
Qed.
Theorem infos_NoDup n : proper_tree n -> NoDup (map e_name (collect_infos n)).
Proof.
  intro H. unfold collect_infos. destruct (infos_keys n H [] (Forall_nil _)) as (K & E & N & F). rewrite E. apply NoDup_map_inj; [|exact N].
  intros x y Hx Hy. rewrite Forall_forall in F. destruct (F x Hx) as (_ & A1 & A2), (F y Hy) as (_ & B1 & B2). now apply pname_inj.
Qed.

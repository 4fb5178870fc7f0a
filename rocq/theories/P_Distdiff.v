(** Properties C55 and C71: comparing distributions. *)
From Verif Require Import Base Pack_Model ConstPool_Model ConstPool_Spec ClassFile_Model ClassFile_Spec Manifest_Model Sign_Spec
  Change_Model Change_Spec Classdiff_Model Classdiff_Spec Jardiff_Model Jardiff_Spec Distdiff_Model Distdiff_Spec Distdiff_Proofs Distdiff_Dist P_ClassFile P_Classdiff P_Jardiff.
From Verif Require Zip_Model Dir_Model Dir_Spec P_Zip.
From Coq Require Import Permutation.
Import Zip_Model (node, Dir, File, Other, is_dir, LEFT, RIGHT, SAME, DIFF, slashes, archive, mka, Zip).
Import Dir_Spec (found, file_at, data_at, plain).

(** ** Example data *)
Fixpoint distinctb (l : list str) : bool := match l with [] => true | x :: l' => negb (smem x l') && distinctb l' end.
Lemma distinctb_ok l : distinctb l = true -> NoDup l.
Proof.
  induction l as [|x l IH]; cbn [distinctb]; [constructor|]. rewrite andb_true_iff, negb_true_iff. intros [H1 H2]. constructor; [|auto]. intro H. apply smem_In in H. congruence.
Qed.
Fixpoint plainb (fuel : nat) (n : node) : bool :=
  match fuel, n with
  | S f, Dir false kids => distinctb (map fst kids) && forallb (fun k => plainb f (snd k)) kids
  | _, Dir _ _ => false
  | _, _ => true
  end.
Lemma plainb_plain f : forall n, plainb f n = true -> plain n.
Proof.
  induction f as [|f IH]; intros [l d m|[|] kids|l] H; try discriminate; try constructor.
  - cbn [plainb] in H. apply andb_true_iff in H as [H _]. now apply distinctb_ok.
  - cbn [plainb] in H. apply andb_true_iff in H as [_ H]. rewrite forallb_forall in H. apply Forall_forall. auto.
Qed.
Fixpoint names_okb (fuel : nat) (n : node) : bool :=
  match fuel, n with
  | S f, Dir _ kids => forallb (fun k => negb (seqb (fst k) []) && negb (seqb (fst k) [46]) && negb (existsb (Z.eqb 47) (fst k)) && names_okb f (snd k)) kids
  | _, Dir _ _ => false
  | _, _ => true
  end.
Lemma names_okb_ok f : forall n, names_okb f n = true -> names_ok n.
Proof.
  induction f as [|f IH]; intros [l d m|b kids|l] H; try discriminate; intros p x F; inversion F as [|? ? k n q y Hin F']; subst; try constructor.
  - cbn [names_okb] in H. rewrite forallb_forall in H. specialize (H _ Hin). cbn [fst snd] in H. apply andb_true_iff in H as [H _]. apply andb_true_iff in H as [H H3]. apply andb_true_iff in H as [H1 H2].
    split; [intros ->; discriminate|]. split; [intros ->; discriminate|]. intro HI. apply negb_true_iff in H3. assert (existsb (Z.eqb 47) k = true) by (apply existsb_exists; exists 47; auto). congruence.
  - cbn [names_okb] in H. rewrite forallb_forall in H. specialize (H _ Hin). apply andb_true_iff in H as [_ H]. exact (IH _ H _ _ F').
Qed.
Fixpoint comparableb (fuel : nat) (l r : node) : bool :=
  match fuel, l, r with
  | S f, Dir _ lk, Dir _ rk =>
      forallb (fun x => forallb (fun y => negb (seqb (fst x) (fst y)) ||
        match snd x, snd y with
        | File _ d1 m1, File _ d2 m2 => negb (Nat.eqb (length d1) (length d2)) || negb (m1 =? m2) || seqb d1 d2
        | a, b => comparableb f a b
        end) rk) lk &&
      (let ds := filter (fun x => is_dir (snd x) && existsb (fun y => seqb (fst x) (fst y)) rk) lk in
       forallb (fun x => forallb (fun y => seqb (fst x) (fst y)) ds) ds)
  | _, _, _ => false
  end.
Lemma comparableb_ok f : forall l r, comparableb f l r = true -> Dir_Spec.comparable l r.
Proof.
  induction f as [|f IH]; intros l r H; [discriminate|]. destruct l as [|ll lk|]; try discriminate. destruct r as [|rl rk|]; try discriminate. cbn [comparableb] in H. apply andb_true_iff in H as [H1 H2]. rewrite forallb_forall in H1. constructor.
  - intros k a b Ha Hb. specialize (H1 _ Ha). rewrite forallb_forall in H1. specialize (H1 _ Hb). cbn [fst snd] in H1. rewrite seqb_refl in H1. cbn [negb orb] in H1.
    destruct a as [l1 d1 m1|l1 k1|l1]; destruct b as [l2 d2 m2|l2 k2|l2]; try (right; now apply IH). left. do 6 eexists. split; [reflexivity|]. split; [reflexivity|]. intros El Em.
    subst m2. rewrite El, Nat.eqb_refl, Z.eqb_refl in H1. cbn [negb orb] in H1. now apply seqb_eq.
  - intros k a b k' a' b' Ha Hb Ha' Hb' D D'. rewrite forallb_forall in H2.
    assert (X : forall k a b, In (k, a) lk -> In (k, b) rk -> is_dir a = true -> In (k, a) (filter (fun x => is_dir (snd x) && existsb (fun y => seqb (fst x) (fst y)) rk) lk)).
    { intros. apply filter_In. split; [assumption|]. cbn [fst snd]. apply andb_true_iff. split; [assumption|]. apply existsb_exists. eexists. split; [eassumption|]. apply seqb_refl. }
    specialize (H2 _ (X _ _ _ Ha Hb D)). rewrite forallb_forall in H2. specialize (H2 _ (X _ _ _ Ha' Hb' D')). now apply seqb_eq in H2.
Qed.

(** Texts: ASCII. *)
Definition ascii_text (d : bytes) : res str := if forallb (fun c => c <? 128) d then Ok d else Err UnicodeDecodeError.
(** Jars: the first byte of the file tells which. *)
Definition some_jars (d : bytes) : jar := match d with [1] => Ok j_one | [2] => Ok j_class | _ => Err FileNotFoundError end.
Definition run_distdiff (o : options) (shallow : bool) (l r : node) : res Z :=
  distdiff no_fmt (fun s => s) no_fmt ascii_text (fun s => s) ascii_up some_jars l r o shallow.
Definition run_report (o : options) (shallow : bool) (l r : node) : res Z :=
  distdiff_report no_fmt (fun s => s) no_fmt ascii_text (fun s => s) ascii_up some_jars l r o shallow.
Definition file_opts (names : list str) (ws : bool) : options :=
  mkopts false false false false false false false false false false false false [] false false false [] names ws.
Definition f_ (d : bytes) (m : Z) : node := File false d m.
Definition dist (txt jar cls bin : bytes) (mf : String.string) (extra : list (str * node)) (time : Z) : node :=
  Dir false ([(lit "README.txt", f_ txt time); (lit "data.bin", f_ bin time); (lit "A.class", f_ cls time);
    (lit "META-INF", Dir false [(lit "MANIFEST.MF", f_ (mf_text mf) time); (lit "lib.jar", f_ jar time)])] ++ extra).
Definition d_one := dist (lit "one") [1] class_bytes [0] "ann" [] 1.
Definition d_txt := dist (lit "two") [1] class_bytes [0] "ann" [] 2.
Definition d_ws := dist (lit "one ") [1] class_bytes [0] "ann" [] 2.
Definition d_jar := dist (lit "one") [2] class_bytes [0] "ann" [] 2.
Definition d_class := dist (lit "one") [1] class_bytes2 [0] "ann" [] 2.
Definition d_mf := dist (lit "one") [1] class_bytes [0] "bob" [] 2.
Definition d_bin := dist (lit "one") [1] class_bytes [255; 3] "ann" [] 2.
Definition d_more := dist (lit "one") [1] class_bytes [0] "ann" [(lit "b.txt", f_ [1] 2)] 2.
Definition all_dists := [d_one; d_txt; d_ws; d_jar; d_class; d_mf; d_bin; d_more].
Lemma dists_fine : Forall (fun d => plain d /\ names_ok d /\ Dir_Spec.comparable d_one d /\ Dir_Spec.comparable d d) all_dists.
Proof.
  assert (H : forallb (fun d => plainb 4 d && names_okb 4 d && (comparableb 4 d_one d && comparableb 4 d d)) all_dists = true) by (vm_compute; reflexivity).
  rewrite forallb_forall in H. apply Forall_forall. intros d Hd. specialize (H d Hd). apply andb_true_iff in H as [H H3]. apply andb_true_iff in H as [H1 H2]. apply andb_true_iff in H3 as [H3 H4].
  split; [exact (plainb_plain _ _ H1)|]. split; [exact (names_okb_ok _ _ H2)|]. split; [exact (comparableb_ok _ _ _ H3)|exact (comparableb_ok _ _ _ H4)].
Qed.

(** ** C55 *)
(** What distdiff does, exactly: it exits with 0 exactly if every file on one side
    only is ignored by name and every common file is acceptable; it ends without
    an exception exactly if the common files can be compared; and then with 0 or
    1. *)
Theorem C55_exit : forall fmt reprs ffmt text order up unzip o shallow l r, (forall s, Permutation (order s) s) ->
  plain l -> plain r -> names_ok l -> names_ok r -> Dir_Spec.comparable l r ->
  (distdiff fmt reprs ffmt text order up unzip l r o shallow = Ok 0 <-> dists_ok fmt reprs ffmt text order up unzip o shallow l r) /\
  ((exists s, distdiff fmt reprs ffmt text order up unzip l r o shallow = Ok s) <-> on_common text shallow (file_comparable fmt reprs ffmt text order up unzip o) l r) /\
  (forall s, distdiff fmt reprs ffmt text order up unzip l r o shallow = Ok s -> s = 0 \/ s = 1).
Proof.
  intros fmt reprs ffmt text order up unzip o sh l r P Pl Pr Nl Nr C. split; [|split].
  - now apply distdiff_zero.
  - now apply distdiff_ends.
  - intros s. now apply distdiff_status.
Qed.
Print Assumptions C55_exit.
Example C55_exit_ex : map (run_distdiff strict false d_one) all_dists = [Ok 0; Ok 1; Ok 1; Ok 1; Ok 1; Ok 1; Ok 0; Ok 1] /\
  map (run_distdiff strict true d_one) all_dists = [Ok 0; Ok 0; Ok 0; Ok 0; Ok 0; Ok 0; Ok 0; Ok 1] /\
  run_distdiff (file_opts [] true) false d_one d_ws = Ok 0 /\ run_distdiff (file_opts [lit "b.*"] false) false d_one d_more = Ok 0 /\
  run_distdiff (jar_opts [] false false false [lit "Built-By"]) false d_one d_mf = Ok 0 /\ run_distdiff (jar_opts [lit "A.class"] false false false []) false d_one d_jar = Ok 0.
Proof. vm_compute. auto 10. Qed.

(** A text file in both, with other characters: reported, unless ignored by name
    (its name is then written with a leading "./" at the top level) or only
    trailing white space differs and this is ignored.  Missing from the full
    claim: files of other kinds, see below. *)
Theorem C55_reported_partial : forall fmt reprs ffmt text order up unzip o l r p d d' s, (forall s, Permutation (order s) s) ->
  plain l -> plain r -> names_ok l -> names_ok r -> Dir_Spec.comparable l r ->
  data_at l p d -> data_at r p d' -> d <> d' -> is_kind (name_of p) KText -> text d <> text d' ->
  ~ fmatched o (name_of p) -> ignore_trailing_whitespace o = false ->
  distdiff fmt reprs ffmt text order up unzip l r o false = Ok s -> s = 1.
Proof.
  intros fmt reprs ffmt text order up unzip o l r p d d' s P Pl Pr Nl Nr C Hd Hd' Hne HK HT HM HW H. destruct (C55_exit fmt reprs ffmt text order up unzip o false l r P Pl Pr Nl Nr C) as (H1 & _ & H3).
  destruct (H3 _ H) as [->|Hs]; [|exact Hs]. exfalso. apply H1 in H as (_ & _ & [H|H]); [discriminate|]. destruct (proj1 (H p d d' Hd Hd') Hne) as [s0 X|a b s0 X|a b X H4 H5 H6|a b X|X]; try discriminate (kinds_clash _ _ _ HK X).
  destruct H6 as [->|[H6|[H6 _]]]; [congruence|contradiction|congruence].
Qed.
Print Assumptions C55_reported_partial.
Example C55_reported_ex : In d_txt all_dists /\ data_at d_one [lit "README.txt"] (lit "one") /\ data_at d_txt [lit "README.txt"] (lit "two") /\ is_kind (name_of [lit "README.txt"]) KText /\
  ~ fmatched strict (name_of [lit "README.txt"]) /\ run_distdiff strict false d_one d_txt = Ok 1.
Proof.
  split; [unfold all_dists; cbn [In]; auto|]. split; [exists false, 1; eapply Dir_Spec.found_down; [now left|constructor]|]. split; [exists false, 2; eapply Dir_Spec.found_down; [now left|constructor]|].
  split; [exists (lit "./README"), (lit ".txt"); split; [vm_compute; auto 20|reflexivity]|]. split; [intros (p & [] & _)|vm_compute; reflexivity].
Qed.

(** Files that appear or disappear are reported, with --shallow too. *)
Theorem C55_presence : forall fmt reprs ffmt text order up unzip o shallow l r p s, (forall s, Permutation (order s) s) ->
  plain l -> plain r -> names_ok l -> names_ok r -> Dir_Spec.comparable l r ->
  (file_at l p /\ ~ file_at r p) \/ (file_at r p /\ ~ file_at l p) -> ~ fmatched o (slashes p) ->
  distdiff fmt reprs ffmt text order up unzip l r o shallow = Ok s -> s = 1.
Proof.
  intros fmt reprs ffmt text order up unzip o sh l r p s P Pl Pr Nl Nr C HF HM H. destruct (C55_exit fmt reprs ffmt text order up unzip o sh l r P Pl Pr Nl Nr C) as (H1 & _ & H3).
  destruct (H3 _ H) as [->|Hs]; [|exact Hs]. exfalso. apply H1 in H as (H4 & H5 & _). destruct HF as [[A B]|[A B]]; auto.
Qed.
Print Assumptions C55_presence.
Example C55_presence_ex : file_at d_more [lit "b.txt"] /\ ~ file_at d_one [lit "b.txt"] /\ ~ fmatched strict (slashes [lit "b.txt"]) /\ run_distdiff strict true d_one d_more = Ok 1.
Proof.
  split; [eexists; split; [eapply Dir_Spec.found_down; [do 4 right; now left|constructor]|reflexivity]|]. split.
  - intros (m & H & _). inversion H as [|? ? ? ? ? ? Hin _]; subst. cbn [In] in Hin. destruct Hin as [[=]|[[=]|[[=]|[[=]|[]]]]].
  - split; [intros (p & [] & _)|vm_compute; reflexivity].
Qed.

(** A distribution compared with itself: no change, if its text files can be
    decoded. *)
Theorem C55_self : forall fmt reprs ffmt text order up unzip o shallow l, (forall s, Permutation (order s) s) ->
  plain l -> names_ok l -> Dir_Spec.comparable l l ->
  (forall p d, data_at l p d -> is_kind (name_of p) KText -> exists t, text d = Ok t) ->
  distdiff fmt reprs ffmt text order up unzip l l o shallow = Ok 0.
Proof.
  intros fmt reprs ffmt text order up unzip o sh l P Pl Nl C HT. apply distdiff_zero; auto. split; [intros; contradiction|]. split; [intros; contradiction|]. right. intros p d d' H1 H2.
  pose proof (data_fun l p d d' Pl H1 H2) as <-. split; [congruence|]. intros _. eauto.
Qed.
Print Assumptions C55_self.
Example C55_self_ex : run_distdiff strict false d_one d_one = Ok 0 /\ run_distdiff strict false d_txt d_txt = Ok 0.
Proof. vm_compute. auto. Qed.

(** The claim is false: differences in files of no special kind are never
    reported ... *)
Theorem C55_data_silent : forall fmt reprs ffmt text order up unzip o l r, (forall s, Permutation (order s) s) ->
  plain l -> plain r -> names_ok l -> names_ok r -> Dir_Spec.comparable l r ->
  (forall p, file_at l p <-> file_at r p) -> (forall p d, data_at l p d -> is_kind (name_of p) KData) ->
  distdiff fmt reprs ffmt text order up unzip l r o false = Ok 0.
Proof.
  intros fmt reprs ffmt text order up unzip o l r P Pl Pr Nl Nr C HF HK. apply distdiff_zero; auto. split; [intros p A B; now apply HF in A|]. split; [intros p A B; now apply HF in A|].
  right. intros p d d' A B. split; [intros _; apply facc_data; eauto|]. intros _ HT. discriminate (kinds_clash _ _ _ (HK _ _ A) HT).
Qed.
Print Assumptions C55_data_silent.
Theorem C55_refuted : exists l r p d d', plain l /\ plain r /\ data_at l p d /\ data_at r p d' /\ d <> d' /\ is_kind (name_of p) KData /\ ~ fmatched strict (name_of p) /\
  run_distdiff strict false l r = Ok 0.
Proof.
  exists d_one, d_bin, [lit "data.bin"], [0], [255; 3]. pose proof dists_fine as HF. rewrite Forall_forall in HF. split; [apply HF; unfold all_dists; cbn [In]; auto|]. split; [apply HF; unfold all_dists; cbn [In]; auto 10|].
  split; [exists false, 1; eapply Dir_Spec.found_down; [right; now left|constructor]|]. split; [exists false, 2; eapply Dir_Spec.found_down; [right; now left|constructor]|]. split; [discriminate|]. split.
  - intros k. rewrite <- ?is_jar_iff. destruct k; [rewrite <- is_jar_iff|rewrite <- is_class_iff|rewrite <- is_text_iff|rewrite <- is_manifest_iff|]; try (vm_compute; discriminate). intros (q & e & [] & _).
  - split; [intros (p & [] & _)|vm_compute; reflexivity].
Qed.
Print Assumptions C55_refuted.
(** ... and with --shallow no difference in content is. *)
Theorem C55_shallow_silent : forall fmt reprs ffmt text order up unzip o l r, (forall s, Permutation (order s) s) ->
  plain l -> plain r -> names_ok l -> names_ok r -> Dir_Spec.comparable l r -> (forall p, file_at l p <-> file_at r p) ->
  distdiff fmt reprs ffmt text order up unzip l r o true = Ok 0.
Proof.
  intros fmt reprs ffmt text order up unzip o l r P Pl Pr Nl Nr C HF. apply distdiff_zero; auto. split; [intros p A B; now apply HF in A|]. split; [intros p A B; now apply HF in A|]. now left.
Qed.
Print Assumptions C55_shallow_silent.

(** A file at the top can be ignored by its name only if it is on one side: the
    names of common ones begin with "./". *)
Theorem C55_filename_refuted : exists l r, run_distdiff (file_opts [lit "README.txt"] false) false l r = Ok 1 /\
  (forall p d, p <> [lit "README.txt"] -> data_at l p d -> data_at r p d) /\ (forall p d, p <> [lit "README.txt"] -> data_at r p d -> data_at l p d).
Proof.
  exists (Dir false [(lit "README.txt", f_ (lit "one") 1)]), (Dir false [(lit "README.txt", f_ (lit "two") 2)]). split; [vm_compute; reflexivity|].
  assert (G : forall d m p d', p <> [lit "README.txt"] -> ~ data_at (Dir false [(lit "README.txt", f_ d m)]) p d').
  { intros d m p d' Hp (x & t & H). inversion H as [|? ? ? ? ? ? Hin F]; subst. destruct Hin as [[= <- <-]|[]]. inversion F; subst; now apply Hp. }
  split; intros p d Hp H; now apply G in H.
Qed.
Print Assumptions C55_filename_refuted.
(** An unchanged text file that cannot be decoded makes distdiff raise. *)
Theorem C55_undecodable_refuted : exists l, plain l /\ exists e, run_distdiff strict false l l = Err e.
Proof. exists (Dir false [(lit "a.txt", f_ [233] 1)]). split; [apply (plainb_plain 2); reflexivity|]. eexists. vm_compute. reflexivity. Qed.
Print Assumptions C55_undecodable_refuted.

(** ** C71 *)
(** With --report: the same exit status or the same exception. *)
Theorem C71_report_status : forall fmt reprs ffmt text order up unzip o shallow l r, (forall s, Permutation (order s) s) ->
  distdiff_report fmt reprs ffmt text order up unzip l r o shallow = distdiff fmt reprs ffmt text order up unzip l r o shallow.
Proof. intros. now apply distdiff_report_same. Qed.
Print Assumptions C71_report_status.
Example C71_ex : map (run_report strict false d_one) all_dists = [Ok 0; Ok 1; Ok 1; Ok 1; Ok 1; Ok 1; Ok 0; Ok 1].
Proof. vm_compute. reflexivity. Qed.

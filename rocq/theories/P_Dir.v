(** Properties C46 and C47: comparing and copying directories. *)
From Verif Require Import Base Zip_Model Zip_Spec Dir_Model Dir_Spec Dir_Proofs Dir_Copy.
From Coq Require Import Permutation.

Definition f_ (d : bytes) (m : Z) : node := File false d m.
Definition left1 : node := Dir false [(lit "x", f_ [1] 1); (lit "sub", Dir false [(lit "same", f_ [5; 5] 1); (lit "gone", Dir false [(lit "deep", f_ [] 0)])]); (lit "d", f_ [1; 2] 1); (lit "empty", Dir false [])].
Definition right1 : node := Dir false [(lit "d", f_ [1; 3] 2); (lit "y", Dir false [(lit "z", f_ [] 3)]); (lit "sub", Dir false [(lit "same", f_ [5; 5] 9)])].

(** ** C46 *)
(** Every file of either tree is reported exactly once and rightly classified.
    Missing from the full claim: names that are a directory on one side and a file
    on the other, different files of equal size and modification time, two
    common subdirectories side by side (see the refutations), links to directories. *)
Theorem C46_partial : forall l r, plain l -> plain r -> comparable l r ->
  exists K, dir_compare l r = (map written K, None) /\ NoDup (map snd K) /\ forall e p, In (e, p) K <-> dclass l r e p.
Proof. intros l r P1 P2 C. destruct (gen_spec l P1 [] r P2 C) as (K & E & N & H & _). exists K. auto. Qed.
Print Assumptions C46_partial.
Lemma plain_ex : plain left1 /\ plain right1.
Proof. split; repeat (constructor; cbn [map fst snd]; try (cbn; intuition discriminate)). Qed.
Lemma comparable_ex : comparable left1 right1.
Proof.
  constructor.
  - intros f a b Ha Hb. cbn [In] in Ha, Hb. destruct Ha as [[= <- <-]|[[= <- <-]|[[= <- <-]|[[= <- <-]|[]]]]]; destruct Hb as [[=]|[[=]|[[=]|[]]]]; subst; try discriminate.
    + right. constructor.
      * intros f a b Ha Hb. cbn [In] in Ha, Hb. destruct Ha as [[= <- <-]|[[= <- <-]|[]]]; destruct Hb as [[=]|[]]; subst; try discriminate. left. do 6 eexists. split; [reflexivity|]. split; [reflexivity|]. reflexivity.
      * intros f a b f' a' b' Ha Hb Ha' Hb'. cbn [In] in *. destruct Hb as [[=]|[]], Hb' as [[=]|[]]; subst; try discriminate. congruence.
    + left. do 6 eexists. split; [reflexivity|]. split; [reflexivity|]. intros _ [=].
  - intros f a b f' a' b' Ha Hb Ha' Hb' D D'. cbn [In] in *.
    destruct Ha as [[= <- <-]|[[= <- <-]|[[= <- <-]|[[= <- <-]|[]]]]]; try discriminate; destruct Hb as [[=]|[[=]|[[=]|[]]]]; subst; try discriminate.
    destruct Ha' as [[= <- <-]|[[= <- <-]|[[= <- <-]|[[= <- <-]|[]]]]]; try discriminate; destruct Hb' as [[=]|[[=]|[[=]|[]]]]; subst; try discriminate. reflexivity.
Qed.
Example C46_ex : dir_compare left1 right1 = ([(LEFT, lit "x"); (RIGHT, lit "y/z"); (DIFF, lit "./d"); (LEFT, lit "sub/gone/deep"); (SAME, lit "sub/same")], None) /\
  plain left1 /\ plain right1 /\ comparable left1 right1.
Proof. split; [vm_compute; reflexivity|]. split; [apply plain_ex|]. split; [apply plain_ex|apply comparable_ex]. Qed.

(** Two common subdirectories: the comparison always ends in a TypeError. *)
Theorem C46_two_subdirectories : forall ll lk rl rk f g a b a' b', NoDup (map fst lk) -> NoDup (map fst rk) -> f <> g ->
  In (f, a) lk -> In (f, b) rk -> In (g, a') lk -> In (g, b') rk -> is_dir a = true -> is_dir b = true -> is_dir a' = true -> is_dir b' = true ->
  snd (dir_compare (Dir ll lk) (Dir rl rk)) = Some TypeError.
Proof.
  intros ll lk rl rk f g a b a' b' N1 N2 Nf H1 H2 H3 H4 D1 D2 D3 D4. unfold dir_compare. cbn [gen_from_dircmp].
  match goal with |- context [match ?S with [] => _ | _ => _ end] => set (subdirs := S) end.
  assert (X : forall h x y, In (h, x) lk -> In (h, y) rk -> is_dir x = true -> is_dir y = true -> In h subdirs).
  { intros h x y I1 I2 E1 E2. apply filter_In. split.
    - apply filter_In. split; [|apply smem_In; apply in_map_iff; exists (h, y); auto]. eapply Permutation_in; [apply Zip_Proofs.sort_perm|]. apply in_map_iff. exists (h, x). auto.
    - rewrite (In_kid _ _ _ N1 I1), (In_kid _ _ _ N2 I2). destruct x; try discriminate. destruct y; try discriminate. reflexivity. }
  pose proof (X f a b H1 H2 D1 D2) as Xf. pose proof (X g a' b' H3 H4 D3 D4) as Xg. clearbody subdirs. destruct subdirs as [|s [|s' ss]]; [contradiction| |reflexivity].
  destruct Xf as [->|[]], Xg as [->|[]]. contradiction.
Qed.
Print Assumptions C46_two_subdirectories.
Example C46_two_ex : snd (dir_compare (Dir false [(lit "a", Dir false []); (lit "b", Dir false [])]) (Dir false [(lit "b", Dir false []); (lit "a", Dir false [])])) = Some TypeError.
Proof. reflexivity. Qed.
(** A file replaced by a directory of the same name is not reported at all. *)
Theorem C46_kind_refuted : exists l r p, plain l /\ plain r /\ file_at l p /\ ~ file_at r p /\ dir_compare l r = ([], None).
Proof.
  exists (Dir false [(lit "a", f_ [1] 1)]), (Dir false [(lit "a", Dir false [(lit "b", f_ [2] 1)])]), [lit "a"]. split; [|split; [|split; [|split]]].
  - repeat (constructor; cbn; auto). - repeat (constructor; cbn; auto).
  - exists (f_ [1] 1). split; [|reflexivity]. econstructor; [now left|constructor].
  - intros (m & F & D). inversion F as [|? ? ? ? ? ? H1 H2]; subst. destruct H1 as [[= <- ]|[]]. inversion H2; subst. discriminate.
  - reflexivity.
Qed.
Print Assumptions C46_kind_refuted.
(** Contents are not compared if size and modification time agree. *)
Theorem C46_times_refuted : exists l r p d d', plain l /\ plain r /\ data_at l p d /\ data_at r p d' /\ d <> d' /\ dir_compare l r = ([(SAME, lit "./a")], None).
Proof.
  exists (Dir false [(lit "a", f_ [1] 7)]), (Dir false [(lit "a", f_ [2] 7)]), [lit "a"], [1], [2]. split; [|split; [|split; [|split; [|split]]]].
  - repeat (constructor; cbn; auto). - repeat (constructor; cbn; auto).
  - exists false, 7. econstructor; [now left|constructor]. - exists false, 7. econstructor; [now left|constructor]. - discriminate. - reflexivity.
Qed.
Print Assumptions C46_times_refuted.

(** ** C47 *)
(** Into a new directory, a tree is reproduced exactly if its files are at most
    one directory deep; any deeper file makes the copy fail. *)
Theorem C47_copy_partial : forall orig, is_dir orig = true -> plain orig -> (forall q m, found orig q m -> is_dir m = true \/ exists l d t, m = File l d t) ->
  (forall p, file_at orig p -> (length p <= 2)%nat) ->
  exists t copied, copydir orig fresh = Ok (t, copied) /\ NoDup (map fst (t_files t)) /\ (forall p d, In (p, d) (t_files t) <-> data_at orig p d) /\ copied = map fst (t_files t).
Proof. intros orig D P R. exact (proj1 (copydir_spec orig D P R)). Qed.
Print Assumptions C47_copy_partial.
Theorem C47_deep_fails : forall orig, is_dir orig = true -> plain orig -> (forall q m, found orig q m -> is_dir m = true \/ exists l d t, m = File l d t) ->
  (exists p, file_at orig p /\ (2 < length p)%nat) -> copydir orig fresh = Err FileNotFoundError.
Proof. intros orig D P R. exact (proj2 (copydir_spec orig D P R)). Qed.
Print Assumptions C47_deep_fails.
Theorem C47_refuted : exists orig, plain orig /\ file_at orig [lit "a"; lit "b"; lit "c"] /\ copydir orig fresh = Err FileNotFoundError.
Proof.
  exists (Dir false [(lit "a", Dir false [(lit "b", Dir false [(lit "c", f_ [1] 1)])])]). split; [|split; [|reflexivity]].
  - repeat (constructor; cbn; auto).
  - exists (f_ [1] 1). split; [|reflexivity]. repeat (econstructor; [now left|]). constructor.
Qed.
Print Assumptions C47_refuted.
Example C47_ex : exists t, copydir (Dir false [(lit "css", Dir false [(lit "a", f_ [1] 1); (lit "img", Dir false [])]); (lit "b", f_ [2] 1)]) fresh = Ok (t, [[lit "b"]; [lit "css"; lit "a"]]) /\
  t_files t = [([lit "b"], [2]); ([lit "css"; lit "a"], [1])] /\ t_dirs t = [[]; [lit "css"]; [lit "img"]].
Proof. eexists. repeat split; reflexivity. Qed.

(** Property C139: where manifest c writes the manifest. *)
From Verif Require Import Base Pack_Model ConstPool_Model Manifest_Model Glob_Model Zip_Model.
From Verif Require Import Sign_Model Tool_Model Mfile_Model P_Sign P_Tool.

(** ** The specification *)
(** [q] is a directory on the way to [p] *)
Definition on_the_way (q p : path) := exists x r, p = q ++ x :: r.
(** All that is different is [p], and directories on the way to it that were missing *)
Definition only_made (p : path) (d d' : fdisk) :=
  forall q, q <> p -> d' q = d q \/ (d q = None /\ d' q = Some FDir /\ on_the_way q p).

(** ** Lemmas *)
Lemma peqb_eq a : forall b, peqb a b = true <-> a = b.
Proof.
  induction a as [|x a IH]; intros [|y b]; cbn; split; intros H; try reflexivity; try discriminate.
  - apply andb_true_iff in H. destruct H as [H1 H2]. apply seqb_eq in H1. apply IH in H2. congruence.
  - injection H as -> ->. rewrite seqb_refl. apply IH. reflexivity.
Qed.
Lemma upd_same d p i : upd d p i p = Some i.
Proof. unfold upd. replace (peqb p p) with true; [reflexivity|]. symmetry. apply peqb_eq. reflexivity. Qed.
Lemma upd_other d p i q : q <> p -> upd d p i q = d q.
Proof. intros N. unfold upd. destruct (peqb q p) eqn:E; [apply peqb_eq in E; contradiction|reflexivity]. Qed.

Section Lemmas.
Variable hash : str -> bytes -> str.
Variable fs : str -> option node.
Variable unzip : bytes -> res zip.
Variable may_write : path -> bool.

Lemma created_data a : cli_create hash fs unzip a = (m <- created hash fs unzip a ;; man_data m None).
Proof.
  unfold cli_create, created. destruct (negb _); [reflexivity|]. cbn zeta.
  destruct (match a_ignore a with [] => _ | _ => _ end); reflexivity.
Qed.
Lemma digests_main algs : forall m name data m', set_digests hash m name algs data = Ok m' -> m_main m' = m_main m /\ m_linesep m' = m_linesep m.
Proof.
  induction algs as [|x algs IH]; cbn [set_digests]; intros m name data m' H; [injection H as <-; split; reflexivity|].
  unfold set_in_section in H. destruct (dget (m_subs m) name) as [s|]; [|discriminate]. cbn [rbind] in H.
  destruct (sec_set s _ _) as [s'|]; [|discriminate]. cbn [rbind] in H. apply IH in H. exact H.
Qed.
Lemma loop_main ignores algs es : forall m m', create_loop hash ignores algs m es = Ok m' -> m_main m' = m_main m /\ m_linesep m' = m_linesep m.
Proof.
  induction es as [|[[name chunks]|e] es IH]; cbn [create_loop]; intros m m' H; [injection H as <-; split; reflexivity| |discriminate].
  destruct (fnmatches name ignores); [exact (IH m m' H)|]. unfold create_section in H.
  destruct chunks as [data|]; [|discriminate]. cbn [rbind] in H.
  destruct (set_digests _ _ _ _ _) as [m2|] eqn:S; [|discriminate]. cbn [rbind] in H.
  apply digests_main in S. apply IH in H. cbn [m_main m_linesep] in S. destruct S, H. split; congruence.
Qed.
Lemma created_main a m : created hash fs unzip a = Ok m -> sec_data (m_main m) (Some (man_linesep m None)) = Ok MV1 /\ man_linesep m None = os_linesep.
Proof.
  unfold created. destruct (negb _); [discriminate|]. cbn zeta.
  destruct (match a_ignore a with [] => _ | _ => _ end) as [ig|]; [|discriminate]. cbn [rbind]. intros H. apply loop_main in H.
  destruct H as [H1 H2]. unfold man_linesep. rewrite H1, H2. vm_compute. split; reflexivity.
Qed.
Lemma secs_data ls l : mapM (fun x : bytes * section => sec_data (snd x) (Some ls)) l =
  match store_secs ls l with (_, Some e) => Err e | (b, None) => mapM (fun x => sec_data (snd x) (Some ls)) l end.
Proof.
  induction l as [|x l IH]; cbn [mapM store_secs]; [reflexivity|].
  destruct (sec_data (snd x) (Some ls)) as [b|e]; cbn [rbind]; [|reflexivity].
  destruct (store_secs ls l) as [b2 [e|]]; [|reflexivity]. rewrite IH. reflexivity.
Qed.
Lemma secs_bytes ls l : forall b, store_secs ls l = (b, None) -> exists ds, mapM (fun x : bytes * section => sec_data (snd x) (Some ls)) l = Ok ds /\ b = concat ds.
Proof.
  induction l as [|x l IH]; cbn [mapM store_secs]; intros b H; [injection H as <-; exists []; split; reflexivity|].
  destruct (sec_data (snd x) (Some ls)) as [b1|e]; cbn [rbind]; [|discriminate].
  destruct (store_secs ls l) as [b2 [e|]]; [discriminate|]. injection H as <-.
  destruct (IH b2 eq_refl) as (ds & -> & ->). exists (b1 :: ds). split; reflexivity.
Qed.
Lemma insert_in x y l : In y (insert_sec x l) -> y = x \/ In y l.
Proof.
  induction l as [|z l IH]; cbn; [intros [->|[]]; left; reflexivity|].
  destruct (slt (fst x) (fst z)); cbn; [intros [->|H]; [left; reflexivity|right; exact H]|].
  intros [->|H]; [right; left; reflexivity|]. destruct (IH H); [left; assumption|right; right; assumption].
Qed.
Lemma sort_in y l : In y (sort_secs l) -> In y l.
Proof.
  unfold sort_secs. assert (G : forall l acc, In y (fold_left (fun acc x => insert_sec x acc) l acc) -> In y l \/ In y acc).
  { clear l. induction l as [|x l IH]; cbn; intros acc H; [right; exact H|].
    apply IH in H. destruct H as [H|H]; [left; right; exact H|]. apply insert_in in H. destruct H as [->|H]; [left; left; reflexivity|right; exact H]. }
  intros H. apply G in H. destruct H as [H|[]]. exact H.
Qed.
Lemma keys_data l : forall ks, mapM sec_key l = Ok ks -> forall x, In x ks -> sec_data (snd x) (Some os_linesep) = Ok (fst x).
Proof.
  induction l as [|s l IH]; cbn [mapM]; intros ks H x I; [injection H as <-; destruct I|].
  unfold sec_key in H at 1. destruct (sec_data s (Some os_linesep)) as [b|] eqn:E; cbn [rbind] in H; [|discriminate].
  destruct (mapM sec_key l) as [ks'|]; cbn [rbind] in H; [|discriminate]. injection H as <-.
  destruct I as [<-|I]; [exact E|exact (IH ks' eq_refl x I)].
Qed.
Lemma secs_ok l : (forall x, In x l -> sec_data (snd x) (Some os_linesep) = Ok (fst x)) -> exists b, store_secs os_linesep l = (b, None).
Proof.
  induction l as [|x l IH]; intros H; [exists []; reflexivity|]. cbn [store_secs]. rewrite (H x (or_introl eq_refl)).
  destruct IH as [b ->]; [intros y I; apply H; right; exact I|]. eexists. reflexivity.
Qed.
(** What is stored: the data, or the main section and the exception *)
Lemma store_is a m : created hash fs unzip a = Ok m ->
  match man_data m None with Ok data => store m = (data, None) | Err e => store m = (MV1, Some e) end.
Proof.
  intros H. apply created_main in H. destruct H as [H1 H2]. unfold man_data, store. rewrite H1. cbn [rbind]. rewrite H2.
  destruct (mapM sec_key _) as [ks|e] eqn:K; cbn [rbind]; [|reflexivity].
  destruct (secs_ok (sort_secs ks)) as [b S].
  { intros x I. exact (keys_data _ _ K x (sort_in _ _ I)). }
  rewrite S. destruct (secs_bytes _ _ _ S) as (ds & -> & ->). reflexivity.
Qed.

Lemma makedirs_made rest : forall top d d' ok, makedirs may_write top rest d = (d', ok) ->
  (forall q, d' q = d q \/ (d q = None /\ d' q = Some FDir /\ exists x r, rest = x ++ r /\ q = top ++ x)) /\
  (ok = true -> forall x y r, rest = x ++ y :: r -> d' (top ++ x ++ [y]) = Some FDir).
Proof.
  induction rest as [|c rest IH]; cbn [makedirs]; intros top d d' ok H.
  - injection H as <- <-. split; [left; reflexivity|]. intros _ x y r E. destruct x; discriminate.
  - assert (Keep : forall d1 d2 p, (forall q, d2 q = d1 q \/ (d1 q = None /\ d2 q = Some FDir /\ exists x r, rest = x ++ r /\ q = p ++ x)) -> d1 p = Some FDir -> d2 p = Some FDir).
    { intros d1 d2 p G E. destruct (G p) as [G1|(G1 & _)]; congruence. }
    assert (L : forall q x r, rest = x ++ r -> q = (top ++ [c]) ++ x -> exists x' r', c :: rest = x' ++ r' /\ q = top ++ x').
    { intros q x r -> ->. exists (c :: x), r. split; [reflexivity|]. rewrite <- app_assoc. reflexivity. }
    destruct (d (top ++ [c])) as [[b|]|] eqn:E.
    + injection H as <- <-. split; [left; reflexivity|discriminate].
    + destruct (IH _ _ _ _ H) as [G1 G2]. split.
      * intros q. destruct (G1 q) as [G|(N & F & x & r & X & Q)]; [left; exact G|right]. split; [exact N|]. split; [exact F|]. exact (L q x r X Q).
      * intros Hok x y r X. destruct x as [|x0 x].
        -- cbn [app] in *. injection X as <- _. exact (Keep _ _ _ G1 E).
        -- cbn [app] in X. injection X as <- X. rewrite <- app_comm_cons. change (top ++ c :: x ++ [y]) with (top ++ [c] ++ x ++ [y]). rewrite app_assoc. exact (G2 Hok x y r X).
    + destruct (may_write (top ++ [c])); [|injection H as <- <-; split; [left; reflexivity|discriminate]].
      destruct (IH _ _ _ _ H) as [G1 G2]. split.
      * intros q. destruct (list_eq_dec (list_eq_dec Z.eq_dec) q (top ++ [c])) as [->|N].
        -- right. split; [exact E|]. split; [apply (Keep _ _ _ G1), upd_same|]. exists [c], rest. split; reflexivity.
        -- destruct (G1 q) as [G|(M & F & x & r & X & Q)]; rewrite (upd_other _ _ _ _ N) in *; [left; exact G|right].
           split; [exact M|]. split; [exact F|]. exact (L q x r X Q).
      * intros Hok x y r X. destruct x as [|x0 x].
        -- cbn [app] in *. injection X as <- _. exact (Keep _ _ _ G1 (upd_same _ _ _)).
        -- cbn [app] in X. injection X as <- X. rewrite <- app_comm_cons. change (top ++ c :: x ++ [y]) with (top ++ [c] ++ x ++ [y]). rewrite app_assoc. exact (G2 Hok x y r X).
Qed.
Lemma way p q x r : p <> [] -> removelast p = x ++ r -> q = [] ++ x -> on_the_way q p.
Proof.
  intros N E ->. cbn [app]. assert (P : p = (x ++ r) ++ [last p []]) by (rewrite <- E; apply app_removelast_last; exact N).
  unfold on_the_way. rewrite <- app_assoc in P.
  destruct r as [|y r]; [exists (last p []), []; exact P|exists y, (r ++ [last p []]); exact P].
Qed.
Lemma makedirsp_made p d d' ok : p <> [] -> makedirsp may_write (removelast p) d = (d', ok) ->
  forall q, d' q = d q \/ (d q = None /\ d' q = Some FDir /\ on_the_way q p).
Proof.
  intros N H q. unfold makedirsp in H. destruct (removelast p) as [|c0 l] eqn:R; [injection H as <- <-; left; reflexivity|].
  destruct (d (c0 :: l)) as [i|]; [injection H as <- <-; left; reflexivity|].
  destruct (makedirs_made _ _ _ _ _ H) as [G _]. destruct (G q) as [E|(M & F & x & r & X & Q)]; [left; exact E|right].
  split; [exact M|]. split; [exact F|]. apply (way p q x r); [exact N|rewrite R; exact X|exact Q].
Qed.
Lemma not_way p : ~ on_the_way p p.
Proof. intros (x & r & E). apply (f_equal (@length _)) in E. rewrite app_length in E. cbn [length] in E. lia. Qed.

Lemma create_inv a p d d' o r : p <> [] -> create_out hash fs unzip may_write a (Some p) d = (d', o, r) ->
  o = [] /\ only_made p d d' /\
  ((exists e, created hash fs unzip a = Err e /\ d' = d /\ r = Some (MRaised e)) \/
   (r = Some MOSError /\ d' p = d p) \/
   (exists data, cli_create hash fs unzip a = Ok data /\ r = None /\ d' p = Some (FFile data)) \/
   (exists e, cli_create hash fs unzip a = Err e /\ r = Some (MRaised e) /\ d' p = Some (FFile MV1))).
Proof.
  intros N H. unfold create_out in H. rewrite created_data. destruct (created hash fs unzip a) as [m|e] eqn:C.
  2:{ injection H as <- <- <-. split; [reflexivity|]. split; [intros q _; left; reflexivity|]. left. exists e. repeat split. }
  cbn [rbind]. apply store_is in C. destruct (store m) as [b e] eqn:S.
  destruct (makedirsp may_write (removelast p) d) as [d1 ok] eqn:M.
  pose proof (makedirsp_made p d d1 ok N M) as G.
  assert (Gp : d1 p = d p).
  { destruct (G p) as [E|(_ & _ & W)]; [exact E|destruct (not_way _ W)]. }
  assert (OM : only_made p d d1) by (intros q _; apply G).
  destruct ok; [|injection H as <- <- <-; split; [reflexivity|]; split; [exact OM|]; right; left; split; [reflexivity|exact Gp]].
  destruct (negb (is_dir (removelast p) d1)); [injection H as <- <- <-; split; [reflexivity|]; split; [exact OM|]; right; left; split; [reflexivity|exact Gp]|].
  assert (W : (if may_write p then (upd d1 p (FFile b), [], option_map MRaised e) else (d1, [], Some MOSError)) = (d', o, r) ->
     o = [] /\ only_made p d d' /\
  ((exists e, @Ok manifest m = Err e /\ d' = d /\ r = Some (MRaised e)) \/
   (r = Some MOSError /\ d' p = d p) \/
   (exists data, man_data m None = Ok data /\ r = None /\ d' p = Some (FFile data)) \/
   (exists e, man_data m None = Err e /\ r = Some (MRaised e) /\ d' p = Some (FFile MV1)))).
  { destruct (may_write p); intros K; injection K as <- <- <-; (split; [reflexivity|]).
    - split; [intros q Q; rewrite (upd_other _ _ _ _ Q); apply G|]. right; right.
      destruct (man_data m None) as [data|e0]; injection C as -> ->; [left; exists data|right; exists e0]; (split; [reflexivity|]; split; [reflexivity|apply upd_same]).
    - split; [exact OM|]. right; left. split; [reflexivity|exact Gp]. }
  destruct (d1 p) as [[b0|]|] eqn:D1; [exact (W H)| |exact (W H)].
  injection H as <- <- <-. split; [reflexivity|]. split; [exact OM|]. right; left. split; [reflexivity|congruence].
Qed.
Lemma create_go a p d data : p <> [] -> cli_create hash fs unzip a = Ok data -> (forall q, may_write q = true) ->
  (forall q, on_the_way q p -> forall b, d q <> Some (FFile b)) -> d p <> Some FDir ->
  exists d', create_out hash fs unzip may_write a (Some p) d = (d', [], None).
Proof.
  intros N C W F ND. rewrite created_data in C. unfold create_out. destruct (created hash fs unzip a) as [m|] eqn:K; [|discriminate].
  cbn [rbind] in C. apply store_is in K. rewrite C in K. rewrite K.
  assert (MD : forall rest top d0, (forall x y r, rest = x ++ y :: r -> forall b, d0 (top ++ x ++ [y]) <> Some (FFile b)) -> exists d1, makedirs may_write top rest d0 = (d1, true)).
  { induction rest as [|c rest IH]; intros top d0 H; cbn [makedirs]; [eexists; reflexivity|].
    pose proof (H [] c rest eq_refl) as Hc. cbn [app] in Hc. rewrite W.
    assert (H' : forall x y r, rest = x ++ y :: r -> forall b, d0 ((top ++ [c]) ++ x ++ [y]) <> Some (FFile b)).
    { intros x y r E b. rewrite <- app_assoc. apply (H (c :: x) y r). rewrite E. reflexivity. }
    destruct (d0 (top ++ [c])) as [[b|]|] eqn:E; [destruct (Hc b eq_refl)|apply IH; exact H'|].
    apply IH. intros x y r X b. unfold upd. destruct (peqb _ _); [discriminate|exact (H' x y r X b)]. }
  assert (Wy : forall x y r, removelast p = x ++ y :: r -> on_the_way (x ++ [y]) p).
  { intros x y r E. apply (way p (x ++ [y]) (x ++ [y]) r); [exact N|rewrite E, <- app_assoc; reflexivity|reflexivity]. }
  destruct (makedirsp may_write (removelast p) d) as [d1 ok] eqn:M.
  pose proof (makedirsp_made p d d1 ok N M) as G.
  assert (Gp : d1 p = d p).
  { destruct (G p) as [E|(_ & _ & Q)]; [exact E|destruct (not_way _ Q)]. }
  assert (R : ok = true /\ is_dir (removelast p) d1 = true).
  { unfold makedirsp in M. unfold is_dir. destruct (removelast p) as [|c l] eqn:E; [injection M as <- <-; split; reflexivity|].
    assert (Wl : on_the_way (c :: l) p) by (apply (way p (c :: l) (c :: l) []); [exact N|rewrite E, app_nil_r; reflexivity|reflexivity]).
    destruct (d (c :: l)) as [[b|]|] eqn:D.
    - destruct (F _ Wl b D).
    - injection M as <- <-. rewrite D. split; reflexivity.
    - destruct (MD (c :: l) [] d) as [d2 M2]; [intros x y r X; cbn [app]; apply F, (Wy x y r X)|].
      assert (X := M2). rewrite M in X. injection X as <- ->. split; [reflexivity|].
      destruct (makedirs_made _ _ _ _ _ M2) as [_ G2]. specialize (G2 eq_refl (removelast (c :: l)) (last (c :: l) []) []).
      cbn [app] in G2. rewrite <- app_removelast_last in G2 by discriminate. rewrite (G2 eq_refl). reflexivity. }
  destruct R as [-> ->]. cbn [negb]. rewrite Gp, W. destruct (d p) as [[b|]|]; [eexists; reflexivity|congruence|eexists; reflexivity].
Qed.
End Lemmas.

(** ** C139 *)
(** When nothing is raised, the manifest of C85 is in the file given with -m, or on
    standard output; besides, only missing directories on the way to that file have been
    made. *)
Theorem C139_done : forall hash fs unzip may_write a out d d' o, out <> Some [] ->
  create_out hash fs unzip may_write a out d = (d', o, None) ->
  exists data, cli_create hash fs unzip a = Ok data /\
  match out with
  | None => d' = d /\ o = data
  | Some p => o = [] /\ d' p = Some (FFile data) /\ only_made p d d'
  end.
Proof.
  intros hash fs unzip may_write a out d d' o N H. destruct out as [p|].
  - assert (Np : p <> []) by congruence. apply create_inv in H; [|exact Np].
    destruct H as (-> & OM & [(e & _ & _ & R)|[(R & _)|[(data & C & _ & P)|(e & _ & R & _)]]]); try discriminate.
    exists data. repeat split; assumption.
  - unfold create_out in H. rewrite created_data. destruct (created hash fs unzip a) as [m|] eqn:C; [|discriminate]. cbn [rbind].
    apply store_is in C. destruct (man_data m None) as [data|e]; rewrite C in H; [|discriminate]. injection H as <- <-.
    exists data. repeat split.
Qed.
Print Assumptions C139_done.
Definition empty_disk : fdisk := fun _ => None.
Example C139_done_ex : exists d', create_out hash0 fs0 (unzipW []) (fun _ => true) args0 (Some [lit "out"; lit "META-INF"; lit "M.MF"]) empty_disk = (d', [], None) /\
  d' [lit "out"; lit "META-INF"; lit "M.MF"] = Some (FFile dataA) /\ d' [lit "out"] = Some FDir /\ d' [lit "out"; lit "META-INF"] = Some FDir /\ d' [lit "M.MF"] = None.
Proof. eexists. split; [vm_compute; reflexivity|]. vm_compute. repeat split. Qed.

(** And nothing is raised when there is a manifest to be written, all may be written and
    no file is in the way. *)
Theorem C139_goes : forall hash fs unzip may_write a p d data, p <> [] -> cli_create hash fs unzip a = Ok data ->
  (forall q, may_write q = true) -> (forall q, on_the_way q p -> forall b, d q <> Some (FFile b)) -> d p <> Some FDir ->
  exists d', create_out hash fs unzip may_write a (Some p) d = (d', [], None) /\ d' p = Some (FFile data).
Proof.
  intros hash fs unzip may_write a p d data N C W F ND. destruct (create_go hash fs unzip may_write a p d data N C W F ND) as [d' H].
  exists d'. split; [exact H|]. apply create_inv in H; [|exact N].
  destruct H as (_ & _ & [(e & _ & _ & R)|[(R & _)|[(data' & C' & _ & P)|(e & _ & R & _)]]]); try discriminate. congruence.
Qed.
Print Assumptions C139_goes.
Example C139_goes_ex : cli_create hash0 fs0 (unzipW []) args0 = Ok dataA /\ (forall q, on_the_way q [lit "out"; lit "M.MF"] -> forall b, empty_disk q <> Some (FFile b)).
Proof. split; [vm_compute; reflexivity|]. intros. discriminate. Qed.

(** When something is raised: the file is as it was, unless the exception comes from the
    writing of the sections; then it holds the main section only.  Nothing at all is touched
    when the files or digests are at fault. *)
Theorem C139_failed : forall hash fs unzip may_write a p d d' o e, p <> [] ->
  create_out hash fs unzip may_write a (Some p) d = (d', o, Some e) ->
  o = [] /\ only_made p d d' /\
  (d' p = d p \/ (d' p = Some (FFile (lit "Manifest-Version: 1.0" ++ [10; 10])) /\ exists x, e = MRaised x /\ cli_create hash fs unzip a = Err x)) /\
  (forall x, created hash fs unzip a = Err x -> d' = d).
Proof.
  intros hash fs unzip may_write a p d d' o e N H. pose proof H as H0. apply create_inv in H; [|exact N].
  destruct H as (-> & OM & D). split; [reflexivity|]. split; [exact OM|]. split.
  - destruct D as [(x & _ & -> & _)|[(_ & P)|[(data & _ & R & _)|(x & C & R & P)]]]; [left; reflexivity|left; exact P|discriminate|].
    right. split; [exact P|]. exists x. split; [congruence|exact C].
  - intros x C. unfold create_out in H0. rewrite C in H0. injection H0 as <- _. reflexivity.
Qed.
Print Assumptions C139_failed.
(** An unknown digest; a directory in the place of the file; a file in the way. *)
Example C139_failed_ex :
  let d := upd (upd empty_disk [lit "m"] FDir) [lit "f"] (FFile [1]) in
  snd (create_out hash0 fs0 (unzipW []) (fun _ => true) (mkargs (lit "a.jar") false [] (Some (lit "MD9"))) (Some [lit "m"; lit "x"]) d) = Some (MRaised UnsupportedDigest) /\
  snd (create_out hash0 fs0 (unzipW []) (fun _ => true) args0 (Some [lit "m"]) d) = Some MOSError /\
  snd (create_out hash0 fs0 (unzipW []) (fun _ => true) args0 (Some [lit "f"; lit "x"]) d) = Some MOSError.
Proof. vm_compute. repeat split. Qed.

(** A file whose name is not UTF-8 (a lone surrogate in Python): the manifest that was there
    is replaced by one without sections, which can be read, though the command fails. *)
Theorem C139_failed_refuted : exists fs a p d d' old new m, d p = Some (FFile old) /\
  create_out hash0 fs (fun _ => Err ValueError) (fun _ => true) a (Some p) d = (d', [], Some (MRaised UnicodeEncodeError)) /\
  d' p = Some (FFile new) /\ new <> old /\ man_parse (new_manifest None) new = Ok m /\ m_subs m = [].
Proof.
  exists (fun q => if seqb q (lit "d") then Some (Dir false [(lit "a", File false [1] 0); (lit "name" ++ [56320 + 200], File false [2] 0)]) else None),
    (mkargs (lit "d") false [] None), [lit "M.MF"], (upd empty_disk [lit "M.MF"] (FFile dataA)).
  eexists. exists dataA. eexists. eexists. split; [vm_compute; reflexivity|]. split; [vm_compute; reflexivity|].
  split; [vm_compute; reflexivity|]. split; [vm_compute; discriminate|]. split; [vm_compute; reflexivity|]. vm_compute. reflexivity.
Qed.
Print Assumptions C139_failed_refuted.

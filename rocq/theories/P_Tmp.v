(** C136: a DistInfo object over several calls. *)
From Verif Require Import Base Pack_Model ConstPool_Model ClassFile_Model Descr_Model Manifest_Model
  Change_Model Classdiff_Model Jardiff_Model Distdiff_Model Info_Model Session_Model Tmp_Model Tmp_Spec Tmp_Proofs.
From Verif Require Zip_Model P_Info.
Import P_Info.

(** Temporary directories: at any time at most one more than before, none after close,
    whatever is at the path and whether extracting it fails. *)
Theorem C136_tidy : forall dirs h, let s := fst (dplay (new_dist dirs) h) in
  (t_dirs s = dirs \/ exists i, ~ In i dirs /\ t_dirs s = i :: dirs) /\ (forall b, t_dirs (fst (dstep s (b, DClose))) = dirs).
Proof.
  intros dirs h. cbn zeta. pose proof (tidy_play dirs h (new_dist dirs) eq_refl) as T. split.
  - unfold tidy in T. destruct (t_tmp _) as [[i t]|]; [right; exists i; tauto|now left].
  - intro b. cbn [dstep fst]. now apply tidy_close.
Qed.
Print Assumptions C136_tidy.
Definition good : base := BFile dist_two None.
Definition bad : base := BFile (Zip_Model.Dir false []) (Some ValueError).
Example C136_tidy_ex : t_dirs (fst (dplay (new_dist [4%nat]) [(good, DJars); (good, DContents)])) = [5%nat; 4%nat] /\
  t_dirs (fst (dplay (new_dist [4%nat]) [(bad, DJars); (bad, DClasses); (bad, DClose)])) = [4%nat].
Proof. vm_compute. auto. Qed.

(** A directory or an archive with the same files: every call gives what these files
    give, whatever was called before. *)
Theorem C136_answers : forall t dirs h, Forall (fun x : base * dcall => fst x = BDir t \/ fst x = BFile t None) h ->
  snd (dplay (new_dist dirs) h) = map (fun x => Ok (files_answer t (snd x))) h.
Proof. intros t dirs h H. apply play_good; [split; discriminate|exact H]. Qed.
Print Assumptions C136_answers.
Example C136_answers_ex : Forall (fun x : base * dcall => fst x = BDir dist_two \/ fst x = BFile dist_two None) [(good, DJars); (good, DClose); (BDir dist_two, DContents)] /\
  files_answer dist_two DJars = [lit "lib/a.jar"; lit "lib/b.jar"] /\ files_answer dist_two DContents = [lit "README"; lit "lib/a.jar"; lit "lib/b.jar"].
Proof. split; [repeat (constructor; [auto|]); constructor|]. vm_compute. auto. Qed.

(** A file that cannot be opened or extracted: the exception is raised by the first
    question after the object was made or closed, and by no other; the others are
    answered from what was extracted until then. *)
Theorem C136_failing : forall t e dirs h c, Forall (fun x : base * dcall => fst x = BFile t (Some e)) h -> c <> DClose ->
  let r := snd (dstep (fst (dplay (new_dist dirs) h)) (BFile t (Some e), c)) in
  (~ asked h -> r = Err e) /\ (asked h -> r = Ok (files_answer t c)).
Proof.
  intros t e dirs h c HF Hc. cbn zeta. destruct (fail_state t e dirs h HF) as (K & L & A). cbn zeta in *. set (s := fst (dplay (new_dist dirs) h)) in *.
  destruct (fail_contents t e s K L) as (_ & _ & F). destruct (step_contents s (BFile t (Some e)) c Hc) as (_ & E1 & E2). split; intro HA.
  - apply E2. rewrite F. destruct (t_tmp s) as [x|]; [|reflexivity]. exfalso. apply HA, A. discriminate.
  - apply E1. rewrite F. apply A in HA. destruct (t_tmp s); [reflexivity|congruence].
Qed.
Print Assumptions C136_failing.
Example C136_failing_ex : Forall (fun x : base * dcall => fst x = bad) [(bad, DJars); (bad, DClose)] /\ ~ asked [(bad, DJars); (bad, DClose)] /\ asked [(bad, DClose); (bad, DJars)].
Proof.
  split; [repeat constructor|]. split; [|apply (asked_snoc [(bad, DClose)]); discriminate]. intro H. apply (asked_snoc [(bad, DJars)] (bad, DClose)) in H. now apply H.
Qed.

(** An archive that cannot be read is not reported by every call: asked a second time it
    counts as an empty distribution. *)
Theorem C136_failing_refuted : exists b h, Forall (fun x : base * dcall => fst x = b) h /\
  snd (dplay (new_dist []) h) = [Err ValueError; Ok []; Ok []; Ok []] /\ map snd h = [DContents; DContents; DJars; DClasses].
Proof. exists bad, [(bad, DContents); (bad, DContents); (bad, DJars); (bad, DClasses)]. split; [repeat constructor|]. split; vm_compute; reflexivity. Qed.
Print Assumptions C136_failing_refuted.

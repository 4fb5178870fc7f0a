(** C135: a JarInfo object over several calls. *)
From Verif Require Import Base Pack_Model ConstPool_Model ClassFile_Model Descr_Model Manifest_Model
  Change_Model Classdiff_Model Jardiff_Model Distdiff_Model Info_Model Session_Model Session_Spec Session_Proofs.
From Verif Require Zip_Model P_Info.
Import P_Info.

(** As long as the file stays the same, every call gives what the file gives, whatever was
    called before, failing calls and close included. *)
Theorem C135_answers : forall fmt repr text order name open j h, Forall (fun x : disk * call => fst x name = j) h ->
  snd (play fmt repr text order (named name open) h) = map (fun x => answer_of fmt repr text order j (snd x)) h.
Proof. intros fmt repr text order name open j h H. exact (play_steady fmt repr text order name open j h [] _ (inv_start fmt repr text order name open) H). Qed.
Print Assumptions C135_answers.
Definition t0 (b : bytes) : res str := Ok b.
Definition disk1 : disk := fun n => if seqb n (lit "a.jar") then Ok jar_a else Err FileNotFoundError.
Definition disk2 : disk := fun n => if seqb n (lit "a.jar") then Ok jar_b else Err FileNotFoundError.
Definition calls1 : list (disk * call) := [(disk1, CProvides []); (disk1, CClose); (disk1, CClasses); (disk1, CInfo (lit "no.class")); (disk1, CProvides [])].
Example C135_answers_ex : Forall (fun x : disk * call => fst x (lit "a.jar") = Ok jar_a) calls1 /\
  match snd (play nofmt nofmt t0 id_order (named (lit "a.jar") [7%nat]) calls1) with
  | [Ok (AApi p); Ok ADone; Ok (AClasses c); Err KeyError; Ok (AApi q)] => dkeys p <> [] /\ p = q /\ c = [lit "pkg/A.class"]
  | _ => False
  end.
Proof. split; [repeat constructor|]. vm_compute. repeat split; discriminate. Qed.

(** If the file changes meanwhile: classes are those of the file at some moment since
    the last close (or of now); what is required and provided is that of some moment. *)
Theorem C135_moment : forall fmt repr text order name open h d c,
  exists d', snd (step fmt repr text order (fst (play fmt repr text order (named name open) h)) (d, c)) = answer_of fmt repr text order (d' name) c /\
    (d' = d \/ In d' (map fst h)) /\ (direct c -> d' = d \/ lately h d').
Proof.
  intros fmt repr text order name open h d c. pose proof (inv_play fmt repr text order name open h [] _ (inv_start fmt repr text order name open)) as HI. cbn [app] in HI.
  destruct (inv_step fmt repr text order name open h _ d c HI) as (_ & d' & HW & HA). exists d'. split; [exact HA|].
  destruct c; cbn [direct]; (split; [|intro D]); try contradiction D; try exact HW; destruct HW as [HW|HW]; auto using lately_in.
Qed.
Print Assumptions C135_moment.
Example C135_moment_ex : lately [(disk1, CClose); (disk2, CClasses)] disk2 /\
  snd (step nofmt nofmt t0 id_order (fst (play nofmt nofmt t0 id_order (named (lit "a.jar") []) [(disk1, CClasses); (disk1, CClose)])) (disk2, CClasses)) = Ok (AClasses [lit "pkg/B.class"]).
Proof.
  split; [exists [(disk1, CClose)], [(disk2, CClasses)]; split; [reflexivity|]; cbn; split; [intros [H|[]]; discriminate|now left]|vm_compute; reflexivity].
Qed.

(** Open archives: at any time at most one more than before, none after close. *)
Theorem C135_open : forall fmt repr text order name open h,
  let s := fst (play fmt repr text order (named name open) h) in
  (s_open s = open \/ exists i, ~ In i open /\ s_open s = i :: open) /\
  (forall d, s_open (fst (step fmt repr text order s (d, CClose))) = open).
Proof.
  intros fmt repr text order name open h. cbn zeta. pose proof (inv_play fmt repr text order name open h [] _ (inv_start fmt repr text order name open)) as HI. cbn [app] in HI. split.
  - pose proof (i_open _ _ _ _ _ _ _ _ HI) as HO. destruct (s_zip _) as [[i a]|]; [right; exists i; tauto|now left].
  - intro d. cbn [step fst]. exact (proj2 (inv_shut fmt repr text order name open h _ (d, CClose) HI)).
Qed.
Print Assumptions C135_open.
Example C135_open_ex : s_open (fst (play nofmt nofmt t0 id_order (named (lit "a.jar") [7%nat]) calls1)) = [8%nat; 7%nat] /\
  s_open (fst (play nofmt nofmt t0 id_order (named (lit "a.jar") [7%nat]) (firstn 2 calls1))) = [7%nat].
Proof. vm_compute. auto. Qed.

(** In a with statement: whatever the body does, nothing stays open, and the first
    exception of the body is the one of the statement. *)
Theorem C135_with : forall fmt repr text order name open j h, Forall (fun x : disk * call => fst x name = j) h ->
  with_jarinfo fmt repr text order name open h = (open, mapM (fun x => answer_of fmt repr text order j (snd x)) h).
Proof.
  intros fmt repr text order name open j h HF. unfold with_jarinfo. pose proof (body_play fmt repr text order h (named name open)) as HB.
  rewrite (C135_answers fmt repr text order name open j h HF) in HB.
  destruct (inv_body fmt repr text order name open h [] _ (inv_start fmt repr text order name open)) as (h1 & HI).
  destruct (body fmt repr text order (named name open) h) as [s r]. cbn [fst snd] in *. f_equal.
  - exact (proj2 (inv_shut fmt repr text order name open h1 s (fun _ => j, CClose) HI)).
  - assert (E : forall l, mapM (fun x : res answer => x) (map (fun x : disk * call => answer_of fmt repr text order j (snd x)) l) = mapM (fun x => answer_of fmt repr text order j (snd x)) l).
    { induction l as [|x l IH]; [reflexivity|]. cbn [map mapM]. now rewrite IH. }
    rewrite E in HB. rewrite HB. now destruct (mapM _ h).
Qed.
Print Assumptions C135_with.
Example C135_with_ex : with_jarinfo nofmt nofmt t0 id_order (lit "a.jar") [7%nat] (skipn 1 calls1) = ([7%nat], Err KeyError) /\
  with_jarinfo nofmt nofmt t0 id_order (lit "a.jar") [7%nat] [(disk1, CClasses)] = ([7%nat], Ok [AClasses [lit "pkg/A.class"]]).
Proof. vm_compute. auto. Qed.

(** An object made from an open archive answers from it, opening nothing, until closed. *)
Theorem C135_given : forall fmt repr text order i a open h, ~ In CClose (map snd h) ->
  snd (play fmt repr text order (given i a open) h) = map (fun x => answer_of fmt repr text order (Ok a) (snd x)) h /\
  s_open (fst (play fmt repr text order (given i a open) h)) = open.
Proof. intros fmt repr text order i a open h H. apply (given_play fmt repr text order i a open h); [reflexivity|discriminate|reflexivity|exact H]. Qed.
Print Assumptions C135_given.
Example C135_given_ex : ~ In CClose (map snd [(disk2, CClasses); (disk2, CProvides [])]) /\
  match snd (play nofmt nofmt t0 id_order (given 3 jar_a [3%nat]) [(disk2, CClasses); (disk2, CProvides [])]) with
  | [Ok (AClasses c); Ok (AApi p)] => c = [lit "pkg/A.class"] /\ dkeys p <> []
  | _ => False
  end.
Proof. split; [intros [H|[H|[]]]; discriminate|]. vm_compute. split; [reflexivity|discriminate]. Qed.

(** Closing and opening again does not refresh what is provided: after a change of the
    file the classes are the new ones, the symbols those of the old file. *)
Theorem C135_refresh_refuted : exists name h l p, 
  snd (play nofmt nofmt t0 id_order (named name []) h) = [Ok (AApi p); Ok ADone; Ok (AClasses l); Ok (AApi p)] /\
  (exists d q, nth_error h 3 = Some (d, CProvides []) /\ jar_provides nofmt nofmt t0 id_order (d name) [] = Ok q /\ q <> p) /\
  (exists d, nth_error h 2 = Some (d, CClasses) /\ answer_of nofmt nofmt t0 id_order (d name) CClasses = Ok (AClasses l)).
Proof.
  pose (pa := match jar_provides nofmt nofmt t0 id_order (Ok jar_a) [] with Ok p => p | Err _ => [] end).
  pose (pb := match jar_provides nofmt nofmt t0 id_order (Ok jar_b) [] with Ok p => p | Err _ => [] end).
  exists (lit "a.jar"), [(disk1, CProvides []); (disk1, CClose); (disk2, CClasses); (disk2, CProvides [])], [lit "pkg/B.class"], pa.
  split; [vm_compute; reflexivity|]. split; [exists disk2, pb; split; [reflexivity|]; split; [vm_compute; reflexivity|vm_compute; discriminate]|].
  exists disk2. split; [reflexivity|vm_compute; reflexivity].
Qed.
Print Assumptions C135_refresh_refuted.

(** An object made from an open archive closes it, though the caller opened it, and is
    of no use afterwards. *)
Theorem C135_given_refuted : exists a open h, In 3%nat open /\
  snd (play nofmt nofmt t0 id_order (given 3 a open) h) = [Ok (AClasses [lit "pkg/A.class"]); Ok ADone; Err TypeError] /\
  ~ In 3%nat (s_open (fst (play nofmt nofmt t0 id_order (given 3 a open) h))).
Proof.
  exists jar_a, [3%nat; 9%nat], [(disk1, CClasses); (disk1, CClose); (disk1, CClasses)]. split; [now left|]. split; [vm_compute; reflexivity|].
  vm_compute. intros [H|[]]. discriminate H.
Qed.
Print Assumptions C135_given_refuted.

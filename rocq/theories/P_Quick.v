(** Property C130: the report printed, or written to the file of -o. *)
From Verif Require Import Base Pack_Model ConstPool_Model ClassFile_Model Change_Model Change_Spec Change_Proofs Change_Report Classdiff_Model Quick_Model Quick_Spec Quick_Proofs P_Change P_Classdiff P_Jardiff.

(** The text is that of the nodes to be shown, up to the first node that cannot be described. *)
Theorem C130_text : forall o c t, unfolds c t ->
  told o t (fst (put o 0 c)) (snd (put o 0 c)) /\
  (forall s, put o 0 c = (s, None) <-> text_report o c = Ok s) /\ (forall e, snd (put o 0 c) = Some e <-> text_report o c = Err e).
Proof.
  intros o c t HU. split; [exact (put_told o c t HU)|]. pose proof (put_agrees o c 0) as H. unfold agrees in H. unfold text_report.
  destruct (put o 0 c) as [w [e|]]; cbn [fst snd] in *; rewrite H; split; intros x; split; intro E; try discriminate E; injection E as <-; reflexivity.
Qed.
Print Assumptions C130_text.

(** Text and outcome are determined by the tree and the options. *)
Theorem C130_unique : forall o t w r w' r', told o t w r -> told o t w' r' -> w = w' /\ r = r'.
Proof.
  assert (HA : forall o t pre ch post e, chains t = pre ++ ch :: post -> visited o ch = true -> get_description (tip ch) = Err e -> ~ tellable o t).
  { intros o t pre ch post e E Hv He HT. destruct (HT ch) as [d Hd]; [rewrite E; apply in_app_iff; right; now left|exact Hv|]. congruence. }
  assert (HB : forall o pre ch post pre' ch' post' e e', pre ++ ch :: post = pre' ++ ch' :: post' ->
    (forall p, In p pre -> visited o p = true -> speaks (tip p)) -> visited o ch = true -> get_description (tip ch) = Err e ->
    (forall p, In p pre' -> visited o p = true -> speaks (tip p)) -> visited o ch' = true -> get_description (tip ch') = Err e' -> pre = pre' /\ e = e').
  { intros o pre. induction pre as [|x pre IH]; intros ch post [|y pre'] ch' post' e e' E H1 H2 H3 K1 K2 K3; cbn [app] in E.
    - injection E as -> _. split; [reflexivity|congruence].
    - injection E as -> _. destruct (K1 y (or_introl eq_refl) H2) as [d Hd]. congruence.
    - injection E as -> _. destruct (H1 ch' (or_introl eq_refl) K2) as [d Hd]. congruence.
    - injection E as -> E. destruct (IH ch post pre' ch' post' e e' E) as [-> ->]; auto; intros p Hp; [apply H1|apply K1]; now right. }
  intros o t w r w' r' [HT|pre ch post e E H1 H2 H3] [HT'|pre' ch' post' e' E' H1' H2' H3'].
  - auto.
  - exfalso. exact (HA _ _ _ _ _ _ E' H2' H3' HT).
  - exfalso. exact (HA _ _ _ _ _ _ E H2 H3 HT').
  - rewrite E in E'. destruct (HB _ _ _ _ _ _ _ _ _ E' H1 H2 H3 H1' H2' H3') as [-> ->]. auto.
Qed.
Print Assumptions C130_unique.

(** What a run writes, where, and how it ends: nothing with --silent; nothing if the file
    cannot be opened; otherwise the report, in the file named or printed, and no other
    file is touched.  The status is that of the comparison unless the report raises. *)
Theorem C130_effects : forall refuses document begun silent json output o c0 c t w w' r, check c0 = Ok c -> unfolds c t -> one_shot refuses document begun silent json output o c0 w = (w', r) ->
  (silent = true -> w' = w /\ r = exit_status o c) /\
  (silent = false -> forall x p e, output = Some (x :: p) -> refuses (x :: p) = Some e -> w' = w /\ r = Err e) /\
  (silent = false -> (forall x p, output = Some (x :: p) -> refuses (x :: p) = None) ->
     exists text x, delivered output text w w' /\ r = match x with Some e => Err e | None => exit_status o c end /\
       (json = false -> told o t text x) /\
       (json = true -> match json_of o c with Ok j => x = None /\ text = document o j | Err e => x = Some e end)).
Proof.
  intros refuses document begun silent json output o c0 c t w w' r HC HU HR. unfold one_shot in HR. rewrite HC in HR. split; [|split].
  - intros ->. injection HR as <- <-. auto.
  - intros -> x p e -> HE. unfold quick_report in HR. rewrite HE in HR. injection HR as <- <-. auto.
  - intros -> HO. destruct (run_format document begun json o c) as [text x] eqn:EF. exists text, x.
    assert (HT : (json = false -> told o t text x) /\ (json = true -> match json_of o c with Ok j => x = None /\ text = document o j | Err e => x = Some e end)).
    { unfold run_format in EF. split; intros ->.
      - pose proof (put_told o c t HU) as H. now rewrite EF in H.
      - destruct (json_of o c); injection EF as <- <-; auto. }
    destruct output as [[|y p]|].
    + unfold quick_report in HR. rewrite EF in HR. injection HR as <- <-. split; [|split; [reflexivity|exact HT]]. split; [intro q; reflexivity|reflexivity].
    + unfold quick_report in HR. rewrite (HO y p eq_refl), EF in HR. injection HR as <- <-. split; [|split; [reflexivity|exact HT]]. cbn [delivered w_files w_out]. split; [|split; [|reflexivity]].
      * now rewrite (proj2 (seqb_eq (y :: p) (y :: p)) eq_refl).
      * intros q Hq. destruct (seqb q (y :: p)) eqn:E; [apply seqb_eq in E; contradiction|reflexivity].
    + unfold quick_report in HR. rewrite EF in HR. injection HR as <- <-. split; [|split; [reflexivity|exact HT]]. split; [intro q; reflexivity|reflexivity].
Qed.
Print Assumptions C130_effects.

(** How and where the report is written has no bearing on the exit status: it is that of
    --silent in every run that ends with one. *)
Theorem C130_status : forall refuses document begun silent json output o c0 w w' z, one_shot refuses document begun silent json output o c0 w = (w', Ok z) ->
  forall json' output' w0, one_shot refuses document begun true json' output' o c0 w0 = (w0, Ok z).
Proof.
  intros refuses document begun silent json output o c0 w w' z HR json' output' w0. unfold one_shot in *. destruct (check c0) as [c|e]; [|discriminate HR].
  destruct (if silent then (w, None) else quick_report refuses document begun json output o c w) as [w1 [e|]]; injection HR as <- HR; [discriminate HR|]. now rewrite HR.
Qed.
Print Assumptions C130_status.

Definition had_report : world := mkworld (fun q => if seqb q (lit "out") then Some (lit "old report") else None) [].
Definition can_open : str -> option exn := fun _ => None.
Definition no_document : options -> json -> str := fun _ _ => [].
Definition no_begun : options -> change -> str := fun _ _ => [].
(** The report goes to the file, in place of what was there, and nothing is printed. *)
Example C130_ex : exists w, one_shot can_open no_document no_begun false false (Some (lit "out")) opts_pool tree0 had_report = (w, Ok 1) /\
  w_files w (lit "out") = Some (lit "Class changed" ++ [10] ++ lit "  Fields changed" ++ [10] ++ lit "    Added changed" ++ [10]) /\ w_out w = [] /\
  exists t, unfolds (checked tree0) t.
Proof.
  eexists. split; [vm_compute; reflexivity|]. split; [vm_compute; reflexivity|]. split; [reflexivity|].
  eexists. repeat (eapply unfolds_node; [reflexivity|first [reflexivity|discriminate]|repeat constructor]).
Qed.

(** A run that fails has by then replaced the report that was in the file by an incomplete
    one, though the comparison itself was done and found a change. *)
Theorem C130_refuted : exists l r c w' e text, check (class_change no_fmt no_repr no_fmt l r) = Ok c /\ exit_status strict c = Ok 1 /\
  one_shot can_open no_document no_begun false false (Some (lit "out")) strict (class_change no_fmt no_repr no_fmt l r) had_report = (w', Err e) /\
  w_files had_report (lit "out") = Some (lit "old report") /\ w_files w' (lit "out") = Some text /\
  text = lit "Java Class A" ++ [10] ++ lit "  Fields changed" ++ [10].
Proof.
  assert (E : match check (class_change no_fmt no_repr no_fmt (odd_class 1) (odd_class 2)) with Ok c => Some (exit_status strict c, put strict 0 c) | Err _ => None end =
    Some (Ok 1, (lit "Java Class A" ++ [10] ++ lit "  Fields changed" ++ [10], Some Unimplemented))) by (vm_compute; reflexivity).
  destruct (check (class_change no_fmt no_repr no_fmt (odd_class 1) (odd_class 2))) as [c|] eqn:EC; [|discriminate E]. injection E as E1 E2.
  exists (odd_class 1), (odd_class 2), c. eexists _, Unimplemented, _. split; [exact EC|]. split; [exact E1|]. split.
  - unfold one_shot, quick_report, run_format. rewrite EC. cbv beta iota. rewrite E2. reflexivity.
  - split; [reflexivity|]. split; [reflexivity|reflexivity].
Qed.
Print Assumptions C130_refuted.

(** The JSON document of two such directories can be written. *)
From Verif Require Import Base Pack_Model ConstPool_Model ClassFile_Model Manifest_Model Change_Model Change_Spec Change_Proofs Change_Report Change_Tame Classdiff_Model Classdiff_Class Html_Page
  Zip_Spec Jardiff_Model Jardiff_Spec Jardiff_Proofs Jardiff_Jar Dir_Spec Distdiff_Model Distdiff_Spec Distdiff_Proofs Distdiff_Dist Dtext_Model Dtext_Proofs Ddoc_Model Written_Spec Written_Proofs Written_Dspec.
From Verif Require Zip_Model Jardiff_Report.
From Coq Require Import Permutation.
Import Zip_Model (node, event, LEFT, RIGHT, SAME, DIFF, slashes).

(** Whatever the check gives, its document can be written *)
Definition jwrites (o : options) (c : change) : Prop := forall c', check c = Ok c' -> exists j, json_of o c' = Ok j.
Lemma kept_ok o kids : Forall (fun c => (exists b, is_ignored o c = Ok b) /\ exists j, json_of o c = Ok j) kids ->
  exists marks js, mapM (fun kid => keep o (is_change kid) (is_ignored o kid)) kids = Ok marks /\ mapM (json_of o) (map fst (filter snd (combine kids marks))) = Ok js.
Proof.
  induction 1 as [|c kids [[b HB] [j HJ]] H (marks & js & M1 & M2)]; [exists [], []; split; reflexivity|].
  assert (exists m, keep o (is_change c) (is_ignored o c) = Ok m) as [m Hm] by (unfold keep; rewrite HB; destruct (is_change c); cbn; [|eauto]; destruct (show_ignored o); cbn; eauto).
  exists (m :: marks). cbn [mapM]. rewrite Hm, M1. cbn [rbind combine filter snd]. destruct m; [|eauto]. cbn [map fst mapM]. rewrite HJ, M2. cbn [rbind]. eauto.
Qed.
Lemma json_node o c kids : collect c = Ok kids -> (exists d, get_description c = Ok d) -> (exists b, is_ignored o c = Ok b) -> (exists x, k_old (k_of c) = Ok x) -> (exists x, k_new (k_of c) = Ok x) ->
  Forall (fun c => (exists b, is_ignored o c = Ok b) /\ exists j, json_of o c = Ok j) kids -> exists j, json_of o c = Ok j.
Proof.
  intros HK [d HD] [b HB] [x HX] [y HY] HF. destruct c as [k ch de cs im]. rewrite json_of_eq. cbv zeta. cbn [k_of] in HX, HY. rewrite HD, HB. cbn [rbind]. rewrite HX, HY. cbn [rbind]. destruct (k_super k); [|eauto].
  rewrite HK. cbn [rbind]. destruct (kept_ok o kids HF) as (marks & js & -> & HJ). cbn [rbind]. rewrite HJ. cbn [rbind]. eauto.
Qed.
Lemma checked_kids o im ks : Forall tame im -> Forall (jwrites o) im -> Forall2 (fun a b => check a = Ok b) im ks -> Forall (fun c => (exists b, is_ignored o c = Ok b) /\ exists j, json_of o c = Ok j) ks.
Proof.
  intros HT HW H. induction H as [|a b l r Hab H IH]; [constructor|]. inversion HT; inversion HW; subst. constructor; [|now apply IH]. split; [now apply (tame_checked o a)|auto].
Qed.
Lemma node_jwrites o nm lb al ad re own parts ch sub e : tame (jar_node nm lb al ad re own parts ch sub e) -> (ch = true \/ al = true -> forall c, sub = Some (Ok c) -> jwrites o c) -> jwrites o (jar_node nm lb al ad re own parts ch sub e).
Proof.
  intros HT HW c HC. destruct (tame_checked o _ HT c HC) as [ig HI]. pose proof (check_cls _ _ HC) as EK.
  assert (HD : exists d, get_description c = Ok d) by (destruct c as [k ch' d cs im]; cbn [get_description k_of] in *; rewrite EK; cbn [jar_node k_of k_text]; eexists; reflexivity).
  assert (HO : exists x, k_old (k_of c) = Ok x) by (rewrite EK; eexists; reflexivity). assert (HN : exists x, k_new (k_of c) = Ok x) by (rewrite EK; eexists; reflexivity).
  assert (exists ks, collect c = Ok ks /\ Forall (fun c => (exists b, is_ignored o c = Ok b) /\ exists j, json_of o c = Ok j) ks) as (ks & HK & HF); [|exact (json_node o c ks HK HD (ex_intro _ _ HI) HO HN HF)].
  destruct (al || ch)%bool eqn:EA.
  - unfold jar_node in HC. apply Jardiff_Report.collect_checked in HC; [|reflexivity|now left]; destruct HC as (ks & HK & [->|HF]); [exists []; split; [exact HK|constructor]|]. exists ks. split; [exact HK|]. revert HF. apply checked_kids.
    + unfold jar_node in HT. inversion HT; subst; assumption.
    + assert (ch = true \/ al = true) as HA by (destruct al, ch; auto; discriminate EA). destruct sub as [[s|]|]; [|constructor|constructor]. apply Forall_cons; [exact (HW HA s eq_refl)|apply Forall_nil].
  - apply orb_false_iff in EA as [-> ->]. unfold jar_node in HC. apply check_parts in HC as (ks & ks' & H1 & H2 & ->); [|reflexivity]. cbn [collect_in pick k_super k_gate k_incheck k_always negb andb orb] in H1. injection H1 as <-. inversion H2; subst. exists []. split; [reflexivity|constructor].
Qed.
Lemma leaf_jwrites o c : fine c -> Jardiff_Report.ready c -> jwrites o c.
Proof. intros [_ HE] HR c' HC. exact (json_written o c c' HE HC HR). Qed.
Lemma manifest_jwrites o order a b : jwrites o (manifest_change order a b).
Proof.
  intros c HC. refine (json_written o _ c _ HC (Jardiff_Report.ready_manifest order a b)).
  assert (FS : forall name label always add rem txt own same old new, everywhere written_cls (section_node name label always add rem txt own same old new)).
  { intros. unfold section_node. constructor; [|constructor|constructor]. split; [intros f b' E; injection E as <-; eexists; reflexivity|]. split; eexists; reflexivity. }
  unfold manifest_change. constructor; [|constructor|].
  - split; [intros f b' E; discriminate E|]. split; eexists; reflexivity.
  - unfold manifest_parts. cbv zeta. apply Forall_cons; [apply FS|]. rewrite !Forall_app, !Forall_map. repeat split; apply Forall_forall; intros x _; apply FS.
Qed.

Section Dist.
Variable fmt : pyval -> str.
Variable reprs : str -> str.
Variable ffmt : pyval -> str.
Variable text : bytes -> res str.
Variable order : list str -> list str.
Variable up : Z -> str.
Variable unzip : bytes -> jar.
Hypothesis order_perm : forall s, Permutation (order s) s.
Variables l r : node.
Variable o : options.
Variable sh : bool.
Notation event := (dist_event fmt reprs ffmt text order up unzip l r).

Lemma text_jwrites ch e : jwrites o (dist_text text l r ch e).
Proof.
  intros c HC. destruct (tame_checked o _ (text_tame text l r ch e) c HC) as [ig HI]. pose proof (check_cls _ _ HC) as EK.
  assert (HD : exists d, get_description c = Ok d) by (destruct c as [k ch' d cs im]; cbn [get_description k_of] in *; rewrite EK; unfold dist_text; cbn [k_of k_text]; eexists; reflexivity).
  assert (HO : exists x, k_old (k_of c) = Ok x) by (rewrite EK; eexists; reflexivity). assert (HN : exists x, k_new (k_of c) = Ok x) by (rewrite EK; eexists; reflexivity).
  unfold dist_text in HC. cbv zeta in HC. apply Jardiff_Report.collect_checked in HC; [|reflexivity|now left]; destruct HC as (ks & HK & [->|HF]); apply (json_node o c _ HK HD (ex_intro _ _ HI) HO HN); [constructor|]. revert HF. apply checked_kids.
  - destruct (texts text l r e) as [[a b]|]; [|constructor]. destruct (seqb a b); [constructor|]. apply Forall_cons; [apply tame_leaf|apply Forall_nil].
  - destruct (texts text l r e) as [[a b]|]; [|constructor]. destruct (seqb a b); [constructor|]. apply Forall_cons; [|apply Forall_nil]. apply leaf_jwrites; [|apply Jardiff_Report.ready_leaf].
    unfold text_change. apply leaf_text_fine; eexists; reflexivity.
Qed.
Lemma one_jwrites x e : x = LEFT \/ x = RIGHT -> jwrites o (event sh (x, e)).
Proof.
  intro HX. pose proof (dist_event_tame fmt reprs ffmt text order up unzip order_perm l r sh (x, e)) as HT. revert HT. unfold dist_event. destruct HX as [-> | ->]; repeat match goal with |- context[if ?b then _ else _] => destruct b eqn:? end;
    unfold dist_removed, dist_added, dist_node; intro HT; (apply node_jwrites; [exact HT|intros _ c E; discriminate E]).
Qed.
Hypothesis Pl : plain l.
Hypothesis Pr : plain r.
Hypothesis Nl : names_ok l.
Hypothesis Nr : names_ok r.
Hypothesis HC : Dir_Spec.comparable l r.
(** The jars and classes compared *)
Hypothesis HK : on_common text sh (fun n d d' =>
  (ends_in n KJar -> jwrites o (jar_change fmt reprs ffmt text order up (unzip d) (unzip d'))) /\
  (ends_in n KClass -> forall a b, unpack_class d MNone = Ok a -> unpack_class d' MNone = Ok b -> jwrites o (class_change fmt reprs ffmt a b))) l r.
Lemma same_jwrites e : jwrites o (event sh (SAME, e)).
Proof.
  pose proof (dist_event_tame fmt reprs ffmt text order up unzip order_perm l r sh (SAME, e)) as HT. revert HT. unfold dist_event. repeat match goal with |- context[if ?b then _ else _] => destruct b eqn:? end; intro HT;
    first [apply text_jwrites|unfold dist_node in *; apply node_jwrites; [exact HT|intros [X|X]; discriminate X]].
Qed.
Lemma diff_jwrites p d d' : data_at l p d -> data_at r p d' -> d <> d' -> jwrites o (event sh (DIFF, name_of p)).
Proof.
  intros D1 D2 DN. set (e := name_of p). pose proof (dist_event_tame fmt reprs ffmt text order up unzip order_perm l r sh (DIFF, e)) as HT.
  destruct HK as [->|HX]; [unfold dist_event in *; cbn [negb andb] in *; unfold dist_node in *; apply node_jwrites; [exact HT|intros _ c E; discriminate E]|].
  destruct (HX p d d' D1 D2) as [HX1 _]. destruct (HX1 DN) as [HJ HCl]. fold e in HJ, HCl. clear HX1.
  destruct sh eqn:Esh; [unfold dist_event in *; cbn [negb andb] in *; unfold dist_node in *; apply node_jwrites; [exact HT|intros _ c E; discriminate E]|].
  assert (R1 : read_file l e = Ok d) by (apply read_data; [exact Pl|exact Nl|intros ->; destruct D1 as (x & m & F); apply Dir_Proofs.comparable_dir in HC as [X _]; inversion F; subst; discriminate|exact D1]).
  assert (R2 : read_file r e = Ok d') by (apply read_data; [exact Pr|exact Nr|intros ->; destruct D2 as (x & m & F); apply Dir_Proofs.comparable_dir in HC as [_ X]; inversion F; subst; discriminate|exact D2]).
  revert HT. apply (by_kind fmt reprs ffmt text order up unzip l r e (fun c => tame c -> jwrites o c) DIFF true (or_intror eq_refl)); intros HE HT.
  - unfold dist_node in *. apply node_jwrites; [exact HT|]. intros _ c E. injection E as E. unfold dist_jar_sub in E. rewrite (both_eq l r e d d' R1 R2) in E. cbn [rbind] in E. injection E as <-. exact (HJ HE).
  - unfold dist_node in *. apply node_jwrites; [exact HT|]. intros _ c E. injection E as E. apply (class_sub_eq fmt reprs ffmt l r e d d' R1 R2) in E as (a & b & U1 & U2 & ->). exact (HCl HE a b U1 U2).
  - apply text_jwrites.
  - unfold dist_node in *. apply node_jwrites; [exact HT|]. intros _ c E. injection E as E. apply (manifest_sub_eq order l r e d d' R1 R2) in E as (a & b & _ & _ & ->). apply manifest_jwrites.
  - unfold dist_node in *. apply node_jwrites; [exact HT|]. intros _ c E. discriminate E.
Qed.
Theorem dist_json_written lname rname s : distdiff fmt reprs ffmt text order up unzip l r o sh = Ok s ->
  exists j, distdiff_json fmt reprs ffmt text order up unzip lname rname l r o sh = Ok (j, s).
Proof.
  intro HS. unfold distdiff, dist_change in HS. apply (status_described o _ _ _ (Some (fun b : bool => Ok (dist_description lname rname b)))) in HS as (c & HX & HS).
  unfold distdiff_json, dist_change_at. cbv zeta. rewrite HX. cbn [rbind].
  assert (exists j, json_of o c = Ok j) as [j Hj]; [|exists j; rewrite Hj; cbn [rbind]; rewrite HS; reflexivity].
  destruct (dist_Forall fmt reprs ffmt text order up unzip l r Pl Pr HC sh (jwrites o)) as (evs & EV & IFF). rewrite EV in HX.
  assert (HW : Forall (jwrites o) (map (event sh) evs)).
  { apply IFF. split; [intros; apply one_jwrites; now left|]. split; [intros; apply one_jwrites; now right|]. split; [intros; apply same_jwrites|exact diff_jwrites]. }
  assert (HTm : Forall tame (map (event sh) evs)) by (rewrite Forall_map; apply Forall_forall; intros ev _; now apply dist_event_tame).
  destruct (tame_checked o _ (tame_super _ _ _ None _ HTm) c HX) as [ig HI]. pose proof (check_cls _ _ HX) as EK.
  apply check_super in HX as (_ & kids & HF & HKd & _ & _). refine (json_node o c kids HKd _ (ex_intro _ _ HI) _ _ (checked_kids o _ _ HTm HW HF)).
  - destruct c as [k ch' d cs im]; cbn [get_description k_of] in *; rewrite EK; cbn [super k_of k_text]; eexists; reflexivity.
  - rewrite EK. eexists. reflexivity.
  - rewrite EK. eexists. reflexivity.
Qed.
End Dist.

(** Jars with something to compare. *)
From Verif Require Import Base Pack_Model ConstPool_Model ClassFile_Model Manifest_Model Change_Model Change_Spec Change_Proofs Change_Tame Classdiff_Model Classdiff_Class
  Zip_Spec Zip_Proofs Jardiff_Model Jardiff_Spec Jardiff_Proofs Jardiff_Jar Jtext_Spec Jtext_Jar Change_Report.
From Verif Require Zip_Model.
From Coq Require Import Permutation.

Lemma everywhere_mono (P Q : cls -> Prop) c : (forall k, P k -> Q k) -> everywhere P c -> everywhere Q c.
Proof.
  intro H. induction c as [k ch d cs im I1 I2] using change_rect'. intro E. inversion E as [? ? ? ? ? A B C]; subst. constructor; [auto| |].
  - clear -I1 B. induction B; constructor; inversion I1; auto.
  - clear -I2 C. induction C; constructor; inversion I2; auto.
Qed.
Lemma class_not_directory n : class_file n -> ~ directory n.
Proof. intros [p ->] [q E]. apply (f_equal (@rev Z)) in E. rewrite !rev_app_distr in E. discriminate E. Qed.
Lemma name_content a n : In n (names a) -> exists d, content a n d.
Proof.
  unfold names, content. generalize (Zip_Model.a_entries a). intro es. induction es as [|e es IH] using rev_ind; [intros []|]. rewrite map_app. cbn [map]. intro H. apply in_app_or in H as [H|[H|[]]].
  - destruct (list_eq_dec Z.eq_dec (Zip_Model.e_name e) n) as [E|E]; [exists (Zip_Model.e_data e), es, e, []; repeat split; [exact E|intros []]|]. destruct (IH H) as (d & l1 & e1 & l2 & -> & A & B & C). exists d, l1, e1, (l2 ++ [e]). split; [now rewrite <- app_assoc|]. split; [exact A|]. split; [exact B|].
    rewrite map_app. intro X. apply in_app_or in X as [X|[X|[]]]; [exact (C X)|exact (E X)].
  - exists (Zip_Model.e_data e), es, e, []. repeat split; [exact H|intros []].
Qed.
Section Jars.
Variable fmt : pyval -> str.
Variable reprs : str -> str.
Variable ffmt : pyval -> str.
Variable text : bytes -> res str.
Variable order : list str -> list str.
Variable up : Z -> str.
Hypothesis order_perm : forall s, Permutation (order s) s.
Variables l r : Zip_Model.archive.
Hypothesis Kl : Zip_Model.a_kind l = Zip_Model.Zip.
Hypothesis Kr : Zip_Model.a_kind r = Zip_Model.Zip.
Hypothesis Ol : Zip_Model.a_open l = true.
Hypothesis Or : Zip_Model.a_open r = true.
Hypothesis Sl : Forall sound (Zip_Model.a_entries l).
Hypothesis Sr : Forall sound (Zip_Model.a_entries r).
Lemma some_entry_entries : some_entry l r -> jar_entries fmt reprs ffmt text order up (Ok l) (Ok r) <> [].
Proof.
  intros (n & X) E. destruct (events_ok text order order_perm l r Kl Kr Ol Or Sl Sr) as (evs & EV & CL). unfold jar_entries in E. rewrite EV in E.
  assert (E0 : evs = []).
  { destruct (iterate_spec (fun c => k_name (k_of c)) (map (jar_event fmt reprs ffmt text order up l r) evs) jar_types) as [Q _]. rewrite E in Q. apply Permutation_length in Q. rewrite map_length in Q. cbn [length] in Q. destruct evs; [reflexivity|discriminate Q]. }
  subst evs. destruct CL as [_ C]. destruct (C n) as (C1 & C2 & C3 & C4). destruct X as [X|[X|(X0 & X1 & X2)]]; [exact (proj2 C1 X)|exact (proj2 C2 X)|].
  destruct (name_content l n X1) as (d1 & D1). destruct (name_content r n X2) as (d2 & D2). destruct (list_eq_dec Z.eq_dec d1 d2) as [->|Hd]; [apply (proj2 C3); eauto|apply (proj2 C4); eauto 7].
Qed.
End Jars.

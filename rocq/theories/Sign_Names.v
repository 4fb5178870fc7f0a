(** Proofs about the names that need no checksum. *)
From Verif Require Import Base ConstPool_Model Manifest_Model Manifest_Spec Manifest_Proofs Manifest_RT Manifest_Canon
  Sign_Model Sign_Spec Sign_Proofs.
From Verif Require Export Glob_Proofs.

Lemma split_on_nosep : forall s cur, ~ In 47 s -> split_on 47 cur s = [rev cur ++ s].
Proof.
  induction s as [|c s IH]; intros cur H; cbn [split_on]; [now rewrite app_nil_r|].
  destruct (Z.eqb_spec c 47) as [->|]; [exfalso; apply H; now left|].
  rewrite IH by (intro; apply H; now right). cbn [rev]. now rewrite <- app_assoc.
Qed.
Lemma split_on_inv : forall s cur d f, split_on 47 cur s = [d; f] ->
  exists a, s = a ++ 47 :: f /\ d = rev cur ++ a /\ ~ In 47 f.
Proof.
  assert (G1 : forall s cur f, split_on 47 cur s = [f] -> f = rev cur ++ s /\ ~ In 47 s).
  { induction s as [|c s IH]; intros cur f H; cbn [split_on] in H.
    - injection H as <-. split; [now rewrite app_nil_r|intros []].
    - destruct (Z.eqb_spec c 47) as [->|Hc].
      + injection H as _ H. destruct s as [|c' s]; cbn [split_on] in H; [discriminate|]. destruct (c' =? 47); [discriminate|].
        exfalso. clear -H. revert H. generalize [c']. induction s as [|x s IH]; intros l H; cbn [split_on] in H; [discriminate|].
        destruct (x =? 47); [discriminate|]. eauto.
      + apply IH in H as [-> Hn]. split; [cbn [rev]; now rewrite <- app_assoc|]. intros [?|?]; [congruence|contradiction]. }
  induction s as [|c s IH]; intros cur d f H; cbn [split_on] in H; [discriminate|].
  destruct (Z.eqb_spec c 47) as [->|Hc].
  - apply cons_inj in H as [<- H]. apply G1 in H as [-> Hn]. exists []. rewrite app_nil_r. auto.
  - apply IH in H as (a & -> & -> & Hn). exists (c :: a). cbn [rev]. rewrite <- app_assoc. auto.
Qed.
Lemma in_sig_dir f : in_sig_related_dir f = true <-> exists x, f = META ++ x /\ ~ In 47 x.
Proof.
  unfold in_sig_related_dir. split.
  - destruct (split_on 47 [] f) as [|d [|g [|]]] eqn:E; try discriminate. intro H. apply seqb_eq in H. subst d.
    apply split_on_inv in E as (a & -> & Ha & Hn). cbn [rev app] in Ha. subst a. exists g. split; [reflexivity|exact Hn].
  - intros (x & -> & Hn). change (META ++ x) with (lit "META-INF" ++ 47 :: x).
    assert (E : split_on 47 [] (lit "META-INF" ++ 47 :: x) = lit "META-INF" :: split_on 47 [] x) by reflexivity.
    rewrite E, split_on_nosep by exact Hn. reflexivity.
Qed.

Section Env.
Variable up : Z -> str.
Hypothesis Hup : upper_ok up.
Notation upper := (upper up).

Lemma upper_app a b : upper (a ++ b) = upper a ++ upper b.
Proof. unfold Sign_Model.upper. now rewrite map_app, concat_app. Qed.
Lemma upper_idem s : upper (upper s) = upper s.
Proof.
  unfold Sign_Model.upper. induction s as [|c s IH]; [reflexivity|]. cbn [map concat].
  rewrite map_app, concat_app, IH. f_equal. apply (proj2 Hup).
Qed.
Lemma upper_ascii s : ascii s = true -> upper s = map up1 s.
Proof.
  unfold ascii, Sign_Model.upper. induction s as [|c s IH]; [reflexivity|]. cbn [forallb map concat]. intro H.
  apply andb_prop in H as [H1 H2]. rewrite IH by exact H2. rewrite (proj1 Hup c) by lia. reflexivity.
Qed.
(** The tail of an upper-case name is in upper case. *)
Lemma upper_tail a b : upper (a ++ b) = a ++ b -> upper a = a -> upper b = b.
Proof. rewrite upper_app. intros H E. rewrite E in H. now apply app_inv_head in H. Qed.

Lemma matches_pat1 s : fnmatches s [lit "*.SF"] = true <-> exists y, s = y ++ lit ".SF".
Proof. unfold fnmatches. cbn [existsb]. rewrite orb_false_r. apply (glob_star (lit ".SF")). reflexivity. Qed.
Lemma matches_pat4 s : fnmatches s [lit "*.RSA"; lit "*.DSA"; lit "*.EC"; lit "SIG-*"] = true <->
  (exists y, s = y ++ lit ".RSA") \/ (exists y, s = y ++ lit ".DSA") \/ (exists y, s = y ++ lit ".EC") \/
  (exists y, s = lit "SIG-" ++ y).
Proof.
  unfold fnmatches. cbn [existsb]. rewrite orb_false_r, !orb_true_iff.
  assert (H1 : glob (lit "*.RSA") s = true <-> exists y, s = y ++ lit ".RSA") by (apply (glob_star (lit ".RSA")); reflexivity).
  assert (H2 : glob (lit "*.DSA") s = true <-> exists y, s = y ++ lit ".DSA") by (apply (glob_star (lit ".DSA")); reflexivity).
  assert (H3 : glob (lit "*.EC") s = true <-> exists y, s = y ++ lit ".EC") by (apply (glob_star (lit ".EC")); reflexivity).
  assert (H4 : glob (lit "SIG-*") s = true <-> exists y, s = lit "SIG-" ++ y) by (apply (glob_prefix (lit "SIG-")); reflexivity).
  rewrite <- H1, <- H2, <- H3, <- H4. unfold lit; cbn. reflexivity.
Qed.

Lemma skips_exact f : file_skips_verification up f = true <-> sig_related (uppercase up f).
Proof.
  change (uppercase up f) with (upper f). unfold file_skips_verification. set (u := upper f).
  assert (HU : upper u = u) by apply upper_idem.
  assert (HM : upper META = META) by (rewrite upper_ascii by reflexivity; reflexivity).
  rewrite !orb_true_iff, seqb_eq, ends_with_app.
  assert (HB : file_matches_sigblock up u = true <-> exists x, u = META ++ x /\ ~ In 47 x /\
    ((exists y, x = y ++ lit ".RSA") \/ (exists y, x = y ++ lit ".DSA") \/ (exists y, x = y ++ lit ".EC") \/
     (exists y, x = lit "SIG-" ++ y))).
  { unfold file_matches_sigblock. rewrite andb_true_iff, in_sig_dir, matches_pat4. split.
    - intros ((x & E & Hn) & H). exists x. split; [exact E|]. split; [exact Hn|].
      assert (Ex : upper x = x) by (apply (upper_tail META x); [rewrite <- E; exact HU|exact HM]).
      rewrite E in H. change (skipn 9 (META ++ x)) with x in H. rewrite Ex in H. exact H.
    - intros (x & E & Hn & H). split; [now exists x|].
      assert (Ex : upper x = x) by (apply (upper_tail META x); [rewrite <- E; exact HU|exact HM]).
      rewrite E. change (skipn 9 (META ++ x)) with x. rewrite Ex. exact H. }
  assert (HS : file_matches_sigfile up u = true <-> exists x, u = META ++ x /\ ~ In 47 x /\ (exists y, x = y ++ lit ".SF")).
  { unfold file_matches_sigfile. rewrite HU, andb_true_iff, in_sig_dir, matches_pat1. split.
    - intros ((x & E & Hn) & (y & Ey)). exists x. split; [exact E|]. split; [exact Hn|].
      rewrite E in Ey. apply app_eq_app in Ey as (l & [(E1 & E2)|(E1 & E2)]).
      + destruct l as [|c l]; [exists []; cbn [app] in E2; now symmetry|]. exfalso.
        assert (Hc : In 47 (lit ".SF") \/ False).
        { left. destruct l as [|c2 l].
          - cbn [app] in E2. unfold META in E1.
            assert (E3 : lit "META-INF" ++ [47] = y ++ [c]) by exact E1. apply app_inj_tail in E3 as [_ <-].
            rewrite E2. now left.
          - rewrite E2. apply in_or_app. left. right.
            assert (E3 : lit "META-INF" ++ [47] = (y ++ [c]) ++ (c2 :: l)) by (rewrite <- app_assoc; exact E1).
            destruct (@exists_last _ (c2 :: l) ltac:(discriminate)) as (l' & e & El). rewrite El, app_assoc in E3.
            apply app_inj_tail in E3 as [_ <-]. rewrite El. apply in_or_app. right. now left. }
        destruct Hc as [Hc|[]]. vm_compute in Hc. destruct Hc as [?|[?|[?|[]]]]; discriminate.
      + now exists l.
    - intros (x & E & Hn & (y & ->)). split; [now exists (y ++ lit ".SF")|]. exists (META ++ y). now rewrite <- app_assoc. }
  rewrite HB, HS. unfold sig_related. fold META. fold MANIFEST_NAME. split.
  - intros [[[H|H]|(x & E & Hn & H)]|(x & E & Hn & H)].
    + now left.
    + now right; left.
    + right. right. exists x. auto.
    + right. right. exists x. auto.
  - intros [H|[H|(x & E & Hn & [H|H])]].
    + now left; left; left.
    + now left; left; right.
    + right. exists x. auto.
    + left. right. exists x. auto.
Qed.
End Env.

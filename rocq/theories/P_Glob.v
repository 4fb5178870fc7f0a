(** C76: glob patterns of the ignore options. *)
From Verif Require Import Base Glob_Model Glob_Spec Glob_Proofs.

(** fnmatches(entry, *patterns) is true exactly for the entries that one of the
    patterns matches. *)
Theorem C76_fnmatches : forall s ps, fnmatches s ps = true <-> matched_by ps s.
Proof. exact fnmatches_matched. Qed.
Print Assumptions C76_fnmatches.
Example C76_fnmatches_ex : fnmatches (lit "org/a7.class") [lit "*.txt"; []; lit "org/[!b-z][0-9]?c*s"] = true /\
  matched_by [lit "*.txt"; []; lit "org/[!b-z][0-9]?c*s"] (lit "org/a7.class") /\
  ~ matched_by [lit "org/[b-z]*"; []] (lit "org/a7.class").
Proof.
  split; [reflexivity|]. split; [apply fnmatches_matched; reflexivity|]. rewrite <- fnmatches_matched. discriminate.
Qed.

(** No pattern, no match; nor does an empty pattern match anything. *)
Theorem C76_empty : forall s n, fnmatches s (repeat [] n) = false.
Proof.
  intros s n. apply not_true_is_false. intro H. apply fnmatches_matched in H as (p & Hp & Hne & _). apply repeat_spec in Hp. contradiction.
Qed.
Print Assumptions C76_empty.
Example C76_empty_ex : fnmatches [] (repeat [] 2) = false.
Proof. reflexivity. Qed.

(** Adding patterns only adds matches; their order does not matter. *)
Theorem C76_monotone : forall s ps qs, (forall p, In p ps -> In p qs) -> fnmatches s ps = true -> fnmatches s qs = true.
Proof. intros s ps qs H. rewrite !fnmatches_matched. intros (p & H1 & H2). exists p. auto. Qed.
Print Assumptions C76_monotone.
Example C76_monotone_ex : (forall p, In p [lit "a*"] -> In p [lit "b"; lit "a*"]) /\ fnmatches (lit "abc") [lit "a*"] = true.
Proof. split; [|reflexivity]. intros p [<-|[]]. right. now left. Qed.

(** A pattern without special characters matches itself only. *)
Theorem C76_literal : forall p s, p <> [] -> (forall c, In c p -> c <> 42 /\ c <> 63 /\ c <> 91) -> (fnmatches s [p] = true <-> s = p).
Proof.
  intros p s Hp H. assert (W : no_wild p = true).
  { apply forallb_forall. intros c Hc. destruct (H c Hc) as (A & B & C). apply Z.eqb_neq in A, B, C. now rewrite A, B, C. }
  rewrite <- (glob_lit p W s), glob_iff, fnmatches_matched. split.
  - now intros (q & [<-|[]] & _ & M).
  - intro M. exists p. split; [now left|auto].
Qed.
Print Assumptions C76_literal.
Example C76_literal_ex : lit "META-INF/x.txt" <> [] /\ (forall c, In c (lit "META-INF/x.txt") -> c <> 42 /\ c <> 63 /\ c <> 91).
Proof.
  split; [discriminate|]. intros c Hc.
  assert (W : no_wild (lit "META-INF/x.txt") = true) by reflexivity. unfold no_wild in W. rewrite forallb_forall in W. specialize (W c Hc). lia.
Qed.

(** A symbol given as pattern need not match itself: the brackets of array types
    are read as sets (such symbols are what pretty_identifier makes, see C57). *)
Theorem C76_self_refuted : exists s, s = lit "a.B.m(int[],int[]):void" /\ fnmatches s [s] = false.
Proof. eexists. split; [reflexivity|]. reflexivity. Qed.
Print Assumptions C76_self_refuted.

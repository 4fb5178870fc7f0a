(** C95: which certificates are accepted for signatures; C96: key types. *)
From Verif Require Import Base Manifest_Model Crypto_Model Crypto_Spec.

Lemma usage_in : forall u us, In u us <-> existsb (usage_eqb u) us = true.
Proof.
  intros u us. rewrite existsb_exists. split.
  - intros H. exists u. split; [exact H|]. destruct u; reflexivity.
  - intros (v & H & E). destruct u, v; cbn in E; try discriminate; exact H.
Qed.

(** The printed form of any set of usages: none of the two words is in it *)
Definition printed (bs : list bool) : str :=
  concat_with (lit ", ") (map (fun p => long_name (fst p)) (filter snd (combine all_usages bs))).
Lemma filter_combine : forall (f : usage -> bool) l, map (fun p : usage * bool => long_name (fst p)) (filter snd (combine l (map f l))) = map long_name (filter f l).
Proof. intros f l. induction l as [|x l IH]; [reflexivity|]. cbn [map combine filter snd]. destruct (f x); cbn [map fst]; rewrite IH; reflexivity. Qed.
Fixpoint bools (n : nat) : list (list bool) :=
  match n with O => [[]] | S m => map (cons true) (bools m) ++ map (cons false) (bools m) end.
Lemma bools_all : forall l, In l (bools (length l)).
Proof.
  induction l as [|b l IH]; [left; reflexivity|]. cbn [length bools]. rewrite in_app_iff, !in_map_iff.
  destruct b; [left|right]; exists l; split; auto.
Qed.
Lemma never_named : forall us,
  contains (lit "digitalSignature") (usage_value us) = false /\ contains (lit "nonRepudiation") (usage_value us) = false.
Proof.
  intros us.
  assert (A : forallb (fun bs => negb (contains (lit "digitalSignature") (printed bs)) && negb (contains (lit "nonRepudiation") (printed bs))) (bools 9) = true)
    by (vm_compute; reflexivity).
  rewrite forallb_forall in A. specialize (A (map (fun u => existsb (usage_eqb u) us) all_usages) (bools_all _)).
  unfold printed in A. rewrite filter_combine in A. fold (usage_value us) in A.
  apply andb_prop in A as [A B]. apply negb_true_iff in A, B. split; assumption.
Qed.

(** What the callback really does *)
Lemma cb_exact : forall x, verify_cb 0 x <> 0 <-> v_err x = InvalidPurpose /\ v_depth x <= 0 /\ x_usage (v_cert x) = None.
Proof.
  intros [e d c]. unfold verify_cb. cbn [v_err v_depth v_cert]. destruct e as [|z]; [|split; [tauto|intros (H & _); discriminate]].
  destruct (d >? 0) eqn:D; [split; [tauto|intros (_ & H & _); lia]|].
  destruct (x_usage c) as [us|].
  - destruct (never_named us) as [-> ->]. cbn [negb andb]. split; [tauto|intros (_ & _ & H); discriminate].
  - split; [intros _; repeat split; lia|lia].
Qed.

(** C95, nothing else is let through: a chain is accepted only if each problem is
    the missing e-mail protection of the signing certificate - for certificates
    without the Netscape extension *)
Theorem C95_sound_partial : forall problems,
  Forall reported_truly problems -> Forall (fun x => 0 <= v_depth x) problems ->
  Forall (fun x => x_nstype (v_cert x) = None) problems ->
  chain_accepted problems = true -> Forall only_email_missing problems.
Proof.
  intros ps T D N H. unfold chain_accepted in H. rewrite forallb_forall in H. rewrite Forall_forall in *. intros x I.
  specialize (H x I). specialize (T x I). specialize (D x I). specialize (N x I).
  assert (C : verify_cb 0 x <> 0) by lia. apply cb_exact in C as (E & DD & U).
  assert (Z0 : v_depth x = 0) by lia. specialize (T E Z0). unfold only_email_missing, smime_purpose, usage_allows, nstype_allows in *. rewrite U, N in *. tauto.
Qed.
Print Assumptions C95_sound_partial.

(** C95, the promise of the documentation for certificates without keyUsage *)
Theorem C95_accepts_partial : forall problems,
  Forall only_email_missing problems -> Forall (fun x => x_usage (v_cert x) = None) problems -> chain_accepted problems = true.
Proof.
  intros ps H U. unfold chain_accepted. rewrite forallb_forall. rewrite Forall_forall in *. intros x I.
  destruct (H x I) as (E & D & _). apply negb_true_iff, Z.eqb_neq, cb_exact. rewrite E, D, (U x I). repeat split; lia.
Qed.
Print Assumptions C95_accepts_partial.

(** A certificate for code signing without keyUsage: accepted *)
Definition plain_code_signing := mkctx InvalidPurpose 0 (mkcert None (Some [CodeSigning]) None).
Example C95_accepts_example : only_email_missing plain_code_signing /\ chain_accepted [plain_code_signing] = true /\
  reported_truly plain_code_signing /\ x_nstype (v_cert plain_code_signing) = None.
Proof.
  assert (A : only_email_missing plain_code_signing).
  { unfold only_email_missing, plain_code_signing, usage_allows, nstype_allows, extended_allows. cbn. intuition discriminate. }
  split; [exact A|]. split; [vm_compute; reflexivity|]. split; [|reflexivity]. intros _ _ (_ & H & _). destruct A as (_ & _ & _ & _ & A). contradiction.
Qed.

(** Not so for a certificate with keyUsage, whatever its bits: the printed value
    never has the words that are looked for *)
Theorem C95_usage_never_recognised : forall x us, x_usage (v_cert x) = Some us -> chain_accepted [x] = false.
Proof.
  intros x us H. unfold chain_accepted. cbn [forallb]. rewrite andb_true_r. apply negb_false_iff, Z.eqb_eq.
  destruct (Z.eq_dec (verify_cb 0 x) 0) as [E|E]; [exact E|]. apply cb_exact in E as (_ & _ & E). congruence.
Qed.
Print Assumptions C95_usage_never_recognised.

(** The usual certificate for code signing (keyUsage digitalSignature, extended
    key usage codeSigning) is rejected *)
Theorem C95_code_signing_refuted : exists x, only_email_missing x /\ x_usage (v_cert x) = Some [DigitalSignature] /\
  x_extended (v_cert x) = Some [CodeSigning] /\ chain_accepted [x] = false.
Proof.
  exists (mkctx InvalidPurpose 0 (mkcert (Some [DigitalSignature]) (Some [CodeSigning]) None)).
  split; [|split; [|split]]; try reflexivity. unfold only_email_missing, usage_allows, nstype_allows, extended_allows. cbn. intuition discriminate.
Qed.
Print Assumptions C95_code_signing_refuted.
Example C95_code_signing_printed : usage_value [NonRepudiation; DigitalSignature] = lit "Digital Signature, Non Repudiation".
Proof. vm_compute. reflexivity. Qed.

(** A certificate whose Netscape type forbids the use is accepted, though its
    extended key usage is in order *)
Theorem C95_nstype_refuted : exists x, reported_truly x /\ extended_allows (v_cert x) /\ ~ nstype_allows (v_cert x) /\
  ~ only_email_missing x /\ chain_accepted [x] = true.
Proof.
  exists (mkctx InvalidPurpose 0 (mkcert None (Some [EmailProtection]) (Some [NsObjectSigning]))).
  unfold only_email_missing, reported_truly, smime_purpose, usage_allows, nstype_allows, extended_allows. cbn.
  repeat split; try tauto; intuition (try discriminate).
Qed.
Print Assumptions C95_nstype_refuted.

(** Errors other than the purpose, and errors further up the chain, keep their verdict *)
Theorem C95_others_kept : forall ok x, v_err x <> InvalidPurpose \/ v_depth x > 0 -> verify_cb ok x = ok.
Proof.
  intros ok [e d c] H. unfold verify_cb. cbn [v_err v_depth v_cert] in *. destruct e; [|reflexivity].
  destruct H as [H|H]; [congruence|]. replace (d >? 0) with true by lia. reflexivity.
Qed.
Print Assumptions C95_others_kept.
Example C95_others_kept_example : chain_accepted [plain_code_signing; mkctx (OtherError 10) 0 (mkcert None None None)] = false /\
  chain_accepted [mkctx InvalidPurpose 1 (mkcert None (Some [CodeSigning]) None)] = false.
Proof. vm_compute. auto. Qed.

(** C96: the type of a key is that under which it can be loaded *)
Section KeyTypes.
Context {key : Type}.
Variable load_rsa load_dsa load_ec : key -> option bool.
(** Keys that fit one type only, and are refused by the others with the
    exceptions that are expected *)
Definition fits (name : str) (k : key) : Prop :=
  (name = lit "RSA" <-> load_rsa k = None) /\ (name = lit "DSA" <-> load_dsa k = None) /\ (name = lit "EC" <-> load_ec k = None) /\
  load_rsa k <> Some false /\ load_dsa k <> Some false /\ load_ec k <> Some false.
End KeyTypes.

Theorem C96_key_type : forall key (rsa dsa ec : key -> option bool) name k,
  fits rsa dsa ec name k -> (private_key_type key rsa dsa ec k = Ok name <-> In name [lit "RSA"; lit "DSA"; lit "EC"]) /\
  (~ In name [lit "RSA"; lit "DSA"; lit "EC"] -> private_key_type key rsa dsa ec k = Err RuntimeError).
Proof.
  intros key rsa dsa ec name k (R & D & E & NR & ND & NE). unfold private_key_type. cbn [key_loop].
  destruct (rsa k) as [[|]|]; [|congruence|].
  - destruct (dsa k) as [[|]|]; [|congruence|].
    + destruct (ec k) as [[|]|]; [|congruence|].
      * split; [|reflexivity]. split; [discriminate|]. intros [H|[H|[H|[]]]]; exfalso; symmetry in H; [apply R in H|apply D in H|apply E in H]; discriminate.
      * assert (name = lit "EC") as -> by (apply E; reflexivity). split; [split; [intros _; cbn; tauto|reflexivity]|intros H; exfalso; apply H; cbn; tauto].
    + assert (name = lit "DSA") as -> by (apply D; reflexivity). split; [split; [intros _; cbn; tauto|reflexivity]|intros H; exfalso; apply H; cbn; tauto].
  - assert (name = lit "RSA") as -> by (apply R; reflexivity). split; [split; [intros _; cbn; tauto|reflexivity]|intros H; exfalso; apply H; cbn; tauto].
Qed.
Print Assumptions C96_key_type.
Example C96_key_type_example :
  let load (t k : Z) := if t =? k then None else Some true in
  fits (load 1) (load 2) (load 3) (lit "EC") 3 /\ private_key_type Z (load 1) (load 2) (load 3) 3 = Ok (lit "EC").
Proof. split; [|vm_compute; reflexivity]. unfold fits. repeat split; intros H; try discriminate H; try reflexivity. Qed.

(** Manifests: properties C23-C26 and C35. *)
From Verif Require Import Base ConstPool_Model Manifest_Model Manifest_Spec Manifest_Proofs Manifest_RT Manifest_Canon.
From Coq Require Import Permutation.

Definition reps (n : nat) (c : Z) : str := repeat c n.
(** A manifest with a long value, a long section name and two sections. *)
Definition mf_ex : manifest :=
  mkman K_MV [(K_MV, lit "1.0"); (lit "Class-Path", reps 200 97)]
    [(lit "z/B.class", [(K_Name, lit "z/B.class"); (lit "SHA-256-Digest", reps 44 65)]);
     (reps 100 98, [(K_Name, reps 100 98); (lit "X", lit "y: z")])] None.
Example mf_ex_ok : manifest_ok mf_ex.
Proof.
  assert (HI : forall k v, key_ok k = true -> val_ok v = true -> ascii k = true -> ascii v = true -> item_ok (k, v)).
  { intros k v H1 H2 H3 H4. split; [exact H1|split; [exact H2|now apply ascii_no_straddle]]. }
  assert (HD : forall a b : str, seqb a b = false -> ~ In a [b]).
  { intros a b H [->|[]]. rewrite seqb_refl in H. discriminate. }
  split; [exists (lit "1.0")|split].
  - split; [eexists; reflexivity|]. split.
    + constructor; [apply HD; reflexivity|]. constructor; [intros []|constructor].
    + constructor; [|constructor; [|constructor]]; apply HI; vm_compute; reflexivity.
  - constructor; [apply HD; vm_compute; reflexivity|]. constructor; [intros []|constructor].
  - constructor; [|constructor; [|constructor]].
    + split; [eexists; reflexivity|]. split.
      * constructor; [apply HD; reflexivity|]. constructor; [intros []|constructor].
      * constructor; [|constructor; [|constructor]]; apply HI; vm_compute; reflexivity.
    + split; [eexists; reflexivity|]. split.
      * constructor; [apply HD; reflexivity|]. constructor; [intros []|constructor].
      * constructor; [|constructor; [|constructor]]; apply HI; vm_compute; reflexivity.
Qed.

(** C23. No physical line of a written manifest is longer than 72 bytes, its
    separator included, whatever the names and values. *)
Theorem C23_short_lines : forall m lo ls data, writes_with m lo ls -> man_data m lo = Ok data ->
  Forall (fun l => Z.of_nat (length l) <= 72) (phys_lines data).
Proof. exact short_lines. Qed.
Print Assumptions C23_short_lines.

(** An attribute is written as one line followed by lines that start with one
    space; every line ends with the separator; without separators and leading
    spaces they are the bytes of "name: value" (names and values of any
    characters other than newline). *)
Theorem C23_continuations : forall k v ls data, ls = lf \/ ls = crlf -> ~ In 10 k -> ~ In 10 v ->
  write_key_val k v (Some ls) = Ok data ->
  exists first rest, phys_lines data = first :: rest /\ spaced rest /\
    Forall (fun l => exists l', l = l' ++ ls) (first :: rest) /\
    chop ls first ++ concat (map (fun l => tl (chop ls l)) rest) = utf8 (header k v).
Proof. exact unfold_bytes. Qed.
Print Assumptions C23_continuations.

(** Writing succeeds for every name of 1 to 68 bytes and every non-empty value. *)
Theorem C23_writes : forall k v ls, ls = lf \/ ls = crlf ->
  forallb scalar k = true -> forallb scalar v = true ->
  1 <= Z.of_nat (length (utf8 k)) <= 68 -> v <> [] -> exists data, write_key_val k v (Some ls) = Ok data.
Proof. exact write_total. Qed.
Print Assumptions C23_writes.

Example C23_ex : exists data, man_data mf_ex (Some crlf) = Ok data /\ writes_with mf_ex (Some crlf) crlf /\
  map (@length Z) (phys_lines data) = [23; 72; 72; 72; 7; 2; 72; 39; 9; 2; 17; 62; 2]%nat.
Proof.
  eexists. split; [vm_compute; reflexivity|]. split; [|vm_compute; reflexivity].
  split; [now right|now left].
Qed.

(** C24. Reading a folded attribute gives back its name and value. *)
Theorem C24_unfold : forall k v ls, ls = lf \/ ls = crlf -> key_ok k = true -> val_ok v = true -> no_straddle k v ->
  exists data vals, write_key_val k v (Some ls) = Ok data /\
    parse_sections (utf8_ignore data) = ([[(k, vals)]], None) /\ concat vals = v.
Proof. exact (fun k v ls Hl => fold_undone k v ls Hl). Qed.
Print Assumptions C24_unfold.

(** ASCII text never has a character across a fold. *)
Theorem C24_ascii : forall k v ls, ls = lf \/ ls = crlf -> key_ok k = true -> val_ok v = true ->
  ascii k = true -> ascii v = true ->
  exists data vals, write_key_val k v (Some ls) = Ok data /\
    parse_sections (utf8_ignore data) = ([[(k, vals)]], None) /\ concat vals = v.
Proof. exact (fun k v ls Hl Hk Hv Ak Av => fold_undone k v ls Hl Hk Hv (ascii_no_straddle k v Ak Av)). Qed.
Print Assumptions C24_ascii.

Example C24_ex : key_ok (lit "Class-Path") = true /\ val_ok (reps 300 97) = true /\
  ascii (lit "Class-Path") = true /\ ascii (reps 300 97) = true.
Proof. vm_compute. auto. Qed.
(** Non-ASCII text with no character across a fold: 33 two-byte characters, then more. *)
Example C24_ex2 : exists data vals,
  write_key_val (lit "K1") (reps 33 233 ++ lit "abc") (Some lf) = Ok data /\
  parse_sections (utf8_ignore data) = ([[(lit "K1", vals)]], None) /\ (length vals = 2)%nat /\
  concat vals = reps 33 233 ++ lit "abc".
Proof. eexists _, _. split; [vm_compute; reflexivity|]. split; [vm_compute; reflexivity|]. split; reflexivity. Qed.

(** The restriction is needed: a character that lies across a fold is lost. *)
Theorem C24_straddle_refuted : exists k v data vals, key_ok k = true /\ val_ok v = true /\
  write_key_val k v (Some lf) = Ok data /\
  parse_sections (utf8_ignore data) = ([[(k, vals)]], None) /\ concat vals <> v.
Proof.
  exists (lit "K"), (reps 66 97 ++ [233] ++ lit "end"). eexists _, _. split; [vm_compute; reflexivity|]. split; [vm_compute; reflexivity|].
  split; [vm_compute; reflexivity|]. split; [vm_compute; reflexivity|]. vm_compute. discriminate.
Qed.
Print Assumptions C24_straddle_refuted.

(** C25. Parsing the serialisation of a storable manifest or signature file into a
    fresh object gives the same main attributes in the same order and the same
    named sections with the same attributes in the same order. *)
Theorem C25_round_trip : forall m lo ls m0 old, manifest_ok m -> writes_with m lo ls ->
  m_primary_key m0 = m_primary_key m -> m_main m0 = [(m_primary_key m, old)] -> m_subs m0 = [] ->
  exists data m', man_data m lo = Ok data /\ man_parse m0 data = Ok m' /\
    m_main m' = m_main m /\ Permutation (m_subs m') (m_subs m) /\ m_linesep m' = Some ls.
Proof. exact round_trip'. Qed.
Print Assumptions C25_round_trip.

(** A manifest the parser accepts need not be writable: an attribute with an empty
    value raises TypeError. *)
Theorem C25_empty_value_refuted : exists data m, man_parse (new_manifest None) data = Ok m /\
  man_data m None = Err TypeError.
Proof. exists (lit "Manifest-Version: 1.0" ++ [10] ++ lit "Sealed: " ++ [10; 10]). eexists. split; [vm_compute; reflexivity|]. vm_compute. reflexivity. Qed.
Print Assumptions C25_empty_value_refuted.

(** A value with a newline, accepted by the section, comes back as two attributes. *)
Theorem C25_newline_refuted : exists m data m', man_data m None = Ok data /\
  sec_set [(K_MV, lit "1.0")] (lit "A") (lit "1" ++ [10] ++ lit "B: 2") = Ok (m_main m) /\
  man_parse (new_manifest None) data = Ok m' /\ m_main m' <> m_main m /\ dget (m_main m') (lit "B") = Some (lit "2").
Proof.
  exists (mkman K_MV [(K_MV, lit "1.0"); (lit "A", lit "1" ++ [10] ++ lit "B: 2")] [] None). eexists _, _.
  split; [vm_compute; reflexivity|]. split; [vm_compute; reflexivity|]. split; [vm_compute; reflexivity|].
  split; [vm_compute; discriminate|reflexivity].
Qed.
Print Assumptions C25_newline_refuted.

(** The name limit is checked in characters on assignment and in bytes on writing. *)
Theorem C25_long_name_refuted : exists k s, sec_set [(K_MV, lit "1.0")] k (lit "v") = Ok s /\
  sec_data s (Some lf) = Err ManifestKeyException.
Proof. exists (reps 68 233). eexists. split; [vm_compute; reflexivity|]. vm_compute. reflexivity. Qed.
Print Assumptions C25_long_name_refuted.

Example C25_ex : manifest_ok mf_ex /\ writes_with mf_ex None lf /\
  m_primary_key (new_manifest None) = m_primary_key mf_ex /\
  m_main (new_manifest None) = [(m_primary_key mf_ex, lit "1.0")] /\ m_subs (new_manifest None) = [].
Proof. split; [exact mf_ex_ok|]. split; [split; [now left|]; right; right; auto|auto]. Qed.

(** C26. The order in which sections were added does not show in the bytes. *)
Theorem C26_order_independent : forall m m' lo ls d,
  m_main m' = m_main m -> m_linesep m' = m_linesep m -> Permutation (m_subs m') (m_subs m) ->
  writes_with m lo ls -> (ls = crlf -> Forall (fun ns => no_newline (snd ns)) (m_subs m)) ->
  man_data m lo = Ok d -> man_data m' lo = Ok d.
Proof. exact canonical'. Qed.
Print Assumptions C26_order_independent.

(** Writing a parsed serialisation reproduces it byte for byte. *)
Theorem C26_reserialise : forall m lo ls m0 old data, manifest_ok m -> writes_with m lo ls ->
  m_primary_key m0 = m_primary_key m -> m_main m0 = [(m_primary_key m, old)] -> m_subs m0 = [] ->
  man_data m lo = Ok data ->
  exists m', man_parse m0 data = Ok m' /\ man_data m' None = Ok data.
Proof. exact reserialise. Qed.
Print Assumptions C26_reserialise.

Example C26_ex : Permutation (rev (m_subs mf_ex)) (m_subs mf_ex) /\
  Forall (fun ns => no_newline (snd ns)) (m_subs mf_ex) /\
  is_ok (man_data mf_ex (Some crlf)) = true.
Proof.
  split; [symmetry; apply Permutation_rev|]. split; [|vm_compute; reflexivity].
  pose proof mf_ex_ok as (_ & _ & HS). eapply Forall_impl; [|exact HS]. intros ns (_ & _ & HF). now apply item_no_newline.
Qed.

(** C35. The X of attributes named X+suffix are recovered, in order, when no X ends
    with a character of the suffix. *)
Theorem C35_strips_partial : forall s suf, (forall x c, In (x ++ c :: suf) (dkeys s) -> ~ In c suf) ->
  strips suf (dkeys s) (keys_with_suffix s suf).
Proof. exact keys_strips. Qed.
Print Assumptions C35_strips_partial.

(** The condition is necessary, attribute by attribute. *)
Theorem C35_exact_iff : forall x c suf v, keys_with_suffix [(x ++ c :: suf, v)] suf = [x ++ [c]] <-> ~ In c suf.
Proof.
  intros x c suf v. assert (E : ends_with suf (x ++ c :: suf) = true).
  { apply ends_with_app. exists (x ++ [c]). now rewrite <- app_assoc. }
  unfold keys_with_suffix. cbn [dkeys map fst filter]. rewrite E. cbn [map].
  change (c :: suf) with ([c] ++ suf). rewrite app_assoc. split.
  - intro H. apply cons_inj in H as [H _]. now apply (rstrip_suffix_conv _ suf c x eq_refl).
  - intro H. f_equal. now apply (rstrip_suffix _ suf c x eq_refl).
Qed.
Print Assumptions C35_exact_iff.

(** False in general: a digest named "Test" is taken for "T". *)
Theorem C35_suffix_refuted : exists s suf, ~ strips suf (dkeys s) (keys_with_suffix s suf).
Proof.
  exists [(lit "Test-Digest", lit "x")], (lit "-Digest"). intro H.
  assert (E : keys_with_suffix [(lit "Test-Digest", lit "x")] (lit "-Digest") = [lit "T"]) by (vm_compute; reflexivity).
  rewrite E in H. inversion H as [|x keys xs H1 E1 E2|k keys xs Hn H1 E1 E2]; subst; [discriminate|].
  inversion H1.
Qed.
Print Assumptions C35_suffix_refuted.

(** It holds for the digest names of the supported algorithms and the three
    suffixes that are used. *)
Theorem C35_digests : forall s suf,
  In suf [lit "-Digest"; lit "-Digest-Manifest"; lit "-Digest-Manifest-Main-Attributes"] ->
  (forall x, In (x ++ suf) (dkeys s) -> In x [[]; lit "MD5"; lit "SHA1"; lit "SHA-256"; lit "SHA-384"; lit "SHA-512"]) ->
  strips suf (dkeys s) (keys_with_suffix s suf).
Proof.
  intros s suf Hs H. apply keys_strips. intros x c Hx.
  assert (HI : In (x ++ [c]) [[]; lit "MD5"; lit "SHA1"; lit "SHA-256"; lit "SHA-384"; lit "SHA-512"]).
  { apply H. now rewrite <- app_assoc. }
  assert (Hc : 48 <= c <= 57).
  { cbn [In] in HI.
    assert (G : forall y d, y ++ [d] = x ++ [c] -> 48 <= d <= 57 -> 48 <= c <= 57).
    { intros y d E Hd. apply app_inj_tail in E as [_ <-]. exact Hd. }
    destruct HI as [E|[E|[E|[E|[E|[E|[]]]]]]].
    - destruct x; discriminate.
    - apply (G (lit "MD") 53); [exact E|lia].
    - apply (G (lit "SHA") 49); [exact E|lia].
    - apply (G (lit "SHA-25") 54); [exact E|lia].
    - apply (G (lit "SHA-38") 52); [exact E|lia].
    - apply (G (lit "SHA-51") 50); [exact E|lia]. }
  assert (HA : forall l, In l [lit "-Digest"; lit "-Digest-Manifest"; lit "-Digest-Manifest-Main-Attributes"] ->
                         forallb (fun y => (y <? 48) || (57 <? y)) l = true).
  { intros l [<-|[<-|[<-|[]]]]; vm_compute; reflexivity. }
  specialize (HA suf Hs). rewrite forallb_forall in HA. intro HC. specialize (HA c HC). lia.
Qed.
Print Assumptions C35_digests.

Example C35_ex : keys_with_suffix [(lit "Name", []); (lit "SHA-256-Digest", []); (lit "MD5-Digest", []); (lit "X", [])]
  (lit "-Digest") = [lit "SHA-256"; lit "MD5"].
Proof. vm_compute. reflexivity. Qed.

(** C133: what a manifest object holds after a text that could not be read. *)
From Verif Require Import Base Pack_Model ConstPool_Model Manifest_Model Manifest_Spec Manifest_Proofs Manifest_RT Manifest_Grammar Manifest_Parse Upto_Model Upto_Spec Upto_Proofs.

(** A text either is a manifest or breaks somewhere, never both, and in one way only. *)
Theorem C133_either : forall t, ((exists secs, Sections t secs) \/ (exists secs, BrokenText t secs)) /\
  (forall secs secs', Sections t secs -> BrokenText t secs' -> False) /\
  (forall secs secs', BrokenText t secs -> BrokenText t secs' -> secs = secs').
Proof. intro t. split; [apply broken_or_not|]. split; intros secs secs'; [apply broken_not_both|apply broken_unique]. Qed.
Print Assumptions C133_either.

(** Two complete sections, one that is broken by its second line. *)
Definition broken_text : str :=
  lit "Manifest-Version: 2.0" ++ [13; 10; 13; 10] ++ lit "Name: x" ++ [10] ++ lit "K: v" ++ [10] ++ lit " w" ++ [10; 10; 10] ++ lit "Name: y" ++ [10] ++ lit "garbage" ++ [10; 10] ++ lit "Name: z" ++ [10].
Definition broken_secs : list (list (str * list str)) :=
  [[(lit "Manifest-Version", [lit "2.0"])]; [(lit "Name", [lit "x"]); (lit "K", [lit "v"; lit "w"])]].
Lemma broken_text_broken : BrokenText broken_text broken_secs.
Proof. apply (broken_iff broken_text broken_secs MalformedManifest). vm_compute. reflexivity. Qed.
Example C133_either_ex : BrokenText broken_text broken_secs /\ Sections (lit "A: b") [[(lit "A", [lit "b"])]].
Proof. split; [exact broken_text_broken|apply parse_sections_iff; reflexivity]. Qed.

(** Reading a text into a manifest that already has entries: exactly what is there
    afterwards and which exception was raised, wherever reading stopped. *)
Theorem C133_reached : forall m0 t m r, forallb scalar t = true -> parse_upto m0 (utf8 t) = (m, r) ->
  exists secs early, ((Sections t secs /\ early = None) \/ (BrokenText t secs /\ early = Some MalformedManifest)) /\
    Reached (m_main m0) (m_subs m0) early secs (m_main m) (m_subs m) r /\ uses_linesep t m /\ m_primary_key m = m_primary_key m0.
Proof. exact upto_reached. Qed.
Print Assumptions C133_reached.
Definition before : manifest := mkman (m_primary_key (new_manifest None)) [(lit "Manifest-Version", lit "1.0"); (lit "A", lit "b")] [(lit "x", [(lit "Name", lit "x"); (lit "Old", lit "o")])] None.
Definition long_text : str := lit "A: c" ++ [10; 10] ++ lit "Name: p" ++ [10; 10] ++ lit "Name: q" ++ [10] ++ repeat 97 69 ++ lit ": v" ++ [10; 10] ++ lit "Name: r" ++ [10].
Example C133_reached_ex : forallb scalar broken_text = true /\
  parse_upto before (utf8 broken_text) = (mkman (m_primary_key before) [(lit "Manifest-Version", lit "2.0"); (lit "A", lit "b")] [(lit "x", [(lit "Name", lit "x"); (lit "K", lit "vw")])] (Some crlf), Some MalformedManifest) /\
  forallb scalar long_text = true /\
  parse_upto before (utf8 long_text) = (mkman (m_primary_key before) [(lit "Manifest-Version", lit "1.0"); (lit "A", lit "c")] [(lit "x", [(lit "Name", lit "x"); (lit "Old", lit "o")]); (lit "p", [(lit "Name", lit "p")])] (Some lf), Some ManifestKeyException).
Proof. vm_compute. auto. Qed.

(** In particular: a malformed line is reported as such if the names before it fit, and
    all complete sections before it have been taken over by then. *)
Theorem C133_malformed : forall m0 t secs, forallb scalar t = true -> BrokenText t secs -> Forall keys_fit secs ->
  exists m, parse_upto m0 (utf8 t) = (m, Some MalformedManifest) /\
    match secs with
    | [] => m_main m = m_main m0 /\ m_subs m = m_subs m0
    | main :: subs => (forall k, last_value main k (dget (m_main m0) k) (dget (m_main m) k)) /\ (forall n, last_section subs n (dget (m_subs m0) n) (dget (m_subs m) n))
    end.
Proof. exact upto_malformed. Qed.
Print Assumptions C133_malformed.
Lemma fit_dec' l : forallb (fun i : str * list str => Z.of_nat (length (fst i)) <=? 68) l = true -> keys_fit l.
Proof. intro H. apply Forall_forall. intros i Hi. rewrite forallb_forall in H. apply Z.leb_le. exact (H i Hi). Qed.
Example C133_malformed_ex : forallb scalar broken_text = true /\ BrokenText broken_text broken_secs /\ Forall keys_fit broken_secs.
Proof. split; [reflexivity|]. split; [exact broken_text_broken|]. repeat (apply Forall_cons; [apply fit_dec'; reflexivity|]). apply Forall_nil. Qed.

(** The same reading as the one of C77, which only kept results of successful ones. *)
Theorem C133_agrees : forall m data m' r, parse_upto m data = (m', r) ->
  (r = None <-> man_parse m data = Ok m') /\ (forall e, r = Some e <-> man_parse m data = Err e).
Proof.
  intros m data m' r H. pose proof (upto_agrees m data) as A. rewrite H in A. destruct r as [e|]; rewrite A; (split; [|intro e']); split; intro X; try discriminate X; try reflexivity; injection X as ->; reflexivity.
Qed.
Print Assumptions C133_agrees.
Example C133_agrees_ex : snd (parse_upto before (utf8 (lit "A: c"))) = None /\ snd (parse_upto before (utf8 broken_text)) = Some MalformedManifest.
Proof. vm_compute. auto. Qed.

(** A manifest that cannot be read does not leave the object as it was: an older value is
    replaced, a section of the broken text is there. *)
Theorem C133_unchanged_refuted : exists m0 t m e, parse_upto m0 (utf8 t) = (m, Some e) /\
  dget (m_main m) (lit "Manifest-Version") <> dget (m_main m0) (lit "Manifest-Version") /\ m_subs m <> m_subs m0 /\ m_linesep m <> m_linesep m0.
Proof. exists before, broken_text. eexists _, _. split; [vm_compute; reflexivity|]. vm_compute. repeat split; discriminate. Qed.
Print Assumptions C133_unchanged_refuted.

(** C77: which manifests are accepted, and what is read from them. *)
From Verif Require Import Base Pack_Model ConstPool_Model Manifest_Model Manifest_Spec Manifest_Proofs Manifest_RT Manifest_Grammar Manifest_Parse.

(** A manifest with a continuation, a NUL, several blank lines, mixed line ends,
    a section without blank line at the end. *)
Definition m_text : str :=
  lit "Manifest-Version: 2.0" ++ [13; 10] ++ lit "Class-Path: a.jar" ++ [10] ++ lit "  b.jar" ++ [0; 10; 10; 10] ++
  lit "Name: x/A.class" ++ [10] ++ lit "SHA1-Digest: abc=" ++ [10] ++ lit "SHA1-Digest: def=" ++ [10; 0; 10] ++ lit "Name: b" ++ [10] ++ lit "K:" .
Definition m_secs : list (list (str * list str)) :=
  [[(lit "Manifest-Version", [lit "2.0"]); (lit "Class-Path", [lit "a.jar"; lit " b.jar"])];
   [(lit "Name", [lit "x/A.class"]); (lit "SHA1-Digest", [lit "abc="]); (lit "SHA1-Digest", [lit "def="])];
   [(lit "Name", [lit "b"]); (lit "K", [[]])]].
Lemma m_text_sections : Sections m_text m_secs.
Proof. apply parse_sections_iff. reflexivity. Qed.
Lemma fit_dec l : forallb (fun i : str * list str => Z.of_nat (length (fst i)) <=? 68) l = true -> keys_fit l.
Proof. intro H. apply Forall_forall. intros i Hi. rewrite forallb_forall in H. apply Z.leb_le. exact (H i Hi). Qed.

(** Whatever is accepted has sections; the manifest then has exactly the values
    of the last occurrence of each attribute, on top of what was there before,
    and for each name the last section of that name. *)
Theorem C77_result : forall m0 t m, forallb scalar t = true -> man_parse m0 (utf8 t) = Ok m ->
  exists main subs, Sections t (main :: subs) /\ Forall keys_fit (main :: subs) /\
    (forall k, last_value main k (dget (m_main m0) k) (dget (m_main m) k)) /\
    (forall n, last_section subs n (dget (m_subs m0) n) (dget (m_subs m) n)) /\
    uses_linesep t m /\ m_primary_key m = m_primary_key m0.
Proof. exact man_parse_ok. Qed.
Print Assumptions C77_result.
Example C77_result_ex : forallb scalar m_text = true /\ exists m, man_parse (new_manifest None) (utf8 m_text) = Ok m /\
  dget (m_main m) (lit "Manifest-Version") = Some (lit "2.0") /\ dget (m_main m) (lit "Class-Path") = Some (lit "a.jar b.jar") /\
  dget (m_subs m) (lit "x/A.class") = Some [(lit "Name", lit "x/A.class"); (lit "SHA1-Digest", lit "def=")] /\ m_linesep m = Some crlf.
Proof. split; [reflexivity|]. eexists. split; [reflexivity|]. repeat split. Qed.

(** Every text that has sections, with names of at most 68 characters, is
    accepted. *)
Theorem C77_accepts : forall m0 t main subs, forallb scalar t = true -> Sections t (main :: subs) -> Forall keys_fit (main :: subs) ->
  exists m, man_parse m0 (utf8 t) = Ok m.
Proof. exact man_parse_total. Qed.
Print Assumptions C77_accepts.
Example C77_accepts_ex : forallb scalar m_text = true /\ Sections m_text m_secs /\ Forall keys_fit m_secs.
Proof. split; [reflexivity|]. split; [exact m_text_sections|]. repeat (apply Forall_cons; [apply fit_dec; reflexivity|]). apply Forall_nil. Qed.

(** A text that does not have the format is never accepted: a line without colon,
    or a section that starts with a continuation line, anywhere, is an error. *)
Theorem C77_malformed_partial : forall m0 t, forallb scalar t = true -> (~ exists secs, Sections t secs) ->
  exists e, man_parse m0 (utf8 t) = Err e /\ (e = MalformedManifest \/ e = ManifestKeyException).
Proof. exact man_parse_malformed. Qed.
Print Assumptions C77_malformed_partial.
(** A text whose third section starts with a continuation line. *)
Definition bad_text : str := lit "A: b" ++ [10; 10] ++ lit "Name: x" ++ [10; 10] ++ lit " y" ++ [10].
Example C77_malformed_ex : forallb scalar bad_text = true /\ (~ exists secs, Sections bad_text secs) /\
  man_parse (new_manifest None) (utf8 bad_text) = Err MalformedManifest.
Proof. split; [reflexivity|]. split; [|reflexivity]. apply parse_sections_malformed. eexists. reflexivity. Qed.
Example C77_malformed_ex2 : ~ exists secs, Sections (lit "A: b" ++ [10] ++ lit "no colon" ++ [10]) secs.
Proof. apply parse_sections_malformed. eexists. reflexivity. Qed.

(** Names of more than 68 characters are refused. *)
Theorem C77_long_names : forall m0 t main subs, forallb scalar t = true -> Sections t (main :: subs) -> ~ Forall keys_fit (main :: subs) ->
  man_parse m0 (utf8 t) = Err ManifestKeyException.
Proof. exact man_parse_long. Qed.
Print Assumptions C77_long_names.
Example C77_long_names_ex : let t := lit "A: b" ++ [10; 10] ++ repeat 97 69 ++ lit ": v" in
  forallb scalar t = true /\ Sections t [[(lit "A", [lit "b"])]; [(repeat 97 69, [lit "v"])]] /\ ~ Forall keys_fit [[(lit "A", [lit "b"])]; [(repeat 97 69, [lit "v"])]].
Proof.
  cbn zeta. split; [reflexivity|]. split; [apply parse_sections_iff; reflexivity|]. intro H. apply Forall_cons_iff in H as [_ H]. apply Forall_inv in H.
  apply Forall_inv in H. cbn [fst] in H. rewrite repeat_length in H. lia.
Qed.

(** A manifest without any section (an empty file, or only blank lines) is
    answered with StopIteration instead of MalformedManifest. *)
Theorem C77_empty_refuted : forall m0 t, forallb scalar t = true -> Sections t [] -> man_parse m0 (utf8 t) = Err StopIteration.
Proof. exact man_parse_none. Qed.
Print Assumptions C77_empty_refuted.
Example C77_empty_refuted_ex : Sections [] [] /\ Sections [10; 10] [].
Proof. split; apply parse_sections_iff; reflexivity. Qed.

(** The character after the colon is dropped even if it is not a space. *)
Theorem C77_no_space_refuted : exists t m, man_parse (new_manifest None) (utf8 t) = Ok m /\ t = lit "Main-Class:org.Main" /\
  dget (m_main m) (lit "Main-Class") = Some (lit "rg.Main").
Proof. eexists _, _. split; [|split; [reflexivity|]]; reflexivity. Qed.
Print Assumptions C77_no_space_refuted.

(** Sections without Name are not refused (the JAR specification requires one);
    they all go by the name None, and only the last is kept. *)
Theorem C77_nameless_refuted : exists t m, Sections t [[(lit "A", [lit "b"])]; [(lit "X", [lit "1"])]; [(lit "Y", [lit "2"])]] /\
  man_parse (new_manifest None) (utf8 t) = Ok m /\ m_subs m = [(lit "None", [(lit "Name", lit "None"); (lit "Y", lit "2")])].
Proof.
  exists (lit "A: b" ++ [10; 10] ++ lit "X: 1" ++ [10; 10] ++ lit "Y: 2"). eexists. split; [apply parse_sections_iff; reflexivity|]. split; reflexivity.
Qed.
Print Assumptions C77_nameless_refuted.

(** Two sections of the same name are not merged (the JAR specification says they
    are): the attributes of the first one are lost. *)
Theorem C77_duplicate_refuted : exists t m, Sections t [[(lit "A", [lit "b"])]; [(lit "Name", [lit "n"]); (lit "X", [lit "1"])]; [(lit "Name", [lit "n"]); (lit "Y", [lit "2"])]] /\
  man_parse (new_manifest None) (utf8 t) = Ok m /\ m_subs m = [(lit "n", [(lit "Name", lit "n"); (lit "Y", lit "2")])].
Proof.
  exists (lit "A: b" ++ [10; 10] ++ lit "Name: n" ++ [10] ++ lit "X: 1" ++ [10; 10] ++ lit "Name: n" ++ [10] ++ lit "Y: 2"). eexists.
  split; [apply parse_sections_iff; reflexivity|]. split; reflexivity.
Qed.
Print Assumptions C77_duplicate_refuted.

(** An empty separator counts as none given, an empty separator of the manifest as
    none known. *)
Theorem C23_default_linesep : forall m, man_data m (Some []) = man_data m None /\
  (m_linesep m = Some [] \/ m_linesep m = None -> man_data m None = man_data m (Some lf)).
Proof. intro m. split; [reflexivity|]. unfold man_data, man_linesep. intros [H|H]; rewrite H; reflexivity. Qed.
Print Assumptions C23_default_linesep.
Example C23_default_linesep_ex : man_data (mkman K_MV [(K_MV, lit "1.0")] [] (Some [])) (Some []) = Ok (lit "Manifest-Version: 1.0" ++ [10; 10]).
Proof. reflexivity. Qed.

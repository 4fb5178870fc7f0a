(** Only the look-up of the manifest raises MissingManifestError. *)
From Verif Require Import Base ConstPool_Model Manifest_Model Zip_Model Sign_Model Tool_Model.

Definition nm {A} (r : res A) : Prop := r <> Err MissingManifestError.
Lemma nm_ok {A} (a : A) : nm (Ok a). Proof. discriminate. Qed.
Lemma nm_bind {A B} (r : res A) (k : A -> res B) : nm r -> (forall a, nm (k a)) -> nm (rbind r k).
Proof. unfold nm. intros H1 H2. destruct r as [a|e]; cbn [rbind]; [apply H2|]. intro H. apply H1. congruence. Qed.
Ltac nm := repeat first [apply nm_bind; [|intro] | apply nm_ok | (intro; discriminate)].
Lemma nm_mapM {A B} (f : A -> res B) l : (forall a, nm (f a)) -> nm (mapM f l).
Proof. intro H. induction l as [|a l IH]; [apply nm_ok|]. cbn [mapM]. apply nm_bind; [apply H|]. intro b. apply nm_bind; [exact IH|]. intro. apply nm_ok. Qed.
Lemma nm_utf8 s : nm (utf8_encode s).
Proof.
  induction s as [|c s IH]; cbn [utf8_encode]; [apply nm_ok|]. apply nm_bind; [|intro; apply nm_bind; [exact IH|intro; apply nm_ok]].
  unfold utf8_char. repeat match goal with |- nm (if ?b then _ else _) => destruct b end; nm.
Qed.
Lemma nm_kv k v ls : nm (write_key_val k v ls).
Proof.
  unfold write_key_val. apply nm_bind; [apply nm_utf8|]. intro kb. apply nm_bind; [apply nm_utf8|]. intro vb.
  apply nm_bind; [destruct ls; [apply nm_utf8|nm]|]. intro l. destruct (negb _); [nm|]. destruct (_ >? _); [apply nm_ok|]. destruct vb; nm.
Qed.
Lemma nm_data s ls : nm (sec_data s ls).
Proof.
  unfold sec_data. apply nm_bind.
  - induction s as [|[k v] s IH]; cbn [write_items]; [apply nm_ok|]. apply nm_bind; [apply nm_kv|]. intro. apply nm_bind; [exact IH|]. intro. apply nm_ok.
  - intro. apply nm_bind; [destruct ls; [apply nm_utf8|nm]|]. intro. apply nm_ok.
Qed.
Lemma nm_man_data m lo : nm (man_data m lo).
Proof.
  unfold man_data. apply nm_bind; [apply nm_data|]. intro. apply nm_bind; [|intro; apply nm_bind; [|intro; apply nm_ok]].
  - apply nm_mapM. intro s. unfold sec_key. apply nm_bind; [apply nm_data|]. intro. apply nm_ok.
  - apply nm_mapM. intro x. apply nm_data.
Qed.
Lemma nm_set s k v : nm (sec_set s k v).
Proof. unfold sec_set. destruct (_ >? _); nm. Qed.
Lemma nm_load items s : nm (sec_load s items).
Proof. revert s. induction items as [|[k vals] items IH]; intro s; cbn [sec_load]; [apply nm_ok|]. apply nm_bind; [apply nm_set|]. intro. apply IH. Qed.
Lemma nm_lines ls : forall c x, snd (parse_lines c ls) = Some x -> x = MalformedManifest.
Proof.
  induction ls as [|l ls IH]; intros c x; cbn [parse_lines].
  - destruct c as [[|]|]; discriminate.
  - destruct (clean l) as [|y r].
    + destruct c as [[|i c]|]; [apply IH| |apply IH]. specialize (IH None x). destruct (parse_lines None ls). exact IH.
    + destruct (y =? 32).
      * destruct c as [[|[k vs] c]|]; cbn [snd]; [congruence|apply IH|congruence].
      * destruct (split_colon (y :: r)) as [[k v]|]; [apply IH|]. cbn [snd]. congruence.
Qed.
Lemma nm_parse m data : nm (man_parse m data).
Proof.
  unfold man_parse. assert (H : forall x, snd (parse_sections (utf8_ignore data)) = Some x -> x = MalformedManifest).
  { intros x. unfold parse_sections. destruct (utf8_ignore data); [discriminate|apply nm_lines]. }
  destruct (parse_sections (utf8_ignore data)) as [[|s ss] e]; cbn [snd] in H.
  - destruct e as [x|]; [rewrite (H x eq_refl)|]; nm.
  - apply nm_bind; [apply nm_load|]. intro. apply nm_bind.
    + generalize (m_subs m). induction ss as [|i ss IH]; intro sb; cbn [load_subs]; [apply nm_ok|]. apply nm_bind; [apply nm_load|]. intro s'.
      destruct (dget s' K_Name); [apply IH|nm].
    + intro. destruct e as [x|]; [rewrite (H x eq_refl)|]; nm.
Qed.
Lemma nm_read z n : nm (zread z n).
Proof. unfold zread. destruct (dget _ n); nm. Qed.

Section Env.
Variable up : Z -> str.
Variable hash : str -> bytes -> str.
Variable make_block : str -> bytes -> bytes.
Lemma nm_add m z alg : nm (add_jar_entries up hash m z alg).
Proof.
  unfold add_jar_entries. destruct (smem alg java_digests); [|nm]. revert m. induction (namelist z) as [|f l IH]; intro m; cbn [add_entries]; [apply nm_ok|].
  destruct (file_skips_verification up f); [apply IH|]. unfold create_section. apply nm_bind; [apply nm_read|]. intro d.
  apply nm_bind; [unfold digest_of; destruct (smem alg java_digests); nm|]. intro h. apply nm_bind; [|intro; apply IH].
  unfold set_in_section. destruct (dget _ f); [|nm]. apply nm_bind; [apply nm_set|]. intro. apply nm_ok.
Qed.
Lemma nm_set_main m k v : nm (set_main m k v).
Proof. unfold set_main. apply nm_bind; [apply nm_set|]. intro. apply nm_ok. Qed.
Lemma nm_digest sf mf alg : nm (digest_manifest hash sf mf alg).
Proof.
  unfold digest_manifest. destruct (negb _); [nm|]. apply nm_bind; [apply nm_data|]. intro acc. apply nm_bind; [apply nm_set_main|]. intro sf1.
  apply nm_bind; [|intros [? ?]; apply nm_set_main].
  generalize (or_linesep (m_linesep mf) os_linesep) as ls. intro ls. revert sf1 acc. induction (map snd (m_subs mf)) as [|s l IH]; intros sf1 acc; cbn [digest_sections]; [apply nm_ok|].
  apply nm_bind; [apply nm_data|]. intro d. apply nm_bind; [unfold primary; destruct (dget s K_Name); nm|]. intro n. unfold create_section.
  apply nm_bind; [|intro; apply IH]. unfold set_in_section. destruct (dget _ n); [|nm]. apply nm_bind; [apply nm_set|]. intro. apply nm_ok.
Qed.
Lemma nm_from_jar m z : In MANIFEST_NAME (namelist z) -> nm (load_from_jar m z).
Proof. intro H. apply smem_In in H. unfold load_from_jar. rewrite H. cbn [negb]. apply nm_bind; [apply nm_read|]. intro. apply nm_parse. Qed.
Lemma nm_sign ext z alias alg : In MANIFEST_NAME (namelist z) -> nm (sign up hash make_block ext z alias alg).
Proof.
  intro H. unfold sign. apply nm_bind; [now apply nm_from_jar|]. intro. apply nm_bind; [apply nm_add|]. intro. apply nm_bind; [apply nm_digest|]. intro.
  apply nm_bind; [apply nm_man_data|]. intro. apply nm_bind; [apply nm_man_data|]. intro. apply nm_bind; [|intro; apply nm_ok].
  apply nm_mapM. intro n. apply nm_bind; [apply nm_read|]. intro. apply nm_ok.
Qed.
End Env.

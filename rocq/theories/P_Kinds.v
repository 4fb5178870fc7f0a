(** Property C84: how the entries are listed. *)
From Verif Require Import Base Pack_Model ConstPool_Model ConstPool_Spec ClassFile_Model Manifest_Model Sign_Spec
  Change_Model Change_Spec Change_Proofs Change_Report Classdiff_Model Zip_Model Zip_Spec Zip_Proofs Dir_Spec Dir_Proofs
  Jardiff_Model Jardiff_Spec Jardiff_Proofs Jardiff_Jar Distdiff_Model Distdiff_Spec Distdiff_Proofs Distdiff_Dist Kinds_Spec P_ClassFile P_Classdiff P_Jardiff P_Distdiff.
From Verif Require Sign_Model Dir_Model P_Zip.
From Coq Require Import Permutation.

Definition parts_of (c : change) : list change := let 'Node _ _ _ cs _ := c in cs.
Lemma check_k c c' : check c = Ok c' -> k_of c' = k_of c.
Proof.
  destruct c as [k ch d cs im]. cbn [check]. destruct (k_check k) as [|r|] eqn:E.
  - intro H. now injection H as <-.
  - destruct r as [[b d']|]; cbn [rbind]; [|discriminate]. intro H. now injection H as <-.
  - destruct (pick _ _ _ _ _) as [rs|]; cbn [rbind]; [|discriminate]. destruct (sequence rs); cbn [rbind]; [|discriminate]. intro H. now injection H as <-.
Qed.
(** The parts of a composite change after its check. *)
Lemma check_kids k im c' : k_check k = CheckParts -> k_super k = true -> k_gate k = false -> check (Node k false None [] im) = Ok c' ->
  Forall2 (fun c k => check c = Ok k) im (parts_of c').
Proof.
  intros H1 H2 H3 H. apply check_parts in H; [|exact H1]. destruct H as (ks & ks' & E & F & ->). cbn [parts_of]. unfold collect_in, pick in E. rewrite H2, H3 in E. rewrite andb_false_r in E. cbn [negb andb] in E.
  destruct (k_raises k); [discriminate|]. now injection E as <-.
Qed.
Lemma ordered_map {A B} (f : A -> B) ty ts (l : list A) : ordered ty ts (map f l) -> ordered (fun x => ty (f x)) ts l.
Proof. intros H i j a b Hij Ha Hb. apply (H i j); [exact Hij| |]; now apply map_nth_error. Qed.
Lemma Forall2_map_l {A B C} (f : A -> B) (R : B -> C -> Prop) l l' : Forall2 R (map f l) l' -> Forall2 (fun a c => R (f a) c) l l'.
Proof. revert l'. induction l as [|a l IH]; intros l' H; inversion H; subst; constructor; auto. Qed.

Lemma Forall2_impl' {A B} (R S : A -> B -> Prop) : (forall a b, R a b -> S a b) -> forall l l', Forall2 R l l' -> Forall2 S l l'.
Proof. intros H l l' F. induction F; constructor; auto. Qed.

(** ** Jars *)
Section JarKinds.
Variable up : Z -> str.
Lemma jar_kind_total e n : exists k, jar_kind up e n k.
Proof.
  destruct (seqb_spec n (lit "META-INF/MANIFEST.MF")) as [Hm|Hm].
  - destruct (match e with SAME | DIFF => true | _ => false end) eqn:E.
    + exists JManifest. split; [exact Hm|]. unfold common. destruct e; auto; discriminate.
    + assert (HN : ~ manifests e n) by (intros [_ [-> | ->]]; discriminate). pose proof (is_sigfile_iff up n) as H1. pose proof (is_sigblock_iff up n) as H2. pose proof (is_classfile_iff n) as H3.
      destruct (is_sigfile up n); [exists JSigFile; cbn; tauto|]. destruct (is_sigblock up n); [exists JSigBlock; cbn; intuition discriminate|]. destruct (is_classfile n); [exists JClass|exists JData]; cbn; unfold signature; intuition discriminate.
  - assert (HN : ~ manifests e n) by (intros [H _]; contradiction). pose proof (is_sigfile_iff up n) as H1. pose proof (is_sigblock_iff up n) as H2. pose proof (is_classfile_iff n) as H3.
      destruct (is_sigfile up n); [exists JSigFile; cbn; tauto|]. destruct (is_sigblock up n); [exists JSigBlock; cbn; intuition discriminate|]. destruct (is_classfile n); [exists JClass|exists JData]; cbn; unfold signature; intuition discriminate.
Qed.
(** The tests made by jar_event, from the kind. *)
Lemma jar_kind_tests e n k : jar_kind up e n k ->
  match k with
  | JManifest => seqb n Sign_Model.MANIFEST_NAME = true /\ common e
  | _ => (common e -> seqb n Sign_Model.MANIFEST_NAME = false) /\
      match k with
      | JSigFile => is_sigfile up n = true
      | JSigBlock => is_sigfile up n = false /\ is_sigblock up n = true
      | JClass => is_sigfile up n = false /\ is_sigblock up n = false /\ is_classfile n = true
      | _ => is_sigfile up n = false /\ is_sigblock up n = false /\ is_classfile n = false
      end
  end.
Proof.
  pose proof (is_sigfile_iff up n) as H1. pose proof (is_sigblock_iff up n) as H2. pose proof (is_classfile_iff n) as H3.
  destruct (is_sigfile up n), (is_sigblock up n), (is_classfile n); destruct k; cbn [jar_kind]; unfold manifests, the_manifest, signature; change Sign_Model.MANIFEST_NAME with (lit "META-INF/MANIFEST.MF"); destruct (seqb_spec n (lit "META-INF/MANIFEST.MF")); intuition discriminate.
Qed.
End JarKinds.

Section Jar.
Variable fmt : pyval -> str.
Variable reprs : str -> str.
Variable ffmt : pyval -> str.
Variable text : bytes -> res str.
Variable order : list str -> list str.
Variable up : Z -> str.
Variables l r : archive.
Notation jev := (jar_event fmt reprs ffmt text order up l r).

Definition jname (e : event) (k : jkind) : str :=
  match k, e with
  | JManifest, _ => lit "JarManifestChange"
  | JSigFile, RIGHT => lit "JarSignatureFileAdded" | JSigFile, LEFT => lit "JarSignatureFileRemoved" | JSigFile, _ => lit "JarSignatureFileChange"
  | JSigBlock, RIGHT => lit "JarSignatureBlockFileAdded" | JSigBlock, LEFT => lit "JarSignatureBlockFileRemoved" | JSigBlock, _ => lit "JarSignatureBlockFileChange"
  | JData, DIFF => lit "JarGenericFileChange" | JData, RIGHT => lit "JarContentAdded" | JData, LEFT => lit "JarContentRemoved" | JData, SAME => lit "JarContentChange"
  | JClass, RIGHT => lit "JarClassAdded" | JClass, LEFT => lit "JarClassRemoved" | JClass, _ => lit "JarClassChange"
  end.
Lemma jname_rank e k : rank jar_types (jname e k) = jar_position e k.
Proof. destruct k, e; vm_compute; reflexivity. Qed.
Lemma jar_shaped e n k c : jar_kind up e n k -> check (jev (e, n)) = Ok c -> k_name (k_of c) = jname e k /\ listed (jar_base e k) e n c.
Proof.
  intros HK HC. pose proof (check_k _ _ HC) as HE. destruct c as [kk ch d cs im]. cbn [k_of] in *. unfold listed. cbn [is_change get_description k_of]. subst kk.
  assert (HT := jar_kind_tests up e n k HK). unfold jar_event. clear HC HK.
  destruct k; [destruct HT as [T1 [-> | ->]]; rewrite T1|destruct HT as [T1 T2]..];
    [| |destruct e; try (rewrite (T1 (or_introl eq_refl))); try (rewrite (T1 (or_intror eq_refl)))..];
    repeat match goal with H : _ /\ _ |- _ => destruct H end;
    repeat match goal with H : is_sigfile _ _ = _ |- _ => rewrite H | H : is_sigblock _ _ = _ |- _ => rewrite H | H : is_classfile _ = _ |- _ => rewrite H end;
    unfold jar_node; cbn [k_of k_name k_entry k_removal k_addition k_always k_text orb jname jar_base heading];
    (split; [reflexivity|]); (split; [reflexivity|]); (split; [intuition discriminate|]); (split; [intuition discriminate|]); (split; [intuition discriminate|]); unfold heading; rewrite <- ?app_assoc; try reflexivity; destruct ch; reflexivity.
Qed.
Lemma jev_name e n k : jar_kind up e n k -> k_name (k_of (jev (e, n))) = jname e k.
Proof.
  intro HK. assert (HT := jar_kind_tests up e n k HK). unfold jar_event.
  destruct k; [destruct HT as [T1 [-> | ->]]; rewrite T1|destruct HT as [T1 T2]..];
    [| |destruct e; try (rewrite (T1 (or_introl eq_refl))); try (rewrite (T1 (or_intror eq_refl)))..];
    repeat match goal with H : _ /\ _ |- _ => destruct H end;
    repeat match goal with H : is_sigfile _ _ = _ |- _ => rewrite H | H : is_sigblock _ _ = _ |- _ => rewrite H | H : is_classfile _ = _ |- _ => rewrite H end; reflexivity.
Qed.
End Jar.

(** ** C84 *)
(** After the check, every entry of the jars, each once, is listed under its
    heading, in the documented order of kinds. *)
Theorem C84_jar_partial : forall fmt reprs ffmt text order up l r c, (forall s, Permutation (order s) s) ->
  a_kind l = Zip -> a_kind r = Zip -> a_open l = true -> a_open r = true -> Forall sound (a_entries l) -> Forall sound (a_entries r) ->
  check (jar_change fmt reprs ffmt text order up (Ok l) (Ok r)) = Ok c ->
  exists t j rows, parts_of c = [t; j] /\ classified rows l r /\
    Forall2 (fun en k => exists kd, jar_kind up (fst en) (snd en) kd /\ listed (jar_base (fst en) kd) (fst en) (snd en) k) rows (parts_of j) /\
    in_order (fun en p => exists kd, jar_kind up (fst en) (snd en) kd /\ p = jar_position (fst en) kd) rows.
Proof.
  intros fmt reprs ffmt text order up l r c OP Kl Kr Ol Or Sl Sr H. unfold jar_change, super in H. apply check_kids in H; [|reflexivity..].
  destruct (parts_of c) as [|t [|j [|x y]]]; inversion H as [|? ? ? ? Ht H2]; subst; inversion H2 as [|? ? ? ? Hj H3]; subst; inversion H3; subst. exists t, j.
  unfold jar_contents in Hj. apply check_kids in Hj; [|reflexivity..]. destruct (events_ok text order OP l r Kl Kr Ol Or Sl Sr) as (evs & E & C). unfold jar_entries in Hj. rewrite E in Hj.
  destruct (iterate_spec (fun c => k_name (k_of c)) (map (jar_event fmt reprs ffmt text order up l r) evs) jar_types) as (P & _ & HO & _).
  destruct (Permutation_map_inv _ _ P) as (rows & ER & PR). exists rows. rewrite ER in *. split; [reflexivity|]. split; [|split].
  - destruct C as [C1 C2]. split; [apply (Permutation_NoDup (Permutation_map snd PR)), C1|]. intro f. destruct (C2 f) as (X1 & X2 & X3 & X4).
    assert (HI : forall x, In x rows <-> In x evs) by (intro x; split; apply Permutation_in; [now apply Permutation_sym|exact PR]). now rewrite !HI.
  - apply Forall2_map_l in Hj. revert Hj. apply Forall2_impl'. intros [e n] k Hk. cbn [fst snd]. destruct (jar_kind_total up e n) as [kd HK]. exists kd. split; [exact HK|]. exact (proj2 (jar_shaped _ _ _ _ _ _ _ _ _ _ _ _ HK Hk)).
  - apply ordered_map in HO. intros i j' [e n] [e' n'] p q Hij Ha Hb (k & K1 & ->) (k' & K2 & ->). cbn [fst snd] in *. specialize (HO i j' _ _ Hij Ha Hb). cbv beta in HO.
    rewrite (jev_name _ _ _ _ _ _ _ _ _ _ _ K1), (jev_name _ _ _ _ _ _ _ _ _ _ _ K2), !jname_rank in HO. exact HO.
Qed.
Print Assumptions C84_jar_partial.
(** The headings as shown, for a closed case. *)
Definition shown (m : res change) (sub : nat) : res (list str) :=
  c <- m ;; mapM get_description (match sub with O => parts_of c | S i => match nth_error (parts_of c) i with Some j => parts_of j | None => [] end end).
Definition kinds_left : archive := jar_of (mf_text "ann") class_bytes [P_Zip.zfile (lit "old.txt") [7]; P_Zip.zfile (lit "a.bin") [8]; P_Zip.zfile (lit "Old.class") class_bytes].
Definition kinds_right : archive := jar_of (mf_text "bob") class_bytes2 [P_Zip.zfile (lit "META-INF/K.RSA") [1]; P_Zip.zfile (lit "a.bin") [9]; P_Zip.zfile (lit "new.txt") [7]].
Example C84_jar_ex : shown (check (jar_change no_fmt (fun s => s) no_fmt P_Zip.no_text (fun s => s) ascii_up (Ok kinds_left) (Ok kinds_right))) 2 =
  Ok [lit "Jar Manifest has changed: META-INF/MANIFEST.MF"; lit "Jar Signature Block File Added: META-INF/K.RSA"; lit "Jar Generic File has changed: a.bin";
      lit "Jar Content Added: new.txt"; lit "Jar Content Removed: old.txt"; lit "Jar Content is unchanged: d/r.txt";
      lit "Java Class Removed: Old.class"; lit "Java Class has changed: A.class"] /\
  Forall sound (a_entries kinds_left) /\ Forall sound (a_entries kinds_right).
Proof. split; [vm_compute; reflexivity|]. split; apply soundb_sound; vm_compute; reflexivity. Qed.

(** ** Distributions *)
Lemma dist_kind_fun sh e n k k' : dist_kind sh e n k -> dist_kind sh e n k' -> k = k'.
Proof.
  unfold dist_kind. destruct sh; [congruence|]. assert (HU := ends_unique n). intros H H'.
  destruct e, k, k'; try reflexivity; try contradiction; cbn [is_kind] in H, H'; first [exact (HU _ _ H H')|exfalso; exact (H _ H')|exfalso; exact (H' _ H)|exfalso; tauto].
Qed.
Section Dist.
Variable fmt : pyval -> str.
Variable reprs : str -> str.
Variable ffmt : pyval -> str.
Variable text : bytes -> res str.
Variable order : list str -> list str.
Variable up : Z -> str.
Variable unzip : bytes -> jar.
Variables l r : node.
Notation dev := (dist_event fmt reprs ffmt text order up unzip l r).

Definition dname (e : event) (k : kind) : str :=
  match k, e with
  | KClass, RIGHT => lit "DistClassAdded" | KClass, LEFT => lit "DistClassRemoved" | KClass, _ => lit "DistClassChange"
  | KJar, RIGHT => lit "DistJarAdded" | KJar, LEFT => lit "DistJarRemoved" | KJar, _ => lit "DistJarChange"
  | KText, _ => lit "DistTextChange" | KManifest, _ => lit "DistManifestChange"
  | KData, RIGHT => lit "DistContentAdded" | KData, LEFT => lit "DistContentRemoved" | KData, _ => lit "DistContentChange"
  end.
Lemma dname_rank e k : rank dist_types (dname e k) = dist_position e k.
Proof. destruct k, e; vm_compute; reflexivity. Qed.
Lemma ends_tests n : exists k, is_kind n k /\
  fnmatches n JAR_PATTERNS = (match k with KJar => true | _ => false end) /\ fnmatches n [lit "*.class"] = (match k with KClass => true | _ => false end) /\
  fnmatches n TEXT_PATTERNS = (match k with KText => true | _ => false end) /\ fnmatches n [lit "*/MANIFEST.MF"] = (match k with KManifest => true | _ => false end).
Proof.
  assert (HU := ends_unique n). assert (H1 := is_jar_iff n). assert (H2 := is_class_iff n). assert (H3 := is_text_iff n). assert (H4 := is_manifest_iff n).
  assert (G : forall b k, (b = true <-> ends_in n k) -> forall k', ends_in n k' -> k' <> k -> b = false).
  { intros b k Hb k' Hk' Hn. destruct b; [|reflexivity]. exfalso. apply Hn. symmetry. apply HU; [now apply Hb|exact Hk']. }
  destruct (fnmatches n JAR_PATTERNS) eqn:E1.
  { exists KJar. assert (X : ends_in n KJar) by now apply H1. cbn [is_kind]. repeat split; [exact X|eapply G; [eassumption|exact X|discriminate]..]. }
  destruct (fnmatches n [lit "*.class"]) eqn:E2.
  { exists KClass. assert (X : ends_in n KClass) by now apply H2. cbn [is_kind]. repeat split; [exact X|eapply G; [eassumption|exact X|discriminate]..]. }
  destruct (fnmatches n TEXT_PATTERNS) eqn:E3.
  { exists KText. assert (X : ends_in n KText) by now apply H3. cbn [is_kind]. repeat split; [exact X|eapply G; [eassumption|exact X|discriminate]..]. }
  destruct (fnmatches n [lit "*/MANIFEST.MF"]) eqn:E4.
  { exists KManifest. assert (X : ends_in n KManifest) by now apply H4. cbn [is_kind]. repeat split; exact X. }
  exists KData. repeat split; try reflexivity. intros k. cbn [is_kind]. destruct k; intro X.
  - apply H1 in X. discriminate. - apply H2 in X. discriminate. - apply H3 in X. discriminate. - apply H4 in X. discriminate. - destruct X as (p & e & [] & _).
Qed.
Lemma dist_shaped sh e n : exists k, dist_kind sh e n k /\ k_name (k_of (dev sh (e, n))) = dname e k /\
  forall c, k_of c = k_of (dev sh (e, n)) -> listed (dist_base k) e n c.
Proof.
  destruct (ends_tests n) as (k0 & HK & T1 & T2 & T3 & T4).
  assert (HX : exists k, dist_kind sh e n k /\ (k = (if sh then KData else match e with LEFT | RIGHT => match k0 with KJar => KJar | KClass => KClass | _ => KData end | _ => k0 end))).
  { eexists. split; [|reflexivity]. unfold dist_kind. destruct sh; [reflexivity|].
    assert (HD : k0 <> KJar -> k0 <> KClass -> ~ ends_in n KJar /\ ~ ends_in n KClass).
    { intros N1 N2. rewrite <- is_jar_iff, <- is_class_iff, T1, T2. destruct k0; split; congruence. }
    destruct e; [| |exact HK|exact HK]; destruct k0; try exact HK; apply HD; discriminate. }
  destruct HX as (k & HX & Ek). exists k. split; [exact HX|]. unfold dist_event. rewrite T1, T2, T3, T4. subst k. clear HX HK T1 T2 T3 T4.
  destruct sh, e, k0; cbn [negb andb]; unfold dist_removed, dist_added, dist_text, dist_node, jar_node; cbv zeta; cbn [k_of k_name dname]; (split; [reflexivity|]);
    intros [kk ch d cs im] Hk; cbn [k_of] in Hk; subst kk; unfold listed; cbn [k_of k_name k_entry k_removal k_addition k_always k_text is_change get_description orb heading dist_base];
    (split; [reflexivity|]); (split; [intuition discriminate|]); (split; [intuition discriminate|]); (split; [intuition discriminate|]); unfold heading; rewrite <- ?app_assoc; try reflexivity; destruct ch; reflexivity.
Qed.
End Dist.

(** After the check, every file of the distributions, each once, is listed under
    its heading, in the documented order of kinds. *)
Theorem C84_dist_partial : forall fmt reprs ffmt text order up unzip l r sh c, plain l -> plain r -> Dir_Spec.comparable l r ->
  check (dist_change fmt reprs ffmt text order up unzip l r sh) = Ok c ->
  exists K rows, NoDup (map snd K) /\ (forall e p, In (e, p) K <-> dclass l r e p) /\ Permutation rows (map written K) /\
    Forall2 (fun en k => exists kd, dist_kind sh (fst en) (snd en) kd /\ listed (dist_base kd) (fst en) (snd en) k) rows (parts_of c) /\
    in_order (fun en p => exists kd, dist_kind sh (fst en) (snd en) kd /\ p = dist_position (fst en) kd) rows.
Proof.
  intros fmt reprs ffmt text order up unzip l r sh c Pl Pr HC H. destruct (gen_spec l Pl [] r Pr HC) as (K & E & N & HK & _).
  unfold dist_change, super in H. apply check_kids in H; [|reflexivity..]. unfold dist_events, Dir_Model.dir_compare in H. rewrite E in H.
  set (ty := fun ev => k_name (k_of (dist_event fmt reprs ffmt text order up unzip l r sh ev))) in *.
  destruct (iterate_spec ty (map written K) dist_types) as (P & _ & HO & _).
  exists K, (iterate_by_type ty (map written K) dist_types). split; [exact N|]. split; [exact HK|]. split; [exact P|]. split.
  - apply Forall2_map_l in H. revert H. apply Forall2_impl'. intros [e n] k Hk. destruct (dist_shaped fmt reprs ffmt text order up unzip l r sh e n) as (kd & D1 & _ & D2). exists kd. split; [exact D1|]. apply D2. now apply check_k.
  - intros i j [e n] [e' n'] p q Hij Ha Hb (k & K1 & ->) (k' & K2 & ->). cbn [fst snd] in *. specialize (HO i j _ _ Hij Ha Hb). unfold ty in HO.
    destruct (dist_shaped fmt reprs ffmt text order up unzip l r sh e n) as (kd & D1 & D2 & _). destruct (dist_shaped fmt reprs ffmt text order up unzip l r sh e' n') as (kd' & D1' & D2' & _).
    rewrite (dist_kind_fun _ _ _ _ _ K1 D1), (dist_kind_fun _ _ _ _ _ K2 D1'). rewrite D2, D2', !dname_rank in HO. exact HO.
Qed.
Print Assumptions C84_dist_partial.
Definition kinds_dist : node := Dir false [(lit "README.txt", f_ (lit "two") 2); (lit "A.class", f_ class_bytes2 2); (lit "new.jar", f_ [1] 2);
  (lit "META-INF", Dir false [(lit "MANIFEST.MF", f_ (mf_text "bob") 2); (lit "lib.jar", f_ [2] 2)])].
Example C84_dist_ex : shown (check (dist_change no_fmt (fun s => s) no_fmt ascii_text (fun s => s) ascii_up some_jars d_one kinds_dist false)) 0 =
  Ok [lit "Distributed Java Class has changed: ./A.class"; lit "Distributed JAR Added: new.jar"; lit "Distributed JAR has changed: META-INF/lib.jar";
      lit "Distributed Text has changed: ./README.txt"; lit "Distributed Manifest has changed: META-INF/MANIFEST.MF"; lit "Distributed Content Removed: data.bin"] /\
  plain d_one /\ plain kinds_dist /\ Dir_Spec.comparable d_one kinds_dist.
Proof. split; [vm_compute; reflexivity|]. split; [|split]; [apply (plainb_plain 4)|apply (plainb_plain 4)|apply (comparableb_ok 4)]; vm_compute; reflexivity. Qed.

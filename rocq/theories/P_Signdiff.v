(** Property C115: comparing a jar with its signed copy. *)
From Verif Require Import Base Pack_Model ConstPool_Model Manifest_Model Manifest_Spec Manifest_Proofs Manifest_RT Manifest_Canon
  Sign_Model Sign_Spec Sign_Proofs Change_Model Classdiff_Model Jardiff_Model Distdiff_Model Distdiff_Spec Distdiff_Proofs Distdiff_Dist
  Zip_Spec Signdiff_Spec Signdiff_Proofs P_ClassFile P_Classdiff P_Distdiff.
From Verif Require Zip_Model Jardiff_Spec Dir_Spec P_Zip P_Jardiff P_Sign.
From Coq Require Import Permutation.
Import Dir_Spec (file_at, data_at, plain).
Import P_Jardiff (class_bytes).
Import P_Sign (up0, hash0, make0, up0_ok, hash0_text, ascii_name).

(** ** Example data: a jar with a class and a manifest, and its signed copy *)
Definition mf_pre : bytes := lit "Manifest-Version: 1.0" ++ [13; 10] ++ lit "Built-By: ann" ++ [13; 10; 13; 10].
Definition pre : zip := [(lit "META-INF/MANIFEST.MF", mf_pre); (lit "A.class", class_bytes)].
Definition mf_vouched : bytes := mf_pre ++ lit "Name: A.class" ++ [13; 10] ++ lit "SHA-256-Digest: " ++ hash0 (lit "SHA-256") class_bytes ++ [13; 10; 13; 10].
Definition pre2 : zip := [(lit "META-INF/MANIFEST.MF", mf_vouched); (lit "A.class", class_bytes)].
Definition sign0 (z : zip) : zip := match sign up0 hash0 make0 (lit "RSA") z (lit "KEY") (lit "SHA-256") with Ok z' => z' | Err _ => [] end.
Definition post : zip := Eval vm_compute in sign0 pre.
Definition post2 : zip := Eval vm_compute in sign0 pre2.
Definition arch (z : zip) : Zip_Model.archive := Zip_Model.mka Zip_Model.Zip true (map (fun e => P_Zip.zfile (fst e) (snd e)) z).
Lemma arch_of z : ~ In [] (map fst z) -> archive_of z (arch z).
Proof.
  intro H. split; [reflexivity|]. split; [reflexivity|]. cbn [Zip_Model.a_entries arch]. split.
  - apply Forall_map. apply Forall_forall. intros e He. split; [|split; reflexivity]. cbn [Zip_Model.e_name P_Zip.zfile].
    intro E. apply H. rewrite <- E. now apply in_map.
  - rewrite map_map. cbn [Zip_Model.e_name Zip_Model.e_data P_Zip.zfile]. rewrite <- (map_id z) at 2. apply map_ext. intros [n d]. reflexivity.
Qed.
Definition mfp : manifest := Eval vm_compute in match man_parse (new_manifest None) mf_pre with Ok m => m | Err _ => new_manifest None end.
Definition mfv : manifest := Eval vm_compute in match man_parse (new_manifest None) mf_vouched with Ok m => m | Err _ => new_manifest None end.
Lemma zip_bytesb z : forallb (fun e => forallb (fun x => (0 <=? x) && (x <? 256)) (snd e)) z = true -> zip_bytes z.
Proof.
  intro HF. apply Forall_forall. intros e He. apply Forall_forall. intros x Hx.
  rewrite forallb_forall in HF. specialize (HF e He). rewrite forallb_forall in HF. specialize (HF x Hx). cbv beta in HF. lia.
Qed.
Lemma item_okb k v : key_ok k = true -> val_ok v = true -> ascii v = true -> ascii k = true -> item_ok (k, v).
Proof. intros H1 H2 H3 H4. split; [exact H1|]. split; [exact H2|]. now apply ascii_no_straddle. Qed.
Lemma manifest_only (z : zip) : forallb (fun f => negb (seqb (uppercase up0 f) (lit "META-INF/MANIFEST.MF")) || seqb f (lit "META-INF/MANIFEST.MF")) (map fst z) = true ->
  forall f, In f (map fst z) -> uppercase up0 f = lit "META-INF/MANIFEST.MF" -> f = lit "META-INF/MANIFEST.MF".
Proof.
  intros H f Hf E. rewrite forallb_forall in H. specialize (H f Hf). apply orb_true_iff in H as [H|H]; [|now apply seqb_eq].
  rewrite E, seqb_refl in H. discriminate H.
Qed.
Lemma pre_signable : signable up0 pre mfp.
Proof.
  split; [apply zip_bytesb; vm_compute; reflexivity|]. split.
  { exists mf_pre. split; [apply zread_holds; vm_compute; reflexivity|vm_compute; reflexivity]. }
  split; [|split; [|apply manifest_only; vm_compute; reflexivity]].
  - split; [exists (lit "1.0")|split; [apply NoDup_nil|apply Forall_nil]]. split; [eexists; reflexivity|]. split.
    + apply distinctb_ok. vm_compute. reflexivity.
    + repeat (apply Forall_cons; [apply item_okb; vm_compute; reflexivity|]). apply Forall_nil.
  - unfold pre. cbn [map fst]. repeat (apply Forall_cons; [right; apply ascii_name; vm_compute; reflexivity|]). apply Forall_nil.
Qed.
Lemma pre2_signable : signable up0 pre2 mfv.
Proof.
  split; [apply zip_bytesb; vm_compute; reflexivity|]. split.
  { exists mf_vouched. split; [apply zread_holds; vm_compute; reflexivity|vm_compute; reflexivity]. }
  split; [|split; [|apply manifest_only; vm_compute; reflexivity]].
  - split; [exists (lit "1.0")|split; [apply distinctb_ok; vm_compute; reflexivity|]].
    + split; [eexists; reflexivity|]. split.
      * apply distinctb_ok. vm_compute. reflexivity.
      * repeat (apply Forall_cons; [apply item_okb; vm_compute; reflexivity|]). apply Forall_nil.
    + apply Forall_cons; [|apply Forall_nil]. split; [eexists; reflexivity|]. split.
      * apply distinctb_ok. vm_compute. reflexivity.
      * repeat (apply Forall_cons; [apply item_okb; vm_compute; reflexivity|]). apply Forall_nil.
  - unfold pre2. cbn [map fst]. repeat (apply Forall_cons; [right; apply ascii_name; vm_compute; reflexivity|]). apply Forall_nil.
Qed.

(** ** C115 *)
(** Signatures ignored, jardiff of a jar and its signed copy always ends, and
    reports no change exactly if the manifest or its sections are ignored, the
    manifest is ignored by name, or the manifest already vouched for each entry
    with this very digest (but for ignored attributes). *)
Theorem C115_jardiff : forall up hash make_block key_ext fmt reprs ffmt text order o z z' alias alg mf l r,
  upper_ok up -> hash_text hash -> (forall s, Permutation (order s) s) ->
  signable up z mf -> In key_ext [lit "RSA"; lit "DSA"; lit "EC"] -> ~ In 47 alias ->
  sign up hash make_block key_ext z alias alg = Ok z' -> archive_of z l -> archive_of z' r -> ignore_jar_signature o = true ->
  (jardiff fmt reprs ffmt text order up o (Ok l) (Ok r) = Ok 0 <->
   ignore_manifest o = true \/ ignore_manifest_subsections o = true \/ Jardiff_Spec.matched o (lit "META-INF/MANIFEST.MF") \/
   forall f b, holds z f b -> ~ sig_related (uppercase up f) -> section_settled hash o alg mf f b) /\
  (jardiff fmt reprs ffmt text order up o (Ok l) (Ok r) = Ok 0 \/ jardiff fmt reprs ffmt text order up o (Ok l) (Ok r) = Ok 1).
Proof.
  intros up hash mb ke fmt reprs ffmt text order o z z' alias alg mf l r Hup Ht Ho HZ HE HA HS HL HR HI.
  exact (sign_jardiff up Hup hash Ht mb ke fmt reprs ffmt text order Ho o z z' alias alg mf l r HZ HE HA HS HL HR HI).
Qed.
Print Assumptions C115_jardiff.

Definition diff0 (o : options) (l r : Zip_Model.archive) : res Z :=
  jardiff no_fmt (fun s => s) no_fmt P_Zip.no_text (fun s => s) up0 o (Ok l) (Ok r).
Example C115_jardiff_ex : signable up0 pre mfp /\ signable up0 pre2 mfv /\
  sign up0 hash0 make0 (lit "RSA") pre (lit "KEY") (lit "SHA-256") = Ok post /\
  sign up0 hash0 make0 (lit "RSA") pre2 (lit "KEY") (lit "SHA-256") = Ok post2 /\
  archive_of pre (arch pre) /\ archive_of post (arch post) /\ archive_of pre2 (arch pre2) /\ archive_of post2 (arch post2) /\
  diff0 (P_Jardiff.jar_opts [] true false true []) (arch pre) (arch post) = Ok 0 /\
  diff0 (P_Jardiff.jar_opts [] true true false []) (arch pre) (arch post) = Ok 0 /\
  diff0 (P_Jardiff.jar_opts [] true false false []) (arch pre) (arch post) = Ok 1 /\
  diff0 (P_Jardiff.jar_opts [] false false true []) (arch pre) (arch post) = Ok 1 /\
  diff0 (P_Jardiff.jar_opts [] true false false []) (arch pre2) (arch post2) = Ok 0.
Proof.
  split; [exact pre_signable|]. split; [exact pre2_signable|]. split; [vm_compute; reflexivity|]. split; [vm_compute; reflexivity|].
  split; [apply arch_of; vm_compute; intuition discriminate|]. split; [apply arch_of; vm_compute; intuition discriminate|].
  split; [apply arch_of; vm_compute; intuition discriminate|]. split; [apply arch_of; vm_compute; intuition discriminate|].
  vm_compute. auto 10.
Qed.

(** The help text of --ignore-jar-signature is "Ignore JAR signing changes"; with
    this option alone, a jar that was only signed is reported as changed. *)
Theorem C115_refuted : exists up hash make_block z z' mf l r o, upper_ok up /\ hash_text hash /\ signable up z mf /\
  sign up hash make_block (lit "RSA") z (lit "KEY") (lit "SHA-256") = Ok z' /\ archive_of z l /\ archive_of z' r /\
  ignore_jar_signature o = true /\
  jardiff no_fmt (fun s => s) no_fmt P_Zip.no_text (fun s => s) up o (Ok l) (Ok r) = Ok 1.
Proof.
  exists up0, hash0, make0, pre, post, mfp, (arch pre), (arch post), (P_Jardiff.jar_opts [] true false false []).
  split; [exact up0_ok|]. split; [exact hash0_text|]. split; [exact pre_signable|]. split; [vm_compute; reflexivity|].
  split; [apply arch_of; vm_compute; intuition discriminate|]. split; [apply arch_of; vm_compute; intuition discriminate|].
  split; [reflexivity|]. vm_compute. reflexivity.
Qed.
Print Assumptions C115_refuted.

(** A distribution some of whose jars were signed, the other files unchanged:
    distdiff reports no change if signatures and the sections of manifests are
    ignored. *)
Theorem C115_distdiff : forall up hash make_block key_ext fmt reprs ffmt text order unzip o shallow l r,
  upper_ok up -> hash_text hash -> (forall s, Permutation (order s) s) -> In key_ext [lit "RSA"; lit "DSA"; lit "EC"] ->
  plain l -> plain r -> names_ok l -> names_ok r -> Dir_Spec.comparable l r -> (forall p, file_at l p <-> file_at r p) ->
  ignore_jar_signature o = true -> ignore_manifest o = true \/ ignore_manifest_subsections o = true ->
  (forall p d d', data_at l p d -> data_at r p d' ->
    (d = d' /\ (is_kind (name_of p) KText -> exists t, text d = Ok t)) \/
    (is_kind (name_of p) KJar /\ exists a a' z z' alias alg mf, unzip d = Ok a /\ unzip d' = Ok a' /\ archive_of z a /\ archive_of z' a' /\
       signable up z mf /\ ~ In 47 alias /\ sign up hash make_block key_ext z alias alg = Ok z')) ->
  distdiff fmt reprs ffmt text order up unzip l r o shallow = Ok 0.
Proof.
  intros up hash mb ke fmt reprs ffmt text order unzip o sh l r Hup Ht Ho HE Pl Pr Nl Nr HC HF HI HM HD. apply distdiff_zero; auto.
  split; [intros p A B; now apply HF in A|]. split; [intros p A B; now apply HF in A|]. right. intros p d d' A B.
  destruct (HD p d d' A B) as [[-> HT]|(HK & a & a' & z & z' & alias & alg & mf & U1 & U2 & A1 & A2 & HZ & HA & HS)].
  - split; [congruence|]. intros _. exact HT.
  - split; [|intros _ HT; discriminate (kinds_clash _ _ _ HK HT)]. intros _. apply facc_jar with (s := 0); [exact HK| |now right].
    rewrite U1, U2. apply (C115_jardiff up hash mb ke fmt reprs ffmt text order o z z' alias alg mf a a' Hup Ht Ho HZ HE HA HS A1 A2 HI).
    destruct HM; auto.
Qed.
Print Assumptions C115_distdiff.

Definition unzip0 (d : bytes) : jar := match d with [1] => Ok (arch pre) | [2] => Ok (arch post) | _ => Err FileNotFoundError end.
Definition dist0 (b : Z) : Zip_Model.node := Zip_Model.Dir false [(lit "README.txt", Zip_Model.File false (lit "one") 1); (lit "lib.jar", Zip_Model.File false [b] b)].
Definition ddiff0 (o : options) : res Z := distdiff no_fmt (fun s => s) no_fmt ascii_text (fun s => s) up0 unzip0 (dist0 1) (dist0 2) o false.
Example C115_distdiff_ex : ddiff0 (P_Jardiff.jar_opts [] true false false []) = Ok 1 /\
  ddiff0 (P_Jardiff.jar_opts [] true false true []) = Ok 0.
Proof.
  split; [vm_compute; reflexivity|].
  refine (C115_distdiff up0 hash0 make0 (lit "RSA") no_fmt (fun s => s) no_fmt ascii_text (fun s => s) unzip0 (P_Jardiff.jar_opts [] true false true []) false (dist0 1) (dist0 2)
    up0_ok hash0_text (fun s => Permutation_refl s) (or_introl eq_refl) _ _ _ _ _ _ eq_refl (or_intror eq_refl) _).
  - apply (plainb_plain 4). vm_compute. reflexivity.
  - apply (plainb_plain 4). vm_compute. reflexivity.
  - apply (names_okb_ok 4). vm_compute. reflexivity.
  - apply (names_okb_ok 4). vm_compute. reflexivity.
  - apply (comparableb_ok 4). vm_compute. reflexivity.
  - assert (G : forall b b' p, file_at (dist0 b) p -> file_at (dist0 b') p).
    { intros b b' p (m & Hf & Hm). inversion Hf as [|? ? ? ? ? ? Hin Hf']; subst; [discriminate|]. destruct Hin as [[= <- <-]|[[= <- <-]|[]]];
        inversion Hf' as [|? ? ? ? ? ? Hin' ?]; subst.
      - eexists. split; [eapply Dir_Spec.found_down; [left; reflexivity|apply Dir_Spec.found_here]|reflexivity].
      - eexists. split; [eapply Dir_Spec.found_down; [right; left; reflexivity|apply Dir_Spec.found_here]|reflexivity]. }
    intro p. split; apply G.
  - intros p d d' (h1 & t1 & H1) (h2 & t2 & H2). inversion H1 as [|? ? ? ? ? ? Hin H1']; subst. destruct Hin as [[= <- <-]|[[= <- <-]|[]]].
    + left. inversion H1'; subst. inversion H2 as [|? ? ? ? ? ? Hin H2']; subst. destruct Hin as [[= <-]|[[=]|[]]]. inversion H2'; subst.
      split; [reflexivity|]. intros _. eexists. vm_compute. reflexivity.
    + right. inversion H1'; subst. inversion H2 as [|? ? ? ? ? ? Hin H2']; subst. destruct Hin as [[=]|[[= <-]|[]]]. inversion H2'; subst.
      split; [exists (lit "./lib"), (lit ".jar"); split; [vm_compute; auto 10|reflexivity]|].
      exists (arch pre), (arch post), pre, post, (lit "KEY"), (lit "SHA-256"), mfp. split; [reflexivity|]. split; [reflexivity|].
      split; [apply arch_of; vm_compute; intuition discriminate|]. split; [apply arch_of; vm_compute; intuition discriminate|].
      split; [exact pre_signable|]. split; [vm_compute; intuition discriminate|]. vm_compute. reflexivity.
Qed.

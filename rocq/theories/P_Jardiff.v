(** Properties C54, C68-C70: comparing jars and manifests, reports of the
    comparison. *)
From Verif Require Import Base Pack_Model ConstPool_Model ConstPool_Spec ClassFile_Model ClassFile_Spec Manifest_Model Sign_Spec
  Change_Model Change_Spec Change_Proofs Change_Report Classdiff_Model Classdiff_Spec Classdiff_Class Classdiff_Passes Change_Tame
  Zip_Spec Zip_Proofs Jardiff_Model Jardiff_Spec Jardiff_Proofs Jardiff_Jar Jardiff_Report P_ClassFile P_Classdiff.
From Verif Require Zip_Model Sign_Model P_Zip.
From Coq Require Import Permutation.
Import Zip_Model (archive, mka, Zip, Exploded, a_kind, a_open, a_entries, LEFT, RIGHT, SAME, DIFF, CHUNKSIZE, compare_zips, exploded, node, Dir, File).

(** ** Example data *)
Definition crlf := [13; 10].
Definition mf_text (by_ : String.string) : bytes := lit "Manifest-Version: 1.0" ++ crlf ++ lit "Built-By: " ++ lit by_ ++ crlf ++ crlf ++ lit "Name: A.class" ++ crlf ++ lit "X: 1" ++ crlf ++ crlf.
Definition class_bytes : bytes := enc_class ex_class.
(** The same class, of another class file version *)
Definition class_bytes2 : bytes := enc_class (mkjclass 3 46 ex_pool 33 1 3 [1; 3] [ex_field] [ex_method] (jc_attrs ex_class)).
Definition jar_of (mf : bytes) (cl : bytes) (extra : list Zip_Model.zentry) : archive :=
  mka Zip true (P_Zip.zfile (lit "META-INF/MANIFEST.MF") mf :: P_Zip.zdir (lit "d/") :: P_Zip.zfile (lit "A.class") cl :: P_Zip.zfile (lit "d/r.txt") [1; 2] :: extra).
Definition j_one := jar_of (mf_text "ann") class_bytes [].
Definition j_by := jar_of (mf_text "bob") class_bytes [].
Definition j_class := jar_of (mf_text "ann") class_bytes2 [].
Definition j_sig := jar_of (mf_text "ann") class_bytes [P_Zip.zfile (lit "META-INF/K.SF") (lit "Signature-Version: 1.0" ++ crlf ++ crlf); P_Zip.zfile (lit "META-INF/K.RSA") [1]].
Definition jar_opts (entries : list str) (sig man subs : bool) (keys : list str) : options :=
  mkopts false false false false false false false false false false false false entries sig man subs keys [] false.
Definition ascii_up (c : Z) : str := [if (97 <=? c) && (c <=? 122) then c - 32 else c].
Definition run_jardiff (o : options) (l r : archive) : res Z :=
  jardiff no_fmt (fun s => s) no_fmt P_Zip.no_text (fun s => s) ascii_up o (Ok l) (Ok r).
Definition soundb (e : Zip_Model.zentry) : bool :=
  negb (seqb (Zip_Model.e_name e) []) && (Zip_Model.e_size e =? Z.of_nat (length (Zip_Model.e_data e))) && (Zip_Model.e_crc e =? Zip_Model.crc32 (Zip_Model.e_data e) 0).
Lemma soundb_sound l : forallb soundb l = true -> Forall sound l.
Proof.
  intro H. apply Forall_forall. intros e He. rewrite forallb_forall in H. specialize (H e He). unfold soundb in H. apply andb_true_iff in H as [H1 H3]. apply andb_true_iff in H1 as [H1 H2].
  split; [|split]; [|now apply Z.eqb_eq in H2|now apply Z.eqb_eq in H3]. intro E. rewrite E in H1. discriminate.
Qed.
Lemma sound_jars : Forall sound (a_entries j_one) /\ Forall sound (a_entries j_by) /\ Forall sound (a_entries j_class) /\ Forall sound (a_entries j_sig).
Proof. repeat split; apply soundb_sound; vm_compute; reflexivity. Qed.

(** ** C54 *)

(** Two jars with the same entries and the same content in each (a jar and any
    copy of it, whatever the order and compression of the entries): no change is
    found and jardiff exits with 0, under all options. *)
Theorem C54_same_content : forall fmt reprs ffmt text order up o l r, (forall s, Permutation (order s) s) ->
  a_kind l = Zip -> a_kind r = Zip -> a_open l = true -> a_open r = true -> Forall sound (a_entries l) -> Forall sound (a_entries r) ->
  (forall n, In n (names l) <-> In n (names r)) -> (forall n d d', ~ directory n -> content l n d -> content r n d' -> d = d') ->
  (exists c, check (jar_change fmt reprs ffmt text order up (Ok l) (Ok r)) = Ok c /\ is_change c = false) /\
  jardiff fmt reprs ffmt text order up o (Ok l) (Ok r) = Ok 0.
Proof.
  intros fmt reprs ffmt text order up o l r P K1 K2 O1 O2 S1 S2 HN HD. pose proof (same_content_quiet fmt reprs ffmt text order up P l r K1 K2 O1 O2 S1 S2 HN HD) as HQ.
  split; [exact HQ|]. destruct (quiet_exit o _ HQ) as (c & H1 & _ & H3). unfold jardiff. rewrite H1. exact H3.
Qed.
Print Assumptions C54_same_content.
Theorem C54_self : forall fmt reprs ffmt text order up o l, (forall s, Permutation (order s) s) ->
  a_kind l = Zip -> a_open l = true -> Forall sound (a_entries l) ->
  (exists c, check (jar_change fmt reprs ffmt text order up (Ok l) (Ok l)) = Ok c /\ is_change c = false) /\
  jardiff fmt reprs ffmt text order up o (Ok l) (Ok l) = Ok 0.
Proof.
  intros fmt reprs ffmt text order up o l P K1 O1 S1. apply C54_same_content; auto; [reflexivity|]. intros n d d' _ H1 H2. exact (content_fun _ _ _ _ H1 H2).
Qed.
Print Assumptions C54_self.

(** If no change is found, the jars have the same entry names, and every entry
    has the same bytes; or is a manifest or signature file with equal attributes
    and sections; or is a class file where class comparison finds no change. *)
Theorem C54_unchanged : forall fmt reprs ffmt text order up l r, (forall s, Permutation (order s) s) ->
  a_kind l = Zip -> a_kind r = Zip -> a_open l = true -> a_open r = true -> Forall sound (a_entries l) -> Forall sound (a_entries r) ->
  (exists c, check (jar_change fmt reprs ffmt text order up (Ok l) (Ok r)) = Ok c /\ is_change c = false) ->
  (forall n, In n (names l) <-> In n (names r)) /\
  forall n d d', ~ directory n -> content l n d -> content r n d' ->
    d = d' \/
    (exists a b, (the_manifest n \/ sig_file up n) /\ parses d a /\ parses d' b /\ manifest_same a b) \/
    (exists a b, ~ the_manifest n /\ ~ signature up n /\ class_file n /\ unpack_class d MNone = Ok a /\ unpack_class d' MNone = Ok b /\
       (distinct_ids fmt (c_pool a) (c_fields a) -> distinct_ids fmt (c_pool a) (c_methods a) ->
        same_class fmt tool_resolved a b /\ same_pool (c_pool a) (c_pool b))).
Proof.
  intros fmt reprs ffmt text order up l r P K1 K2 O1 O2 S1 S2 HQ. destruct (jar_quiet fmt reprs ffmt text order up P l r K1 K2 O1 O2 S1 S2 HQ) as [H1 H2]. split; [exact H1|].
  intros n d d' H0 Hl Hr. destruct (H2 n d d' H0 Hl Hr) as [H|[H|(a & b & A1 & A2 & A3 & A4 & A5 & H)]]; [now left|now right; left|]. right. right. exists a, b. repeat (split; [assumption|]).
  intros D1 D2. now apply (class_quiet_sound fmt reprs ffmt).
Qed.
Print Assumptions C54_unchanged.

(** Exactly when jardiff exits with 0: what may differ is listed by [jars_ok]
    (entries on one side only that the options ignore; acceptable differences of
    common entries). *)
Theorem C54_exit : forall fmt reprs ffmt text order up o l r, (forall s, Permutation (order s) s) ->
  a_kind l = Zip -> a_kind r = Zip -> a_open l = true -> a_open r = true -> Forall sound (a_entries l) -> Forall sound (a_entries r) ->
  (jardiff fmt reprs ffmt text order up o (Ok l) (Ok r) = Ok 0 <-> jars_ok fmt reprs ffmt up o l r) /\
  (forall s, jardiff fmt reprs ffmt text order up o (Ok l) (Ok r) = Ok s -> s = 0 \/ s = 1) /\
  ((exists s, jardiff fmt reprs ffmt text order up o (Ok l) (Ok r) = Ok s) <-> on_differing (comparable fmt reprs ffmt up o) l r).
Proof.
  intros fmt reprs ffmt text order up o l r P K1 K2 O1 O2 S1 S2. split; [|split].
  - now apply jardiff_zero.
  - intros s. now apply jardiff_status.
  - now apply jardiff_ends.
Qed.
Print Assumptions C54_exit.

Example C54_ex : run_jardiff strict j_one j_one = Ok 0 /\ run_jardiff strict j_one j_by = Ok 1 /\ run_jardiff strict j_one j_class = Ok 1 /\ run_jardiff strict j_one j_sig = Ok 1 /\
  run_jardiff (jar_opts [] false false false [lit "Built-By"]) j_one j_by = Ok 0 /\ run_jardiff (jar_opts [lit "*.class"] false false false []) j_one j_class = Ok 0 /\
  run_jardiff (jar_opts [] true false false []) j_one j_sig = Ok 0.
Proof. vm_compute. auto 10. Qed.

(** Directories in place of jars are allowed, and self-comparison of one with an
    undecodable file fails (C42_directory_refuted).  A class file, manifest or
    signature file that differs always makes the comparison raise. *)
Theorem C54_exploded_raises : forall fmt reprs ffmt text order up o a b evs n, a_kind a = Exploded \/ a_kind b = Exploded ->
  compare_zips text order CHUNKSIZE a b = (evs, None) -> In (DIFF, n) evs ->
  the_manifest n \/ sig_file up n \/ (class_file n /\ ~ signature up n) ->
  exists e, jardiff fmt reprs ffmt text order up o (Ok a) (Ok b) = Err e.
Proof. exact exploded_raises. Qed.
Print Assumptions C54_exploded_raises.
Definition tree_of (cl : bytes) : node := Dir false [(lit "A.class", File false cl 0)].
Theorem C54_exploded_refuted : exists l r : node, forall fmt reprs ffmt text order up o, (forall s, Permutation (order s) s) ->
  exists e, jardiff fmt reprs ffmt text order up o (Ok (exploded l)) (Ok (exploded r)) = Err e.
Proof.
  exists (tree_of class_bytes), (tree_of class_bytes2). intros fmt reprs ffmt text order up o P.
  set (L := tree_of class_bytes). set (R := tree_of class_bytes2).
  assert (NL : Zip_Model.namelist (exploded L) = Ok [lit "A.class"]) by (vm_compute; reflexivity).
  assert (NR : Zip_Model.namelist (exploded R) = Ok [lit "A.class"]) by (vm_compute; reflexivity).
  assert (HD : Zip_Model.different text CHUNKSIZE (exploded L) (exploded R) (lit "A.class") = Ok true) by (vm_compute; reflexivity).
  assert (HO : order (Zip_Model.nodup_names [lit "A.class"]) = [lit "A.class"]) by (apply Permutation_length_1_inv; symmetry; apply P).
  apply (exploded_raises fmt reprs ffmt text order up o (exploded L) (exploded R) [(DIFF, lit "A.class")] (lit "A.class")); [now left| |now left|].
  - unfold compare_zips. rewrite NL, NR, HO. change (Zip_Model.nodup_names [lit "A.class"]) with [lit "A.class"]. cbn [Zip_Model.compare_loop].
    change (smem (lit "A.class") [lit "A.class"]) with true. cbv iota. change (Zip_Model.last_slash (lit "A.class")) with (Ok false). cbv iota. rewrite HD. cbv zeta.
    change (Zip_Model.remove_name (lit "A.class") [lit "A.class"]) with (@nil str).
    assert (E0 : order [] = []) by (apply Permutation_nil; symmetry; apply P). rewrite E0. reflexivity.
  - right. right. split; [exists (lit "A"); reflexivity|]. intros [((x & E & _) & _)|(x & (E & _) & _)]; discriminate.
Qed.
Print Assumptions C54_exploded_refuted.
(** An entry that the options ignore must still be readable: an unparsable
    class makes jardiff raise. *)
Theorem C54_ignored_unparsable_refuted : exists o l r, Forall sound (a_entries l) /\ Forall sound (a_entries r) /\ a_kind l = Zip /\ a_kind r = Zip /\
  (forall n, In n (names l) \/ In n (names r) -> matched o n) /\ exists e, run_jardiff o l r = Err e.
Proof.
  exists (jar_opts [lit "*.class"] false false false []), (mka Zip true [P_Zip.zfile (lit "A.class") [1]]), (mka Zip true [P_Zip.zfile (lit "A.class") [2]]).
  split; [apply soundb_sound; reflexivity|]. split; [apply soundb_sound; reflexivity|]. split; [reflexivity|]. split; [reflexivity|]. split.
  - intros n H. assert (n = lit "A.class") as -> by (cbn in H; intuition). exists (lit "*.class"). split; [now left|]. split; [discriminate|apply Glob_Proofs.glob_iff; reflexivity].
  - eexists. vm_compute. reflexivity.
Qed.
Print Assumptions C54_ignored_unparsable_refuted.

(** ** C68 *)

(** ManifestChange(l, r): checking always completes; it is a change exactly if
    the main attributes (with their order) or the sections differ; and it is
    neither a change nor ignored exactly as the options say. *)
Theorem C68_changed : forall order l r, (forall s, Permutation (order s) s) ->
  exists c, check (manifest_change order l r) = Ok c /\ (is_change c = false <-> manifest_same l r).
Proof.
  intros order l r P. destruct (manifest_completes order P l r) as [c Hc]. exists c. split; [exact Hc|]. rewrite <- (manifest_quiet order P). unfold quiet. split; [intro H; now exists c|]. intros (c' & H1 & H2). congruence.
Qed.
Print Assumptions C68_changed.
Theorem C68_ignored : forall order o l r, (forall s, Permutation (order s) s) ->
  exists c b, check (manifest_change order l r) = Ok c /\ is_ignored o c = Ok b /\ (is_change c = false \/ b = true <-> manifest_ok o l r).
Proof.
  intros order o l r P. destruct (manifest_completes order P l r) as [c Hc]. assert (HT : tame (manifest_change order l r)).
  { unfold manifest_change. constructor; [|constructor|now apply parts_tame]. intros _. left. split; [reflexivity|discriminate]. }
  destruct (tame_checked o _ HT c Hc) as [b Hb]. exists c, b. split; [exact Hc|]. split; [exact Hb|]. rewrite <- (manifest_passes order P). unfold passes. split.
  - intro H. exists c. split; [exact Hc|]. destruct H as [H| ->]; auto.
  - intros (c' & H1 & H2). rewrite Hc in H1. injection H1 as <-. destruct H2 as [H2|H2]; [now left|right; congruence].
Qed.
Print Assumptions C68_ignored.
Definition man_of (main : section) (subs : dict section) : manifest := mkman (lit "Manifest-Version") main subs None.
Definition m_ann := man_of [(lit "Manifest-Version", lit "1.0"); (lit "Built-By", lit "ann"); (lit "X", lit "1")] [(lit "A", [(lit "Name", lit "A")])].
Definition m_bob := man_of [(lit "Manifest-Version", lit "1.0"); (lit "Built-By", lit "bob"); (lit "X", lit "1")] [(lit "B", [(lit "Name", lit "B")])].
Example C68_ex : manifest_ok (jar_opts [] false false true [lit "Built-By"]) m_ann m_bob /\ ~ manifest_same m_ann m_bob /\ ~ manifest_ok (jar_opts [] false false false [lit "Built-By"]) m_ann m_bob /\ ~ manifest_ok (jar_opts [] false false true []) m_ann m_bob.
Proof.
  assert (HK : only_ignored_keys (jar_opts [] false false true [lit "Built-By"]) (m_main m_ann) (m_main m_bob)) by (apply keys_own_iff; vm_compute; reflexivity).
  split; [|split; [|split]].
  - right. split; [right; exact HK|]. intro n. unfold m_ann, m_bob, man_of. cbn [m_subs dget]. destruct (seqb n (lit "A")); destruct (seqb n (lit "B")); cbn [ignore_manifest_subsections jar_opts]; auto.
  - intros [H _]. discriminate.
  - intros [H|[_ H]]; [discriminate|]. specialize (H (lit "A")). vm_compute in H. discriminate.
  - intros [H|[[H|[H _]] _]]; [discriminate|discriminate|]. apply H. reflexivity.
Qed.
(** Giving any key to ignore also ignores a change of the order of attributes. *)
Theorem C68_order_refuted : exists o l r, ignore_manifest_key o = [lit "Unrelated"] /\ ignore_manifest o = false /\ m_main l <> m_main r /\
  (forall k, dget (m_main l) k = dget (m_main r) k) /\ manifest_ok o l r /\ ~ manifest_ok (jar_opts [] false false false []) l r.
Proof.
  exists (jar_opts [] false false false [lit "Unrelated"]), (man_of [(lit "A", lit "1"); (lit "B", lit "2")] []), (man_of [(lit "B", lit "2"); (lit "A", lit "1")] []).
  split; [reflexivity|]. split; [reflexivity|]. split; [discriminate|]. split; [|split].
  - intro k. unfold man_of. cbn [m_main dget]. destruct (seqb_spec k (lit "A")) as [->|]; [reflexivity|]. destruct (seqb k (lit "B")); reflexivity.
  - right. split; [right; apply keys_own_iff; vm_compute; reflexivity|]. intro n. exact I.
  - intros [H|[[H|[H _]] _]]; [discriminate|discriminate|]. now apply H.
Qed.
Print Assumptions C68_order_refuted.
(** The keys are compared with case, though the help text says otherwise. *)
Theorem C68_case_refuted : exists key l r, (forall k, differs_in (m_main l) (m_main r) k -> uppercase ascii_up k = uppercase ascii_up key) /\ m_subs l = m_subs r /\
  ~ manifest_ok (jar_opts [] false false false [key]) l r.
Proof.
  exists (lit "built-by"), m_ann, (man_of (m_main m_bob) (m_subs m_ann)). split; [|split; [reflexivity|]].
  - intros k H. apply changed_keys_iff in H. vm_compute in H. destruct H as [<-|[<-|[]]]; reflexivity.
  - intros [H|[[H|H] _]]; [discriminate|discriminate|]. apply keys_own_iff in H. vm_compute in H. discriminate.
Qed.
Print Assumptions C68_case_refuted.

(** ** C69 *)
(** jardiff with --report, which squashes each class comparison once written,
    exits like jardiff without: the same status or the same exception. *)
Theorem C69_report_status : forall fmt reprs ffmt text order up o l r, (forall s, Permutation (order s) s) ->
  jardiff_report fmt reprs ffmt text order up o l r = jardiff fmt reprs ffmt text order up o l r.
Proof. intros. now apply report_same. Qed.
Print Assumptions C69_report_status.
Example C69_ex : jardiff_report no_fmt (fun s => s) no_fmt P_Zip.no_text (fun s => s) ascii_up strict (Ok j_one) (Ok j_class) = Ok 1 /\
  jardiff_report no_fmt (fun s => s) no_fmt P_Zip.no_text (fun s => s) ascii_up (jar_opts [lit "A*"] false false false []) (Ok j_one) (Ok j_class) = Ok 0.
Proof. vm_compute. auto. Qed.

(** ** C70 *)
(** After a completed comparison of classes whose names and members can be
    named the text report can be written. *)
Lemma class_text fmt reprs ffmt o l r c : check (class_change fmt reprs ffmt l r) = Ok c -> describable fmt l -> describable fmt r -> exists t, text_report o c = Ok t.
Proof.
  intros HC Hl Hr. destruct (ready_unfolds _ (ready_class fmt reprs ffmt l r) _ HC) as [t Ht]. eexists. unfold text_report. apply (report_spec o t 0%nat c Ht).
  refine (everywhere_tellable o c t _ Ht). refine (everywhere_check _ _ _ _ HC). now apply class_articulate.
Qed.
(** After a completed comparison of jars: if there is any entry to report on or
    unchanged parts are not asked for, and the classes compared are such. *)
Theorem C70_text_partial : forall fmt reprs ffmt text order up o l r c, check (jar_change fmt reprs ffmt text order up l r) = Ok c ->
  (show_unchanged o = true -> jar_entries fmt reprs ffmt text order up l r <> []) ->
  (forall x y, compared up l r x y -> describable fmt x /\ describable fmt y) ->
  exists t, text_report o c = Ok t.
Proof.
  intros fmt reprs ffmt text order up o l r c HC HE HX. refine (jar_text_report _ _ _ _ _ _ o l r c HC HE _). intros x y c' H H'. destruct (HX x y H) as [Dx Dy]. exact (class_text _ _ _ o x y c' H' Dx Dy).
Qed.
Print Assumptions C70_text_partial.
(** The JSON report: if those of the class comparisons can be. *)
Theorem C70_json_partial : forall fmt reprs ffmt text order up o l r c, check (jar_change fmt reprs ffmt text order up l r) = Ok c ->
  (show_unchanged o = true -> jar_entries fmt reprs ffmt text order up l r <> []) ->
  (forall x y c', compared up l r x y -> check (class_change fmt reprs ffmt x y) = Ok c' -> exists j, json_of o c' = Ok j) ->
  exists j, json_of o c = Ok j.
Proof. exact jar_json_report. Qed.
Print Assumptions C70_json_partial.
Definition verbose : options := mkopts true false false false false false false false false false false false [] false false false [] [] false.
Lemma describable_by c s : pretty_this c = Ok s -> forallb (fun m => match member_descriptor no_fmt (c_pool c) m with Ok _ => true | Err _ => false end) (c_fields c ++ c_methods c) = true -> describable no_fmt c.
Proof.
  intros H1 H2. split; [now exists s|]. intros m Hm. rewrite forallb_forall in H2. specialize (H2 m ltac:(apply in_or_app; tauto)). destruct (member_descriptor no_fmt (c_pool c) m) as [d|]; [now exists d|discriminate].
Qed.
Lemma zip_content a n d : content a n d -> exists e, In e (a_entries a) /\ Zip_Model.e_name e = n /\ Zip_Model.e_data e = d.
Proof. intros (l1 & e & l2 & E & H1 & H2 & _). exists e. split; [rewrite E; apply in_or_app; right; now left|auto]. Qed.
Lemma names_apart n m : class_file n -> (rev (lit ".class")) <> firstn 6 (rev m) -> n <> m.
Proof. intros [p ->] H <-. apply H. rewrite rev_app_distr, firstn_app. reflexivity. Qed.
Example C70_ex : jar_entries no_fmt (fun s => s) no_fmt P_Zip.no_text (fun s => s) ascii_up (Ok j_one) (Ok j_class) <> [] /\
  (forall x y, compared ascii_up (Ok j_one) (Ok j_class) x y -> describable no_fmt x /\ describable no_fmt y) /\
  exists c t, check (jar_change no_fmt (fun s => s) no_fmt P_Zip.no_text (fun s => s) ascii_up (Ok j_one) (Ok j_class)) = Ok c /\ text_report verbose c = Ok t.
Proof.
  assert (NE : jar_entries no_fmt (fun s => s) no_fmt P_Zip.no_text (fun s => s) ascii_up (Ok j_one) (Ok j_class) <> []) by (intro H; apply (f_equal (@length change)) in H; vm_compute in H; discriminate H).
  assert (DX : forall x y, compared ascii_up (Ok j_one) (Ok j_class) x y -> describable no_fmt x /\ describable no_fmt y).
  { intros x y (a & b & n & d & d' & Ea & Eb & Ca & Cb & CF & _ & _ & Ux & Uy). apply ok_inj in Ea. apply ok_inj in Eb. subst a b.
    assert (HD : d = class_bytes /\ d' = class_bytes2).
    { apply zip_content in Ca as (e & Ia & Na & Da). apply zip_content in Cb as (e' & Ib & Nb & Db). cbn [a_entries j_one j_class jar_of] in Ia, Ib.
      assert (A1 : n <> lit "META-INF/MANIFEST.MF") by (apply names_apart; [exact CF|vm_compute; discriminate]). assert (A2 : n <> lit "d/") by (apply names_apart; [exact CF|vm_compute; discriminate]). assert (A3 : n <> lit "d/r.txt") by (apply names_apart; [exact CF|vm_compute; discriminate]).
      split; [subst d; destruct Ia as [<-|[<-|[<-|[<-|[]]]]]; try reflexivity; now (destruct A1 + destruct A2 + destruct A3)|subst d'; destruct Ib as [<-|[<-|[<-|[<-|[]]]]]; try reflexivity; now (destruct A1 + destruct A2 + destruct A3)]. }
    destruct HD as [-> ->]. split.
    - assert (E : match unpack_class class_bytes MNone with Ok z => (match pretty_this z with Ok s => Some s | Err _ => None end, forallb (fun m => match member_descriptor no_fmt (c_pool z) m with Ok _ => true | Err _ => false end) (c_fields z ++ c_methods z)) | Err _ => (None, false) end = (Some (lit "A"), true)) by (vm_compute; reflexivity).
      rewrite Ux in E. destruct (pretty_this x) as [s|] eqn:EP; [|discriminate E]. injection E as -> E. exact (describable_by x _ EP E).
    - assert (E : match unpack_class class_bytes2 MNone with Ok z => (match pretty_this z with Ok s => Some s | Err _ => None end, forallb (fun m => match member_descriptor no_fmt (c_pool z) m with Ok _ => true | Err _ => false end) (c_fields z ++ c_methods z)) | Err _ => (None, false) end = (Some (lit "A"), true)) by (vm_compute; reflexivity).
      rewrite Uy in E. destruct (pretty_this y) as [s|] eqn:EP; [|discriminate E]. injection E as -> E. exact (describable_by y _ EP E). }
  split; [exact NE|]. split; [exact DX|].
  destruct (check (jar_change no_fmt (fun s => s) no_fmt P_Zip.no_text (fun s => s) ascii_up (Ok j_one) (Ok j_class))) as [c|] eqn:E.
  2: { exfalso. assert (H : match check (jar_change no_fmt (fun s => s) no_fmt P_Zip.no_text (fun s => s) ascii_up (Ok j_one) (Ok j_class)) with Ok _ => true | Err _ => false end = true) by (vm_compute; reflexivity). rewrite E in H. discriminate. }
  destruct (C70_text_partial no_fmt (fun s => s) no_fmt P_Zip.no_text (fun s => s) ascii_up verbose _ _ c E (fun _ => NE) DX) as (t & H). exists c, t. auto.
Qed.
(** A class with a field of an unknown type: the comparison succeeds, the text
    report does not, though the field is unchanged and not to be shown. *)
Definition odd_class (flags : Z) : classinfo :=
  mkclass (52, 0) (p_left ++ [KUtf8 (lit "Q")]) 33 2 15 [] [mkmember 1 3 16 [] false; mkmember flags 5 6 [] false] [] [].
Theorem C70_text_refuted : exists l r c, check (class_change no_fmt no_repr no_fmt l r) = Ok c /\ exit_status strict c = Ok 1 /\
  (exists e, text_report strict c = Err e) /\ exists j, json_of strict c = Ok j.
Proof. exists (odd_class 1), (odd_class 2). eexists. split; [vm_compute; reflexivity|]. split; [reflexivity|]. split; [eexists; vm_compute; reflexivity|eexists; vm_compute; reflexivity]. Qed.
Print Assumptions C70_text_refuted.
(** A method loading another MethodType constant: the comparison and the text
    report succeed, the JSON report does not. *)
Definition type_class (k : Z) : classinfo :=
  mkclass (52, 0) (p_left ++ [KRef 16 8; KRef 16 9]) 33 2 15 [] [] [mkmember 1 7 8 [(PStr (lit "Code"), code_attr [18; k; 87; 177] 15 11 [(0, 10); (2, 11)])] true] [].
Theorem C70_json_refuted : exists l r c, check (class_change no_fmt no_repr no_fmt l r) = Ok c /\ exit_status strict c = Ok 1 /\
  (exists t, text_report strict c = Ok t) /\ exists e, json_of strict c = Err e.
Proof. exists (type_class 16), (type_class 17). eexists. split; [vm_compute; reflexivity|]. split; [reflexivity|]. split; [eexists; vm_compute; reflexivity|eexists; vm_compute; reflexivity]. Qed.
Print Assumptions C70_json_refuted.
(** Otherwise, two jars without entries other than directories, the verbose
    report fails with an AssertionError. *)
Theorem C70_refuted : exists l c, a_kind l = Zip /\ a_open l = true /\ Forall sound (a_entries l) /\
  check (jar_change no_fmt (fun s => s) no_fmt P_Zip.no_text (fun s => s) ascii_up (Ok l) (Ok l)) = Ok c /\
  text_report verbose c = Err AssertionError /\ json_of verbose c = Err AssertionError.
Proof.
  exists (mka Zip true [P_Zip.zdir (lit "d/")]). eexists. split; [reflexivity|]. split; [reflexivity|]. split; [apply soundb_sound; reflexivity|]. split; [|split].
  - cbv. reflexivity.
  - reflexivity.
  - reflexivity.
Qed.
Print Assumptions C70_refuted.

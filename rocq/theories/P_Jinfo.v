(** Properties C103-C108: jarinfo, distinfo, is_zipstream. *)
From Verif Require Import Base Pack_Model ConstPool_Model ClassFile_Model ClassFile_Spec ClassFile_Proofs Manifest_Model Sign_Model Glob_Model Glob_Spec Zip_Model Zip_Spec Jardiff_Model Info_Model Info_Spec Info_Class Info_Jar Dir_Spec Distdiff_Spec Print_Model
  Jinfo_Model Jinfo_Spec Jinfo_Proofs P_Info.
From Coq Require Import Sorting.Sorted Permutation.

(** ** C103 *)
Definition section_if (b : bool) (title : str) (P : str -> Prop) (out : str) : Prop :=
  if b then exists l, lists P l /\ out = symbol_list title l else out = [].
(** jarinfo with --jar-provides and --jar-requires, or one of them: the sorted symbols of
    each jar; [deep] as in C57: with [deep] false for every jar, with [deep] true for jars
    whose classes name no array of arrays *)
Theorem C103_symbols_partial : forall deep fmt repr reprs ffmt text order percent open o files css, (forall l, Permutation (order l) l) ->
  Forall2 (fun f cs => exists a, open f = Ok a /\ jar_holds a cs /\ forall e c, In (e, c) cs -> flat_arrays deep c) files css ->
  jo_json o = false -> jo_zip o = false -> o_verbose (jo_class o) = false -> jo_manifest o = false -> jo_classes o = false ->
  exists outs, jarinfo_cli fmt repr reprs ffmt text order percent open o files = Ok (0, map OText outs) /\
  Forall2 (fun cs out => exists p r, out = p ++ r /\
    section_if (jo_provides o) (lit "jar provides:") (fun s => jar_gives cs s /\ ~ ignored_by (o_api_ignore (jo_class o)) s) p /\
    section_if (jo_requires o) (lit "jar requires:") (fun s => jar_wants deep cs s /\ ~ ignored_by (o_api_ignore (jo_class o)) s) r) css outs.
Proof.
  intros deep fmt repr reprs ffmt text order percent open o files css OP HF J1 J2 J3 J4 J5. unfold jarinfo_cli. cbv zeta. cbn [jar_options jo_json]. rewrite J1.
  assert (Q : exists outs, mapM (fun f => s <- print_jar fmt repr reprs ffmt text order percent (jar_options o) (open f) ;; Ok (OText s)) files = Ok (map OText outs) /\
    Forall2 (fun cs out => exists p r, out = p ++ r /\ section_if (jo_provides o) (lit "jar provides:") (fun s => jar_gives cs s /\ ~ ignored_by (o_api_ignore (jo_class o)) s) p /\
    section_if (jo_requires o) (lit "jar requires:") (fun s => jar_wants deep cs s /\ ~ ignored_by (o_api_ignore (jo_class o)) s) r) css outs).
  { induction HF as [|f cs files css (a & EO & JH & FL) HF IH]; [exists []; split; [reflexivity|constructor]|]. destruct IH as (outs & E & G).
    destruct (jar_provides_text fmt repr text order OP a cs (o_api_ignore (jo_class o)) JH) as (lp & EP & LP). destruct (jar_requires_text fmt repr text order OP a cs (o_api_ignore (jo_class o)) JH FL) as (lr & ER & LR).
    set (p := if jo_provides o then symbol_list (lit "jar provides:") lp else []). set (r := if jo_requires o then symbol_list (lit "jar requires:") lr else []).
    assert (E1 : print_jar fmt repr reprs ffmt text order percent (jar_options o) (open f) = Ok (p ++ r)).
    { unfold print_jar. cbn [jar_options jo_zip jo_manifest jo_provides jo_requires jo_classes jo_class cli_options o_api_ignore]. rewrite J2, J3, J4, J5, EO. cbn [orb wanted rbind]. subst p r. destruct (jo_provides o), (jo_requires o); cbn [wanted]; rewrite ?EP, ?ER; cbn [rbind app]; now rewrite ?app_nil_r. }
    exists ((p ++ r) :: outs). cbn [mapM map]. rewrite E1. cbn [rbind]. rewrite E. cbn [rbind]. split; [reflexivity|]. constructor; [|exact G]. exists p, r. split; [reflexivity|]. unfold section_if. subst p r. split.
    - destruct (jo_provides o); [now exists lp|reflexivity].
    - destruct (jo_requires o); [now exists lr|reflexivity]. }
  destruct Q as (outs & E & G). exists outs. rewrite E. cbn [rbind]. now split.
Qed.
Print Assumptions C103_symbols_partial.
Definition class_opts (ig : list str) : popts := mkpopts false 1 false false false false false true false false ig.
Definition open_ex (f : str) : jar := if seqb f (lit "two.jar") then Ok two_classes else Err ValueError.
Definition o_both := mkjopts false false true true false false (class_opts [lit "java.*"]).
Definition no_percent (a b : Z) : str := [].
Example C103_ex : Forall2 (fun f cs => exists a, open_ex f = Ok a /\ jar_holds a cs /\ forall e c, In (e, c) cs -> flat_arrays true c) [lit "two.jar"] [two_cs] /\
  jarinfo_cli nofmt nofmt (fun s => s) nofmt P_Zip.no_text id_order no_percent open_ex o_both [lit "two.jar"] =
    Ok (0, [OText (lines [lit "jar provides:"; lit "  pkg.A"; lit "  pkg.A.m():void"; lit "  pkg.B"; []; lit "jar requires:"; lit "  pkg.C"; []])]).
Proof.
  split; [|vm_compute; reflexivity]. constructor; [|constructor]. exists two_classes. split; [reflexivity|]. split; [exact two_holds|]. intros e c [H|[H|[]]]; injection H as <- <-; [apply class_a_wf|apply class_b_wf].
Qed.

(** ** C104 *)
(** --json: the same symbols, each with the classes concerned *)
Theorem C104_json_partial : forall deep fmt repr reprs ffmt text order percent open o f a cs, (forall l, Permutation (order l) l) ->
  open f = Ok a -> jar_holds a cs -> (forall e c, In (e, c) cs -> flat_arrays deep c) -> jo_json o = true -> jo_zip o = false -> o_verbose (jo_class o) = false ->
  exists d1 d2, NoDup (dkeys d1) /\ NoDup (dkeys d2) /\
    jarinfo_cli fmt repr reprs ffmt text order percent open o [f] = Ok (0, [OJson ((if jo_provides o then [(lit "jar.provides", VSymbols (lit "class.provides") d1)] else []) ++
      (if jo_requires o then [(lit "jar.requires", VSymbols (lit "class.requires") d2)] else []))]) /\
    (forall s by_, dget d1 s = Some by_ <-> jar_provides_spec cs s by_ /\ ~ ignored_by (o_api_ignore (jo_class o)) s) /\
    (forall s by_, dget d2 s = Some by_ <-> jar_requires_spec deep cs s by_ /\ ~ ignored_by (o_api_ignore (jo_class o)) s).
Proof.
  intros deep fmt repr reprs ffmt text order percent open o f a cs OP EO JH FL J1 J2 J3.
  destruct (jar_provides_ok fmt repr text order OP a cs (o_api_ignore (jo_class o)) JH) as (d1 & E1 & N1 & I1). destruct (jar_requires_ok fmt repr text order OP a cs (o_api_ignore (jo_class o)) JH FL) as (d2 & E2 & N2 & I2).
  exists d1, d2. split; [exact N1|]. split; [exact N2|]. split; [|now split].
  unfold jarinfo_cli. cbv zeta. cbn [mapM jar_options jo_json]. rewrite J1. unfold json_jar. cbv zeta. cbn [jar_options jo_zip jo_provides jo_requires jo_class cli_options o_api_ignore]. rewrite J2, J3, EO. cbn [orb some_data]. destruct (jo_provides o), (jo_requires o); cbn [some_data]; rewrite ?E1, ?E2; cbn [rbind app]; reflexivity.
Qed.
Print Assumptions C104_json_partial.
Example C104_ex : jarinfo_cli nofmt nofmt (fun s => s) nofmt P_Zip.no_text id_order no_percent open_ex (mkjopts false false true true false true (class_opts [lit "java.*"])) [lit "two.jar"] =
  Ok (0, [OJson [(lit "jar.provides", VSymbols (lit "class.provides") [(lit "pkg.A", [lit "pkg/A.class"]); (lit "pkg.A.m():void", [lit "pkg/A.class"]); (lit "pkg.B", [lit "pkg/B.class"])]);
                 (lit "jar.requires", VSymbols (lit "class.requires") [(lit "pkg.C", [lit "pkg/A.class"])])]]).
Proof. vm_compute. reflexivity. Qed.
(** Finding: --manifest and --jar-classes have no effect with --json. *)
Theorem C104_effectless : forall fmt repr reprs ffmt text order percent open z m p r c m' c' k files,
  jarinfo_cli fmt repr reprs ffmt text order percent open (mkjopts z m p r c true k) files = jarinfo_cli fmt repr reprs ffmt text order percent open (mkjopts z m' p r c' true k) files.
Proof. reflexivity. Qed.
Print Assumptions C104_effectless.
(** --zip or --verbose with --json: the kind, the counts and the sizes, under their
    names *)
Theorem C104_zip : forall fmt repr reprs ffmt text order percent open o f a, open f = Ok a -> a_kind a = Zip -> Forall (fun e => e_name e <> []) (a_entries a) ->
  jo_json o = true -> jo_provides o = false -> jo_requires o = false -> jo_zip o = true \/ o_verbose (jo_class o) = true ->
  let files := filter (fun e => negb (is_directory (e_name e))) (a_entries a) in
  let size := fold_right Z.add 0 (map e_size files) in
  let packed := fold_right Z.add 0 (map e_csize files) in
  size <> 0 ->
  jarinfo_cli fmt repr reprs ffmt text order percent open o [f] = Ok (0, [OJson [
    (lit "zip.type", VName (lit "ZipFile")); (lit "zip.file_count", VCount (Z.of_nat (length files)));
    (lit "zip.dir_count", VCount (Z.of_nat (length (a_entries a)) - Z.of_nat (length files)));
    (lit "zip.uncompressed_size", VCount size); (lit "zip.compressed_size", VCount packed); (lit "zip.compress_percent", VPercent packed size)]]).
Proof.
  intros fmt repr reprs ffmt text order percent open o f a EO K N J P R Z files size packed S.
  pose proof (C75_zip_info a K N) as E. cbv zeta in E. fold files in E. fold size in E. fold packed in E. destruct (Z.eqb_spec size 0) as [X|_]; [contradiction|].
  assert (ZZ : jo_zip o || o_verbose (jo_class o) = true) by (destruct Z as [-> | ->]; [reflexivity|apply orb_true_r]).
  unfold jarinfo_cli. cbv zeta. cbn [mapM jar_options jo_json]. rewrite J. unfold json_jar. cbv zeta. cbn [jar_options jo_zip jo_provides jo_requires].
  rewrite ZZ, P, R, EO. cbn [some_data rbind]. rewrite E. cbn [rbind app]. unfold kind_name. rewrite K. reflexivity.
Qed.
Print Assumptions C104_zip.
Definition open_zip : str -> jar := fun _ => Ok (P_Info.zip_of [P_Zip.zdir (lit "d/"); P_Zip.zfile (lit "d/x") [1; 2; 3]]).
Example C104_zip_ex : jarinfo_cli nofmt nofmt (fun s => s) nofmt P_Zip.no_text id_order no_percent open_zip (mkjopts true false false false false true (class_opts [])) [lit "z.jar"] =
  Ok (0, [OJson [(lit "zip.type", VName (lit "ZipFile")); (lit "zip.file_count", VCount 1); (lit "zip.dir_count", VCount 1); (lit "zip.uncompressed_size", VCount 3);
                 (lit "zip.compressed_size", VCount 1); (lit "zip.compress_percent", VPercent 1 3)]]).
Proof. vm_compute. reflexivity. Qed.
(** Finding: the output for several jars is not one JSON document but several, with
    nothing between them. *)
Theorem C104_several_refuted : exists open o files outs, jarinfo_cli nofmt nofmt (fun s => s) nofmt P_Zip.no_text id_order no_percent open o files = Ok (0, outs) /\ jo_json o = true /\ length outs = 2%nat.
Proof. exists open_ex, (mkjopts false false true true false true (class_opts [])), [lit "two.jar"; lit "two.jar"]. eexists. split; [vm_compute; reflexivity|]. now split. Qed.
Print Assumptions C104_several_refuted.

(** ** C105 *)
Theorem C105_manifest : forall a data m, a_kind a = Zip -> content a (lit "META-INF/MANIFEST.MF") data -> man_parse (new_manifest None) data = Ok m ->
  exists main order subs, in_key_order (m_main m) main /\ in_key_order (m_subs m) order /\ Forall2 (fun ns l => in_key_order (snd ns) l) order subs /\
    print_manifest (Ok a) = Ok (lines (lit "Manifest main section:" :: pairs main ++ concat (map (fun l => [] :: lit "Manifest sub-section:" :: pairs l) subs) ++ [[]])).
Proof. exact manifest_shown. Qed.
Print Assumptions C105_manifest.
Definition mf_jar (t : list str) : archive := P_Info.zip_of [P_Zip.zfile (lit "META-INF/MANIFEST.MF") (lines t)].
Example C105_ex : print_manifest (Ok (mf_jar [lit "Manifest-Version: 1.0"; lit "Created-By: me"; []; lit "Name: b"; lit "X: 1"; []; lit "Name: a"; lit "B: 2"; lit "A: 3"; []])) =
  Ok (lines [lit "Manifest main section:"; lit "  Created-By: me"; lit "  Manifest-Version: 1.0"; []; lit "Manifest sub-section:"; lit "  A: 3"; lit "  B: 2"; lit "  Name: a"; [];
             lit "Manifest sub-section:"; lit "  Name: b"; lit "  X: 1"; []]).
Proof. vm_compute. reflexivity. Qed.
(** Finding: without a manifest --manifest raises; it never prints "Manifest not
    present.", for any jar. *)
Theorem C105_missing_fails : forall a, ~ In (lit "META-INF/MANIFEST.MF") (names a) -> exists e, print_manifest (Ok a) = Err e.
Proof. exact manifest_missing. Qed.
Print Assumptions C105_missing_fails.
Theorem C105_never : forall j s, print_manifest j = Ok s -> exists rest, s = lines [lit "Manifest main section:"] ++ rest.
Proof. exact manifest_never. Qed.
Print Assumptions C105_never.
Example C105_missing_ex : ~ In (lit "META-INF/MANIFEST.MF") (names two_classes) /\ print_manifest (Ok two_classes) = Err MissingManifestError.
Proof. split; [|vm_compute; reflexivity]. intro H. apply smem_In in H. vm_compute in H. discriminate. Qed.

(** ** C106 *)
(** --jar-classes: for each class, in the order of the entries, what classinfo prints *)
Theorem C106_classes : forall fmt repr reprs ffmt text order o a cs, jar_holds a cs ->
  print_classes fmt repr reprs ffmt text order (cli_options o) (Ok a) =
  (ss <- mapM (fun ec => r <- unpack_class_stream (enc_class (snd ec)) MNone ;; s <- cli_print fmt repr reprs ffmt order o r ;; Ok (lines [lit "Entry:  " ++ fst ec] ++ s ++ [10])) cs ;; Ok (concat ss)).
Proof. exact classes_shown. Qed.
Print Assumptions C106_classes.
Example C106_ex : jar_holds two_classes two_cs /\ print_classes nofmt nofmt (fun s => s) nofmt P_Zip.no_text id_order (cli_options (class_opts [])) (Ok two_classes) =
  Ok (lines [lit "Entry:  pkg/A.class"; lit "public class pkg.A extends java.lang.Object{"; lit "   public abstract void m();"; lit "}"; []; [];
             lit "Entry:  pkg/B.class"; lit "public abstract class pkg.B extends java.lang.Object{"; lit "}"; []; []]).
Proof. split; [exact two_holds|]. vm_compute. reflexivity. Qed.
(** --zip: the kind, the counts and the sizes of the archive *)
Theorem C106_zip : forall percent a, a_kind a = Zip -> Forall (fun e => e_name e <> []) (a_entries a) ->
  let files := filter (fun e => negb (is_directory (e_name e))) (a_entries a) in
  let size := fold_right Z.add 0 (map e_size files) in
  let packed := fold_right Z.add 0 (map e_csize files) in
  size <> 0 ->
  print_zip percent (Ok a) = Ok (lines [
    lit "Contains " ++ dec (Z.of_nat (length files)) ++ lit " files, " ++ dec (Z.of_nat (length (a_entries a)) - Z.of_nat (length files)) ++ lit " directories";
    lit "Uncompressed size is " ++ dec size; lit "Compressed size is " ++ dec packed ++ lit " (" ++ percent packed size ++ lit "%)"; []]).
Proof.
  intros percent a K N files size packed S. unfold print_zip. cbn [rbind]. pose proof (C75_zip_info a K N) as E. cbv zeta in E. fold files in E. fold size in E. fold packed in E. rewrite E. destruct (Z.eqb_spec size 0) as [X|_]; [contradiction|]. cbn [rbind]. unfold lines, line. cbn [map concat]. rewrite app_nil_r, <- !app_assoc. reflexivity.
Qed.
Print Assumptions C106_zip.
Example C106_zip_ex : print_zip (fun a b => dec (a * 100 / b)) (Ok (P_Info.zip_of [P_Zip.zdir (lit "d/"); P_Zip.zfile (lit "d/x") [1; 2; 3]])) =
  Ok (lines [lit "Contains 1 files, 1 directories"; lit "Uncompressed size is 3"; lit "Compressed size is 1 (33%)"; []]).
Proof. vm_compute. reflexivity. Qed.
(** Finding: for a jar of empty files, or of none, --zip raises. *)
Theorem C106_zip_refuted : exists a, a_kind a = Zip /\ names a <> [] /\ forall percent, print_zip percent (Ok a) = Err ZeroDivisionError.
Proof. exists (P_Info.zip_of [P_Zip.zdir (lit "d/"); P_Zip.zfile (lit "d/empty") []]). split; [reflexivity|]. split; [discriminate|]. reflexivity. Qed.
Print Assumptions C106_zip_refuted.

(** ** C107 *)
Theorem C107_dist_partial : forall deep fmt repr text order unzip o t jd, (forall l, Permutation (order l) l) -> is_dir t = true -> plain t -> names_ok t -> dist_holds unzip t jd -> (forall c, dist_class jd c -> flat_arrays deep c) ->
  jo_json (do_jar o) = false ->
  exists p r, distinfo_cli fmt repr text order unzip o (mkdist false t) = Ok (0, OText (p ++ r)) /\
    section_if (do_provides o) (lit "distribution provides:") (fun s => dist_gives jd s /\ ~ ignored_by (o_api_ignore (jo_class (do_jar o))) s) p /\
    section_if (do_requires o) (lit "distribution requires:") (fun s => dist_wants deep jd s /\ ~ ignored_by (o_api_ignore (jo_class (do_jar o))) s) r.
Proof.
  intros deep fmt repr text order unzip o t jd OP T PL NM H FL J. set (ig := o_api_ignore (jo_class (do_jar o))).
  destruct (dist_provides_text fmt repr text order OP unzip t jd ig T PL NM H) as (lp & EP & LP). destruct (dist_requires_text fmt repr text order OP unzip t jd ig T PL NM H FL) as (lr & ER & LR).
  exists (if do_provides o then symbol_list (lit "distribution provides:") lp else []), (if do_requires o then symbol_list (lit "distribution requires:") lr else []). split.
  - unfold distinfo_cli. rewrite J. unfold print_dist. cbv zeta. fold ig. destruct (do_provides o), (do_requires o); cbn [wanted]; rewrite ?EP, ?ER; cbn [rbind]; reflexivity.
  - unfold section_if. split; [destruct (do_provides o); [now exists lp|reflexivity]|destruct (do_requires o); [now exists lr|reflexivity]].
Qed.
Print Assumptions C107_dist_partial.
Definition do_both (ig : list str) : dopts := mkdopts true true (mkjopts false false false false false false (class_opts ig)).
Example C107_ex : plain dist_three /\ names_ok dist_three /\ dist_holds unzip_ex dist_three jd_three /\ (forall c, dist_class jd_three c -> flat_arrays true c) /\
  distinfo_cli nofmt nofmt P_Zip.no_text id_order unzip_ex (do_both [lit "java.*"; lit "*(*"]) (mkdist false dist_three) =
  Ok (0, OText (lines [lit "distribution provides:"; lit "  pkg.A"; lit "  pkg.B"; []; lit "distribution requires:"; lit "  pkg.C"; []])).
Proof.
  split; [apply three_dist|]. split; [apply three_dist|]. split; [apply three_dist|]. split; [|vm_compute; reflexivity].
  intros c [(e & cs & e' & X & Y)|(e & X)].
  - cbn in X. destruct X as [X|[X|[]]]; injection X as <- <-; destruct Y as [Y|[]]; injection Y as <- <-; [apply class_a_wf|apply class_b_wf].
  - destruct X as [X|[]]; injection X as <- <-. apply class_b_wf.
Qed.
(** A distribution of one jar requires what the jar requires. *)
Theorem C107_one_jar : forall deep e cs s, dist_wants deep (mkjdist [(e, cs)] []) s <-> jar_wants deep cs s.
Proof. exact (@one_jar). Qed.
Print Assumptions C107_one_jar.
Example C107_one_ex : jar_wants true [(lit "pkg/A.class", class_a)] (lit "pkg.B").
Proof.
  assert (H : exists a, jar_holds a [(lit "pkg/A.class", class_a)] /\ exists by_, dget (match jar_requires nofmt nofmt P_Zip.no_text id_order (Ok a) [] with Ok d => d | Err _ => [] end) (lit "pkg.B") = Some by_).
  { exists jar_a. split; [exact jar_a_holds|]. eexists. vm_compute. reflexivity. }
  destruct H as (a & JH & by_ & G). assert (OP : forall l, Permutation (id_order l) l) by (intro; apply Permutation_refl). assert (FL : flat true [(lit "pkg/A.class", class_a)]) by (intros e c [H|[]]; injection H as <- <-; apply class_a_wf).
  destruct (jar_requires_ok nofmt nofmt P_Zip.no_text id_order OP a _ [] JH FL) as (d & E & _ & I). rewrite E in G. apply I in G as [G _]. apply (wants_iff nofmt nofmt P_Zip.no_text id_order OP _ _ (holds_good _ _ JH) FL). now exists by_.
Qed.
(** Finding: distinfo offers all options of jarinfo and classinfo, and none but
    --api-ignore and --json has an effect. *)
Theorem C107_effectless : forall fmt repr text order unzip p r j j' d, jo_json j = jo_json j' -> o_api_ignore (jo_class j) = o_api_ignore (jo_class j') ->
  distinfo_cli fmt repr text order unzip (mkdopts p r j) d = distinfo_cli fmt repr text order unzip (mkdopts p r j') d.
Proof. intros fmt repr text order unzip p r j j' d E1 E2. unfold distinfo_cli, print_dist, json_dist. cbn [do_jar do_provides do_requires]. now rewrite E1, E2. Qed.
Print Assumptions C107_effectless.

(** --json: under dist.provides each symbol with its origins, under dist.requires
    likewise *)
Theorem C107_json_partial : forall deep fmt repr text order unzip o t jd, (forall l, Permutation (order l) l) -> is_dir t = true -> plain t -> names_ok t -> dist_holds unzip t jd -> (forall c, dist_class jd c -> flat_arrays deep c) ->
  jo_json (do_jar o) = true ->
  exists jd1 jd2 d1 d2, Permutation (jd_jars jd) (jd_jars jd1) /\ Permutation (jd_loose jd) (jd_loose jd1) /\ Permutation (jd_jars jd) (jd_jars jd2) /\ Permutation (jd_loose jd) (jd_loose jd2) /\
    NoDup (dkeys d1) /\ NoDup (dkeys d2) /\
    distinfo_cli fmt repr text order unzip o (mkdist false t) = Ok (0, OJson ((if do_provides o then [(lit "dist.provides", VSources d1)] else []) ++
      (if do_requires o then [(lit "dist.requires", VSources d2)] else []))) /\
    (forall s l, dget d1 s = Some l <-> exists og, l = map shown_origin og /\ dist_provides_spec jd1 s og /\ ~ ignored_by (o_api_ignore (jo_class (do_jar o))) s) /\
    (forall s l, dget d2 s = Some l <-> exists og, l = map shown_origin og /\ dist_requires_spec deep jd2 s og /\ ~ ignored_by (o_api_ignore (jo_class (do_jar o))) s).
Proof.
  intros deep fmt repr text order unzip o t jd OP T PL NM H FL J. set (ig := o_api_ignore (jo_class (do_jar o))).
  destruct (dist_provides_ok fmt repr text order OP unzip t T PL NM jd ig H) as (jd1 & d1 & P1 & Q1 & E1 & N1 & I1).
  destruct (dist_requires_ok fmt repr text order OP unzip t T PL NM jd ig H FL) as (jd2 & d2 & P2 & Q2 & E2 & N2 & I2).
  exists jd1, jd2, d1, d2. do 4 (split; [assumption|]). split; [exact N1|]. split; [exact N2|]. split; [|now split].
  unfold distinfo_cli. rewrite J. unfold json_dist. cbv zeta. fold ig. destruct (do_provides o), (do_requires o); cbn [some_data]; rewrite ?E1, ?E2; cbn [rbind app]; reflexivity.
Qed.
Print Assumptions C107_json_partial.
Example C107_json_ex : exists p r, distinfo_cli nofmt nofmt P_Zip.no_text id_order unzip_ex (mkdopts true true (mkjopts false false false false false true (class_opts [lit "java.*"; lit "*(*"]))) (mkdist false dist_three) =
  Ok (0, OJson [(lit "dist.provides", VSources p); (lit "dist.requires", VSources r)]) /\ map fst p = [lit "pkg.A"; lit "pkg.B"] /\ map fst r = [lit "pkg.C"].
Proof. do 2 eexists. split; [vm_compute; reflexivity|]. split; reflexivity. Qed.

(** ** C108 *)
(** A stream is left as it was, unless the test itself raises something else than
    OSError, or the stream can seek but not tell *)
Theorem C108_stream_partial : forall end_rec s r s', is_zipstream end_rec (ZStream s) = (Ok r, ZStream s') -> s_seek s = true -> s_tell s = true -> s' = s.
Proof.
  intros end_rec [d p t k] r s' H H1 H2. cbn [s_seek s_tell] in *. subst. cbn [is_zipstream] in H. unfold test_stream in H. cbn [s_tell s_pos s_data s_seek] in H. destruct (end_rec d p) as [[ | | |e] q]; cbn in H; injection H; congruence.
Qed.
Print Assumptions C108_stream_partial.
Theorem C108_result : forall end_rec s, (exists r, fst (is_zipstream end_rec (ZStream s)) = Ok r) -> (fst (is_zipstream end_rec (ZStream s)) = Ok true <-> fst (end_rec (s_data s) (s_pos s)) = FYes).
Proof.
  intros end_rec s [r H]. revert H. unfold is_zipstream, test_stream. destruct (end_rec (s_data s) (s_pos s)) as [[ | | |e] q]; cbn; intro H; split; congruence.
Qed.
Print Assumptions C108_result.
(** A memoryview is tested from its start *)
Theorem C108_view : forall end_rec b, (forall e, fst (end_rec b 0) <> FOther e) ->
  exists r, is_zipstream end_rec (ZView b) = (Ok r, ZView b) /\ (r = true <-> fst (end_rec b 0) = FYes).
Proof.
  intros end_rec b H. unfold is_zipstream, test_stream. cbn [s_tell s_pos s_data s_seek]. destruct (end_rec b 0) as [[ | | |e] q]; cbn [fst] in *; [exists true|exists false|exists false|]; try (split; [reflexivity|]; split; congruence).
  now destruct (H e).
Qed.
Print Assumptions C108_view.
Definition end_ex (d : bytes) (p : Z) : found * Z := (match d with 80 :: _ => FYes | _ => FNo end, 22).
Example C108_ex : is_zipstream end_ex (ZStream (mkstream [80; 75] 1 true true)) = (Ok true, ZStream (mkstream [80; 75] 1 true true)).
Proof. reflexivity. Qed.
Example C108_view_ex : is_zipstream end_ex (ZView [80; 75]) = (Ok true, ZView [80; 75]) /\ is_zipstream end_ex (ZView [75]) = (Ok false, ZView [75]).
Proof. split; reflexivity. Qed.
(** Finding: bytes are not accepted (Python 3), nor is str; only memoryviews and
    streams are. *)
Theorem C108_bytes_fails : forall end_rec b, fst (is_zipstream end_rec (ZBytes b)) = Err TypeError /\ fst (is_zipstream end_rec (ZStr b)) = Err TypeError.
Proof. intros. split; reflexivity. Qed.
Print Assumptions C108_bytes_fails.
(** Finding: a stream that can seek but not tell is left at its start. *)
Theorem C108_rewound_refuted : exists end_rec s r s', is_zipstream end_rec (ZStream s) = (Ok r, ZStream s') /\ s_pos s <> s_pos s'.
Proof. exists end_ex, (mkstream [80; 75] 1 false true). do 2 eexists. split; [reflexivity|]. discriminate. Qed.
Print Assumptions C108_rewound_refuted.

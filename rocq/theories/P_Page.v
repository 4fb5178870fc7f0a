(** Properties C109, C110, C111: the HTML pages of jar and distribution comparisons. *)
From Verif Require Import Base Pack_Model ConstPool_Model ClassFile_Model Change_Model Change_Proofs Classdiff_Model Zip_Model Zip_Spec Zip_Proofs
  Dir_Spec Jardiff_Model Jardiff_Spec Jardiff_Jar Distdiff_Model Distdiff_Spec Distdiff_Dist Kinds_Spec Report_Model Html_Model Html_Spec
  Page_Model Page_Spec Page_Proofs Page_Dist Page_Wf P_ClassFile P_Classdiff P_Jardiff P_Distdiff P_Kinds.
From Verif Require P_Zip Dir_Model.
From Coq Require Import Permutation.

(** ** Example data *)
Definition bare : page_env := mkenv [] [] [] true.
Definition jar_page_of (o : options) (l r : archive) : res (list html) :=
  c <- jar_report_check no_fmt (fun s => s) no_fmt P_Zip.no_text (fun s => s) ascii_up o (Ok l) (Ok r) ;; page bare o c.
Definition dist_page_of (o : options) (l r : node) : res (list html) :=
  ks <- sequential_check no_fmt (fun s => s) no_fmt ascii_text (fun s => s) ascii_up some_jars l r o false ;;
  page bare o (dist_report no_fmt (fun s => s) no_fmt ascii_text (fun s => s) ascii_up some_jars l r false ks).
(** The headings, and of each part its class attribute *)
Definition outline (h : list html) : list str :=
  flat_map (fun t => match t with
                     | Open _ a => flat_map (fun x => if seqb (fst x) (lit "class") && starts_with (lit "Change ") (snd x) then [snd x] else []) a
                     | Chars s => if existsb (seqb s) (jar_headings ++ dist_headings) then [s] else []
                     | _ => []
                     end) h.

(** ** C109: the page of a jar comparison *)
(** Every entry of the two archives has exactly one item on the page, under the
    heading of its kind, in the documented order of headings and by name under
    each; it is marked as changed and not ignored exactly if it is a reason to
    report a change.  The page of two archives with no entries to compare cannot
    be written.  Partial: what is shown of manifests, signature files and other
    data below the name is not specified; hypotheses as for C54. *)
Theorem C109_jar_page_partial : forall fmt reprs ffmt text order up env o l r c, (forall s, Permutation (order s) s) ->
  a_kind l = Zip -> a_kind r = Zip -> a_open l = true -> a_open r = true -> Forall sound (a_entries l) -> Forall sound (a_entries r) ->
  jar_report_check fmt reprs ffmt text order up o (Ok l) (Ok r) = Ok c ->
  exists rows, classified rows l r /\
    (rows = [] -> page env o c = Err AssertionError) /\
    (rows <> [] -> exists h gs, page env o c = Ok h /\ lists_groups h gs /\ in_sequence jar_headings (map g_heading gs) /\ Forall tidy gs /\
       Permutation (listed_names gs) (map snd rows) /\
       Forall (fun g => Forall (jar_item_fits fmt reprs ffmt up o l r rows (g_heading g)) (g_items g)) gs).
Proof. exact jar_page_groups. Qed.
Print Assumptions C109_jar_page_partial.
Example C109_ex : (h <- jar_page_of strict kinds_left kinds_right ;; Ok (outline h)) = Ok (map lit [
    "Change JarTypeChange is_unchanged"; "Jar Manifest"; "Change JarManifestChange is_changed"; "Change ManifestChange is_changed"; "Change ManifestMainChange is_changed"; "Change ManifestSectionChange is_unchanged";
    "Jar Signature Block File Added"; "Change JarSignatureBlockFileAdded is_changed";
    "Jar Content Added"; "Change JarContentAdded is_changed"; "Jar Content Removed"; "Change JarContentRemoved is_changed";
    "Jar Content"; "Change JarContentChange is_unchanged"; "Java Class Removed"; "Change JarClassRemoved is_changed";
    "Java Class"; "Change SquashedChange JarClassReport is_changed"; "Jar Generic File"; "Change JarGenericFileChange is_changed"; "Change GenericFileChange is_changed"]%string) /\
  a_kind kinds_left = Zip /\ a_open kinds_left = true /\ Forall sound (a_entries kinds_left) /\ Forall sound (a_entries kinds_right).
Proof. split; [vm_compute; reflexivity|]. split; [reflexivity|]. split; [reflexivity|]. split; apply soundb_sound; vm_compute; reflexivity. Qed.
(** Empty archives: an assertion of the templates is not met. *)
Theorem C109_empty_refuted : exists l r c, a_kind l = Zip /\ a_kind r = Zip /\ a_open l = true /\ a_open r = true /\
  jar_report_check no_fmt (fun s => s) no_fmt P_Zip.no_text (fun s => s) ascii_up strict (Ok l) (Ok r) = Ok c /\ page bare strict c = Err AssertionError.
Proof. eexists (mka Zip true []), (mka Zip true []), _. repeat (split; [reflexivity|]). split; vm_compute; reflexivity. Qed.
Print Assumptions C109_empty_refuted.
(** The page does not say what changed in a manifest: two comparisons that differ
    in it have the same page. *)
Theorem C109_manifest_refuted : exists l r r' h, a_entries r <> a_entries r' /\ jar_page_of strict l r = Ok h /\ jar_page_of strict l r' = Ok h.
Proof.
  eexists j_one, j_by, (jar_of (mf_text "carl") class_bytes []), _. split; [vm_compute; intro H; discriminate H|]. split; vm_compute; reflexivity.
Qed.
Print Assumptions C109_manifest_refuted.

(** ** C110: the page of a distribution comparison *)
Theorem C110_dist_page_partial : forall fmt reprs ffmt text order up unzip o l r sh env ks, (forall s, Permutation (order s) s) ->
  plain l -> plain r -> names_ok l -> names_ok r -> Dir_Spec.comparable l r ->
  sequential_check fmt reprs ffmt text order up unzip l r o sh = Ok ks ->
  exists K, NoDup (map snd K) /\ (forall e p, In (e, p) K <-> dclass l r e p) /\
    exists h gs, page env o (dist_report fmt reprs ffmt text order up unzip l r sh ks) = Ok h /\ lists_groups h gs /\ in_sequence dist_headings (map g_heading gs) /\ Forall tidy gs /\
      Permutation (listed_names gs) (map (fun k => snd (written k)) K) /\
      Forall (fun g => Forall (dist_item_fits fmt reprs ffmt text order up unzip o sh l r (map written K) (g_heading g)) (g_items g)) gs.
Proof. intros fmt reprs ffmt text order up unzip o l r sh env ks OP P1 P2 N1 N2 HC. now apply dist_page_groups. Qed.
Print Assumptions C110_dist_page_partial.
Example C110_ex : (h <- dist_page_of strict d_one kinds_dist ;; Ok (outline h)) = Ok (map lit [
    "Distributed Java Class"; "Change SquashedChange DistClassReport is_changed"; "Distributed JAR Added"; "Change DistJarAdded is_changed";
    "Distributed JAR"; "Change SquashedChange DistJarReport is_changed"; "Distributed Text"; "Change DistTextChange is_changed"; "Change GenericChange is_changed";
    "Distributed Manifest"; "Change DistManifestChange is_changed"; "Change ManifestChange is_changed"; "Change ManifestMainChange is_changed"; "Change ManifestSectionChange is_unchanged";
    "Distributed Content Removed"; "Change DistContentRemoved is_changed"]%string) /\
  plain d_one /\ plain kinds_dist /\ names_ok d_one /\ names_ok kinds_dist /\ Dir_Spec.comparable d_one kinds_dist.
Proof. split; [vm_compute; reflexivity|]. split; [apply (plainb_plain 4)|split; [apply (plainb_plain 4)|split; [apply (names_okb_ok 4)|split; [apply (names_okb_ok 4)|apply (comparableb_ok 4)]]]]; vm_compute; reflexivity. Qed.
(** Data files that differ are shown as unchanged. *)
Theorem C110_data_refuted : exists l r d d' h, data_at l [lit "data.bin"] d /\ data_at r [lit "data.bin"] d' /\ d <> d' /\
  dist_page_of strict l r = Ok h /\ In (Open (lit "div") [(lit "class", lit "Change DistContentChange is_unchanged")]) h /\
  existsb (fun t => match t with Open _ a => existsb (fun x => seqb (snd x) (lit "Change DistContentChange is_changed")) a | _ => false end) h = false.
Proof.
  eexists d_one, d_bin, [0], [255; 3], _. split; [exists false, 1; eapply Dir_Spec.found_down; [unfold dist; repeat first [left; reflexivity|right]|constructor]|]. split; [exists false, 2; eapply Dir_Spec.found_down; [unfold dist; repeat first [left; reflexivity|right]|constructor]|]. split; [discriminate|]. split; [vm_compute; reflexivity|]. split; [vm_compute; auto 60|vm_compute; reflexivity].
Qed.
Print Assumptions C110_data_refuted.

(** ** C111: well-formed pages *)
(** Without jQuery, every start tag is closed in turn and no attribute is given
    twice; with it (the default) none of the pages is well-formed XHTML. *)
Theorem C111_well_formed : forall env o c h, page env o c = Ok h -> e_nojquery env = true -> well_formed h [] = true.
Proof. exact page_well_formed. Qed.
Print Assumptions C111_well_formed.
Theorem C111_jquery_ill : forall env o c h, page env o c = Ok h -> e_nojquery env = false -> well_formed h [] = false.
Proof. exact page_ill_formed. Qed.
Print Assumptions C111_jquery_ill.
Example C111_ex : (h <- jar_page_of strict kinds_left kinds_right ;; Ok (well_formed h [], 100 <? Z.of_nat (length h))) = Ok (true, true) /\
  (c <- jar_report_check no_fmt (fun s => s) no_fmt P_Zip.no_text (fun s => s) ascii_up strict (Ok kinds_left) (Ok kinds_right) ;; h <- page (mkenv [] [] [] false) strict c ;; Ok (well_formed h [])) = Ok false.
Proof. split; vm_compute; reflexivity. Qed.

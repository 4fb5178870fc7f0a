(** Properties C41-C45 and C65: comparing archives, chunked reading, totals,
    directories presented as archives. *)
From Verif Require Import Base Zip_Model Zip_Spec Zip_Proofs Zip_Tree Crc_Spec Crc_Proofs.
From Coq Require Import Permutation.

(** ** Example data *)
Definition zfile (n : str) (d : bytes) : zentry := mkz n (Z.of_nat (length d)) 1 (crc32 d 0) d.
Definition zdir (n : str) : zentry := zfile n [].
Definition za : archive := mka Zip true [zfile (lit "A") [1; 2; 3]; zdir (lit "d/"); zfile (lit "B") [1]; zfile (lit "C") [7; 8]; zfile (lit "A") [4; 5; 6]].
Definition zb : archive := mka Zip true [zfile (lit "C") [7; 9]; zfile (lit "A") [4; 5; 6]; zdir (lit "d/"); zfile (lit "E") []].
Definition no_text : bytes -> res str := fun _ => Err UnicodeDecodeError.
Lemma sound_ex : Forall sound (a_entries za) /\ Forall sound (a_entries zb).
Proof. split; repeat (apply Forall_cons; [split; [discriminate|split; reflexivity]|]); apply Forall_nil. Qed.

(** ** C41 *)
Theorem C41_partition : forall text order n l r, (forall s, Permutation (order s) s) -> n <> 0 ->
  a_kind l = Zip -> a_kind r = Zip -> a_open l = true -> a_open r = true -> Forall sound (a_entries l) -> Forall sound (a_entries r) ->
  exists evs, compare_zips text order n l r = (evs, None) /\ NoDup (map snd evs) /\
    (forall f, In (LEFT, f) evs <-> In f (names l) /\ ~ In f (names r)) /\
    (forall f, In (RIGHT, f) evs <-> In f (names r) /\ ~ In f (names l)) /\
    (forall f, In (SAME, f) evs \/ In (DIFF, f) evs <-> ~ directory f /\ In f (names l) /\ In f (names r)).
Proof.
  intros text order n l r P Hn K1 K2 O1 O2 S1 S2. destruct (compare_zips_spec text order P n l r Hn K1 K2 O1 O2 S1 S2) as (evs & E & N & C).
  exists evs. split; [exact E|]. split; [exact N|]. split; [apply C|]. split; [apply C|]. intro f. destruct (C f) as (_ & _ & A & B). rewrite A, B, !names_content. split.
  - intros [(H & d & H1 & H2)|(H & d & d' & H1 & H2 & _)]; eauto.
  - intros (H & (d & H1) & (d' & H2)). destruct (seqb_spec d d') as [->|Nd]; eauto 9.
Qed.
Print Assumptions C41_partition.
Example C41_ex : compare_zips no_text (fun s => s) CHUNKSIZE za zb = ([(LEFT, lit "B"); (DIFF, lit "C"); (SAME, lit "A"); (RIGHT, lit "E")], None).
Proof. vm_compute. reflexivity. Qed.

(** ** C42 *)
Theorem C42_content : forall text order n l r, (forall s, Permutation (order s) s) -> n <> 0 ->
  a_kind l = Zip -> a_kind r = Zip -> a_open l = true -> a_open r = true -> Forall sound (a_entries l) -> Forall sound (a_entries r) ->
  exists evs, compare_zips text order n l r = (evs, None) /\ forall f d d', content l f d -> content r f d' -> ~ directory f ->
    (In (SAME, f) evs <-> d = d') /\ (In (DIFF, f) evs <-> d <> d').
Proof.
  intros text order n l r P Hn K1 K2 O1 O2 S1 S2. destruct (compare_zips_spec text order P n l r Hn K1 K2 O1 O2 S1 S2) as (evs & E & N & C).
  exists evs. split; [exact E|]. intros f d d' H1 H2 H3. destruct (C f) as (_ & _ & A & B). rewrite A, B. split; split.
  - intros (_ & x & X1 & X2). rewrite (content_fun _ _ _ _ H1 X1). symmetry. exact (content_fun _ _ _ _ H2 X2).
  - intros <-. eauto.
  - intros (_ & x & y & X1 & X2 & X3). rewrite (content_fun _ _ _ _ H1 X1), (content_fun _ _ _ _ H2 X2). exact X3.
  - intro Nd. eauto 6.
Qed.
Print Assumptions C42_content.
(** Where the recorded sizes and CRCs agree the whole content decides. *)
Theorem C42_collision : forall text n l r f e e', n <> 0 -> a_kind l = Zip -> a_kind r = Zip -> a_open l = true -> a_open r = true ->
  find_entry (a_entries l) f = Some e -> find_entry (a_entries r) f = Some e' -> e_size e = e_size e' -> e_crc e = e_crc e' ->
  exists b, different text n l r f = Ok b /\ (b = true <-> e_data e <> e_data e').
Proof.
  intros text n l r f e e' Hn K1 K2 O1 O2 F1 F2 E1 E2. unfold different, getinfo. rewrite K1, K2, F1, F2. cbn [rbind]. rewrite E1, E2, !Z.eqb_refl. cbn [andb].
  unfold deep_different, chunk_zip_entry, getinfo. rewrite K1, K2, O1, O2, F1, F2. cbn [rbind]. eexists. split; [reflexivity|].
  destruct (pieces_differ _ _) eqn:E.
  - split; [|reflexivity]. intros _ H. rewrite H in E. rewrite (proj2 (pieces_bytes _ _) eq_refl) in E. discriminate.
  - split; [discriminate|]. intro H. exfalso. apply H. apply pieces_bytes in E. exact (chunks_inj n _ _ Hn E).
Qed.
Print Assumptions C42_collision.
Example C42_ex : content za (lit "C") [7; 8] /\ content zb (lit "C") [7; 9] /\ content za (lit "A") [4; 5; 6] /\ ~ directory (lit "A").
Proof.
  repeat split; try (apply find_entry_content; eexists; split; [reflexivity|reflexivity]). intros (p & E). destruct p as [|x [|y p]]; discriminate.
Qed.
Example C42_collision_ex : let l := mka Zip true [mkz (lit "A") 2 2 77 [1; 2]] in let r := mka Zip true [mkz (lit "A") 2 2 77 [1; 3]] in
  different no_text 1 l r (lit "A") = Ok true.
Proof. reflexivity. Qed.
(** Directories in place of archives are read as text: a file that does not
    decode (any class file) makes the comparison of a directory with itself fail, *)
Definition tree1 (b : bytes) : node := Dir false [(lit "A", File false b 0)].
Theorem C42_directory_refuted : exists b, forall text order e, (forall s, Permutation (order s) s) -> text b = Err e ->
  compare_zips text order CHUNKSIZE (exploded (tree1 b)) (exploded (tree1 b)) = ([], Some e).
Proof.
  exists [202; 254; 186; 190]. intros text order e P H. unfold compare_zips.
  change (namelist (exploded (tree1 [202; 254; 186; 190]))) with (@Ok (list str) [lit "A"]). cbv iota.
  assert (E : order (nodup_names [lit "A"]) = [lit "A"]) by (apply Permutation_length_1_inv; symmetry; apply P). rewrite E.
  cbn [compare_loop nodup_names smem existsb]. change (smem (lit "A") [lit "A"]) with true. cbv iota. change (last_slash (lit "A")) with (Ok false). cbv iota.
  assert (D : different text CHUNKSIZE (exploded (tree1 [202; 254; 186; 190])) (exploded (tree1 [202; 254; 186; 190])) (lit "A") = Err e); [|now rewrite D].
  unfold different, getinfo. cbn [exploded a_kind a_open a_entries]. change (find_entry (collect_infos (tree1 [202; 254; 186; 190])) (lit "A")) with (Some (mkz (lit "A") 4 4 (file_crc32 CHUNKSIZE [202; 254; 186; 190]) [202; 254; 186; 190])).
  cbn [rbind]. cbn [e_size e_crc]. rewrite !Z.eqb_refl. cbn [andb]. unfold deep_different, chunk_zip_entry. cbn [exploded a_kind a_entries].
  change (find_entry (collect_infos (tree1 [202; 254; 186; 190])) (lit "A")) with (Some (mkz (lit "A") 4 4 (file_crc32 CHUNKSIZE [202; 254; 186; 190]) [202; 254; 186; 190])).
  cbv iota. cbn [e_data]. rewrite H. reflexivity.
Qed.
Print Assumptions C42_directory_refuted.
(** and a file never equals the same file in an archive. *)
Theorem C42_mixed_refuted : exists b, forall text order t, (forall s, Permutation (order s) s) -> text b = Ok t -> t <> [] ->
  compare_zips text order CHUNKSIZE (mka Zip true [zfile (lit "A") b]) (exploded (tree1 b)) = ([(DIFF, lit "A")], None).
Proof.
  exists [104; 105]. intros text order t P H Ht. unfold compare_zips.
  change (namelist (exploded (tree1 [104; 105]))) with (@Ok (list str) [lit "A"]). change (namelist (mka Zip true [zfile (lit "A") [104; 105]])) with (@Ok (list str) [lit "A"]). cbv iota.
  assert (E : order (nodup_names [lit "A"]) = [lit "A"]) by (apply Permutation_length_1_inv; symmetry; apply P). rewrite E.
  cbn [compare_loop nodup_names smem existsb]. change (smem (lit "A") [lit "A"]) with true. cbv iota. change (last_slash (lit "A")) with (Ok false). cbv iota.
  assert (D : different text CHUNKSIZE (mka Zip true [zfile (lit "A") [104; 105]]) (exploded (tree1 [104; 105])) (lit "A") = Ok true).
  { unfold different, getinfo. cbn [exploded a_kind a_open a_entries]. change (find_entry (collect_infos (tree1 [104; 105])) (lit "A")) with (Some (mkz (lit "A") 2 2 (file_crc32 CHUNKSIZE [104; 105]) [104; 105])).
    change (find_entry [zfile (lit "A") [104; 105]] (lit "A")) with (Some (zfile (lit "A") [104; 105])).
    cbn [rbind]. change (e_size (zfile (lit "A") [104; 105]) =? 2) with true. rewrite file_crc32_spec by discriminate. cbn [e_size e_crc zfile]. rewrite !Z.eqb_refl. cbn [andb Z.eqb length Z.of_nat].
    change (Z.of_nat 2 =? 2) with true. cbn [andb]. unfold deep_different, chunk_zip_entry, getinfo. cbn [exploded a_kind a_entries a_open].
    change (find_entry (collect_infos (tree1 [104; 105])) (lit "A")) with (Some (mkz (lit "A") 2 2 (file_crc32 CHUNKSIZE [104; 105]) [104; 105])).
    change (find_entry [zfile (lit "A") [104; 105]] (lit "A")) with (Some (zfile (lit "A") [104; 105])). cbv iota. cbn [rbind e_data zfile]. rewrite H. cbn [rbind]. f_equal.
    apply text_never_bytes; intro K; [apply (f_equal (@concat Z)) in K; rewrite chunks_concat in K by discriminate; discriminate|].
    apply Ht. rewrite <- (chunks_concat CHUNKSIZE t) by discriminate. now rewrite K. }
  rewrite D. change (remove_name (lit "A") [lit "A"]) with (@nil str).
  assert (E0 : order [] = []) by (apply Permutation_nil; symmetry; apply P). rewrite E0. reflexivity.
Qed.
Print Assumptions C42_mixed_refuted.

(** ** C43 *)
Theorem C43_chunks : forall A (n : nat) (d : list A), (0 < n)%nat -> cuts n (chunks (Z.of_nat n) d) d.
Proof. intros A. exact chunks_cuts. Qed.
Print Assumptions C43_chunks.
Theorem C43_concat : forall A n (d : list A), n <> 0 -> concat (chunks n d) = d.
Proof. intros A. exact chunks_concat. Qed.
Print Assumptions C43_concat.
Theorem C43_crc : forall n m content, n <> 0 -> m <> 0 -> file_crc32 n content = crc32 content 0 /\ file_crc32 n content = file_crc32 m content.
Proof. intros n m c H1 H2. split; [now apply file_crc32_spec|]. rewrite !file_crc32_spec; auto. Qed.
Print Assumptions C43_crc.
(** The checksum is the CRC-32 of the standard, for every file and chunk size. *)
Theorem C43_crc_standard : forall n content, n <> 0 -> Forall (fun b => 0 <= b < 256) content ->
  is_crc32 content (file_crc32 n content) /\ forall v, is_crc32 content v -> v = file_crc32 n content.
Proof.
  intros n content Hn HB. rewrite (proj1 (C43_crc n n content Hn Hn)). pose proof (crc32_standard content HB) as H. split; [exact H|]. intros v Hv. exact (is_crc32_fun _ _ _ Hv H).
Qed.
Print Assumptions C43_crc_standard.
(** The check value of the standard *)
Example C43_crc_ex : is_crc32 (lit "123456789") 3421780262 /\ file_crc32 4 (lit "123456789") = 3421780262.
Proof.
  assert (E : file_crc32 4 (lit "123456789") = 3421780262) by (vm_compute; reflexivity). split; [|exact E]. rewrite <- E. apply C43_crc_standard; [discriminate|]. vm_compute. repeat constructor; discriminate.
Qed.
Theorem C43_digests : forall S D (algs : list (S * (S -> bytes -> S) * (S -> D))) n content, n <> 0 ->
  Forall (fun '(_, up, _) => (forall h, up h [] = h) /\ forall h a b, up (up h a) b = up h (a ++ b)) algs ->
  digest_chunks (chunks n content) algs = map (fun '(h, up, final) => final (up h content)) algs.
Proof. intros S D algs n c Hn H. rewrite (digest_chunks_spec algs _ H). now rewrite chunks_concat. Qed.
Print Assumptions C43_digests.
Example C43_ex : chunks 3 [1; 2; 3; 4; 5; 6; 7] = [[1; 2; 3]; [4; 5; 6]; [7]] /\ chunks 7 [1; 2; 3; 4; 5; 6; 7] = [[1; 2; 3; 4; 5; 6; 7]] /\
  file_crc32 2 (lit "123456789") = 3421780262.
Proof. vm_compute. auto. Qed.
Example C43_digests_ex : digest_chunks (chunks 2 [1; 2; 3]) [(0, (fun h b => h + zsum b), fun h => [h]); (5, (fun h b => h + zsum b), fun h => [h; h])] = [[6]; [11; 11]].
Proof. reflexivity. Qed.

(** ** C44 *)
(** By path the generator runs after the archives were closed: it fails exactly
    if some common file has the same size and CRC in both. *)
Theorem C44_fails : forall text order n l r, (forall s, Permutation (order s) s) -> n <> 0 ->
  a_kind l = Zip -> a_kind r = Zip -> a_open l = true -> a_open r = true -> Forall sound (a_entries l) -> Forall sound (a_entries r) ->
  (exists f, ~ directory f /\ exists e e', find_entry (a_entries l) f = Some e /\ find_entry (a_entries r) f = Some e' /\ e_size e = e_size e' /\ e_crc e = e_crc e') ->
  exists evs, compare text order n l r = (evs, Some ValueError).
Proof. intros text order n l r P Hn K1 K2 O1 O2 S1 S2. exact (proj1 (compare_closed text order P n l r Hn K1 K2 O1 O2 S1 S2)). Qed.
Print Assumptions C44_fails.
Theorem C44_otherwise_partial : forall text order n l r, (forall s, Permutation (order s) s) -> n <> 0 ->
  a_kind l = Zip -> a_kind r = Zip -> a_open l = true -> a_open r = true -> Forall sound (a_entries l) -> Forall sound (a_entries r) ->
  (forall f, ~ (~ directory f /\ exists e e', find_entry (a_entries l) f = Some e /\ find_entry (a_entries r) f = Some e' /\ e_size e = e_size e' /\ e_crc e = e_crc e')) ->
  compare text order n l r = compare_zips text order n l r.
Proof. intros text order n l r P Hn K1 K2 O1 O2 S1 S2. exact (proj2 (compare_closed text order P n l r Hn K1 K2 O1 O2 S1 S2)). Qed.
Print Assumptions C44_otherwise_partial.
Theorem C44_directories_fail : forall text order n l r, a_kind l = Exploded -> compare text order n l r = ([], Some AttributeError).
Proof. exact compare_closed_exploded. Qed.
Print Assumptions C44_directories_fail.
Theorem C44_refuted : exists l r evs, Forall sound (a_entries l) /\ Forall sound (a_entries r) /\
  compare_zips no_text (fun s => s) CHUNKSIZE l r = (evs, None) /\ snd (compare no_text (fun s => s) CHUNKSIZE l r) = Some ValueError.
Proof. exists za, zb. eexists. split; [apply sound_ex|]. split; [apply sound_ex|]. split; [vm_compute; reflexivity|]. vm_compute. reflexivity. Qed.
Print Assumptions C44_refuted.
(** Collecting by path is not affected. *)
Theorem C44_collect : forall text order n l r, (forall s, Permutation (order s) s) -> n <> 0 ->
  a_kind l = Zip -> a_kind r = Zip -> a_open l = true -> a_open r = true -> Forall sound (a_entries l) -> Forall sound (a_entries r) ->
  exists added removed altered same, collect_compare_zips text order n l r = Ok (Some added, Some removed, Some altered, Some same) /\
    forall f, (In f added <-> In f (names r) /\ ~ In f (names l)) /\ (In f removed <-> In f (names l) /\ ~ In f (names r)) /\
      (In f altered <-> ~ directory f /\ exists d d', content l f d /\ content r f d' /\ d <> d') /\
      (In f same <-> ~ directory f /\ exists d, content l f d /\ content r f d).
Proof.
  intros text order n l r P Hn K1 K2 O1 O2 S1 S2. destruct (compare_zips_spec text order P n l r Hn K1 K2 O1 O2 S1 S2) as (evs & E & N & C).
  unfold collect_compare_zips, collect_compare_zips_into. rewrite E, collect_loop_spec. cbn [grown app]. do 4 eexists. split; [reflexivity|].
  intro f. rewrite !of_event_In. destruct (C f) as (C1 & C2 & C3 & C4). auto.
Qed.
Print Assumptions C44_collect.
Example C44_ex : collect_compare_zips no_text (fun s => s) CHUNKSIZE za zb = Ok (Some [lit "E"], Some [lit "B"], Some [lit "C"], Some [lit "A"]) /\
  compare no_text (fun s => s) CHUNKSIZE za zb = ([(LEFT, lit "B"); (DIFF, lit "C")], Some ValueError).
Proof. vm_compute. auto. Qed.

(** ** C45 *)
Theorem C45_rollup : forall a, a_kind a = Zip -> Forall (fun e => e_name e <> []) (a_entries a) ->
  let files := filter (fun e => negb (is_directory (e_name e))) (a_entries a) in
  exists f d, zip_entry_rollup a = Ok (f, d, zsum (map e_csize files), zsum (map e_size files)) /\
    f = Z.of_nat (length files) /\ f + d = Z.of_nat (length (a_entries a)).
Proof.
  intros a K H files. unfold zip_entry_rollup, infolist. rewrite K. cbn [rbind]. rewrite (rollup_spec _ H 0 0 0 0). eexists _, _. split; [reflexivity|]. split; [reflexivity|].
  cbn [Z.add]. clear. induction (a_entries a) as [|e l IH]; [reflexivity|]. cbn [filter length]. destruct (is_directory (e_name e)); cbn [negb length]; lia.
Qed.
Print Assumptions C45_rollup.
Theorem C45_additive : forall l1 l2 f1 d1 c1 u1 f2 d2 c2 u2, Forall (fun e => e_name e <> []) (l1 ++ l2) ->
  zip_entry_rollup (mka Zip true l1) = Ok (f1, d1, c1, u1) -> zip_entry_rollup (mka Zip true l2) = Ok (f2, d2, c2, u2) ->
  zip_entry_rollup (mka Zip true (l1 ++ l2)) = Ok (f1 + f2, d1 + d2, c1 + c2, u1 + u2).
Proof.
  intros l1 l2 f1 d1 c1 u1 f2 d2 c2 u2 H H1 H2. pose proof H as H'. apply Forall_app in H' as [N1 N2]. unfold zip_entry_rollup, infolist in *. cbn [a_kind a_entries rbind] in *.
  rewrite rollup_spec in * by assumption. injection H1 as <- <- <- <-. injection H2 as <- <- <- <-. rewrite !filter_app, !app_length, !map_app.
  assert (Z : forall a b, zsum (a ++ b) = zsum a + zsum b) by (induction a; intro b; cbn [app zsum fold_right]; [reflexivity|]; unfold zsum in *; rewrite IHa; lia).
  rewrite !Z. apply tup4; lia.
Qed.
Print Assumptions C45_additive.
(** The documentation gives the uncompressed size first; it is the other way round. *)
Theorem C45_order_refuted : exists a files dirs first second, zip_entry_rollup a = Ok (files, dirs, first, second) /\
  first <> zsum (map e_size (filter (fun e => negb (is_directory (e_name e))) (a_entries a))).
Proof. exists za, 4, 1. do 2 eexists. split; [vm_compute; reflexivity|]. vm_compute. discriminate. Qed.
Print Assumptions C45_order_refuted.
Example C45_ex : zip_entry_rollup za = Ok (4, 1, 4, 9).
Proof. reflexivity. Qed.

(** ** C65 *)
Theorem C65_entries : forall l kids e, In e (collect_infos (Dir l kids)) <->
  (exists p d m, at_path (Dir l kids) p (File false d m) /\ e = mkz (slashes p) (Z.of_nat (length d)) (Z.of_nat (length d)) (crc32 d 0) d) \/
  (exists p l' ks, p <> [] /\ at_path (Dir l kids) p (Dir l' ks) /\ e = mkz (slashes p ++ [47]) 0 0 0 []).
Proof. intros l kids e. exact (collect_infos_spec (Dir l kids) l kids e eq_refl). Qed.
Print Assumptions C65_entries.
Theorem C65_names : forall n, proper_tree n -> NoDup (map e_name (collect_infos n)).
Proof. exact infos_NoDup. Qed.
Print Assumptions C65_names.
Definition tree2 : node := Dir false [(lit "b", Dir false [(lit "x", File false [1; 2] 5); (lit "l", File true [3] 5); (lit "e", Dir false [])]); (lit "a", File false [9] 1); (lit "lnk", Dir true [(lit "y", File false [1] 1)]); (lit "f", Other false)].
Example C65_ex : map (fun e => (e_name e, e_size e, e_data e)) (collect_infos tree2) =
  [(lit "a", 1, [9]); (lit "b/", 0, []); (lit "b/x", 2, [1; 2]); (lit "b/e/", 0, [])] /\
  namelist (exploded tree2) = Ok [lit "a"; lit "b/"; lit "b/e/"; lit "b/x"].
Proof. vm_compute. auto. Qed.
Example C65_proper_ex : proper_tree tree2.
Proof.
  repeat (constructor; cbn [map fst snd]; try (intros [=]); try (split; [discriminate|cbn; intuition discriminate]); try (cbn; intuition discriminate)).
Qed.

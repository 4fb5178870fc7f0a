(** Proofs about writing and reading manifests. *)
From Verif Require Import Base ConstPool_Model Manifest_Model Manifest_Spec.
From Coq Require Import Permutation.

Ltac Zify.zify_post_hook ::= Z.div_mod_to_equations.

(** ** UTF-8 *)
Lemma scalar_range c : scalar c = true -> 0 <= c < 1114112.
Proof. unfold scalar. lia. Qed.
Lemma utf8_char_ok c : scalar c = true -> utf8_char c = Ok (utf8c c).
Proof.
  unfold scalar, utf8_char, utf8c. intro H.
  destruct (Z.ltb_spec c 128); [replace (c <=? 127) with true by lia; reflexivity|].
  replace (c <=? 127) with false by lia.
  destruct (Z.ltb_spec c 2048); [replace (c <=? 2047) with true by lia; reflexivity|].
  replace (c <=? 2047) with false by lia.
  replace ((55296 <=? c) && (c <? 57344)) with false by lia.
  destruct (Z.ltb_spec c 65536); [replace (c <=? 65535) with true by lia; reflexivity|].
  now replace (c <=? 65535) with false by lia.
Qed.
Lemma utf8_encode_ok s : forallb scalar s = true -> utf8_encode s = Ok (utf8 s).
Proof.
  induction s as [|c s IH]; [reflexivity|]. cbn [forallb utf8_encode]. intro H. apply andb_prop in H as [H1 H2].
  rewrite utf8_char_ok by exact H1. cbn [rbind]. rewrite IH by exact H2. reflexivity.
Qed.
Lemma utf8_app s t : utf8 (s ++ t) = utf8 s ++ utf8 t.
Proof. unfold utf8. now rewrite map_app, concat_app. Qed.

Lemma cons_inj {A} (a b : A) l m : a :: l = b :: m -> a = b /\ l = m.
Proof. intro H. injection H. auto. Qed.
Lemma utf8_step_char c rest b r : scalar c = true -> utf8c c = b :: r ->
  utf8_step b (r ++ rest) = UChar c rest.
Proof.
  intros H E. apply scalar_range in H as HR. unfold scalar in H. unfold utf8c in E.
  destruct (Z.leb_spec c 127).
  { apply cons_inj in E as [<- <-]. unfold utf8_step. replace (c <? 128) with true by lia. reflexivity. }
  destruct (Z.leb_spec c 2047).
  { apply cons_inj in E as [<- <-]. cbn [app]. unfold utf8_step, is_cont.
    replace (192 + c / 64 <? 128) with false by lia.
    replace ((194 <=? 192 + c / 64) && (192 + c / 64 <? 224)) with true by lia. cbn beta iota.
    replace ((128 <=? 128 + c mod 64) && (128 + c mod 64 <? 192)) with true by lia. f_equal. lia. }
  destruct (Z.leb_spec c 65535).
  { apply cons_inj in E as [<- <-]. cbn [app]. unfold utf8_step, is_cont.
    replace (224 + c / 4096 <? 128) with false by lia.
    replace ((194 <=? 224 + c / 4096) && (224 + c / 4096 <? 224)) with false by lia.
    replace ((224 <=? 224 + c / 4096) && (224 + c / 4096 <? 240)) with true by lia. cbn beta iota.
    replace ((128 <=? 128 + (c / 64) mod 64) && (128 + (c / 64) mod 64 <? 192)) with true by lia.
    replace ((128 <=? 128 + c mod 64) && (128 + c mod 64 <? 192)) with true by lia. cbn [negb orb].
    destruct (Z.ltb_spec (128 + (c / 64) mod 64) 160).
    - replace (224 + c / 4096 =? 224) with false by lia. f_equal. lia.
    - replace (224 + c / 4096 =? 237) with false by lia. f_equal. lia. }
  { apply cons_inj in E as [<- <-]. cbn [app]. unfold utf8_step, is_cont.
    replace (240 + c / 262144 <? 128) with false by lia.
    replace ((194 <=? 240 + c / 262144) && (240 + c / 262144 <? 224)) with false by lia.
    replace ((224 <=? 240 + c / 262144) && (240 + c / 262144 <? 240)) with false by lia.
    replace ((240 <=? 240 + c / 262144) && (240 + c / 262144 <? 245)) with true by lia. cbn beta iota.
    replace ((128 <=? 128 + (c / 4096) mod 64) && (128 + (c / 4096) mod 64 <? 192)) with true by lia.
    replace ((128 <=? 128 + (c / 64) mod 64) && (128 + (c / 64) mod 64 <? 192)) with true by lia.
    replace ((128 <=? 128 + c mod 64) && (128 + c mod 64 <? 192)) with true by lia. cbn [negb orb].
    destruct (Z.ltb_spec (128 + (c / 4096) mod 64) 144).
    - replace (240 + c / 262144 =? 240) with false by lia. f_equal. lia.
    - replace (240 + c / 262144 =? 244) with false by lia. f_equal. lia. }
Qed.
Lemma utf8c_cons c : exists b r, utf8c c = b :: r.
Proof. unfold utf8c. repeat destruct (_ <=? _); eauto. Qed.

Lemma ignore_fuel : forall bs f g, (length bs <= f)%nat -> (length bs <= g)%nat ->
  utf8_ignore_f f bs = utf8_ignore_f g bs.
Proof.
  intro bs. remember (length bs) as n eqn:En. revert bs En.
  induction n as [n IH] using lt_wf_ind. intros bs En f g Hf Hg.
  destruct bs as [|b bs]; [destruct f, g; reflexivity|]. cbn [length] in En.
  destruct f as [|f]; [lia|]. destruct g as [|g]; [lia|]. cbn [utf8_ignore_f].
  assert (HS : match utf8_step b bs with UChar _ r | UBad r => (length r <= length bs)%nat end).
  { unfold utf8_step.
    repeat (match goal with
            | |- context [if ?x then _ else _] => destruct x
            | |- context [match ?x with [] => _ | _ :: _ => _ end] => destruct x
            end; cbn [length]; try lia). }
  destruct (utf8_step b bs) as [c r|r]; [f_equal|]; apply (IH (length r)); lia.
Qed.
Lemma ignore_utf8 s : forall rest, forallb scalar s = true -> utf8_ignore (utf8 s ++ rest) = s ++ utf8_ignore rest.
Proof.
  induction s as [|c s IH]; intros rest H; [reflexivity|]. cbn [forallb] in H. apply andb_prop in H as [H1 H2].
  change (utf8 (c :: s)) with (utf8c c ++ utf8 s). rewrite <- app_assoc.
  destruct (utf8c_cons c) as (b & r & E). rewrite E. unfold utf8_ignore at 1. cbn [app length utf8_ignore_f].
  rewrite (utf8_step_char c _ b r H1 E). cbn [app]. f_equal. rewrite <- IH by exact H2.
  unfold utf8_ignore. apply ignore_fuel; rewrite ?app_length; lia.
Qed.

(** ** Folding *)
Fixpoint chunk69 (fuel : nat) (b : bytes) : list bytes :=
  match b with
  | [] => []
  | _ => match fuel with O => [] | S fu => firstn 69 b :: chunk69 fu (skipn 69 b) end
  end.
Definition lines_of (ls : bytes) (kv : bytes) : list bytes :=
  (firstn 70 kv ++ ls) :: map (fun c => 32 :: c ++ ls) (chunk69 (length kv) (skipn 70 kv)).

Lemma fold_rest_chunks ls : forall fuel b, fold_rest fuel ls b = concat (map (fun c => ls ++ 32 :: c) (chunk69 fuel b)).
Proof.
  induction fuel as [|fu IH]; intros [|x b]; try reflexivity. cbn [fold_rest chunk69 map concat].
  rewrite IH, <- !app_assoc. reflexivity.
Qed.
Lemma rotate_ls (ls : bytes) : forall cs : list bytes,
  concat (map (fun c => ls ++ 32 :: c) cs) ++ ls = ls ++ concat (map (fun c => 32 :: c ++ ls) cs).
Proof.
  induction cs as [|c cs IH]; [now rewrite app_nil_r|]. cbn [map concat].
  rewrite <- app_assoc, IH. rewrite <- !app_assoc. cbn [app]. rewrite <- !app_assoc. reflexivity.
Qed.

(** What write_key_val writes, in all cases where it does not raise. *)
Lemma write_lines k v ls data : write_key_val k v (Some ls) = Ok data ->
  exists kb vb lsb, utf8_encode k = Ok kb /\ utf8_encode v = Ok vb /\ utf8_encode ls = Ok lsb /\
    (0 < length kb < 69)%nat /\ vb <> [] /\ data = concat (lines_of lsb (kb ++ [58; 32] ++ vb)).
Proof.
  unfold write_key_val. destruct (utf8_encode k) as [kb|]; [|discriminate]. cbn [rbind].
  destruct (utf8_encode v) as [vb|]; [|discriminate]. cbn [rbind].
  destruct (utf8_encode ls) as [lsb|]; [|discriminate]. cbn [rbind].
  destruct (negb _) eqn:E1; [discriminate|].
  assert (Hk : (0 < length kb < 69)%nat) by lia.
  destruct (_ >? 68) eqn:E2; intro H.
  - injection H as <-. exists kb, vb, lsb. repeat split; try lia.
    + intros ->. cbn [length] in E2. lia.
    + unfold lines_of. cbn [concat]. rewrite fold_rest_chunks, rotate_ls, app_assoc. reflexivity.
  - destruct vb as [|x vb]; [discriminate|]. injection H as <-. exists kb, (x :: vb), lsb.
    repeat split; try lia; try discriminate. unfold lines_of.
    assert (HL : (length (kb ++ [58; 32]%Z ++ x :: vb) <= 70)%nat).
    { rewrite !app_length. cbn [length] in *. lia. }
    rewrite firstn_all2 by exact HL.
    rewrite skipn_all2 by exact HL.
    destruct (length (kb ++ [58; 32] ++ x :: vb)); cbn [chunk69 map concat]; rewrite app_nil_r, <- !app_assoc; reflexivity.
Qed.
Lemma write_ok k v ls kb vb lsb : utf8_encode k = Ok kb -> utf8_encode v = Ok vb -> utf8_encode ls = Ok lsb ->
  (0 < length kb < 69)%nat -> vb <> [] ->
  write_key_val k v (Some ls) = Ok (concat (lines_of lsb (kb ++ [58; 32] ++ vb))).
Proof.
  intros H1 H2 H3 Hk Hv.
  destruct (write_key_val k v (Some ls)) as [data|e] eqn:E.
  - apply write_lines in E as (kb' & vb' & lsb' & E1 & E2 & E3 & _ & _ & ->).
    rewrite H1 in E1. rewrite H2 in E2. rewrite H3 in E3. injection E1 as <-. injection E2 as <-. injection E3 as <-. reflexivity.
  - unfold write_key_val in E. rewrite H1 in E. cbn [rbind] in E. rewrite H2 in E. cbn [rbind] in E.
    rewrite H3 in E. cbn [rbind] in E. destruct (negb _) eqn:E1; [lia|]. destruct (_ >? 68); [discriminate|].
    destruct vb; [contradiction|discriminate].
Qed.

(** ** C23: lines of at most 72 bytes *)
Definition short_pieces (data : bytes) : Prop :=
  exists ps, data = concat ps /\ Forall (fun p => (length p <= 72)%nat /\ exists q, p = q ++ [10]) ps.
Lemma short_app a b : short_pieces a -> short_pieces b -> short_pieces (a ++ b).
Proof.
  intros (ps & -> & H1) (qs & -> & H2). exists (ps ++ qs). split; [now rewrite concat_app|].
  now apply Forall_app.
Qed.
Lemma short_nil : short_pieces [].
Proof. exists []. split; [reflexivity|constructor]. Qed.
Lemma chunk69_len : forall fuel b, Forall (fun c => (length c <= 69)%nat) (chunk69 fuel b).
Proof.
  induction fuel as [|fu IH]; intros [|x b]; try constructor; [|apply IH].
  rewrite firstn_length. lia.
Qed.
Definition a_linesep (ls : str) : Prop := ls = lf \/ ls = crlf.
Lemma linesep_enc ls : a_linesep ls -> utf8_encode ls = Ok ls.
Proof. intros [->| ->]; reflexivity. Qed.

Lemma short_write k v ls data : a_linesep ls -> write_key_val k v (Some ls) = Ok data -> short_pieces data.
Proof.
  intros Hls H. apply write_lines in H as (kb & vb & lsb & _ & _ & E3 & _ & _ & ->).
  rewrite linesep_enc in E3 by exact Hls. injection E3 as <-.
  assert (HL : (length ls <= 2)%nat /\ exists q, ls = q ++ [10]).
  { destruct Hls as [->| ->]; (split; [cbn; lia|]). now exists []. now exists [13]. }
  destruct HL as [HL (q & Hq)].
  exists (lines_of ls (kb ++ [58; 32] ++ vb)). split; [reflexivity|]. unfold lines_of. constructor.
  - split; [rewrite app_length, firstn_length; lia|]. eexists. rewrite Hq, app_assoc. reflexivity.
  - rewrite Forall_map. eapply Forall_impl; [|apply chunk69_len]. intros c Hc. cbn beta in *.
    split; [cbn [length]; rewrite app_length; lia|]. eexists (32 :: c ++ q). rewrite Hq. cbn [app].
    now rewrite <- app_assoc.
Qed.
Lemma short_items s ls data : a_linesep ls -> write_items s (Some ls) = Ok data -> short_pieces data.
Proof.
  intro Hls. revert data. induction s as [|[k v] s IH]; intros data H; cbn [write_items] in H.
  - injection H as <-. apply short_nil.
  - destruct (write_key_val k v (Some ls)) as [b|] eqn:E; [|discriminate]. cbn [rbind] in H.
    destruct (write_items s (Some ls)) as [r|] eqn:E2; [|discriminate]. injection H as <-.
    apply short_app; [eapply short_write; eauto|now apply IH].
Qed.
Lemma short_section s ls data : a_linesep ls -> sec_data s (Some ls) = Ok data -> short_pieces data.
Proof.
  intros Hls H. unfold sec_data in H. destruct (write_items s (Some ls)) as [b|] eqn:E; [|discriminate].
  cbn [rbind] in H. rewrite linesep_enc in H by exact Hls. injection H as <-.
  apply short_app; [eapply short_items; eauto|]. exists [ls]. cbn [concat]. rewrite app_nil_r. split; [reflexivity|].
  constructor; [|constructor]. destruct Hls as [->| ->]; (split; [cbn; lia|]). now exists []. now exists [13].
Qed.
Lemma mapM_forall {A B} (f : A -> res B) (P : B -> Prop) : forall l r, mapM f l = Ok r ->
  (forall a b, In a l -> f a = Ok b -> P b) -> Forall P r.
Proof.
  induction l as [|a l IH]; intros r H HP; cbn [mapM] in H; [injection H as <-; constructor|].
  destruct (f a) as [b|] eqn:E; [|discriminate]. cbn [rbind] in H. destruct (mapM f l) as [bs|] eqn:E2; [|discriminate].
  injection H as <-. constructor; [eapply HP; [now left|exact E]|]. apply IH; [reflexivity|].
  intros a' b' Ha. apply HP. now right.
Qed.
Lemma short_manifest m lo data : a_linesep (man_linesep m lo) -> man_data m lo = Ok data -> short_pieces data.
Proof.
  intros Hls H. unfold man_data in H. cbv zeta in H.
  destruct (sec_data (m_main m) _) as [mn|] eqn:E1; [|discriminate]. cbn [rbind] in H.
  destruct (mapM sec_key _) as [ks|]; [|discriminate]. cbn [rbind] in H.
  destruct (mapM _ (sort_secs ks)) as [ds|] eqn:E3; [|discriminate]. injection H as <-.
  apply short_app; [exact (short_section _ _ _ Hls E1)|].
  assert (HF : Forall short_pieces ds).
  { eapply mapM_forall; [exact E3|]. intros a b _ Hb. exact (short_section _ _ _ Hls Hb). }
  clear E3. induction HF; cbn [concat]; [apply short_nil|]. now apply short_app.
Qed.

Lemma phys_app q rest : phys_lines ((q ++ [10]) ++ rest) = phys_lines (q ++ [10]) ++ phys_lines rest.
Proof.
  induction q as [|c q IH]; [reflexivity|]. cbn [app phys_lines]. destruct (c =? 10); [now rewrite IH|].
  rewrite IH. destruct (phys_lines (q ++ [10])) eqn:E; [|reflexivity].
  exfalso. destruct q as [|x q]; [discriminate|]. cbn [app phys_lines] in E. destruct (x =? 10); [discriminate|].
  destruct (phys_lines (q ++ [10])); discriminate.
Qed.
Lemma phys_len : forall b, Forall (fun l => (length l <= length b)%nat) (phys_lines b).
Proof.
  induction b as [|c b IH]; [constructor|]. cbn [phys_lines]. destruct (c =? 10).
  - constructor; [cbn; lia|]. eapply Forall_impl; [|exact IH]. cbn [length]. intros; cbn beta in *; lia.
  - destruct (phys_lines b) as [|l ls]; [constructor; [cbn [length]; lia|constructor]|].
    inversion IH as [|? ? H1 H2]; subst. constructor; [cbn [length] in *; lia|].
    eapply Forall_impl; [|exact H2]. cbn [length]. intros; cbn beta in *; lia.
Qed.
Lemma short_phys data : short_pieces data -> Forall (fun l => Z.of_nat (length l) <= 72) (phys_lines data).
Proof.
  intros (ps & -> & HF). induction HF as [|p ps (Hl & q & Hq) HF IH]; [constructor|].
  cbn [concat]. subst p. rewrite phys_app. apply Forall_app. split; [|exact IH].
  eapply Forall_impl; [|apply phys_len]. intros l Hll. cbn beta in *. lia.
Qed.

Lemma phys_line q rest : ~ In 10 q -> phys_lines ((q ++ [10]) ++ rest) = (q ++ [10]) :: phys_lines rest.
Proof.
  induction q as [|c q IH]; intro H; [reflexivity|]. cbn [app phys_lines].
  destruct (Z.eqb_spec c 10) as [->|Hc]; [exfalso; apply H; now left|].
  rewrite IH by (intro; apply H; now right). reflexivity.
Qed.
Lemma ok_inj {A} (a b : A) : Ok a = Ok b -> a = b.
Proof. intro H. injection H. auto. Qed.
Lemma utf8_char_inv c b : utf8_char c = Ok b -> b = utf8c c.
Proof.
  unfold utf8_char, utf8c. intro H.
  destruct (Z.ltb_spec c 128); [replace (c <=? 127) with true by lia; now apply ok_inj in H|].
  replace (c <=? 127) with false by lia.
  destruct (Z.ltb_spec c 2048); [replace (c <=? 2047) with true by lia; now apply ok_inj in H|].
  replace (c <=? 2047) with false by lia.
  destruct (_ && _); [discriminate|].
  destruct (Z.ltb_spec c 65536); [replace (c <=? 65535) with true by lia; now apply ok_inj in H|].
  replace (c <=? 65535) with false by lia. now apply ok_inj in H.
Qed.
Lemma utf8_encode_inv : forall s b, utf8_encode s = Ok b -> b = utf8 s.
Proof.
  induction s as [|c s IH]; intros b H; cbn [utf8_encode] in H; [now apply ok_inj in H|].
  destruct (utf8_char c) as [x|] eqn:E1; [|discriminate]. cbn [rbind] in H.
  destruct (utf8_encode s) as [y|] eqn:E2; [|discriminate]. apply ok_inj in H. subst b.
  apply utf8_char_inv in E1. rewrite (IH y eq_refl), E1. reflexivity.
Qed.
Lemma utf8c_no10 c : c <> 10 -> ~ In 10 (utf8c c).
Proof.
  unfold utf8c. intro Hc.
  destruct (Z.leb_spec c 127); [cbn [In]; lia|].
  destruct (Z.leb_spec c 2047); [cbn [In]; lia|].
  destruct (Z.leb_spec c 65535); cbn [In]; lia.
Qed.
Lemma utf8_no10 s : ~ In 10 s -> ~ In 10 (utf8 s).
Proof.
  intros H H2. unfold utf8 in H2. apply in_concat in H2 as (l & Hl & H2). apply in_map_iff in Hl as (c & <- & Hc).
  revert H2. apply utf8c_no10. intros ->. contradiction.
Qed.

Lemma chunk69_concat : forall fuel b, (length b <= fuel)%nat -> concat (chunk69 fuel b) = b.
Proof.
  induction fuel as [|fu IH]; intros [|x b] H; try reflexivity; [cbn in H; lia|].
  cbn [chunk69 concat]. rewrite IH; [apply firstn_skipn|]. rewrite skipn_length. cbn [length] in *. lia.
Qed.
Lemma in_chunk69 : forall fuel b c y, In c (chunk69 fuel b) -> In y c -> In y b.
Proof.
  induction fuel as [|fu IH]; intros [|x b] c y H Hy; cbn [chunk69 In] in H; try contradiction.
  rewrite <- (firstn_skipn 69 (x :: b)). apply in_or_app. destruct H as [<-|H]; [now left|]. right. eapply IH; eauto.
Qed.
Lemma lines_of_phys ls kv : a_linesep ls -> ~ In 10 kv -> phys_lines (concat (lines_of ls kv)) = lines_of ls kv.
Proof.
  intros Hls Hkv.
  assert (G : forall ps, Forall (fun p => exists q, p = q ++ [10] /\ ~ In 10 q) ps -> phys_lines (concat ps) = ps).
  { induction ps as [|p ps IH]; intro HF; [reflexivity|]. inversion HF as [|? ? (q & -> & Hq) HF']; subst.
    cbn [concat]. rewrite phys_line by exact Hq. now rewrite IH. }
  apply G.
  assert (L : forall q, ~ In 10 q -> exists q', q ++ ls = q' ++ [10] /\ ~ In 10 q').
  { intros q Hq. destruct Hls as [->| ->]; [now exists q|]. exists (q ++ [13]). split; [now rewrite <- app_assoc|].
    rewrite in_app_iff. cbn [In]. intros [?|[?|[]]]; [contradiction|lia]. }
  unfold lines_of. constructor.
  - apply L. intro H. apply Hkv. rewrite <- (firstn_skipn 70 kv). apply in_or_app. now left.
  - rewrite Forall_map, Forall_forall. intros c Hc. apply (L (32 :: c)). cbn [In]. intros [H|H]; [lia|].
    apply Hkv. rewrite <- (firstn_skipn 70 kv). apply in_or_app. right. eapply in_chunk69; eauto.
Qed.
Lemma chop_app ls q : chop ls (q ++ ls) = q.
Proof.
  unfold chop. rewrite app_length. replace (length q + length ls - length ls)%nat with (length q) by lia.
  rewrite firstn_app, firstn_all, Nat.sub_diag. cbn [firstn]. now rewrite app_nil_r.
Qed.

Lemma unfold_bytes k v ls data : a_linesep ls -> ~ In 10 k -> ~ In 10 v ->
  write_key_val k v (Some ls) = Ok data ->
  exists first rest, phys_lines data = first :: rest /\ spaced rest /\
    Forall (fun l => exists l', l = l' ++ ls) (first :: rest) /\
    chop ls first ++ concat (map (fun l => tl (chop ls l)) rest) = utf8 (header k v).
Proof.
  intros Hls Hk Hv H. apply write_lines in H as (kb & vb & lsb & E1 & E2 & E3 & _ & _ & ->).
  rewrite linesep_enc in E3 by exact Hls. apply ok_inj in E3. subst lsb.
  apply utf8_encode_inv in E1. apply utf8_encode_inv in E2. subst kb vb.
  assert (Hkv : ~ In 10 (utf8 k ++ [58; 32] ++ utf8 v)).
  { rewrite !in_app_iff. cbn [In]. intros [?|[[?|[?|[]]]|?]]; try lia; [now apply (utf8_no10 k)|now apply (utf8_no10 v)]. }
  rewrite lines_of_phys by assumption. unfold header. rewrite !utf8_app. change (utf8 [58; 32]) with [58; 32]%Z.
  set (kv := utf8 k ++ [58; 32] ++ utf8 v) in *. unfold lines_of.
  exists (firstn 70 kv ++ ls), (map (fun c => 32 :: c ++ ls) (chunk69 (length kv) (skipn 70 kv))).
  split; [reflexivity|]. split; [|split].
  - unfold spaced. rewrite Forall_map, Forall_forall. intros c _. eauto.
  - constructor; [eauto|]. rewrite Forall_map, Forall_forall. intros c _. now exists (32 :: c).
  - rewrite chop_app. rewrite map_map.
    rewrite (map_ext _ (fun c => c)) by (intro c; change (32 :: c ++ ls) with ((32 :: c) ++ ls); now rewrite chop_app).
    rewrite map_id, chunk69_concat; [apply firstn_skipn|]. rewrite skipn_length. lia.
Qed.

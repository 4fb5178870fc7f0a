(** Proofs about class files. *)
From Verif Require Import Base Pack_Model Pack_Spec Pack_Proofs ConstPool_Model ConstPool_Spec
  ConstPool_Proofs ConstPool_Deref ClassFile_Model ClassFile_Spec.
From Coq Require Import FinFun.

Lemma pool_shows_parsed l : pool_shows l (KNone :: slots l).
Proof.
  split.
  - cbn [length]. pose proof (length_slots l). lia.
  - intros i Hi. apply get_const_pool, Hi.
Qed.

(** ** Attribute tables *)
Lemma py_eq_str s v : py_eq (PStr s) v = true -> v = PStr s.
Proof. destruct v; cbn; try discriminate. intro H. apply seqb_eq in H. now subst. Qed.
Lemma py_eq_str_refl s : py_eq (PStr s) (PStr s) = true.
Proof. cbn. apply seqb_refl. Qed.

Lemma aget_aset d m v n :
  aget (aset d (PStr m) v) (PStr n) = if seqb n m then Some v else aget d (PStr n).
Proof.
  induction d as [|[k w] d IH].
  - cbn [aset aget]. cbn [py_eq]. destruct (seqb n m); reflexivity.
  - cbn [aset]. destruct (py_eq (PStr m) k) eqn:E.
    + apply py_eq_str in E. subst k. cbn [aget py_eq]. destruct (seqb n m); reflexivity.
    + cbn [aget]. destruct (py_eq (PStr n) k) eqn:E2.
      * apply py_eq_str in E2. subst k. cbn [py_eq] in E.
        destruct (seqb n m) eqn:E3; [|reflexivity]. apply seqb_eq in E3. subst.
        rewrite seqb_refl in E. discriminate.
      * exact IH.
Qed.

Lemma aset_new d m v : ~ In (PStr m) (map fst d) -> aset d (PStr m) v = d ++ [(PStr m, v)].
Proof.
  induction d as [|[k w] d IH]; intro H; [reflexivity|]. cbn [aset].
  destruct (py_eq (PStr m) k) eqn:E.
  - apply py_eq_str in E. subst k. exfalso. apply H. now left.
  - cbn [app]. rewrite IH; [reflexivity|]. intro Hin. apply H. now right.
Qed.

Fixpoint attrs_from (l : list jconst) (d : attrs) (al : list jattr) : attrs :=
  match al with
  | [] => d
  | a :: al' =>
      match jutf8_at l (ja_name a) with
      | Some n => attrs_from l (aset d (PStr n) (ja_data a)) al'
      | None => attrs_from l d al'
      end
  end.

Lemma attrs_from_get l al : forall d n,
  aget (attrs_from l d al) (PStr n) =
  match last_named l al n with Some b => Some b | None => aget d (PStr n) end.
Proof.
  induction al as [|a al IH]; intros d n; [reflexivity|]. cbn [attrs_from last_named].
  destruct (jutf8_at l (ja_name a)) as [m|].
  - rewrite IH, aget_aset. destruct (last_named l al n); [reflexivity|].
    destruct (seqb n m); reflexivity.
  - rewrite IH. destruct (last_named l al n); reflexivity.
Qed.

Lemma attrs_from_list l al : forall d,
  forallb (jattr_ok l) al = true ->
  NoDup (map Some (map fst d) ++ map (fun a => option_map PStr (jutf8_at l (ja_name a))) al) ->
  map Some (map fst (attrs_from l d al)) =
    map Some (map fst d) ++ map (fun a => option_map PStr (jutf8_at l (ja_name a))) al /\
  map snd (attrs_from l d al) = map snd d ++ map ja_data al.
Proof.
  induction al as [|a al IH]; intros d Hok HN.
  - cbn. now rewrite !app_nil_r.
  - cbn [forallb] in Hok. apply andb_prop in Hok as [Ha Hal]. cbn [attrs_from map].
    unfold jattr_ok in Ha. apply andb_prop in Ha as [_ Ha].
    cbn [map] in HN. destruct (jutf8_at l (ja_name a)) as [n|]; [|discriminate].
    cbn [option_map] in *.
    assert (Hn : ~ In (PStr n) (map fst d)).
    { intro Hin. apply NoDup_remove_2 in HN. apply HN. apply in_or_app. left.
      apply in_map, Hin. }
    rewrite (aset_new d n (ja_data a) Hn).
    assert (HN' : NoDup (map Some (map fst (d ++ [(PStr n, ja_data a)])) ++
                  map (fun a => option_map PStr (jutf8_at l (ja_name a))) al)).
    { rewrite !map_app. cbn [map fst]. rewrite <- app_assoc. exact HN. }
    destruct (IH _ Hal HN') as [E1 E2]. rewrite E1, E2, !map_app. cbn [map fst snd].
    now rewrite <- !app_assoc.
Qed.

Lemma attrs_from_show l al : forallb (jattr_ok l) al = true -> attrs_show l al (attrs_from l [] al).
Proof.
  intro Hok. split.
  - intro n. unfold get_attribute. rewrite attrs_from_get. destruct (last_named l al n); reflexivity.
  - intro HN. destruct (attrs_from_list l al [] Hok) as [E1 E2].
    + cbn [map app]. unfold names_distinct in HN.
      rewrite <- (map_map (fun a => jutf8_at l (ja_name a)) (option_map PStr)).
      apply FinFun.Injective_map_NoDup; [|exact HN].
      intros [x|] [y|]; cbn; congruence.
    + now rewrite E1, E2.
Qed.

Lemma prun_attr_loop l p al : pool_shows l p -> forall d rest,
  forallb (jattr_ok l) al = true ->
  prun (p_attr_loop p (length al) d) (concat (map enc_attr al) ++ rest) = Ok (attrs_from l d al, rest).
Proof.
  intros Hs. induction al as [|a al IH]; intros d rest Hok; [reflexivity|].
  cbn [forallb] in Hok. apply andb_prop in Hok as [Ha Hal].
  unfold jattr_ok in Ha. apply andb_prop in Ha as [Ha Hn]. apply andb_prop in Ha as [Hu Hl].
  cbn [length p_attr_loop map concat attrs_from]. unfold enc_attr at 1, e2, e4.
  rewrite <- !app_assoc.
  rewrite prun_unpack2; [|exact Hu|apply field_u4; lia]. cbn [fst snd].
  rewrite prun_read by lia.
  destruct (jutf8_at l (ja_name a)) as [n|] eqn:En; [|discriminate].
  rewrite (prun_lift_ok _ (PStr n)).
  2:{ apply deref_const_iff. eapply utf8_derefs; eassumption. }
  apply IH, Hal.
Qed.

Lemma prun_attrs l p al rest : pool_shows l p -> jattrs_ok l al = true ->
  exists d, prun (p_attrs p) (enc_attrs al ++ rest) = Ok (d, rest) /\ attrs_show l al d.
Proof.
  intros Hs H. unfold jattrs_ok, short_list in H. apply andb_prop in H as [H1 H2].
  exists (attrs_from l [] al). split; [|apply attrs_from_show, H2].
  unfold p_attrs, enc_attrs, count16, e2. rewrite <- app_assoc.
  rewrite prun_unpack1 by (apply field_u2; lia). rewrite Nat2Z.id.
  now apply prun_attr_loop.
Qed.

(** ** Repetition *)
Lemma prun_repeat {A B} (enc : A -> bytes) (ok : A -> bool) (p : prog B) (R : A -> B -> Prop) :
  (forall a rest, ok a = true -> exists b, prun p (enc a ++ rest) = Ok (b, rest) /\ R a b) ->
  forall l rest, forallb ok l = true ->
  exists bl, prun (p_repeat (length l) p) (concat (map enc l) ++ rest) = Ok (bl, rest) /\ Forall2 R l bl.
Proof.
  intro H. induction l as [|a l IH]; intros rest Hok.
  - exists []. split; [reflexivity|constructor].
  - cbn [forallb] in Hok. apply andb_prop in Hok as [Ha Hl].
    cbn [length p_repeat map concat]. rewrite <- app_assoc.
    destruct (H a (concat (map enc l) ++ rest) Ha) as (b & E & HR).
    destruct (IH rest Hl) as (bl & El & HRl).
    exists (b :: bl). split; [|constructor; assumption].
    rewrite prun_bind, E. rewrite prun_bind, El. reflexivity.
Qed.

Lemma prun_objects {A B} (enc : A -> bytes) (ok : A -> bool) (p : prog B) (R : A -> B -> Prop) l rest :
  (forall a rest, ok a = true -> exists b, prun p (enc a ++ rest) = Ok (b, rest) /\ R a b) ->
  forallb ok l = true -> short_list l = true ->
  exists bl, prun (p_objects p) (count16 l ++ concat (map enc l) ++ rest) = Ok (bl, rest) /\ Forall2 R l bl.
Proof.
  intros H Hok Hs. unfold short_list in Hs. unfold p_objects, count16, e2.
  destruct (prun_repeat enc ok p R H l rest Hok) as (bl & E & HR).
  exists bl. split; [|exact HR].
  rewrite prun_unpack1 by (apply field_u2; lia). now rewrite Nat2Z.id.
Qed.

Ltac split_ok H :=
  repeat match type of H with
  | (_ && _) = true => let H' := fresh "Hk" in apply andb_prop in H as [H H']
  end.

Lemma prun_member l p b m rest : pool_shows l p -> jmember_ok l m = true ->
  exists r, prun (p_member p b) (enc_member m ++ rest) = Ok (r, rest) /\ member_shows l b m r.
Proof.
  intros Hs H. unfold jmember_ok in H. split_ok H.
  destruct (prun_attrs l p (jm_attrs m) rest Hs Hk) as (d & E & Hd).
  exists (mkmember (jm_flags m) (jm_name m) (jm_desc m) d b). split.
  - unfold p_member, enc_member, e2. rewrite <- !app_assoc.
    rewrite prun_unpack3 by assumption. rewrite prun_bind, E. reflexivity.
  - unfold member_shows. auto 6.
Qed.

Lemma prun_members l p b ml rest : pool_shows l p -> jmembers_ok l ml = true ->
  exists r, prun (p_objects (p_member p b)) (enc_members ml ++ rest) = Ok (r, rest) /\
            Forall2 (member_shows l b) ml r.
Proof.
  intros Hs H. unfold jmembers_ok in H. apply andb_prop in H as [H1 H2].
  unfold enc_members. rewrite <- app_assoc.
  eapply prun_objects; [|exact H2|exact H1].
  intros a r Ha. now apply prun_member.
Qed.

Lemma prun_unpack_H {A} vs (k : list Z -> prog A) rest : forallb u2 vs = true ->
  prun (pbind (p_unpack (repeat cH (length vs))) k) (concat (map e2 vs) ++ rest) = prun (k vs) rest.
Proof.
  intro H. unfold p_unpack. cbn [pbind].
  replace (concat (map e2 vs)) with (enc_fields (repeat cH (length vs)) vs).
  - rewrite prun_unpack_enc; [reflexivity|].
    induction vs as [|v vs IH]; [reflexivity|]. cbn [forallb] in H. apply andb_prop in H as [H1 H2].
    cbn [length repeat fields_ok]. unfold u2 in H1. rewrite H1. now apply IH.
  - clear H. induction vs as [|v vs IH]; [reflexivity|]. cbn [length repeat enc_fields map concat].
    now rewrite IH.
Qed.

Lemma prun_class_body c rest : jclassfile_ok c = true ->
  exists r, prun p_class_body (enc_class_body c ++ rest) = Ok (r, rest) /\ class_shows c r.
Proof.
  intro H. unfold jclassfile_ok in H. split_ok H.
  pose proof (pool_shows_parsed (jc_pool c)) as Hs.
  unfold p_class_body, enc_class_body, e2. rewrite <- !app_assoc.
  rewrite prun_unpack2 by assumption.
  rewrite prun_bind, prun_pool by assumption.
  rewrite prun_unpack3 by assumption.
  unfold count16, e2. rewrite prun_unpack1 by (unfold short_list in *; apply field_u2; lia).
  rewrite Nat2Z.id. change (fun v => enc_field cH v) with e2.
  rewrite prun_unpack_H by assumption.
  destruct (prun_attrs (jc_pool c) _ (jc_attrs c) rest Hs Hk) as (d & Ed & Hd).
  destruct (prun_members (jc_pool c) _ true (jc_methods c) (enc_attrs (jc_attrs c) ++ rest) Hs Hk0)
    as (ms & Em & Hm).
  destruct (prun_members (jc_pool c) _ false (jc_fields c)
     (enc_members (jc_methods c) ++ enc_attrs (jc_attrs c) ++ rest) Hs Hk1) as (fs & Ef & Hf).
  rewrite prun_bind, Ef. rewrite prun_bind, Em. rewrite prun_bind, Ed. cbn [fst snd].
  eexists. split; [reflexivity|]. unfold class_shows. auto 12.
Qed.

Lemma prun_magic {A} (k : list Z -> prog A) rest :
  prun (pbind (p_unpack [cB; cB; cB; cB]) k) ([202; 254; 186; 190] ++ rest) =
  prun (k [202; 254; 186; 190]) rest.
Proof. reflexivity. Qed.

Lemma prun_class c rest : jclassfile_ok c = true ->
  exists r, prun (p_unpack_class MNone) (enc_class c ++ rest) = Ok (r, rest) /\ class_shows c r.
Proof.
  intro H. destruct (prun_class_body c rest H) as (r & E & Hr). exists r. split; [|exact Hr].
  unfold p_unpack_class, enc_class. rewrite <- app_assoc.
  rewrite prun_bind. rewrite prun_bind. exact E.
Qed.

Lemma prun_class_magic c rest : jclassfile_ok c = true ->
  exists r, prun (p_unpack_class (MTuple JAVA_CLASS_MAGIC)) (enc_class_body c ++ rest) = Ok (r, rest)
            /\ class_shows c r.
Proof.
  intro H. destruct (prun_class_body c rest H) as (r & E & Hr). exists r. split; [|exact Hr].
  exact E.
Qed.

Lemma roundtrip_buf {A} (p : prog A) (bs rest : bytes) (R : A -> Prop) :
  (exists r, prun p (bs ++ rest) = Ok (r, rest) /\ R r) ->
  exists r st, run_buf p (open_buf (bs ++ rest)) = (Ok r, st) /\ buf_rest st = rest /\
            run_str p (open_stream (bs ++ rest)) = (Ok r, Some rest) /\ R r.
Proof.
  intros (r & E & Hr). pose proof (run_buf_open p (bs ++ rest)) as HB.
  pose proof (run_str_prun p (bs ++ rest)) as HS. rewrite E in HB, HS.
  destruct HB as (st & HB & Hst). exists r, st. auto.
Qed.

Lemma class_roundtrip c rest : jclassfile_ok c = true ->
  (exists r st, run_buf (p_unpack_class MNone) (open_buf (enc_class c ++ rest)) = (Ok r, st) /\
       buf_rest st = rest /\
       run_str (p_unpack_class MNone) (open_stream (enc_class c ++ rest)) = (Ok r, Some rest) /\
       class_shows c r) /\
  (exists r st, run_buf (p_unpack_class (MTuple JAVA_CLASS_MAGIC)) (open_buf (enc_class_body c ++ rest)) = (Ok r, st) /\
       buf_rest st = rest /\
       run_str (p_unpack_class (MTuple JAVA_CLASS_MAGIC)) (open_stream (enc_class_body c ++ rest)) = (Ok r, Some rest) /\
       class_shows c r).
Proof.
  intro H. split; apply roundtrip_buf; [now apply prun_class|now apply prun_class_magic].
Qed.

Lemma unpack_class_roundtrip c rest : jclassfile_ok c = true ->
  exists r, unpack_class (enc_class c ++ rest) MNone = Ok r /\
            unpack_class_stream (enc_class c ++ rest) MNone = Ok r /\
            unpack_class (enc_class_body c ++ rest) (MTuple JAVA_CLASS_MAGIC) = Ok r /\
            unpack_class_stream (enc_class_body c ++ rest) (MTuple JAVA_CLASS_MAGIC) = Ok r /\
            class_shows c r.
Proof.
  intro H. destruct (prun_class_body c rest H) as (r & E & Hr). exists r.
  assert (E1 : prun (p_unpack_class MNone) (enc_class c ++ rest) = Ok (r, rest)).
  { unfold p_unpack_class, enc_class. rewrite <- app_assoc. rewrite prun_bind. rewrite prun_bind. exact E. }
  assert (E2 : prun (p_unpack_class (MTuple JAVA_CLASS_MAGIC)) (enc_class_body c ++ rest) = Ok (r, rest))
    by exact E.
  unfold unpack_class, unpack_class_stream, open_stream.
  pose proof (run_buf_open (p_unpack_class MNone) (enc_class c ++ rest)) as HB1.
  pose proof (run_str_prun (p_unpack_class MNone) (enc_class c ++ rest)) as HS1.
  pose proof (run_buf_open (p_unpack_class (MTuple JAVA_CLASS_MAGIC)) (enc_class_body c ++ rest)) as HB2.
  pose proof (run_str_prun (p_unpack_class (MTuple JAVA_CLASS_MAGIC)) (enc_class_body c ++ rest)) as HS2.
  rewrite E1 in HB1, HS1. rewrite E2 in HB2, HS2.
  destruct HB1 as (st1 & HB1 & _). destruct HB2 as (st2 & HB2 & _).
  rewrite HB1, HS1, HB2, HS2. auto.
Qed.

(** ** Code attributes *)
Lemma prun_handler h rest : handler_ok h = true ->
  exists e, prun p_exinfo (enc_handler h ++ rest) = Ok (e, rest) /\
            (ex_start e, ex_end e, ex_handler e, ex_type_ref e) = h.
Proof.
  destruct h as [[[a b] c] d]. unfold handler_ok. intro H. split_ok H.
  exists (mkex a b c d). split; [|reflexivity].
  unfold p_exinfo, enc_handler, e2. rewrite <- !app_assoc. now rewrite prun_unpack4 by assumption.
Qed.

Lemma prun_code l p k rest : pool_shows l p -> jcode_ok l k = true ->
  exists r, prun (p_code p) (enc_code k ++ rest) = Ok (r, rest) /\ code_shows l k r.
Proof.
  intros Hs H. unfold jcode_ok in H. split_ok H.
  unfold p_code, enc_code, e2, e4. rewrite <- !app_assoc.
  rewrite prun_unpack3; [|assumption|assumption|apply field_u4; lia]. cbn [fst snd].
  rewrite prun_read by lia.
  destruct (prun_attrs l p (jk_attrs k) rest Hs Hk) as (d & Ed & Hd).
  destruct (prun_objects enc_handler handler_ok p_exinfo
     (fun h e => (ex_start e, ex_end e, ex_handler e, ex_type_ref e) = h) (jk_handlers k)
     (enc_attrs (jk_attrs k) ++ rest) prun_handler Hk0 Hk1) as (el & Ee & He).
  rewrite prun_bind, Ee. rewrite prun_bind, Ed. eexists. split; [reflexivity|].
  unfold code_shows. do 4 (split; [try reflexivity|auto]). cbn [k_exceptions].
  clear - He. induction He as [|h e hl el HE _ IH]; [reflexivity|]. cbn [map]. now rewrite HE, IH.
Qed.

Lemma get_code_roundtrip l p al k (m : member) : pool_shows l p -> jcode_ok l k = true ->
  attrs_show l al (m_attrs m) ->
  last_named l al (lit "Code") = Some (enc_code k) ->
  exists r, get_code p m = Ok (Some r) /\ code_shows l k r.
Proof.
  intros Hs Hk [Ha _] HC. unfold get_code. rewrite Ha, HC. unfold parse_buf.
  destruct (prun_code l p k [] Hs Hk) as (r & E & Hr). rewrite app_nil_r in E.
  pose proof (run_buf_open (p_code p) (enc_code k)) as HB. rewrite E in HB.
  destruct HB as (st & HB & _). rewrite HB. cbn [fst rbind]. eauto.
Qed.

Lemma no_code l p al (m : member) :
  attrs_show l al (m_attrs m) -> last_named l al (lit "Code") = None -> get_code p m = Ok None.
Proof. intros [Ha _] HC. unfold get_code. now rewrite Ha, HC. Qed.

(** ** Truncation *)
Lemma prun_suffix {A} (p : prog A) : forall bs a rest,
  prun p bs = Ok (a, rest) -> (length rest <= length bs)%nat.
Proof.
  induction p as [a|e|f k IH|n k IH]; intros bs x rest H; cbn [prun] in H.
  - injection H as _ <-. lia.
  - discriminate.
  - destruct (_ <? _)%nat; [discriminate|]. apply IH in H. rewrite skipn_length in H. lia.
  - destruct (_ <? _)%nat; [discriminate|]. apply IH in H. rewrite skipn_length in H. lia.
Qed.

Lemma prun_truncated {A} (p : prog A) : forall bs a rest n,
  prun p bs = Ok (a, rest) -> (n + length rest < length bs)%nat ->
  exists w q, prun p (firstn n bs) = Err (UnpackException w q).
Proof.
  induction p as [a|e|f k IH|m k IH]; intros bs x rest n H Hn; cbn [prun] in *.
  - injection H as _ <-. lia.
  - discriminate.
  - destruct (Nat.ltb_spec (length bs) (size f)) as [|Hge]; [discriminate|].
    destruct (Nat.ltb_spec (length (firstn n bs)) (size f)) as [|Hge2]; [eauto|].
    rewrite firstn_length in Hge2.
    rewrite sdecode_firstn by lia. rewrite skipn_firstn_comm.
    eapply IH; [exact H|]. rewrite skipn_length. lia.
  - destruct (Nat.ltb_spec (length bs) m) as [|Hge]; [discriminate|].
    destruct (Nat.ltb_spec (length (firstn n bs)) m) as [|Hge2]; [eauto|].
    rewrite firstn_length in Hge2.
    rewrite firstn_firstn, Nat.min_l by lia. rewrite skipn_firstn_comm.
    eapply IH; [exact H|]. rewrite skipn_length. lia.
Qed.

Lemma run_truncated {A} (p : prog A) bs a rest n :
  prun p bs = Ok (a, rest) -> (n + length rest < length bs)%nat ->
  exists w q, fst (run_buf p (open_buf (firstn n bs))) = Err (UnpackException w q) /\
              fst (run_str p (open_stream (firstn n bs))) = Err (UnpackException w q).
Proof.
  intros H Hn. destruct (prun_truncated p bs a rest n H Hn) as (w & q & E).
  exists w, q. pose proof (run_buf_open p (firstn n bs)) as HB.
  pose proof (run_str_prun p (firstn n bs)) as HS. rewrite E in HB, HS.
  destruct HB as (st & HB). destruct HS as (st' & HS). unfold open_stream. rewrite HB, HS. auto.
Qed.

Lemma class_truncated c n : jclassfile_ok c = true -> (n < length (enc_class c))%nat ->
  exists w q, unpack_class (firstn n (enc_class c)) MNone = Err (UnpackException w q) /\
              unpack_class_stream (firstn n (enc_class c)) MNone = Err (UnpackException w q).
Proof.
  intros H Hn. destruct (prun_class c [] H) as (r & E & _). rewrite app_nil_r in E.
  eapply run_truncated; [exact E|]. cbn [length]. lia.
Qed.

(** More generally: whatever bytes parse, no cut of the consumed part parses. *)
Lemma parsed_truncated data r st n :
  run_str (p_unpack_class MNone) (open_stream data) = (Ok r, Some st) ->
  (n + length st < length data)%nat ->
  exists w q, unpack_class (firstn n data) MNone = Err (UnpackException w q) /\
              unpack_class_stream (firstn n data) MNone = Err (UnpackException w q).
Proof.
  intros H Hn. pose proof (run_str_prun (p_unpack_class MNone) data) as HS.
  unfold open_stream in H. rewrite H in HS.
  destruct (prun (p_unpack_class MNone) data) as [[a rest]|e] eqn:E.
  - injection HS as <- <-. eapply run_truncated; eauto.
  - destruct HS as (st' & HS). discriminate.
Qed.

Lemma code_truncated l p k n : pool_shows l p -> jcode_ok l k = true -> (n < length (enc_code k))%nat ->
  exists w q, parse_buf (p_code p) (firstn n (enc_code k)) = Err (UnpackException w q).
Proof.
  intros Hs H Hn. destruct (prun_code l p k [] Hs H) as (r & E & _). rewrite app_nil_r in E.
  destruct (run_truncated _ _ _ _ n E) as (w & q & H1 & _); [cbn [length]; lia|].
  exists w, q. exact H1.
Qed.

(** ** Detection *)
Lemma magic_decode (a b c d : Z) bs :
  sdecode [cB; cB; cB; cB] (a :: b :: c :: d :: bs) = [a; b; c; d].
Proof. cbn. unfold be. cbn. repeat f_equal; lia. Qed.

Lemma is_class_prun data :
  is_class_of (match prun (p_unpack [cB; cB; cB; cB]) data with Ok (a, _) => Ok a | Err e => Err e end)
  = Ok (seqb (firstn 4 data) [202; 254; 186; 190]).
Proof.
  unfold p_unpack. cbn [prun]. change (size [cB; cB; cB; cB]) with 4%nat.
  destruct data as [|a [|b [|c [|d l]]]].
  1-4: cbn; rewrite ?andb_false_r; reflexivity.
  cbn [length Nat.ltb Nat.leb]. rewrite magic_decode. reflexivity.
Qed.

Lemma run_both {A} (p : prog A) data :
  fst (run_buf p (open_buf data)) = match prun p data with Ok (a, _) => Ok a | Err e => Err e end /\
  fst (run_str p (open_stream data)) = match prun p data with Ok (a, _) => Ok a | Err e => Err e end.
Proof.
  pose proof (run_buf_open p data) as HB. pose proof (run_str_prun p data) as HS.
  unfold open_stream. destruct (prun p data) as [[a r]|e].
  - destruct HB as (st & HB & _). rewrite HB, HS. auto.
  - destruct HB as (st & HB). destruct HS as (st' & HS). rewrite HB, HS. auto.
Qed.

Lemma is_class_iff data :
  is_class data = Ok (seqb (firstn 4 data) [202; 254; 186; 190]) /\
  is_class_stream data = Ok (seqb (firstn 4 data) [202; 254; 186; 190]) /\
  is_class_file data = seqb (firstn 4 data) [202; 254; 186; 190].
Proof.
  unfold is_class, is_class_stream.
  destruct (run_both (p_unpack [cB; cB; cB; cB]) data) as [-> ->].
  rewrite is_class_prun. auto.
Qed.

Lemma wrong_magic data : (4 <= length data)%nat -> firstn 4 data <> [202; 254; 186; 190] ->
  unpack_class data MNone = Err ClassUnpackException /\
  unpack_class_stream data MNone = Err ClassUnpackException.
Proof.
  intros HL HM. unfold unpack_class, unpack_class_stream.
  destruct (run_both (p_unpack_class MNone) data) as [-> ->].
  assert (E : prun (p_unpack_class MNone) data = Err ClassUnpackException).
  { unfold p_unpack_class. rewrite prun_bind. rewrite prun_bind.
    unfold p_unpack at 1. cbn [prun]. change (size [cB; cB; cB; cB]) with 4%nat.
    destruct data as [|a [|b [|c [|d l]]]]; cbn [length] in HL; try lia.
    cbn [length Nat.ltb Nat.leb]. rewrite magic_decode.
    destruct (seqb [a; b; c; d] JAVA_CLASS_MAGIC) eqn:E; [|reflexivity].
    apply seqb_eq in E. exfalso. apply HM. exact E. }
  rewrite E. auto.
Qed.

Lemma short_magic data : (length data < 4)%nat ->
  unpack_class data MNone = Err (UnpackException 4 (Z.of_nat (length data))) /\
  unpack_class_stream data MNone = Err (UnpackException 4 (Z.of_nat (length data))).
Proof.
  intros HL. unfold unpack_class, unpack_class_stream.
  destruct (run_both (p_unpack_class MNone) data) as [-> ->].
  destruct data as [|a [|b [|c [|d l]]]]; cbn [length] in HL; try lia; split; reflexivity.
Qed.

(** Given magic: only the right tuple is accepted. *)
Lemma given_magic data l : l <> [] ->
  (l <> [202; 254; 186; 190] -> unpack_class data (MTuple l) = Err ClassUnpackException) /\
  unpack_class data (MBytes l) = Err ClassUnpackException /\
  unpack_class data (MStr l) = Err ClassUnpackException.
Proof.
  intro HN. destruct l as [|x l]; [contradiction|]. split; [|split; reflexivity].
  intro H. unfold unpack_class, p_unpack_class. cbn [pbind].
  destruct (seqb (x :: l) JAVA_CLASS_MAGIC) eqn:E; [|reflexivity].
  apply seqb_eq in E. contradiction.
Qed.

(** ** Marker attributes *)
Lemma truthy_iff b : truthy_buf b = true <-> exists x l, b = Some (x :: l).
Proof.
  split.
  - destruct b as [[|x l]|]; try discriminate. eauto.
  - intros (x & l & ->). reflexivity.
Qed.

Lemma deprecated_iff l al d : attrs_show l al d ->
  (is_deprecated d = true <-> exists x b, last_named l al (lit "Deprecated") = Some (x :: b)).
Proof. intros [Ha _]. unfold is_deprecated. rewrite Ha. apply truthy_iff. Qed.

Lemma flag_bit k f : 0 <= k -> flag (2 ^ k) f = Z.testbit f k.
Proof.
  intro Hk. unfold flag. destruct (Z.testbit f k) eqn:E.
  - destruct (Z.eqb_spec (Z.land f (2 ^ k)) 0) as [H|H]; [|reflexivity].
    exfalso. assert (HT : Z.testbit (Z.land f (2 ^ k)) k = true)
      by (rewrite Z.land_spec, E, Z.pow2_bits_true by exact Hk; reflexivity).
    rewrite H in HT. rewrite Z.bits_0 in HT. discriminate.
  - replace (Z.land f (2 ^ k)) with 0; [reflexivity|].
    symmetry. apply Z.bits_inj'. intros n Hn. rewrite Z.land_spec, Z.bits_0.
    destruct (Z.eq_dec n k) as [->|Hne]; [now rewrite E|].
    rewrite Z.pow2_bits_false by congruence. apply andb_false_r.
Qed.

Lemma synthetic_iff l al m : attrs_show l al (m_attrs m) ->
  (is_synthetic m = true <->
   Z.testbit (m_flags m) 12 = true \/ exists x b, last_named l al (lit "Synthetic") = Some (x :: b)).
Proof.
  intros [Ha _]. unfold is_synthetic. rewrite orb_true_iff, Ha, truthy_iff.
  change ACC_SYNTHETIC with (2 ^ 12). rewrite flag_bit by lia. reflexivity.
Qed.

(** ** Attribute accessors *)
Lemma parse_ok {A} (p : prog A) bs a : prun p bs = Ok (a, []) -> parse_buf p bs = Ok a.
Proof.
  intro E. unfold parse_buf. pose proof (run_buf_open p bs) as HB. rewrite E in HB.
  destruct HB as (st & -> & _). reflexivity.
Qed.

Lemma prun_bind_ret {A} (p : prog A) bs : prun (pbind p PRet) bs = prun p bs.
Proof. rewrite prun_bind. destruct (prun p bs) as [[a r]|e]; reflexivity. Qed.

Lemma prun_u2 v rest : u2 v = true -> prun (p_unpack1 cH) (e2 v ++ rest) = Ok (v, rest).
Proof. intro H. rewrite <- prun_bind_ret. unfold e2. now rewrite prun_unpack1 by exact H. Qed.

Lemma u2_attr l al d n i : attrs_show l al d -> u2 i = true ->
  last_named l al n = Some (enc_index_attr i) -> u2_attribute d n = Ok (Some i).
Proof.
  intros [Ha _] Hu Hn. unfold u2_attribute. rewrite Ha, Hn.
  rewrite (parse_ok _ _ i); [reflexivity|].
  pose proof (prun_u2 i [] Hu) as E. rewrite app_nil_r in E. exact E.
Qed.

Lemma absent_attr l al d n p : attrs_show l al d -> last_named l al n = None ->
  u2_attribute d n = Ok None /\ u2_attribute_deref p d n = Ok None.
Proof.
  intros [Ha _] Hn. unfold u2_attribute_deref, u2_attribute. rewrite Ha, Hn. auto.
Qed.

Lemma index_attrs c r : jclassfile_ok c = true -> class_shows c r ->
  jpool_wf (jc_pool c) = true ->
  forall i v, u2 i = true -> jat (jc_pool c) i <> None ->
    option_map (jresolve (jc_pool c)) (jat (jc_pool c) i) = Some (Some v) ->
  (last_named (jc_pool c) (jc_attrs c) (lit "SourceFile") = Some (enc_index_attr i) ->
     get_sourcefile r = Ok (Some v)) /\
  (last_named (jc_pool c) (jc_attrs c) (lit "Signature") = Some (enc_index_attr i) ->
     get_signature (c_pool r) (c_attrs r) = Ok (Some v)) /\
  (forall b jm m, member_shows (jc_pool c) b jm m ->
     (last_named (jc_pool c) (jm_attrs jm) (lit "ConstantValue") = Some (enc_index_attr i) ->
        get_constantvalue m = Ok (Some i) /\ deref_constantvalue (c_pool r) m = Ok (Some v)) /\
     (last_named (jc_pool c) (jm_attrs jm) (lit "Signature") = Some (enc_index_attr i) ->
        get_signature (c_pool r) (m_attrs m) = Ok (Some v))).
Proof.
  intros Hok Hs Hwf i v Hu Hat Hv.
  destruct Hs as (_ & Hp & _ & _ & _ & _ & _ & _ & Ha).
  destruct (jat (jc_pool c) i) as [k|] eqn:Ek; [|congruence]. cbn in Hv. injection Hv as Hv.
  destruct (deref_wf _ _ _ _ Hwf Hp Ek) as (w & Ew & Ed). rewrite Hv in Ew. injection Ew as <-.
  assert (G : forall al d n, attrs_show (jc_pool c) al d ->
     last_named (jc_pool c) al n = Some (enc_index_attr i) ->
     u2_attribute_deref (c_pool r) d n = Ok (Some v)).
  { intros al d n H1 H2. unfold u2_attribute_deref. rewrite (u2_attr _ _ _ _ _ H1 Hu H2). cbn [rbind].
    now rewrite Ed. }
  split; [|split].
  - intro H. eapply G; eauto.
  - intro H. eapply G; eauto.
  - intros b jm m (_ & _ & _ & _ & Hm). split.
    + intro H. split; [eapply u2_attr; eauto|eapply G; eauto].
    + intro H. eapply G; eauto.
Qed.

Lemma prun_deref_each l p is vs : pool_shows l p -> forallb u2 is = true ->
  Forall2 (fun i v => deref_const p i = Ok v) is vs -> forall rest,
  prun (p_deref_each p (length is)) (concat (map e2 is) ++ rest) = Ok (vs, rest).
Proof.
  intros Hs Hu HF. induction HF as [|i v is vs Hi _ IH]; intro rest; [reflexivity|].
  cbn [forallb] in Hu. apply andb_prop in Hu as [Hu1 Hu2].
  cbn [length p_deref_each map concat]. rewrite <- app_assoc. unfold e2 at 1.
  rewrite prun_unpack1 by exact Hu1. rewrite (prun_lift_ok _ v) by exact Hi.
  rewrite prun_bind, IH by exact Hu2. reflexivity.
Qed.

Lemma exceptions_attr l p al (m : member) is names : pool_shows l p ->
  attrs_show l al (m_attrs m) -> short_list is = true -> forallb u2 is = true ->
  map (jclass_at l) is = map Some names ->
  last_named l al (lit "Exceptions") = Some (enc_exceptions is) ->
  get_exceptions p m = Ok (map PStr names).
Proof.
  intros Hs [Ha _] Hl Hu Hc Hn. unfold get_exceptions. rewrite Ha, Hn. apply parse_ok.
  unfold enc_exceptions, count16. unfold short_list in Hl. unfold e2 at 1.
  rewrite prun_unpack1 by (apply field_u2; lia). rewrite Nat2Z.id.
  assert (E : prun (p_deref_each p (length is)) (concat (map e2 is) ++ []) = Ok (map PStr names, [])).
  { eapply prun_deref_each; [exact Hs|exact Hu|].
    clear - Hc Hs. revert names Hc. induction is as [|i is IH]; intros [|n names] Hc; try discriminate.
    - constructor.
    - cbn [map] in Hc. injection Hc as H1 H2. constructor; [|now apply IH].
      apply deref_const_iff. eapply class_derefs; eassumption. }
  rewrite app_nil_r in E. exact E.
Qed.

Lemma prun_quad h rest : handler_ok h = true ->
  exists e, prun p_innerinfo (enc_handler h ++ rest) = Ok (e, rest) /\
            (in_inner e, in_outer e, in_name e, in_flags e) = h.
Proof.
  destruct h as [[[a b] c] d]. unfold handler_ok. intro H. split_ok H.
  exists (mkinner a b c d). split; [|reflexivity].
  unfold p_innerinfo, enc_handler, e2. rewrite <- !app_assoc. now rewrite prun_unpack4 by assumption.
Qed.

Lemma innerclasses_attr c r hs : class_shows c r -> short_list hs = true -> forallb handler_ok hs = true ->
  last_named (jc_pool c) (jc_attrs c) (lit "InnerClasses") = Some (enc_quads hs) ->
  exists el, get_innerclasses r = Ok el /\
    map (fun e => (in_inner e, in_outer e, in_name e, in_flags e)) el = hs.
Proof.
  intros Hs Hl Hu Hn. destruct Hs as (_ & _ & _ & _ & _ & _ & _ & _ & Ha & _).
  unfold get_innerclasses. rewrite Ha, Hn. unfold enc_quads.
  destruct (prun_objects enc_handler handler_ok p_innerinfo
     (fun h e => (in_inner e, in_outer e, in_name e, in_flags e) = h) hs [] prun_quad Hu Hl) as (el & Ee & He).
  rewrite app_nil_r in Ee. exists el. split; [now apply parse_ok|].
  clear - He. induction He as [|h e hl el HE _ IH]; [reflexivity|]. cbn [map]. now rewrite HE, IH.
Qed.

Lemma Forall2_eq {A} (l l' : list A) : Forall2 (fun a b => b = a) l l' -> l' = l.
Proof. induction 1 as [|a b l l' E _ IH]; [reflexivity|]. now rewrite E, IH. Qed.

Lemma linenumbers_attr l jk k t : code_shows l jk k -> short_list t = true -> forallb pair_ok t = true ->
  last_named l (jk_attrs jk) (lit "LineNumberTable") = Some (enc_pairs t) ->
  get_linenumbertable k = Ok t.
Proof.
  intros (_ & _ & _ & _ & Ha & _) Hl Hu Hn. unfold get_linenumbertable. rewrite Ha, Hn.
  unfold enc_pairs, p_pair_array.
  destruct (prun_objects (fun x : Z * Z => e2 (fst x) ++ e2 (snd x)) pair_ok (p_unpack2 cH cH)
     (fun a b => b = a) t []) as (el & Ee & He).
  - intros [a b] rest Hab. unfold pair_ok in Hab. cbn [fst snd] in *. apply andb_prop in Hab as [H1 H2].
    exists (a, b). split; [|reflexivity]. rewrite <- prun_bind_ret. unfold e2. rewrite <- app_assoc.
    now rewrite prun_unpack2 by assumption.
  - exact Hu.
  - exact Hl.
  - rewrite app_nil_r in Ee. apply Forall2_eq in He. subst el. now apply parse_ok.
Qed.

Lemma var_table_attr l jk k n t : code_shows l jk k -> short_list t = true -> forallb row_ok t = true ->
  last_named l (jk_attrs jk) n = Some (enc_rows t) ->
  var_table k n = Ok t.
Proof.
  intros (_ & _ & _ & _ & Ha & _) Hl Hu Hn. unfold var_table. rewrite Ha, Hn.
  unfold enc_rows, p_var_array, p_struct_array.
  destruct (prun_objects (fun r => concat (map e2 r)) row_ok (p_unpack [cH; cH; cH; cH; cH])
     (fun a b => b = a) t []) as (el & Ee & He).
  - intros r rest Hr. unfold row_ok in Hr. apply andb_prop in Hr as [H1 H2].
    apply Nat.eqb_eq in H1. exists r. split; [|reflexivity]. rewrite <- prun_bind_ret.
    pose proof (prun_unpack_H r PRet rest H2) as E. rewrite H1 in E. exact E.
  - exact Hu.
  - exact Hl.
  - rewrite app_nil_r in Ee. apply Forall2_eq in He. subst el. now apply parse_ok.
Qed.

(** AnnotationDefault is read as a bare index: what is returned is the tag byte
    and the high byte of the index. *)
Lemma default_attr l al (m : member) tag idx : attrs_show l al (m_attrs m) ->
  0 <= tag < 256 -> u2 idx = true ->
  last_named l al (lit "AnnotationDefault") = Some (enc_default_const tag idx) ->
  get_annotationdefault m = Ok (Some (tag * 256 + idx / 256)).
Proof.
  intros [Ha _] Ht Hu Hn. unfold get_annotationdefault, u2_attribute. rewrite Ha, Hn.
  assert (Hu' : 0 <= idx < 65536) by (unfold u2 in Hu; cbn in Hu; lia).
  assert (E : enc_default_const tag idx = e2 (tag * 256 + idx / 256) ++ [idx mod 256]).
  { unfold enc_default_const, e2, enc_field. cbn [fsize enc_be app].
    change (2 ^ (8 * Z.of_nat 2)) with 65536.
    set (v := tag * 256 + idx / 256).
    assert (Hv : v mod 65536 = v) by (apply Z.mod_small; unfold v; Z.div_mod_to_equations; lia).
    assert (Hi : idx mod 65536 = idx) by (apply Z.mod_small; lia).
    rewrite Hv, Hi.
    assert (E1 : (v / 256) mod 256 = tag) by (unfold v; Z.div_mod_to_equations; lia).
    assert (E2 : v mod 256 = (idx / 256) mod 256) by (unfold v; Z.div_mod_to_equations; lia).
    rewrite E1, E2. reflexivity. }
  unfold parse_buf. destruct (run_both (p_unpack1 cH) (enc_default_const tag idx)) as [-> _].
  rewrite E, prun_u2; [reflexivity|]. unfold u2. apply field_u2. Z.div_mod_to_equations. lia.
Qed.

From Verif Require Import Base Pack_Model ConstPool_Model ConstPool_Spec Opcodes_Model ClassFile_Model
  Descr_Model Descr_Spec Descr_Proofs Anno_Model Anno_Spec Anno_Proofs Change_Model Classdiff_Model Classdiff_Spec Classdiff_Members Classdiff_Class.
From Coq Require Import Permutation.

Lemma cons_inj {A} (a b : A) x y : a :: x = b :: y -> a = b /\ x = y.
Proof. intro H. now injection H. Qed.

(** ** Identities of methods *)
Lemma desc_inj t : forall u, desc t = desc u -> t = u.
Proof.
  induction t as [p|n|t IH]; intros [q|m|u] H; cbn [desc] in H; try (destruct p; discriminate); try (destruct q; discriminate); try discriminate.
  - f_equal. destruct p, q; try reflexivity; discriminate.
  - apply cons_inj in H as [_ H]. apply app_inj_tail in H as [-> _]. reflexivity.
  - apply cons_inj in H as [_ H]. f_equal. now apply IH.
Qed.
Lemma desc_prefix t u x y : jtype_ok t = true -> jtype_ok u = true -> desc t ++ x = desc u ++ y -> t = u /\ x = y.
Proof.
  intros Ht Hu E. pose proof (next_argsig_desc t x Ht) as H1. rewrite E, (next_argsig_desc u y Hu) in H1. injection H1 as H1 H2. split; [apply desc_inj|]; congruence.
Qed.
Lemma desc_head t c s : desc t = c :: s -> c <> 41.
Proof. destruct t as [p|n|t]; cbn [desc]; intro H; apply cons_inj in H as [<- _]; [destruct p; discriminate|discriminate|discriminate]. Qed.

Lemma joined_inj ts : forall us x y, forallb jtype_ok ts = true -> forallb jtype_ok us = true ->
  concat_with [44] (map desc ts) ++ 41 :: x = concat_with [44] (map desc us) ++ 41 :: y -> ts = us /\ x = y.
Proof.
  induction ts as [|t ts IH]; intros [|u us] x y Ht Hu E.
  - cbn in E. apply cons_inj in E as [_ E]. now split.
  - exfalso. destruct (desc u) as [|c s] eqn:Eu; [now apply desc_nonempty in Eu|]. cbn [map concat_with] in E. rewrite Eu in E. destruct (map desc us); cbn in E; apply cons_inj in E as [E _]; apply (desc_head _ _ _ Eu); congruence.
  - exfalso. destruct (desc t) as [|c s] eqn:Eu; [now apply desc_nonempty in Eu|]. cbn [map concat_with] in E. rewrite Eu in E. destruct (map desc ts); cbn in E; apply cons_inj in E as [E _]; apply (desc_head _ _ _ Eu); congruence.
  - cbn [forallb] in Ht, Hu. apply andb_prop in Ht as [T1 T2]. apply andb_prop in Hu as [U1 U2].
    destruct ts as [|t2 ts], us as [|u2 us]; cbn [map concat_with] in E.
    + apply (desc_prefix _ _ _ _ T1 U1) in E as [-> E]. apply cons_inj in E as [_ ->]. now split.
    + exfalso. rewrite <- !app_assoc in E. apply (desc_prefix _ _ _ _ T1 U1) in E as [_ E]. apply cons_inj in E as [E _]. discriminate.
    + exfalso. rewrite <- !app_assoc in E. apply (desc_prefix _ _ _ _ T1 U1) in E as [_ E]. apply cons_inj in E as [E _]. discriminate.
    + rewrite <- !app_assoc in E. apply (desc_prefix _ _ _ _ T1 U1) in E as [-> E]. cbn [app] in E. apply cons_inj in E as [_ E].
      destruct (IH (u2 :: us) x y T2 U2 E) as [-> ->]. now split.
Qed.
Lemma first_split (c : Z) a : forall b x y, ~ In c a -> ~ In c b -> a ++ c :: x = b ++ c :: y -> a = b /\ x = y.
Proof.
  induction a as [|h a IH]; intros [|k b] x y Ha Hb E; cbn [app] in E; apply cons_inj in E as [E1 E2].
  - now split.
  - exfalso. apply Hb. left. congruence.
  - exfalso. apply Ha. left. congruence.
  - subst k. destruct (IH b x y) as [-> ->]; [intro H; apply Ha; now right|intro H; apply Hb; now right|exact E2|now split].
Qed.

(** A method of a class, as the JVM specification lays it down. *)
Record is_method_of (p : pool) (m : member) (n : str) (args : list jtype) (r : option jtype) : Prop := {
  im_method : m_is_method m = true;
  im_name : m_name p m = Ok (PStr n);
  im_desc : m_descriptor p m = Ok (PStr (method_desc args r));
  im_args : forallb jtype_ok args = true;
  im_paren : forallb no_paren args = true;
  im_ret : ret_ok r = true;
  im_plain : ~ In 40 n }.

Lemma ident_method fmt p m n args r : is_method_of p m n args r ->
  get_identifier fmt p m = Ok (PStr (n ++ 40 :: concat_with [44] (map desc args) ++ 41 :: (if flag ACC_BRIDGE (m_flags m) then 58 :: method_desc args r else []))).
Proof.
  intros [H1 H2 H3 H4 H5 H6 H7]. unfold get_identifier, m_arg_types, m_desc_str. rewrite H1, H2, H3. cbn [rbind pct_s]. rewrite (proj1 (method_split args r H4 H5 H6)). cbn [rbind].
  destruct (flag _ _); reflexivity.
Qed.
Lemma method_desc_ret args r r' : method_desc args r = method_desc args r' -> ret_ok r = true -> ret_ok r' = true -> r = r'.
Proof.
  unfold method_desc. intros E H H'. apply cons_inj in E as [_ E]. apply app_inv_head in E. apply cons_inj in E as [_ E].
  destruct r as [t|], r' as [t'|]; cbn [ret_desc] in E; [f_equal; now apply desc_inj| | |reflexivity].
  - exfalso. destruct t as [[]|n|t]; discriminate.
  - exfalso. destruct t' as [[]|n|t']; discriminate.
Qed.
Theorem method_identity fmt lp rp l r n n' args args' ret ret' :
  is_method_of lp l n args ret -> is_method_of rp r n' args' ret' ->
  (same_identity fmt lp rp l r <->
   n = n' /\ args = args' /\ flag ACC_BRIDGE (m_flags l) = flag ACC_BRIDGE (m_flags r) /\ (flag ACC_BRIDGE (m_flags l) = true -> ret = ret')).
Proof.
  intros HL HR. unfold same_identity, agree. rewrite (ident_method fmt _ _ _ _ _ HL), (ident_method fmt _ _ _ _ _ HR). split.
  - intros (a & b & E1 & E2 & E). injection E1 as <-. injection E2 as <-. unfold pyeq in E. cbn [py_eq] in E. apply seqb_eq in E.
    apply (first_split 40) in E as [-> E]; [|apply (im_plain _ _ _ _ _ HL)|apply (im_plain _ _ _ _ _ HR)].
    apply joined_inj in E as [-> E]; [|apply (im_args _ _ _ _ _ HL)|apply (im_args _ _ _ _ _ HR)].
    split; [reflexivity|]. split; [reflexivity|]. destruct (flag ACC_BRIDGE (m_flags l)), (flag ACC_BRIDGE (m_flags r)); try discriminate; (split; [reflexivity|]); [|discriminate].
    intros _. apply cons_inj in E as [_ E]. apply (method_desc_ret _ _ _ E); [apply (im_ret _ _ _ _ _ HL)|apply (im_ret _ _ _ _ _ HR)].
  - intros (-> & -> & HB & HRt). eexists _, _. split; [reflexivity|]. split; [reflexivity|]. unfold pyeq. cbn [py_eq]. rewrite <- HB. destruct (flag _ _); [rewrite (HRt eq_refl)|]; apply seqb_refl.
Qed.

(** ** Merged code *)
Lemma zget_zset {V} d k (v : V) x : zget (zset d k v) x = if x =? k then Some v else zget d x.
Proof.
  induction d as [|[k' v'] d IH]; cbn [zset zget].
  - reflexivity.
  - destruct (Z.eqb_spec k k') as [<-|Hn]; cbn [zget].
    + destruct (x =? k); reflexivity.
    + rewrite IH. destruct (Z.eqb_spec x k') as [->|]; [|reflexivity]. destruct (Z.eqb_spec k' k); [congruence|reflexivity].
Qed.
Lemma zset_keys {V} d k (v : V) : map fst (zset d k v) = if existsb (Z.eqb k) (map fst d) then map fst d else map fst d ++ [k].
Proof.
  induction d as [|[k' v'] d IH]; cbn [zset map fst existsb]; [reflexivity|]. destruct (Z.eqb_spec k k'); cbn [map fst orb]; [reflexivity|]. rewrite IH. destruct (existsb _ _); reflexivity.
Qed.
Lemma zset_nodup {V} d k (v : V) : NoDup (map fst d) -> NoDup (map fst (zset d k v)).
Proof.
  intro H. rewrite zset_keys. destruct (existsb (Z.eqb k) (map fst d)) eqn:E; [exact H|]. apply NoDup_Add with (a := k) (l := map fst d); [rewrite <- (app_nil_r (map fst d)) at 1; apply Add_app|].
  split; [exact H|]. intro HI. assert (existsb (Z.eqb k) (map fst d) = true) by (apply existsb_exists; exists k; split; [exact HI|apply Z.eqb_refl]). congruence.
Qed.

(** The last group of a relative line. *)
Definition last_group (rel : Z) (gs : list (Z * Z * list insn)) : option group :=
  fold_left (fun acc g => if snd (fst g) =? rel then Some (fst (fst g), snd g) else acc) gs None.

Lemma merge_left_get gs : forall d rel,
  zget (fold_left merge_left gs d) rel = match last_group rel gs with Some g => Some (Some g, None) | None => zget d rel end.
Proof.
  unfold last_group. induction gs as [|[[a rl] dis] gs IH] using rev_ind; intros d rel; [reflexivity|]. rewrite !fold_left_app. cbn [fold_left merge_left fst snd]. rewrite zget_zset, (Z.eqb_sym rel rl), IH.
  destruct (rl =? rel); reflexivity.
Qed.
Lemma merge_right_get gs : forall d rel,
  zget (fold_left merge_right gs d) rel =
  match last_group rel gs with
  | Some g => Some (match zget d rel with Some (f, _) => f | None => None end, Some g)
  | None => zget d rel
  end.
Proof.
  unfold last_group. induction gs as [|[[a rl] dis] gs IH] using rev_ind; intros d rel; [reflexivity|]. rewrite !fold_left_app. cbn [fold_left fst snd].
  set (D := fold_left merge_right gs d) in *. unfold merge_right. destruct (zget D rl) as [[f g]|] eqn:E; rewrite zget_zset, (Z.eqb_sym rel rl); destruct (Z.eqb_spec rl rel) as [<-|]; try apply IH.
  - f_equal. unfold D in E. rewrite IH in E. destruct (fold_left _ gs None); [injection E as <- _; reflexivity|]. now rewrite E.
  - f_equal. unfold D in E. rewrite IH in E. destruct (fold_left _ gs None); [discriminate|]. now rewrite E.
Qed.
Lemma merge_nodup ll rl : NoDup (map fst (fold_left merge_right rl (fold_left merge_left ll []))).
Proof.
  assert (HL : forall d, NoDup (map fst d) -> NoDup (map fst (fold_left merge_left ll d))).
  { induction ll as [|[[a r] g] ll IH]; intros d H; [exact H|]. cbn [fold_left]. apply IH. unfold merge_left. now apply zset_nodup. }
  assert (HR : forall d, NoDup (map fst d) -> NoDup (map fst (fold_left merge_right rl d))).
  { clear HL. induction rl as [|[[a r] g] rl IH]; intros d H; [exact H|]. cbn [fold_left]. apply IH. unfold merge_right. destruct (zget d r) as [[? ?]|]; now apply zset_nodup. }
  apply HR, HL. constructor.
Qed.

Theorem merge_code_exact lc rc d : merge_code lc rc = Ok d ->
  exists ll rl, code_lines lc = Ok ll /\ code_lines rc = Ok rl /\ NoDup (map fst d) /\
  forall rel, zget d rel = match last_group rel ll, last_group rel rl with None, None => None | a, b => Some (a, b) end.
Proof.
  unfold merge_code. intro H. destruct (code_lines lc) as [ll|]; [|discriminate]. destruct (code_lines rc) as [rl|]; [|discriminate]. cbn [rbind] in H. injection H as <-.
  exists ll, rl. split; [reflexivity|]. split; [reflexivity|]. split; [apply merge_nodup|]. intro rel. rewrite merge_right_get, merge_left_get. destruct (last_group rel ll), (last_group rel rl); reflexivity.
Qed.

(** Groups with distinct relative lines are all kept. *)
Lemma last_group_some rel gs g : last_group rel gs = Some g -> In (fst g, rel, snd g) gs.
Proof.
  unfold last_group. induction gs as [|[[a r] x] gs IH] using rev_ind; [discriminate|]. rewrite fold_left_app. cbn [fold_left fst snd]. rewrite in_app_iff. destruct (Z.eqb_spec r rel) as [<-|].
  - intro H. injection H as <-. right. now left.
  - intro H. left. now apply IH.
Qed.
Lemma last_group_distinct gs a rel x : NoDup (map (fun g => snd (fst g)) gs) -> In (a, rel, x) gs -> last_group rel gs = Some (a, x).
Proof.
  unfold last_group. induction gs as [|[[a' r] x'] gs IH] using rev_ind; [intros _ []|]. rewrite map_app. cbn [map fst snd]. intros HN HI. rewrite fold_left_app. cbn [fold_left fst snd].
  apply in_app_iff in HI. apply NoDup_remove in HN. rewrite app_nil_r in HN. destruct HN as [HN Hr]. destruct (Z.eqb_spec r rel) as [<-|Hne].
  - destruct HI as [HI|[HI|[]]]; [|injection HI as -> ->; reflexivity]. exfalso. apply Hr. apply in_map_iff. exists (a, r, x). split; [reflexivity|exact HI].
  - destruct HI as [HI|[HI|[]]]; [now apply IH|congruence].
Qed.

Definition side_insns (s : merged -> list (option group)) (d : merged) : list insn :=
  concat (map (fun g => match g with Some g => snd g | None => [] end) (s d)).
Definition left_insns (d : merged) : list insn := side_insns (map (fun e => fst (snd e))) d.
Definition right_insns (d : merged) : list insn := side_insns (map (fun e => snd (snd e))) d.

Lemma zget_in {V} (d : list (Z * V)) k v : NoDup (map fst d) -> (zget d k = Some v <-> In (k, v) d).
Proof.
  induction d as [|[k' v'] d IH]; cbn [map fst zget]; intro HN; [split; [discriminate|intros []]|]. inversion HN as [|? ? H1 H2]; subst. destruct (Z.eqb_spec k k') as [<-|Hne].
  - split; [intro H; injection H as <-; now left|]. intros [H|H]; [congruence|]. exfalso. apply H1. apply in_map_iff. now exists (k, v).
  - rewrite (IH H2). split; [now right|]. intros [H|H]; [congruence|exact H].
Qed.

Lemma kept_side (d : merged) (gs : list (Z * Z * list insn)) (sel : option group * option group -> option group) :
  NoDup (map fst d) -> NoDup (map (fun g => snd (fst g)) gs) ->
  (forall rel v, In (rel, v) d -> sel v = last_group rel gs) -> (forall rel g, last_group rel gs = Some g -> In rel (map fst d)) ->
  Permutation (concat (map (fun e => match sel (snd e) with Some g => snd g | None => [] end) d)) (concat (map snd gs)).
Proof.
  intros HD HG HS HE.
  set (A := flat_map (fun e => match sel (snd e) with Some g => [(fst g, fst e, snd g)] | None => [] end) d).
  assert (EA : concat (map (fun e => match sel (snd e) with Some g => snd g | None => [] end) d) = concat (map snd A)).
  { unfold A. clear. induction d as [|e d IH]; [reflexivity|]. cbn [map concat flat_map]. rewrite map_app, concat_app, IH. f_equal. destruct (sel (snd e)) as [g|]; cbn; [now rewrite app_nil_r|reflexivity]. }
  rewrite EA. rewrite <- !flat_map_concat_map. apply Permutation_flat_map. apply NoDup_Permutation.
  - unfold A. clear -HD. induction d as [|[k v] d IH]; [constructor|]. cbn [map fst] in HD. inversion HD as [|? ? H1 H2]; subst. cbn [flat_map fst snd]. destruct (sel v) as [g|]; [|now apply IH].
    cbn [app]. constructor; [|now apply IH]. intro HI. apply H1. apply in_flat_map in HI as ([k' v'] & Hin & HI). cbn [fst snd] in HI. destruct (sel v') as [g'|]; [|destruct HI]. destruct HI as [E|[]]. injection E as _ -> _. apply in_map_iff. now exists (k, v').
  - eapply NoDup_map_inv. exact HG.
  - intros [[a rel] x]. unfold A. rewrite in_flat_map. split.
    + intros ([k v] & Hin & HI). cbn [fst snd] in HI. rewrite (HS k v Hin) in HI. destruct (last_group k gs) as [g|] eqn:E; [|destruct HI]. destruct HI as [HI|[]]. injection HI as <- <- <-. now apply last_group_some.
    + intro HI. pose proof (last_group_distinct _ _ _ _ HG HI) as EL. specialize (HE _ _ EL). apply in_map_iff in HE as ([k v] & Ek & Hin). cbn [fst] in Ek. subst k. exists (rel, v). split; [exact Hin|]. cbn [fst snd]. rewrite (HS _ _ Hin), EL. now left.
Qed.

Theorem merge_code_keeps lc rc d ll rl : merge_code lc rc = Ok d -> code_lines lc = Ok ll -> code_lines rc = Ok rl ->
  (NoDup (map (fun g => snd (fst g)) ll) -> Permutation (left_insns d) (concat (map snd ll))) /\
  (NoDup (map (fun g => snd (fst g)) rl) -> Permutation (right_insns d) (concat (map snd rl))).
Proof.
  intros H Hl Hr. destruct (merge_code_exact _ _ _ H) as (ll' & rl' & El & Er & HN & HG). rewrite Hl in El. injection El as <-. rewrite Hr in Er. injection Er as <-.
  split; intro HD.
  - unfold left_insns, side_insns. rewrite map_map. apply (kept_side d ll fst HN HD).
    + intros rel v Hin. apply (zget_in _ _ _ HN) in Hin. rewrite HG in Hin. destruct (last_group rel ll), (last_group rel rl); try discriminate; now injection Hin as <-.
    + intros rel g Eg. specialize (HG rel). rewrite Eg in HG. apply (zget_in _ _ _ HN) in HG. apply in_map_iff. eexists. split; [|exact HG]. reflexivity.
  - unfold right_insns, side_insns. rewrite map_map. apply (kept_side d rl snd HN HD).
    + intros rel v Hin. apply (zget_in _ _ _ HN) in Hin. rewrite HG in Hin. destruct (last_group rel ll), (last_group rel rl); try discriminate; now injection Hin as <-.
    + intros rel g Eg. specialize (HG rel). rewrite Eg in HG. assert (HX : exists v, zget d rel = Some v) by (destruct (last_group rel ll); eauto). destruct HX as [v Hv]. apply (zget_in _ _ _ HN) in Hv. apply in_map_iff. eexists. split; [|exact Hv]. reflexivity.
Qed.

(** The groups hold the whole code. *)
Lemma code_lines_all k ll : code_lines (Some k) = Ok ll -> exists dis, disassemble_all (k_code k) = Ok dis /\ concat (map snd ll) = dis.
Proof.
  unfold code_lines. destruct (get_linenumbertable k) as [t|]; [|discriminate]. cbn [rbind]. unfold iter_code_by_lines. destruct (disassemble_all (k_code k)) as [dis|]; [|discriminate]. cbn [rbind].
  intro H. exists dis. split; [reflexivity|]. destruct t as [|[o f] t]; injection H as <-; [cbn; now rewrite app_nil_r|]. apply (g_all _ _ _ _ (group_spec ((o, f) :: t) f dis)).
Qed.

(** ** Merged constants *)
Lemma zrange_in a b i : In i (zrange a b) <-> a <= i < b.
Proof.
  unfold zrange. rewrite in_map_iff. split.
  - intros (n & <- & H). apply in_seq in H. lia.
  - intro H. exists (Z.to_nat (i - a)). split; [lia|]. apply in_seq. lia.
Qed.
Lemma zrange_nodup a b : NoDup (zrange a b).
Proof. unfold zrange. apply FinFun.Injective_map_NoDup; [|apply seq_NoDup]. intros x y H. lia. Qed.
Lemma zrange_length a b : Z.of_nat (length (zrange a b)) = Z.max 0 (b - a).
Proof. unfold zrange. rewrite map_length, seq_length. lia. Qed.
Lemma zrange_last a b : a < b -> last (zrange a b) 1 = b - 1.
Proof.
  intro H. unfold zrange. replace (Z.to_nat (b - a)) with (S (Z.to_nat (b - a - 1))) by lia. rewrite seq_S, map_app. cbn [map]. rewrite last_last. lia.
Qed.
Lemma zrange_nil a b : b <= a -> zrange a b = [].
Proof. intro H. unfold zrange. replace (Z.to_nat (b - a)) with 0%nat by lia. reflexivity. Qed.

Section Constants.
Variable reprs : str -> str.
Variable ffmt : pyval -> str.
(** How a pool shows an index: its entry, or nothing past its end. *)
Definition shows_at (p : pool) (i : Z) (a : option (str * pretty_val)) : Prop :=
  if i <? Z.of_nat (length p) then pretty_const reprs ffmt p i = Ok a else a = None.
Definition e_index (e : merge_entry) : Z := fst (fst e).

Lemma mapM_idx (f : Z -> res merge_entry) l r : (forall i e, f i = Ok e -> e_index e = i) -> mapM f l = Ok r -> map e_index r = l /\ Forall (fun e => f (e_index e) = Ok e) r.
Proof.
  intro Hf. revert r. induction l as [|i l IH]; intros r H; cbn [mapM] in H; [injection H as <-; split; constructor|].
  destruct (f i) as [e|] eqn:E; [|discriminate]. cbn [rbind] in H. destruct (mapM f l) as [es|]; [|discriminate]. cbn [rbind] in H. injection H as <-.
  destruct (IH es eq_refl) as [I1 I2]. pose proof (Hf _ _ E) as Ei. split; [cbn [map]; congruence|]. constructor; [now rewrite Ei|exact I2].
Qed.

Theorem merge_constants_exact lp rp l : pretty_merge_constants reprs ffmt lp rp = Ok l ->
  let ls := Z.of_nat (length lp) in let rs := Z.of_nat (length rp) in let mn := Z.min ls rs in let mx := Z.max ls rs in
  exists both rest, l = both ++ rest /\
    map e_index both = zrange 1 mn /\ Forall (fun e => shows_at lp (e_index e) (snd (fst e)) /\ shows_at rp (e_index e) (snd e)) both /\
    map e_index rest = (if ls =? rs then [] else zrange (Z.max 1 (mn - 1)) mx) /\
    Forall (fun e => (rs < ls -> shows_at lp (e_index e) (snd (fst e)) /\ snd e = None) /\ (ls < rs -> snd (fst e) = None /\ shows_at rp (e_index e) (snd e))) rest.
Proof.
  intros H ls rs mn mx. unfold pretty_merge_constants in H. fold ls rs mn in H. set (index := last (zrange 1 mn) 1) in H.
  assert (Hidx : index = Z.max 1 (mn - 1)). { unfold index. destruct (Z_lt_dec 1 mn) as [Hlt|Hge]; [rewrite zrange_last by lia; lia|rewrite zrange_nil by lia; cbn; lia]. }
  match type of H with context [mapM ?f (zrange 1 mn)] => destruct (mapM f (zrange 1 mn)) as [both|] eqn:EB; [|discriminate] end. cbn [rbind] in H.
  match type of H with (rbind ?m _) = _ => destruct m as [rest|] eqn:ER; [|discriminate] end. cbn [rbind] in H. injection H as <-.
  exists both, rest. split; [reflexivity|].
  apply mapM_idx in EB as [B1 B2]. 2: { intros i e He. destruct (pretty_const reprs ffmt lp i); [|discriminate]. destruct (pretty_const reprs ffmt rp i); [|discriminate]. cbn [rbind] in He. now injection He as <-. }
  split; [exact B1|]. split.
  { apply Forall_forall. intros e He. rewrite Forall_forall in B2. specialize (B2 e He). assert (Hi : In (e_index e) (zrange 1 mn)) by (rewrite <- B1; now apply in_map). apply zrange_in in Hi.
    unfold shows_at. fold ls rs. replace (e_index e <? ls) with true by lia. replace (e_index e <? rs) with true by lia.
    destruct (pretty_const reprs ffmt lp (e_index e)); [|discriminate]. destruct (pretty_const reprs ffmt rp (e_index e)); [|discriminate]. cbn [rbind] in B2. destruct e as [[ei ea] eb]. injection B2 as <- <-. now split. }
  destruct (Z.ltb_spec rs ls) as [Hlt|Hge].
  - apply mapM_idx in ER as [R1 R2]. 2: { intros i e He. destruct (pretty_const reprs ffmt lp i); [|discriminate]. cbn [rbind] in He. now injection He as <-. }
    replace (ls =? rs) with false by lia. rewrite R1, Hidx. split; [f_equal; lia|]. apply Forall_forall. intros e He. rewrite Forall_forall in R2. specialize (R2 e He). split; [|lia]. intros _.
    assert (Hi : In (e_index e) (zrange index ls)) by (rewrite <- R1; now apply in_map). apply zrange_in in Hi. unfold shows_at. fold ls. replace (e_index e <? ls) with true by lia.
    destruct (pretty_const reprs ffmt lp (e_index e)); [|discriminate]. cbn [rbind] in R2. destruct e as [[ei ea] eb]. injection R2 as <- <-. now split.
  - destruct (Z.ltb_spec ls rs) as [Hlt|Hge'].
    + apply mapM_idx in ER as [R1 R2]. 2: { intros i e He. destruct (pretty_const reprs ffmt rp i); [|discriminate]. cbn [rbind] in He. now injection He as <-. }
      replace (ls =? rs) with false by lia. rewrite R1, Hidx. split; [f_equal; lia|]. apply Forall_forall. intros e He. rewrite Forall_forall in R2. specialize (R2 e He). split; [lia|]. intros _.
      assert (Hi : In (e_index e) (zrange index rs)) by (rewrite <- R1; now apply in_map). apply zrange_in in Hi. unfold shows_at. fold rs. replace (e_index e <? rs) with true by lia.
      destruct (pretty_const reprs ffmt rp (e_index e)); [|discriminate]. cbn [rbind] in R2. destruct e as [[ei ea] eb]. injection R2 as <- <-. now split.
    + injection ER as <-. replace (ls =? rs) with true by lia. split; [reflexivity|constructor].
Qed.

Lemma NoDup_app_both {A} (a b : list A) : NoDup (a ++ b) -> (forall x, In x a -> ~ In x b).
Proof. induction a as [|x a IH]; intros H y; [intros []|]. cbn [app] in H. inversion H as [|? ? H1 H2]; subst. intros [<-|Hy]; [intro Hb; apply H1; apply in_app_iff; now right|now apply IH]. Qed.
Lemma NoDup_app_make {A} (a b : list A) : NoDup a -> NoDup b -> (forall x, In x a -> ~ In x b) -> NoDup (a ++ b).
Proof.
  induction a as [|x a IH]; intros Ha Hb HD; [exact Hb|]. inversion Ha as [|? ? H1 H2]; subst. cbn [app]. constructor; [|apply IH; auto; intros y Hy; apply HD; now right].
  intro HI. apply in_app_iff in HI as [HI|HI]; [contradiction|]. exact (HD x (or_introl eq_refl) HI).
Qed.

(** Every index is shown; the first time with both sides; once each exactly if the
    pools have the same size or one of them is empty. *)
Theorem merge_constants_cover lp rp l : pretty_merge_constants reprs ffmt lp rp = Ok l ->
  let ls := Z.of_nat (length lp) in let rs := Z.of_nat (length rp) in
  (forall i, 1 <= i < Z.max ls rs -> exists pre e post, l = pre ++ e :: post /\ e_index e = i /\ ~ In i (map e_index pre) /\
     shows_at lp i (snd (fst e)) /\ shows_at rp i (snd e)) /\
  (forall e, In e l -> 1 <= e_index e < Z.max ls rs) /\
  (NoDup (map e_index l) <-> ls = rs \/ Z.min ls rs <= 1).
Proof.
  intros H ls rs. destruct (merge_constants_exact _ _ _ H) as (both & rest & -> & B1 & B2 & R1 & R2). fold ls rs in B1, R1, R2.
  set (mn := Z.min ls rs) in *. set (mx := Z.max ls rs) in *. split; [|split].
  - intros i Hi. destruct (Z_lt_dec i mn) as [Hlt|Hge].
    + assert (HI : In i (map e_index both)) by (rewrite B1; apply zrange_in; lia). apply in_map_iff in HI as (e & Ei & HI). apply in_split in HI as (pre & post & ->).
      exists pre, e, (post ++ rest). split; [now rewrite <- app_assoc|]. split; [exact Ei|]. split.
      * pose proof (zrange_nodup 1 mn) as HN. rewrite <- B1, map_app in HN. cbn [map] in HN. apply NoDup_remove_2 in HN. rewrite <- Ei. intro HX. apply HN. apply in_app_iff. now left.
      * rewrite <- Ei. rewrite Forall_forall in B2. apply B2. apply in_app_iff. right. now left.
    + assert (Hne : ls <> rs) by lia. replace (ls =? rs) with false in R1 by lia.
      assert (HI : In i (map e_index rest)) by (rewrite R1; apply zrange_in; lia). apply in_map_iff in HI as (e & Ei & HI). apply in_split in HI as (pre & post & ->).
      exists (both ++ pre), e, post. split; [now rewrite <- app_assoc|]. split; [exact Ei|]. split.
      * rewrite map_app, B1. intro HX. apply in_app_iff in HX as [HX|HX]; [apply zrange_in in HX; lia|].
        pose proof (zrange_nodup (Z.max 1 (mn - 1)) mx) as HN. rewrite <- R1, map_app in HN. cbn [map] in HN. apply NoDup_remove_2 in HN. rewrite Ei in HN. apply HN. apply in_app_iff. now left.
      * rewrite Forall_forall in R2. assert (He : In e (pre ++ e :: post)) by (apply in_app_iff; right; now left). destruct (R2 e He) as [Q1 Q2]. subst i. destruct (Z_lt_dec rs ls) as [Hc|Hc].
        -- destruct (Q1 Hc) as [Q3 Q4]. split; [exact Q3|]. unfold shows_at. fold rs. replace (e_index e <? rs) with false by lia. exact Q4.
        -- destruct Q2 as [Q3 Q4]; [lia|]. split; [|exact Q4]. unfold shows_at. fold ls. replace (e_index e <? ls) with false by lia. exact Q3.
  - intros e He. apply in_app_iff in He as [He|He]; apply (in_map e_index) in He.
    + rewrite B1 in He. apply zrange_in in He. lia.
    + rewrite R1 in He. destruct (Z.eqb_spec ls rs); [destruct He|]. apply zrange_in in He. lia.
  - rewrite map_app, B1, R1. destruct (Z.eqb_spec ls rs) as [E|E].
    + rewrite app_nil_r. split; [now left|intros _; apply zrange_nodup].
    + split.
      * intro HN. right. destruct (Z_le_dec mn 1); [assumption|exfalso]. apply (NoDup_app_both _ _ HN (mn - 1)); apply zrange_in; lia.
      * intros [HE|HE]; [contradiction|]. apply NoDup_app_make; [apply zrange_nodup..|]. intros x Hx. apply zrange_in in Hx. lia.
Qed.
End Constants.

(** Proofs: reading back what was written. *)
From Verif Require Import Base ConstPool_Model Manifest_Model Manifest_Spec Manifest_Proofs.
From Coq Require Import Permutation.

Notation len := (@length Z).

(** ** Cutting a text at byte offsets *)
Definition cut (s : str) (n : nat) : Prop :=
  forall a c b, s = a ++ c :: b -> ~ (len (utf8 a) < n < len (utf8 (a ++ [c])))%nat.

Lemma split_at : forall s n, (n <= len (utf8 s))%nat -> cut s n -> exists a b, s = a ++ b /\ len (utf8 a) = n.
Proof.
  induction s as [|c s IH]; intros n Hn HC.
  - exists [], []. split; [reflexivity|]. cbn in *. lia.
  - destruct (Nat.eq_dec n 0) as [->|H0]; [now exists [], (c :: s)|].
    assert (Hc : (len (utf8c c) <= n)%nat).
    { specialize (HC [] c s eq_refl). cbn [app] in HC. unfold utf8 in HC. cbn [map concat] in HC.
      rewrite app_nil_r in HC. cbn [length] in HC. lia. }
    destruct (IH (n - len (utf8c c))%nat) as (a & b & -> & Ha).
    + change (utf8 (c :: s)) with (utf8c c ++ utf8 s) in Hn. rewrite app_length in Hn. lia.
    + intros a x b -> H. apply (HC (c :: a) x b eq_refl).
      change (utf8 (c :: a)) with (utf8c c ++ utf8 a).
      change (utf8 ((c :: a) ++ [x])) with (utf8c c ++ utf8 (a ++ [x])). rewrite !app_length. lia.
    + exists (c :: a), b. split; [reflexivity|]. change (utf8 (c :: a)) with (utf8c c ++ utf8 a).
      rewrite app_length. lia.
Qed.
Lemma cut_tail a b n : cut (a ++ b) (len (utf8 a) + n) -> cut b n.
Proof.
  intros HC x c y -> H. apply (HC (a ++ x) c y); [now rewrite <- app_assoc|].
  rewrite <- app_assoc. rewrite !utf8_app in *. rewrite !app_length in *. lia.
Qed.
Lemma firstn_len {A} (a b : list A) n : length a = n -> firstn n (a ++ b) = a.
Proof. intros <-. rewrite firstn_app, firstn_all, Nat.sub_diag. cbn. apply app_nil_r. Qed.
Lemma skipn_len {A} (a b : list A) n : length a = n -> skipn n (a ++ b) = b.
Proof. intros <-. rewrite skipn_app, skipn_all, Nat.sub_diag. reflexivity. Qed.

Lemma chunks_text : forall fuel b, (len (utf8 b) <= fuel)%nat -> (forall j, cut b (69 * S j)) ->
  exists ps, chunk69 fuel (utf8 b) = map utf8 ps /\ concat ps = b.
Proof.
  induction fuel as [|fu IH]; intros b HF HC.
  - exists []. destruct b as [|c b]; [split; reflexivity|].
    destruct (utf8c_cons c) as (x & r & E). change (utf8 (c :: b)) with (utf8c c ++ utf8 b) in HF. rewrite E in HF.
    cbn in HF. lia.
  - destruct (le_lt_dec (len (utf8 b)) 69) as [HL|HL].
    + destruct (utf8 b) as [|x u] eqn:EU.
      * exists []. split; [reflexivity|]. destruct b as [|c b]; [reflexivity|].
        destruct (utf8c_cons c) as (y & r & E). change (utf8 (c :: b)) with (utf8c c ++ utf8 b) in EU.
        rewrite E in EU. discriminate.
      * exists [b]. cbn [chunk69 map concat]. rewrite app_nil_r. split; [|reflexivity].
        rewrite firstn_all2 by exact HL. rewrite skipn_all2 by exact HL. rewrite <- EU. destruct fu; reflexivity.
    + destruct (split_at b 69) as (p & b' & -> & Hp); [lia|apply (HC 0%nat)|].
      destruct (IH b') as (ps & E & Ec).
      * rewrite utf8_app, app_length in HF. lia.
      * intro j. apply (cut_tail p). rewrite Hp. replace (69 + 69 * S j)%nat with (69 * S (S j))%nat by lia. apply HC.
      * exists (p :: ps). cbn [map concat]. rewrite <- E, Ec. split; [|reflexivity].
        rewrite utf8_app. destruct (utf8 p ++ utf8 b') as [|x u] eqn:EU.
        { apply app_eq_nil in EU as [EU _]. rewrite EU in Hp. cbn in Hp. lia. }
        cbn [chunk69]. rewrite <- EU. rewrite firstn_len, skipn_len by exact Hp. reflexivity.
Qed.

Lemma header_parts k v : no_straddle k v -> (len (utf8 k) <= 68)%nat ->
  exists v0 ps, v = v0 ++ concat ps /\
    lines_of [] (utf8 (header k v)) = utf8 (k ++ 58 :: 32 :: v0) :: map (fun p => 32 :: utf8 p) ps.
Proof.
  intros HN HK.
  assert (HC : forall j, cut (header k v) (70 + 69 * j)%nat).
  { intros j a c b E H. apply (HN a c b E (Z.of_nat j)); lia. }
  assert (HP : exists p0 ps, header k v = p0 ++ concat ps /\ (len (utf8 k) + 2 <= len (utf8 p0))%nat /\
    lines_of [] (utf8 (header k v)) = utf8 p0 :: map (fun p => 32 :: utf8 p) ps).
  { unfold lines_of. destruct (le_lt_dec (len (utf8 (header k v))) 70) as [HL|HL].
    - exists (header k v), []. cbn [concat]. rewrite app_nil_r. split; [reflexivity|]. split.
      + unfold header. rewrite !utf8_app, !app_length. cbn. lia.
      + rewrite firstn_all2 by exact HL. rewrite skipn_all2 by exact HL.
        destruct (len (utf8 (header k v))); cbn [chunk69 map]; now rewrite app_nil_r.
    - destruct (split_at (header k v) 70) as (p0 & b & E & Hp); [lia|exact (HC 0%nat)|].
      destruct (chunks_text (len (utf8 (header k v))) b) as (ps & E1 & E2).
      + rewrite E, utf8_app, app_length. lia.
      + intro j. apply (cut_tail p0). rewrite Hp, <- E. replace (70 + 69 * S j)%nat with (70 + 69 * (S j))%nat by lia. apply HC.
      + exists p0, ps. rewrite E2. split; [exact E|]. split; [rewrite Hp; lia|].
        rewrite E at 1. rewrite utf8_app. rewrite firstn_len by exact Hp. rewrite app_nil_r.
        f_equal. rewrite E at 2. rewrite utf8_app, skipn_len by exact Hp. rewrite E1, map_map.
        apply map_ext. intro p. now rewrite app_nil_r. }
  destruct HP as (p0 & ps & E & HL & EL).
  assert (exists v0, p0 = k ++ 58 :: 32 :: v0 /\ v = v0 ++ concat ps) as (v0 & -> & ->).
  { unfold header in E. assert (E' : (k ++ [58; 32]) ++ v = p0 ++ concat ps) by (rewrite <- app_assoc; exact E).
    apply app_eq_app in E' as (l & [(E1 & E2)|(E1 & E2)]).
    - destruct l as [|x l].
      + exists []. rewrite app_nil_r in E1. cbn [app] in E2. subst p0 v. split; reflexivity.
      + exfalso. assert (HH : len (utf8 (k ++ [58; 32])) = (len (utf8 p0) + len (utf8 (x :: l)))%nat).
        { rewrite E1, utf8_app, app_length. reflexivity. }
        rewrite utf8_app, app_length in HH. change (len (utf8 [58; 32])) with 2%nat in HH.
        destruct (utf8c_cons x) as (y & r & Ex). change (utf8 (x :: l)) with (utf8c x ++ utf8 l) in HH.
        rewrite Ex in HH. cbn [length app] in HH. lia.
    - exists l. rewrite E1, <- app_assoc. split; [reflexivity|exact E2]. }
  exists v0, ps. split; [reflexivity|exact EL].
Qed.

(** ** Lines of text *)
Definition item_lines (v0 k : str) (ps : list str) : list str := (k ++ 58 :: 32 :: v0) :: map (cons 32) ps.
Definition joined (ls : str) (lines : list str) : str := concat (map (fun l => l ++ ls) lines).

Lemma joined_app ls a b : joined ls (a ++ b) = joined ls a ++ joined ls b.
Proof. unfold joined. now rewrite map_app, concat_app. Qed.
Lemma utf8_joined ls lines : utf8 (joined ls lines) = concat (map (fun l => utf8 l ++ utf8 ls) lines).
Proof.
  induction lines as [|l lines IH]; [reflexivity|]. unfold joined in *. cbn [map concat].
  rewrite !utf8_app, IH. reflexivity.
Qed.
Lemma utf8_joined_concat ls : forall lines, concat (map (fun x => utf8 (joined ls x)) lines) = utf8 (joined ls (concat lines)).
Proof. induction lines as [|x lines IH]; [reflexivity|]. cbn [map concat]. rewrite joined_app, utf8_app, IH. reflexivity. Qed.
Lemma lines_of_ls ls kv : lines_of ls kv = map (fun l => l ++ ls) (lines_of [] kv).
Proof.
  unfold lines_of. cbn [map]. rewrite app_nil_r, map_map. f_equal. apply map_ext. intro c. now rewrite app_nil_r.
Qed.

Lemma plain_scalar c : plain c = true -> scalar c = true.
Proof. unfold plain. intro H. apply andb_prop in H as [H _]. apply andb_prop in H as [H _]. exact H. Qed.
Lemma forallb_impl {A} (f g : A -> bool) l : (forall x, f x = true -> g x = true) -> forallb f l = true -> forallb g l = true.
Proof. rewrite !forallb_forall. auto. Qed.

Lemma key_ok_facts k : key_ok k = true ->
  forallb plain k = true /\ ~ In 58 k /\ (exists c k', k = c :: k' /\ c <> 32) /\ (len (utf8 k) <= 68)%nat.
Proof.
  unfold key_ok. intro H. apply andb_prop in H as [H H4]. apply andb_prop in H as [H H3]. apply andb_prop in H as [H1 H2].
  split; [exact H1|]. split; [|split; [|lia]].
  - intro HI. apply negb_true_iff in H2. rewrite <- not_true_iff_false in H2. apply H2.
    apply existsb_exists. exists 58. split; [exact HI|reflexivity].
  - destruct k as [|c k]; [discriminate|]. exists c, k. split; [reflexivity|]. lia.
Qed.
Lemma utf8_nonempty s : s <> [] -> utf8 s <> [].
Proof.
  destruct s as [|c s]; [contradiction|]. intros _ H. destruct (utf8c_cons c) as (b & r & E).
  change (utf8 (c :: s)) with (utf8c c ++ utf8 s) in H. rewrite E in H. discriminate.
Qed.

Lemma write_item k v ls : a_linesep ls -> item_ok (k, v) ->
  exists v0 ps, v = v0 ++ concat ps /\
    write_key_val k v (Some ls) = Ok (utf8 (joined ls (item_lines v0 k ps))).
Proof.
  intros Hls (HK & HV & HN). cbn [fst snd] in *. apply key_ok_facts in HK as (K1 & K2 & (c & k' & K3 & K3') & K4).
  unfold val_ok in HV. apply andb_prop in HV as [V1 V2].
  destruct (header_parts k v HN K4) as (v0 & ps & E & EL). exists v0, ps. split; [exact E|].
  assert (HU : utf8 k <> []) by (apply utf8_nonempty; subst k; discriminate).
  rewrite (write_ok k v ls (utf8 k) (utf8 v) ls).
  - change (utf8 k ++ [58; 32] ++ utf8 v) with (utf8 k ++ utf8 [58; 32] ++ utf8 v). rewrite <- !utf8_app.
    fold (header k v). rewrite lines_of_ls, EL, utf8_joined. unfold item_lines. cbn [map].
    assert (Hu : utf8 ls = ls) by (destruct Hls as [->| ->]; reflexivity). rewrite Hu, !map_map. reflexivity.
  - apply utf8_encode_ok. eapply forallb_impl; [exact plain_scalar|exact K1].
  - apply utf8_encode_ok. eapply forallb_impl; [exact plain_scalar|exact V1].
  - now apply linesep_enc.
  - destruct (utf8 k); [contradiction|cbn [length] in *; lia].
  - apply utf8_nonempty. intros ->. discriminate.
Qed.

(** ** splitlines *)
Definition clear_line (l : str) : Prop := forallb plain l = true.
Lemma plain_nobreak c : plain c = true -> line_break c = false /\ c <> 0.
Proof.
  unfold plain, breaks, line_break. cbn [existsb]. intro H. split; [|lia].
  apply andb_prop in H as [_ H]. lia.
Qed.
Lemma splitlines_fuel : forall fuel fuel' cur s, (length s <= fuel)%nat -> (length s <= fuel')%nat ->
  splitlines_f fuel cur s = splitlines_f fuel' cur s.
Proof.
  induction fuel as [|fu IH]; intros [|fu'] cur [|c s] H H'; try reflexivity; cbn [length] in *; try lia.
  cbn [splitlines_f]. destruct (line_break c); [|apply IH; lia]. f_equal. apply IH.
  - destruct (c =? 13); [|lia]. destruct s as [|d s]; [lia|]. destruct (d =? 10); cbn [length] in *; lia.
  - destruct (c =? 13); [|lia]. destruct s as [|d s]; [lia|]. destruct (d =? 10); cbn [length] in *; lia.
Qed.
Lemma splitlines_line ls : a_linesep ls -> forall l cur rest fuel, clear_line l ->
  (length (l ++ ls ++ rest) <= fuel)%nat ->
  splitlines_f fuel cur (l ++ ls ++ rest) = (rev cur ++ l) :: splitlines rest.
Proof.
  intros Hls l. induction l as [|c l IH]; intros cur rest fuel HC HF.
  - cbn [app]. rewrite app_nil_r. destruct Hls as [->| ->].
    + destruct fuel as [|fu]; [cbn [app length lf] in HF; lia|]. cbn [app lf splitlines_f].
      change (line_break 10) with true. change (10 =? 13) with false. cbn match. f_equal. apply splitlines_fuel; cbn [app length lf] in HF; lia.
    + destruct fuel as [|fu]; [cbn [app length crlf] in HF; lia|]. cbn [app crlf splitlines_f].
      change (line_break 13) with true. change (13 =? 13) with true. change (10 =? 10) with true. cbn match.
      f_equal. apply splitlines_fuel; cbn [app length crlf] in HF; lia.
  - cbn [app length] in *. destruct fuel as [|fu]; [lia|]. cbn [splitlines_f].
    unfold clear_line in HC. cbn [forallb] in HC. apply andb_prop in HC as [H1 H2].
    destruct (plain_nobreak c H1) as [-> _]. rewrite IH by (try exact H2; lia). cbn [rev]. now rewrite <- app_assoc.
Qed.
Lemma splitlines_joined ls lines rest : a_linesep ls -> Forall clear_line lines ->
  splitlines (joined ls lines ++ rest) = lines ++ splitlines rest.
Proof.
  intros Hls HF. induction HF as [|l lines Hl HF IH]; [reflexivity|].
  unfold joined in *. cbn [map concat]. rewrite <- !app_assoc. cbn [app].
  unfold splitlines at 1. rewrite splitlines_line by (try assumption; lia). cbn [rev app]. f_equal. exact IH.
Qed.

(** ** parse_lines *)
Lemma clean_clear l : clear_line l -> clean l = l.
Proof.
  unfold clear_line, clean. induction l as [|c l IH]; [reflexivity|]. cbn [forallb filter]. intro H.
  apply andb_prop in H as [H1 H2]. destruct (plain_nobreak c H1) as [_ H0].
  replace (c =? 0) with false by lia. cbn [negb]. now rewrite IH.
Qed.
Lemma split_colon_key k v : ~ In 58 k -> split_colon (k ++ 58 :: v) = Some (k, v).
Proof.
  induction k as [|c k IH]; intro H; [reflexivity|]. cbn [app split_colon].
  destruct (Z.eqb_spec c 58) as [->|Hc]; [exfalso; apply H; now left|].
  rewrite IH by (intro; apply H; now right). reflexivity.
Qed.
Lemma parse_conts : forall ps k vals c rest, Forall clear_line ps ->
  parse_lines (Some ((k, vals) :: c)) (map (cons 32) ps ++ rest) = parse_lines (Some ((k, rev ps ++ vals) :: c)) rest.
Proof.
  induction ps as [|p ps IH]; intros k vals c rest HF; [reflexivity|].
  inversion HF as [|? ? Hp HF']; subst. cbn [map app parse_lines].
  assert (E : clean (32 :: p) = 32 :: p).
  { unfold clean. cbn [filter]. change (32 =? 0) with false. cbn [negb]. f_equal. now apply clean_clear. }
  rewrite E. change (32 =? 32) with true. cbn match. rewrite IH by exact HF'. cbn [rev]. now rewrite <- app_assoc.
Qed.
Definition opt_items (c : option (list item)) : list item := match c with Some c => c | None => [] end.
Lemma parse_item k v0 ps curr rest : key_ok k = true -> clear_line v0 -> Forall clear_line ps ->
  parse_lines curr (item_lines v0 k ps ++ rest) = parse_lines (Some ((k, rev ps ++ [v0]) :: opt_items curr)) rest.
Proof.
  intros HK Hv Hps. apply key_ok_facts in HK as (K1 & K2 & (c & k' & K3 & K3') & K4).
  unfold item_lines. cbn [app].
  assert (E : clean (k ++ 58 :: 32 :: v0) = k ++ 58 :: 32 :: v0).
  { apply clean_clear. unfold clear_line. rewrite forallb_app, K1. cbn [forallb]. now rewrite Hv. }
  cbn [parse_lines]. rewrite E. subst k. cbn [app]. replace (c =? 32) with false by lia.
  change (c :: k' ++ 58 :: 32 :: v0) with ((c :: k') ++ 58 :: 32 :: v0). rewrite split_colon_key by exact K2.
  cbn [skipn]. now rewrite parse_conts.
Qed.

(** ** Sections *)
Definition loads (lines : list str) (items : list (str * str)) : Prop :=
  Forall clear_line lines /\
  exists its : list item, map (fun i => (fst i, concat (rev (snd i)))) its = items /\
    forall curr rest, parse_lines curr (lines ++ rest) =
      parse_lines (match its with [] => curr | _ => Some (rev its ++ opt_items curr) end) rest.

Lemma clear_concat v0 ps : clear_line (v0 ++ concat ps) -> clear_line v0 /\ Forall clear_line ps.
Proof.
  unfold clear_line. rewrite forallb_app. intro H. apply andb_prop in H as [H1 H2]. split; [exact H1|].
  clear H1 v0. induction ps as [|p ps IH]; constructor; cbn [concat] in H2; rewrite forallb_app in H2;
    apply andb_prop in H2 as [H2 H3]; auto.
Qed.
Lemma write_items_ok ls : a_linesep ls -> forall s, Forall item_ok s ->
  exists lines, write_items s (Some ls) = Ok (utf8 (joined ls lines)) /\ loads lines s.
Proof.
  intros Hls s HF. induction HF as [|[k v] s Hkv HF (lines & E & HL & its & EI & HP)].
  - exists []. split; [reflexivity|]. split; [constructor|]. exists []. split; reflexivity.
  - destruct (write_item k v ls Hls Hkv) as (v0 & ps & Ev & EW). destruct Hkv as (HK & HV & HN). cbn [fst snd] in *.
    assert (HC : clear_line v) by (unfold val_ok in HV; apply andb_prop in HV as [HV _]; exact HV).
    subst v. apply clear_concat in HC as [C1 C2].
    exists (item_lines v0 k ps ++ lines). split; [|split].
    + cbn [write_items]. rewrite EW. cbn [rbind]. rewrite E. cbn [rbind]. now rewrite joined_app, utf8_app.
    + apply Forall_app. split; [|exact HL]. unfold item_lines. constructor.
      * apply key_ok_facts in HK as (K1 & _). unfold clear_line. rewrite forallb_app, K1. cbn [forallb]. now rewrite C1.
      * rewrite Forall_map. eapply Forall_impl; [|exact C2]. intros p Hp. unfold clear_line in *. cbn [forallb]. now rewrite Hp.
    + exists ((k, rev ps ++ [v0]) :: its). split.
      * cbn [map fst snd]. f_equal; [|exact EI]. f_equal. rewrite rev_app_distr, rev_involutive. reflexivity.
      * intros curr rest. rewrite <- app_assoc, parse_item by assumption. rewrite HP.
        destruct its as [|i its]; [reflexivity|]. cbn [opt_items rev]. rewrite <- !app_assoc. reflexivity.
Qed.

Lemma dset_new {V} (d : dict V) k v : ~ In k (dkeys d) -> dset d k v = d ++ [(k, v)].
Proof.
  induction d as [|[k' v'] d IH]; intro H; [reflexivity|]. cbn [dset app].
  destruct (seqb_spec k k') as [->|Hk]; [exfalso; apply H; now left|].
  rewrite IH by (intro; apply H; now right). reflexivity.
Qed.
Lemma key_len k : (length k <= len (utf8 k))%nat.
Proof.
  induction k as [|c k IH]; [reflexivity|]. change (utf8 (c :: k)) with (utf8c c ++ utf8 k).
  destruct (utf8c_cons c) as (b & r & E). rewrite E. cbn [app length]. rewrite app_length. lia.
Qed.
Lemma sec_set_ok s k v : key_ok k = true -> sec_set s k v = Ok (dset s k v).
Proof.
  intro HK. apply key_ok_facts in HK as (_ & _ & _ & K4). unfold sec_set. pose proof (key_len k).
  unfold str in *. now replace (Z.of_nat (length k) >? 68) with false by lia.
Qed.
Lemma sec_load_app s0 : forall items : list (str * list str), Forall (fun i => key_ok (fst i) = true) items ->
  NoDup (dkeys s0 ++ map fst items) ->
  sec_load s0 items = Ok (s0 ++ map (fun i => (fst i, concat (snd i))) items).
Proof.
  intro items. revert s0. induction items as [|[k vals] items IH]; intros s0 HF HN.
  - now rewrite app_nil_r.
  - inversion HF as [|? ? Hk HF']; subst. cbn [fst] in Hk. cbn [sec_load]. rewrite sec_set_ok by exact Hk. cbn [rbind].
    rewrite dset_new.
    + rewrite IH; [cbn [map fst snd]; now rewrite <- app_assoc|exact HF'|].
      unfold dkeys. rewrite map_app. cbn [map fst]. rewrite <- app_assoc. exact HN.
    + cbn [map fst] in HN. apply NoDup_remove_2 in HN. intro HI. apply HN. apply in_or_app. now left.
Qed.
Lemma sec_load_ok pk old pv (items : list (str * list str)) s :
  map (fun i => (fst i, concat (snd i))) items = s -> section_ok pk pv s ->
  sec_load [(pk, old)] items = Ok s.
Proof.
  intros E ((rest & ->) & HN & HF). destruct items as [|[k vals] items]; [discriminate|].
  cbn [map fst snd] in E. apply cons_inj in E as [E1 E2]. injection E1 as -> E1.
  cbn [sec_load]. inversion HF as [|? ? (HK & _) HF']; subst. cbn [fst] in HK. rewrite sec_set_ok by exact HK.
  cbn [rbind dset]. rewrite seqb_refl.
  rewrite sec_load_app; [reflexivity| |].
  - rewrite Forall_map in HF'. eapply Forall_impl; [|exact HF']. intros i (Hi & _). exact Hi.
  - unfold dkeys. cbn [map fst app]. cbn [map fst] in HN. rewrite map_map in HN. exact HN.
Qed.

Lemma parse_blank c rest : c <> [] ->
  parse_lines (Some c) ([] :: rest) = (finish c :: fst (parse_lines None rest), snd (parse_lines None rest)).
Proof.
  destruct c as [|i c]; [contradiction|]. intros _. cbn [parse_lines clean filter].
  destruct (parse_lines None rest). reflexivity.
Qed.
Lemma sec_data_ok ls pk pv s : a_linesep ls -> section_ok pk pv s ->
  exists lines, sec_data s (Some ls) = Ok (utf8 (joined ls (lines ++ [[]]))) /\ Forall clear_line (lines ++ [[]]) /\
    exists items, map (fun i => (fst i, concat (snd i))) items = s /\
      forall rest, parse_lines None (lines ++ [] :: rest) =
        (items :: fst (parse_lines None rest), snd (parse_lines None rest)).
Proof.
  intros Hls ((rest0 & Es) & HN & HF). destruct (write_items_ok ls Hls s HF) as (lines & E & HL & its & EI & HP).
  exists lines. split; [|split].
  - unfold sec_data. rewrite E. cbn [rbind]. rewrite linesep_enc by exact Hls. cbn [rbind].
    rewrite joined_app, utf8_app. f_equal. f_equal. destruct Hls as [->| ->]; reflexivity.
  - apply Forall_app. split; [exact HL|]. constructor; [reflexivity|constructor].
  - exists (map (fun i => (fst i, rev (snd i))) its). split; [rewrite map_map; exact EI|].
    intro rest. rewrite HP. destruct its as [|i its]; [subst s; discriminate|].
    cbn [opt_items]. rewrite app_nil_r. rewrite parse_blank.
    + f_equal. f_equal. unfold finish. now rewrite <- map_rev, rev_involutive.
    + intro ER. apply (f_equal (@rev _)) in ER. rewrite rev_involutive in ER. discriminate.
Qed.

(** ** Whole manifests *)
Lemma sort_secs_perm l : Permutation (sort_secs l) l.
Proof.
  assert (HI : forall x l, Permutation (insert_sec x l) (x :: l)).
  { intros x. induction l0 as [|y l0 IH]; [reflexivity|]. cbn [insert_sec]. destruct (slt _ _); [reflexivity|].
    rewrite IH. apply perm_swap. }
  unfold sort_secs. assert (G : forall l acc, Permutation (fold_left (fun acc x => insert_sec x acc) l acc) (l ++ acc)).
  { induction l0 as [|x l0 IH]; intro acc; [reflexivity|]. cbn [fold_left app]. rewrite IH, HI.
    symmetry. apply Permutation_middle. }
  rewrite G. now rewrite app_nil_r.
Qed.
Lemma mapM_ok {A B} (f : A -> res B) (g : A -> B) l : (forall a, In a l -> f a = Ok (g a)) -> mapM f l = Ok (map g l).
Proof.
  induction l as [|a l IH]; intro H; [reflexivity|]. cbn [mapM map]. rewrite (H a) by now left. cbn [rbind].
  rewrite IH; [reflexivity|]. intros; apply H; now right.
Qed.

Lemma mapM_map {A B C} (f : B -> res C) (g : A -> B) : forall l, mapM f (map g l) = mapM (fun x => f (g x)) l.
Proof. induction l as [|a l IH]; [reflexivity|]. cbn [map mapM]. destruct (f (g a)); [|reflexivity]. cbn [rbind]. now rewrite IH. Qed.

Definition sec_items_of (items : list (str * list str)) : section := map (fun i => (fst i, concat (snd i))) items.
Lemma load_subs_ok : forall (l : list (list (str * list str))) (names : list str) subs,
  Forall2 (fun items n => section_ok K_Name n (sec_items_of items)) l names ->
  NoDup (dkeys subs ++ names) ->
  load_subs subs l = Ok (subs ++ combine names (map sec_items_of l)).
Proof.
  intros l names subs HF. revert subs. induction HF as [|items n l names H1 HF IH]; intros subs HN.
  - cbn. now rewrite app_nil_r.
  - cbn [load_subs]. unfold new_section. rewrite (sec_load_ok K_Name S_None n items (sec_items_of items) eq_refl H1).
    cbn [rbind]. destruct H1 as ((rest & E) & _ & _). rewrite E at 1. cbn [dget]. rewrite seqb_refl.
    rewrite dset_new.
    + rewrite IH; [cbn [map combine]; now rewrite <- app_assoc|]. unfold dkeys. rewrite map_app. cbn [map fst].
      rewrite <- app_assoc. exact HN.
    + apply NoDup_remove_2 in HN. intro. apply HN. apply in_or_app. now left.
Qed.

(** What sections of a storable manifest look like once written in some order. *)
Lemma subs_lines ls : a_linesep ls -> forall (subs : dict section),
  Forall (fun ns => section_ok K_Name (fst ns) (snd ns)) subs ->
  exists lines (l : list (list (str * list str))),
    mapM (fun s => sec_data s (Some ls)) (map snd subs) = Ok (map (fun x => utf8 (joined ls x)) lines) /\
    Forall clear_line (concat lines) /\
    map sec_items_of l = map snd subs /\
    Forall2 (fun items n => section_ok K_Name n (sec_items_of items)) l (map fst subs) /\
    parse_lines None (concat lines) = (l, None).
Proof.
  intros Hls subs HF. induction HF as [|[n s] subs H HF (lines & l & E1 & E2 & E3 & E4 & E5)].
  - exists [], []. cbn. repeat split; constructor.
  - cbn [fst snd] in H. destruct (sec_data_ok ls K_Name n s Hls H) as (ln & D1 & D2 & items & D3 & D4).
    exists ((ln ++ [[]]) :: lines), (items :: l). cbn [map concat snd fst mapM]. rewrite D1. cbn [rbind]. rewrite E1. cbn [rbind].
    split; [reflexivity|]. split; [apply Forall_app; split; assumption|].
    split; [rewrite E3; unfold sec_items_of; rewrite D3; reflexivity|].
    split; [constructor; [unfold sec_items_of; rewrite D3; exact H|exact E4]|].
    rewrite <- app_assoc. cbn [app]. rewrite D4, E5. reflexivity.
Qed.

Lemma contains_app sub a b : contains sub b = true -> contains sub (a ++ b) = true.
Proof.
  intro H. induction a as [|c a IH]; [exact H|]. cbn [app contains]. rewrite IH. apply orb_true_r.
Qed.
Lemma detect_joined ls lines : a_linesep ls -> lines <> [] -> Forall clear_line lines ->
  detect_linesep (joined ls lines) = ls.
Proof.
  intros Hls Hne HF. unfold detect_linesep. destruct Hls as [->| ->].
  - assert (H13 : ~ In 13 (joined lf lines)).
    { unfold joined. intro H. apply in_concat in H as (x & Hx & H). apply in_map_iff in Hx as (l & <- & Hl).
      rewrite Forall_forall in HF. specialize (HF l Hl). apply in_app_or in H as [H|[H|[]]]; [|discriminate].
      unfold clear_line in HF. rewrite forallb_forall in HF. specialize (HF 13 H). discriminate. }
    replace (contains [13; 10] (joined lf lines)) with false; [reflexivity|]. symmetry.
    induction (joined lf lines) as [|c s IH]; [reflexivity|]. cbn [contains starts_with].
    rewrite IH by (intro; apply H13; now right).
    destruct (Z.eqb_spec 13 c) as [<-|]; [exfalso; apply H13; now left|]. reflexivity.
  - replace (contains [13; 10] (joined crlf lines)) with true; [reflexivity|]. symmetry.
    destruct lines as [|l lines]; [contradiction|]. unfold joined. cbn [map concat]. rewrite <- app_assoc.
    apply contains_app. reflexivity.
Qed.

Lemma scalar_joined ls lines : a_linesep ls -> Forall clear_line lines -> forallb scalar (joined ls lines) = true.
Proof.
  intros Hls HF. induction HF as [|l lines Hl HF IH]; [reflexivity|]. unfold joined in *. cbn [map concat].
  rewrite !forallb_app, IH. rewrite (forallb_impl plain scalar l plain_scalar Hl).
  destruct Hls as [->| ->]; reflexivity.
Qed.

Lemma sort_secs_map_snd l : Permutation (map snd (sort_secs l)) (map snd l).
Proof. apply Permutation_map, sort_secs_perm. Qed.

Lemma perm_values (subs : dict section) (l : list section) : Permutation l (map snd subs) ->
  exists subs', Permutation subs' subs /\ map snd subs' = l.
Proof.
  intro HP. destruct (Permutation_map_inv snd subs HP) as (s' & E & HP').
  exists s'. split; [symmetry; exact HP'|now symmetry].
Qed.

Lemma round_trip m lo m0 old :
  manifest_ok m -> a_linesep (man_linesep m lo) ->
  m_primary_key m0 = m_primary_key m -> m_main m0 = [(m_primary_key m, old)] -> m_subs m0 = [] ->
  exists data subs, man_data m lo = Ok data /\ Permutation subs (m_subs m) /\
    man_parse m0 data = Ok (mkman (m_primary_key m) (m_main m) subs (Some (man_linesep m lo))).
Proof.
  intros ((v & HM) & HN & HS) Hls E1 E2 E3. set (ls := man_linesep m lo) in *.
  destruct (sec_data_ok ls _ v _ Hls HM) as (mln & D1 & D2 & mitems & D3 & D4).
  assert (HK : exists ks, mapM sec_key (map snd (m_subs m)) = Ok ks /\ map snd ks = map snd (m_subs m)).
  { clear - HS. induction HS as [|[n s] subs H HS (ks & E & EK)]; [now exists []|].
    cbn [map snd fst] in *. cbn [mapM]. unfold sec_key at 1.
    destruct (sec_data_ok lf K_Name n s (or_introl eq_refl) H) as (ln & D & _). unfold os_linesep. fold lf. rewrite D. cbn [rbind].
    rewrite E. cbn [rbind]. eexists. split; [reflexivity|]. cbn [map snd]. now rewrite EK. }
  destruct HK as (ks & EK & EK2).
  destruct (perm_values (m_subs m) (map snd (sort_secs ks))) as (subs & HP & ES).
  { rewrite <- EK2. apply sort_secs_map_snd. }
  assert (HS' : Forall (fun ns => section_ok K_Name (fst ns) (snd ns)) subs).
  { rewrite Forall_forall in *. intros x Hx. apply HS. eapply Permutation_in; eauto. }
  destruct (subs_lines ls Hls subs HS') as (lines & l & L1 & L2 & L3 & L4 & L5).
  assert (EM : mapM (fun x => sec_data (snd x) (Some ls)) (sort_secs ks) = Ok (map (fun x => utf8 (joined ls x)) lines)).
  { rewrite <- L1, ES. symmetry. apply mapM_map. }
  assert (EC : concat (map (fun x => utf8 (joined ls x)) lines) = utf8 (joined ls (concat lines))).
  { apply utf8_joined_concat. }
  set (all := (mln ++ [[]]) ++ concat lines).
  assert (HC : Forall clear_line all) by (apply Forall_app; split; assumption).
  exists (utf8 (joined ls all)), subs. split; [|split; [exact HP|]].
  - unfold man_data. cbv zeta. fold ls. rewrite D1. cbn [rbind]. rewrite EK. cbn [rbind]. rewrite EM. cbn [rbind].
    rewrite EC, <- utf8_app, <- joined_app. reflexivity.
  - unfold man_parse.
    assert (EU : utf8_ignore (utf8 (joined ls all)) = joined ls all).
    { pose proof (ignore_utf8 (joined ls all) [] (scalar_joined ls all Hls HC)) as H. rewrite app_nil_r in H.
      etransitivity; [exact H|]. apply app_nil_r. }
    rewrite EU.
    assert (ESp : splitlines (joined ls all) = all).
    { pose proof (splitlines_joined ls all [] Hls HC) as H. rewrite app_nil_r in H. etransitivity; [exact H|]. apply app_nil_r. }
    assert (ENe : joined ls all <> []).
    { unfold all. destruct mln as [|x mln]; cbn [app]; unfold joined; cbn [map concat]; destruct Hls as [->| ->]; try discriminate;
        destruct x; discriminate. }
    assert (EP : parse_sections (joined ls all) = (mitems :: l, None)).
    { unfold parse_sections. destruct (joined ls all) eqn:EJ; [contradiction|]. rewrite ESp. unfold all.
      rewrite <- app_assoc. cbn [app]. rewrite D4, L5. reflexivity. }
    rewrite EP, E2. rewrite (sec_load_ok _ old v mitems (m_main m) D3 HM). cbn [rbind]. rewrite E3.
    rewrite (load_subs_ok l (map fst subs) []); [|exact L4|].
    + cbn [rbind app]. rewrite E1, L3. f_equal. f_equal.
      * clear. induction subs as [|[n s] subs IH]; [reflexivity|]. cbn [map fst snd combine]. now rewrite IH.
      * f_equal. apply detect_joined; try assumption. unfold all. now destruct mln.
    + cbn. eapply Permutation_NoDup; [|exact HN]. symmetry. now apply Permutation_map.
Qed.

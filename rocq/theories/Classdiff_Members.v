From Verif Require Import Base Pack_Model ConstPool_Model ConstPool_Spec Opcodes_Model ClassFile_Model
  Descr_Model Anno_Model Anno_Spec Anno_Proofs Change_Model Classdiff_Model Classdiff_Spec.
From Coq Require Import Permutation.

Lemma FOP_inv {A} (R : A -> A -> Prop) x l : ForallOrdPairs R (x :: l) -> Forall (R x) l /\ ForallOrdPairs R l.
Proof. intro H. inversion H; subst. split; assumption. Qed.

Section Members.
Variable fmt : pyval -> str.
Notation ident := (get_identifier fmt).

Definition key_in (k : pyval) (d : mdict) : bool := existsb (fun e => py_eq k (fst e)) d.
Definition keys_distinct (d : mdict) : Prop := ForallOrdPairs (fun a b => ~ pyeq (fst a) (fst b)) d.

Lemma pyeq_sym a b : pyeq a b -> pyeq b a.
Proof. apply py_eq_sym. Qed.
Lemma pyeq_trans a b c : pyeq a b -> pyeq b c -> pyeq a c.
Proof. apply py_eq_trans. Qed.
Lemma pyeq_sym_b a b : py_eq a b = py_eq b a.
Proof. destruct (py_eq a b) eqn:E; symmetry; [now apply py_eq_sym|]. destruct (py_eq b a) eqn:E2; [|reflexivity]. apply py_eq_sym in E2. congruence. Qed.
Lemma pyeq_cong_b a b c : pyeq a b -> py_eq a c = py_eq b c.
Proof.
  intro H. destruct (py_eq a c) eqn:E; symmetry.
  - eapply py_eq_trans; [apply py_eq_sym; exact H|exact E].
  - destruct (py_eq b c) eqn:E2; [|reflexivity]. rewrite (py_eq_trans _ _ _ H E2) in E. discriminate.
Qed.

Lemma key_in_cong k k' d : pyeq k k' -> key_in k d = key_in k' d.
Proof. intro H. induction d as [|e d IH]; [reflexivity|]. cbn [key_in existsb]. fold (key_in k d) (key_in k' d). now rewrite IH, (pyeq_cong_b _ _ _ H). Qed.

Lemma keys_cons e d : keys_distinct (e :: d) <-> key_in (fst e) d = false /\ keys_distinct d.
Proof.
  split.
  - intro H. inversion H as [|? ? H1 H2]; subst. split; [|exact H2]. rewrite Forall_forall in H1.
    destruct (key_in (fst e) d) eqn:E; [|reflexivity]. apply existsb_exists in E as (x & Hx & E). exfalso. exact (H1 _ Hx E).
  - intros [H1 H2]. constructor; [|exact H2]. apply Forall_forall. intros x Hx E. assert (key_in (fst e) d = true) by (apply existsb_exists; now exists x). congruence.
Qed.

Lemma mset_key_in d k v x : key_in x (mset d k v) = key_in x d || py_eq x k.
Proof.
  induction d as [|[k' v'] d IH]; cbn [mset key_in existsb fst].
  - now rewrite orb_false_r.
  - destruct (py_eq k k') eqn:E; cbn [existsb fst].
    + fold (key_in x d). rewrite (pyeq_sym_b x k), (pyeq_cong_b _ _ _ E), (pyeq_sym_b k' x). destruct (py_eq x k'); [reflexivity|]. cbn [orb]. now rewrite orb_false_r.
    + fold (key_in x d) (key_in x (mset d k v)). rewrite IH. now rewrite orb_assoc.
Qed.
Lemma mset_distinct d k v : keys_distinct d -> keys_distinct (mset d k v).
Proof.
  induction d as [|[k' v'] d IH]; intro H; cbn [mset].
  - apply keys_cons. split; [reflexivity|constructor].
  - apply keys_cons in H. destruct H as [H1 H2]. cbn [fst] in H1. destruct (py_eq k k') eqn:E.
    + apply keys_cons. split; [exact H1|exact H2].
    + apply keys_cons. split; [|now apply IH]. cbn [fst]. rewrite mset_key_in, H1. cbn [orb]. now rewrite pyeq_sym_b.
Qed.

Lemma filter_none k d : key_in k d = false -> filter (fun e => negb (py_eq k (fst e))) d = d.
Proof.
  induction d as [|e d IH]; [reflexivity|]. cbn [key_in existsb filter]. intro H. apply orb_false_iff in H as [H1 H2]. rewrite H1. cbn [negb]. f_equal. now apply IH.
Qed.

(** Setting a key replaces the value of the equal key, if any. *)
Lemma mset_perm d k v P : keys_distinct d -> (forall a b, pyeq a b -> P a = P b) ->
  Permutation (map snd (filter (fun e => P (fst e)) (mset d k v)))
              (map snd (filter (fun e => P (fst e)) (filter (fun e => negb (py_eq k (fst e))) d)) ++ (if P k then [v] else [])).
Proof.
  intros HD HP. induction d as [|[k' v'] d IH].
  - cbn [mset filter fst map]. destruct (P k); reflexivity.
  - apply keys_cons in HD. destruct HD as [H1 H2]. cbn [fst] in H1. cbn [mset]. destruct (py_eq k k') eqn:E; cbn [filter fst].
    + rewrite E. cbn [negb]. rewrite (filter_none k); [|rewrite (key_in_cong _ _ _ E); exact H1].
      rewrite (HP _ _ E). destruct (P k'); cbn [map snd]; [apply Permutation_cons_append|now rewrite app_nil_r].
    + rewrite E. cbn [negb filter fst]. destruct (P k'); cbn [map snd app].
      * apply perm_skip. now apply IH.
      * now apply IH.
Qed.

(** ** The left dict *)
Definition owned (p : pool) (e : pyval * member) : Prop := exists k, ident p (snd e) = Ok k /\ pyeq (fst e) k \/ ident p (snd e) = Ok (fst e).
Definition key_of (p : pool) (e : pyval * member) : Prop := exists k, ident p (snd e) = Ok k /\ forall x, py_eq x (fst e) = py_eq x k.

Lemma members_left_fold p ls ks : idents fmt p ls ks -> forall li,
  members_left fmt p ls li = Ok (fold_left (fun d km => mset d (fst km) (snd km)) (combine ks ls) li).
Proof.
  induction 1 as [|m k ls ks Hk H IH]; intro li; cbn [members_left combine fold_left fst snd]; [reflexivity|]. rewrite Hk. cbn [rbind]. apply IH.
Qed.
Lemma members_left_ok p ls : forall li li', members_left fmt p ls li = Ok li' -> exists ks, idents fmt p ls ks.
Proof.
  induction ls as [|m ls IH]; intros li li' H; cbn [members_left] in H.
  - exists []. constructor.
  - destruct (ident p m) as [k|] eqn:E; [|discriminate]. cbn [rbind] in H. destruct (IH _ _ H) as [ks Hks]. exists (k :: ks). constructor; assumption.
Qed.

Lemma key_of_mset p d k v : ident p v = Ok k -> Forall (key_of p) d -> Forall (key_of p) (mset d k v).
Proof.
  intros Hk HF. induction HF as [|[k' v'] d He HF IH]; cbn [mset].
  - constructor; [|constructor]. exists k. split; [exact Hk|reflexivity].
  - destruct (py_eq k k') eqn:E; constructor; try assumption. exists k. split; [exact Hk|]. cbn [fst]. intro x.
    rewrite (pyeq_sym_b x k), (pyeq_cong_b _ _ _ E). apply pyeq_sym_b.
Qed.

Lemma fold_mset_facts p kms : (forall km, In km kms -> ident p (snd km) = Ok (fst km)) -> forall d,
  keys_distinct d -> Forall (key_of p) d ->
  let d' := fold_left (fun d km => mset d (fst km) (snd km)) kms d in
  keys_distinct d' /\ Forall (key_of p) d' /\
  (forall x, key_in x d' = key_in x d || existsb (fun km => py_eq x (fst km)) kms) /\
  Permutation (map snd d') (map snd (filter (fun e => negb (existsb (fun km => py_eq (fst e) (fst km)) kms)) d) ++ survivors kms).
Proof.
  induction kms as [|[k m] kms IH]; intros HK d HD HF; cbv zeta; cbn [fold_left fst snd].
  - split; [exact HD|]. split; [exact HF|]. split; [intro x; cbn [existsb]; now rewrite orb_false_r|].
    cbn [existsb negb survivors]. rewrite app_nil_r. replace (filter _ d) with d; [reflexivity|]. symmetry. clear. induction d; cbn [filter]; congruence.
  - specialize (IH (fun km H => HK km (or_intror H)) (mset d k m) (mset_distinct _ _ _ HD) (key_of_mset _ _ _ _ (HK (k, m) (or_introl eq_refl)) HF)).
    cbv zeta in IH. destruct IH as (I1 & I2 & I3 & I4). split; [exact I1|]. split; [exact I2|]. split.
    + intro x. rewrite I3, mset_key_in. cbn [existsb fst]. now rewrite orb_assoc.
    + etransitivity; [exact I4|].
      set (P := fun x => negb (existsb (fun km : pyval * member => py_eq x (fst km)) kms)).
      assert (HP : forall a b, pyeq a b -> P a = P b). { intros a b E. unfold P. f_equal. clear -E. induction kms as [|e l IH]; [reflexivity|]. cbn [existsb]. now rewrite IH, (pyeq_cong_b _ _ _ E). }
      etransitivity; [apply Permutation_app_tail; apply (mset_perm d k m P HD HP)|].
      rewrite <- app_assoc. apply Permutation_app.
      * apply Permutation_map. assert (EQ : forall l, filter (fun e : pyval * member => P (fst e)) (filter (fun e => negb (py_eq k (fst e))) l) =
          filter (fun e => negb (existsb (fun km => py_eq (fst e) (fst km)) ((k, m) :: kms))) l).
        { induction l as [|e l IHl]; [reflexivity|]. cbn [filter existsb fst]. rewrite (pyeq_sym_b (fst e) k). destruct (py_eq k (fst e)); cbn [negb orb].
          - exact IHl.
          - cbn [filter]. unfold P at 1. destruct (negb _); now rewrite IHl. }
        now rewrite EQ.
      * cbn [survivors]. unfold P. destruct (existsb _ kms); cbn [negb]; reflexivity.
Qed.

(** ** The right side *)
Lemma mget_split d k : match mget d k with
  | Some v => exists d1 k' d2, d = d1 ++ (k', v) :: d2 /\ pyeq k k' /\ mdel d k = d1 ++ d2
  | None => key_in k d = false end.
Proof.
  induction d as [|[k' v'] d IH]; cbn [mget mdel key_in existsb fst]; [reflexivity|].
  destruct (py_eq k k') eqn:E; cbn [orb].
  - exists [], k', d. split; [reflexivity|]. split; [exact E|reflexivity].
  - fold (key_in k d). destruct (mget d k) as [v|]; [|exact IH]. destruct IH as (d1 & k1 & d2 & -> & H2 & ->). exists ((k', v') :: d1), k1, d2. repeat split; assumption.
Qed.

Lemma distinct_middle d1 e d2 : keys_distinct (d1 ++ e :: d2) -> keys_distinct (d1 ++ d2) /\ key_in (fst e) (d1 ++ d2) = false.
Proof.
  induction d1 as [|x d1 IH]; cbn [app]; intro H; apply keys_cons in H; destruct H as [H1 H2].
  - split; assumption.
  - destruct (IH H2) as [I1 I2]. unfold key_in in H1. rewrite existsb_app in H1. cbn [existsb] in H1.
    apply orb_false_iff in H1 as [Ha Hb]. apply orb_false_iff in Hb as [Hb Hc].
    split.
    + apply keys_cons. split; [|exact I1]. unfold key_in. rewrite existsb_app, Ha, Hc. reflexivity.
    + cbn [key_in existsb]. fold (key_in (fst e) (d1 ++ d2)). rewrite I2, pyeq_sym_b, Hb. reflexivity.
Qed.

Lemma members_right_facts lp rp rs : forall li ev, keys_distinct li -> Forall (key_of lp) li ->
  members_right fmt rp rs li = Ok ev ->
  rights ev = rs /\ Permutation (lefts ev) (map snd li) /\
  (forall l r, In (MChanged l r) ev -> same_identity fmt lp rp l r) /\
  (forall l r, In (MRemoved l) ev -> In r rs -> ~ same_identity fmt lp rp l r) /\
  (forall l, In (MRemoved l) ev -> exists k, In (k, l) li) /\
  (exists ks, idents fmt rp rs ks /\
    (ForallOrdPairs (fun a b => ~ pyeq a b) ks -> forall r, In (MAdded r) ev -> forall k, ident rp r = Ok k -> key_in k li = false)).
Proof.
  induction rs as [|m rs IH]; intros li ev HD HF H; cbn [members_right] in H.
  - injection H as <-. unfold rights, lefts. split; [clear; induction li as [|a li IHli]; [reflexivity|exact IHli]|]. split.
    + assert (E : forall l : mdict, flat_map (fun e => match e with MAdded _ => [] | MRemoved l => [l] | MChanged l _ => [l] end)
        (map (fun kv : pyval * member => MRemoved (snd kv)) l) = map snd l) by (induction l as [|a l I]; [reflexivity|]; cbn; now rewrite I).
      now rewrite E.
    + split; [intros l r HI; apply in_map_iff in HI as (? & HI & _); discriminate|]. split; [intros l r _ []|]. split.
      * intros l HI. apply in_map_iff in HI as ([k m] & HI & Hin). injection HI as <-. now exists k.
      * exists []. split; [constructor|]. intros _ r HI. apply in_map_iff in HI as (? & HI & _). discriminate.
  - destruct (ident rp m) as [k|] eqn:Ek; [|discriminate]. cbn [rbind] in H. pose proof (mget_split li k) as HG. destruct (mget li k) as [lf|].
    + destruct HG as (d1 & k' & d2 & -> & Hkk & Hdel). rewrite Hdel in H. destruct (members_right fmt rp rs (d1 ++ d2)) as [ev'|] eqn:E; [|discriminate].
      injection H as <-. destruct (distinct_middle _ _ _ HD) as [HD' HK']. cbn [fst] in HK'.
      assert (HF' : Forall (key_of lp) (d1 ++ d2)). { apply Forall_app in HF as [F1 F2]. inversion F2; subst. apply Forall_app. now split. }
      assert (Hlf : key_of lp (k', lf)). { apply Forall_app in HF as [F1 F2]. now inversion F2. }
      destruct (IH _ _ HD' HF' E) as (I1 & I2 & I3 & I4 & I5 & (ks & I6 & I7)).
      assert (Hid : same_identity fmt lp rp lf m).
      { destruct Hlf as (kl & Hkl & Hcong). exists kl, k. split; [exact Hkl|]. split; [exact Ek|]. apply pyeq_sym. unfold pyeq. cbn [fst] in Hcong. now rewrite <- Hcong. }
      split; [cbn; f_equal; exact I1|]. split.
      * cbn [lefts flat_map app]. rewrite map_app. cbn [map snd]. apply Permutation_cons_app. rewrite <- map_app. exact I2.
      * split; [intros l r [HI|HI]; [now injection HI as <- <-|now apply I3]|]. split; [|split].
        -- intros l r [HI|HI]; [discriminate|]. intros [<-|Hr]; [|now apply I4].
           destruct (I5 _ HI) as (kl & Hin). rewrite Forall_forall in HF'. destruct (HF' _ Hin) as (x & Hx & Hc). cbn [fst snd] in Hx, Hc.
           intros (a & b & Ha & Hb & Hab). rewrite Hx in Ha. injection Ha as <-. rewrite Ek in Hb. injection Hb as <-.
           assert (key_in k' (d1 ++ d2) = true); [|congruence]. apply existsb_exists. exists (kl, l). split; [exact Hin|]. cbn [fst].
           rewrite Hc. apply pyeq_sym. eapply pyeq_trans; [exact Hab|exact Hkk].
        -- intros l [HI|HI]; [discriminate|]. destruct (I5 _ HI) as (kl & Hin). exists kl. apply in_app_iff. apply in_app_iff in Hin. cbn [In]. tauto.
        -- exists (k :: ks). split; [now constructor|]. intros HO r [HI|HI]; [discriminate|]. intros kr Hkr. destruct (FOP_inv _ _ _ HO) as [O1 O2].
           pose proof (I7 O2 r HI kr Hkr) as Hn. unfold key_in in Hn |- *. rewrite existsb_app in *. cbn [existsb fst]. apply orb_false_iff in Hn as [-> ->].
           rewrite orb_false_r. cbn [orb]. destruct (py_eq kr k') eqn:Ekr; [|reflexivity]. exfalso.
           assert (Hr : In r rs). { rewrite <- I1. unfold rights. apply in_flat_map. exists (MAdded r). split; [exact HI|now left]. }
           assert (HIn : In kr ks). { clear -I6 Hr Hkr. induction I6 as [|m0 k0 ms0 ks0 H0 H1 IH0]; [destruct Hr|]. destruct Hr as [<-|Hr]; [left; congruence|right; now apply IH0]. }
           rewrite Forall_forall in O1. apply (O1 _ HIn). eapply pyeq_trans; [exact Hkk|]. apply pyeq_sym. exact Ekr.
    + destruct (members_right fmt rp rs li) as [ev'|] eqn:E; [|discriminate]. injection H as <-.
      destruct (IH _ _ HD HF E) as (I1 & I2 & I3 & I4 & I5 & (ks & I6 & I7)).
      split; [cbn; f_equal; exact I1|]. split; [exact I2|]. split; [intros l r [HI|HI]; [discriminate|now apply I3]|]. split; [|split].
      * intros l r [HI|HI]; [discriminate|]. intros [<-|Hr]; [|now apply I4].
        destruct (I5 _ HI) as (kl & Hin). rewrite Forall_forall in HF. destruct (HF _ Hin) as (x & Hx & Hc). cbn [fst snd] in Hx, Hc.
        intros (a & b & Ha & Hb & Hab). rewrite Hx in Ha. injection Ha as <-. rewrite Ek in Hb. injection Hb as <-.
        assert (key_in k li = true); [|congruence]. apply existsb_exists. exists (kl, l). split; [exact Hin|]. cbn [fst]. rewrite Hc. apply pyeq_sym. exact Hab.
      * intros l [HI|HI]; [discriminate|now apply I5].
      * exists (k :: ks). split; [now constructor|]. intros HO r [HI|HI] kr Hkr; destruct (FOP_inv _ _ _ HO) as [O1 O2].
        -- injection HI as <-. congruence.
        -- now apply (I7 O2 r HI).
Qed.

Lemma idents_combine p ls ks : idents fmt p ls ks -> forall km, In km (combine ks ls) -> ident p (snd km) = Ok (fst km).
Proof. induction 1 as [|m k ls ks Hk H IH]; intros km; cbn [combine In]; [intros []|]. intros [<-|HI]; [exact Hk|now apply IH]. Qed.

Lemma idents_fun p ls ks ks' : idents fmt p ls ks -> idents fmt p ls ks' -> ks = ks'.
Proof. intro H. revert ks'. induction H as [|m k ls ks Hk H IH]; intros ks' H'; inversion H'; subst; [reflexivity|]. f_equal; [congruence|now apply IH]. Qed.

Lemma survivors_all p ls ks : idents fmt p ls ks -> ForallOrdPairs (fun a b => ~ pyeq a b) ks -> survivors (combine ks ls) = ls.
Proof.
  induction 1 as [|m k ls ks Hk H IH]; intro HO; [reflexivity|]. inversion HO as [|? ? O1 O2]; subst. cbn [combine survivors].
  replace (existsb (fun km => py_eq k (fst km)) (combine ks ls)) with false; [now rewrite IH|]. symmetry.
  destruct (existsb _ _) eqn:E; [|reflexivity]. apply existsb_exists in E as ([k' m'] & HI & E). exfalso. apply in_combine_l in HI. rewrite Forall_forall in O1. exact (O1 _ HI E).
Qed.

Theorem collect_members_facts lp rp ls rs ev : collect_members fmt lp rp ls rs = Ok ev ->
  rights ev = rs /\
  (exists ks, idents fmt lp ls ks /\ Permutation (lefts ev) (survivors (combine ks ls))) /\
  (forall l r, In (MChanged l r) ev -> same_identity fmt lp rp l r) /\
  (forall l r, In (MRemoved l) ev -> In r rs -> ~ same_identity fmt lp rp l r) /\
  (distinct_ids fmt rp rs -> forall l r, In (MAdded r) ev -> In l ls -> ~ same_identity fmt lp rp l r).
Proof.
  unfold collect_members. intro H. destruct (members_left fmt lp ls []) as [li|] eqn:EL; [|discriminate]. cbn [rbind] in H.
  destruct (members_left_ok _ _ _ _ EL) as [ks Hks]. rewrite (members_left_fold _ _ _ Hks) in EL. injection EL as EL.
  destruct (fold_mset_facts lp (combine ks ls) (idents_combine _ _ _ Hks) [] (FOP_nil _) (Forall_nil _)) as (F1 & F2 & F3 & F4).
  rewrite EL in *. cbn [filter map app] in F4. destruct (members_right_facts lp rp rs li ev F1 F2 H) as (R1 & R2 & R3 & R4 & R5 & (ks' & R6 & R7)).
  split; [exact R1|]. split; [exists ks; split; [exact Hks|etransitivity; [exact R2|exact F4]]|]. split; [exact R3|]. split; [exact R4|].
  intros (ks2 & D1 & D2) l r HI HL (a & b & Ha & Hb & Hab). rewrite (idents_fun _ _ _ _ D1 R6) in D2. pose proof (R7 D2 r HI b Hb) as Hn.
  rewrite F3 in Hn. cbn [key_in existsb orb] in Hn. assert (HIn : In (a, l) (combine ks ls)).
  { clear -Hks HL Ha. induction Hks as [|m k ls ks Hk H IH]; [destruct HL|]. cbn [combine]. destruct HL as [<-|HL]; [left; congruence|right; now apply IH]. }
  assert (existsb (fun km => py_eq b (fst km)) (combine ks ls) = true); [|congruence]. apply existsb_exists. exists (a, l). split; [exact HIn|]. cbn [fst]. apply pyeq_sym. exact Hab.
Qed.

(** One member per identity on the left: nothing is lost. *)
Corollary collect_members_complete lp rp ls rs ev : collect_members fmt lp rp ls rs = Ok ev -> distinct_ids fmt lp ls ->
  Permutation (lefts ev) ls.
Proof.
  intros H (ks' & D1 & D2). destruct (collect_members_facts _ _ _ _ _ H) as (_ & (ks & K1 & K2) & _). rewrite (idents_fun _ _ _ _ D1 K1) in D2.
  now rewrite (survivors_all _ _ _ K1 D2) in K2.
Qed.

(** It fails only if an identity cannot be determined. *)
Lemma collect_members_ok lp rp ls rs ks ks' : idents fmt lp ls ks -> idents fmt rp rs ks' -> exists ev, collect_members fmt lp rp ls rs = Ok ev.
Proof.
  intros H1 H2. unfold collect_members. rewrite (members_left_fold _ _ _ H1). cbn [rbind]. generalize (fold_left (fun d km => mset d (fst km) (snd km)) (combine ks ls) []).
  induction H2 as [|m k rs ks' Hk H2 IH]; intro li; cbn [members_right]; [eexists; reflexivity|]. rewrite Hk. cbn [rbind]. destruct (mget li k).
  - destruct (IH (mdel li k)) as [ev ->]. eexists. reflexivity.
  - destruct (IH li) as [ev ->]. eexists. reflexivity.
Qed.
End Members.

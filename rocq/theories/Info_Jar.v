(** Proofs about what a jar and a distribution provide and require. *)
From Verif Require Import Base Pack_Model ConstPool_Model ConstPool_Spec ClassFile_Model
  ClassFile_Spec ClassFile_Proofs Descr_Model Descr_Spec Manifest_Model
  Change_Model Classdiff_Model Jardiff_Model Jardiff_Spec Jardiff_Proofs Jardiff_Jar Distdiff_Model Distdiff_Spec Distdiff_Proofs Distdiff_Dist
  Info_Model Info_Spec Info_Class.
From Verif Require Zip_Model Zip_Spec Dir_Spec Dir_Proofs.
From Coq Require Import Permutation.

(** ** Dictionaries of lists *)
Section Dicts.
Context {V : Type}.
Definition lget (d : dict (list V)) (s : str) : list V := match dget d s with Some l => l | None => [] end.
Definition inhabited_lists (d : dict (list V)) : Prop := forall s, dget d s <> Some [].

Lemma dget_dset {W} (d : dict W) k v s : dget (dset d k v) s = if seqb s k then Some v else dget d s.
Proof.
  induction d as [|[k' v'] d IH]; cbn [dset dget]; [reflexivity|]. destruct (seqb_spec k k') as [->|N]; cbn [dget].
  - now destruct (seqb s k').
  - destruct (seqb_spec s k') as [->|N']; [|exact IH]. destruct (seqb_spec k' k) as [->|]; [congruence|reflexivity].
Qed.
Lemma dkeys_dset {W} (d : dict W) k v : NoDup (dkeys d) -> NoDup (dkeys (dset d k v)) /\ forall s, In s (dkeys (dset d k v)) <-> s = k \/ In s (dkeys d).
Proof.
  induction d as [|[k' v'] d IH]; intro N; cbn [dset dkeys map fst] in *.
  - split; [constructor; [intros []|constructor]|]. intro s. cbn [In]. intuition congruence.
  - inversion N as [|? ? N1 N2]; subst. destruct (seqb_spec k k') as [->|Hk]; cbn [map fst].
    + split; [exact N|]. intro s. cbn [In]. intuition congruence.
    + destruct (IH N2) as [I1 I2]. split.
      * constructor; [|exact I1]. intro H. apply I2 in H as [->|H]; [congruence|contradiction].
      * intro s. cbn [In]. rewrite (I2 s). intuition congruence.
Qed.
Lemma dict_append_facts (d : dict (list V)) k x : NoDup (dkeys d) -> inhabited_lists d ->
  NoDup (dkeys (dict_append d k x)) /\ inhabited_lists (dict_append d k x) /\
  forall s, lget (dict_append d k x) s = if seqb s k then lget d s ++ [x] else lget d s.
Proof.
  intros N I. unfold dict_append. split; [now apply dkeys_dset|]. split.
  - intro s. rewrite dget_dset. destruct (seqb s k); [|apply I]. destruct (dget d k) as [l|]; [|discriminate]. intro H. injection H as H. now destruct l.
  - intro s. unfold lget. rewrite dget_dset. destruct (seqb_spec s k) as [->|]; [|reflexivity]. now destruct (dget d k).
Qed.

Definition put (d : dict (list V)) (it : dict V) : dict (list V) := fold_left (fun d kv => dict_append d (fst kv) (snd kv)) it d.
Definition vals (it : dict V) (s : str) : list V := match dget it s with Some v => [v] | None => [] end.
Lemma dget_None {W} (d : dict W) s : ~ In s (dkeys d) -> dget d s = None.
Proof. induction d as [|[k v] d IH]; intro H; [reflexivity|]. cbn [dget dkeys map fst In] in *. destruct (seqb_spec s k); [subst; tauto|]. apply IH. tauto. Qed.
Lemma put_facts it : forall d, NoDup (dkeys it) -> NoDup (dkeys d) -> inhabited_lists d ->
  NoDup (dkeys (put d it)) /\ inhabited_lists (put d it) /\ forall s, lget (put d it) s = lget d s ++ vals it s.
Proof.
  induction it as [|[k v] it IH]; intros d NI N I.
  - split; [exact N|]. split; [exact I|]. intro s. cbn. now rewrite app_nil_r.
  - inversion NI as [|? ? N1 N2]; subst. destruct (dict_append_facts d k v N I) as (A1 & A2 & A3).
    destruct (IH _ N2 A1 A2) as (B1 & B2 & B3). unfold put in *. cbn [fold_left fst snd]. split; [exact B1|]. split; [exact B2|].
    intro s. rewrite B3, A3. unfold vals. cbn [dget]. destruct (seqb_spec s k) as [->|]; [|reflexivity].
    rewrite (dget_None it k N1). now rewrite app_nil_r.
Qed.
Lemma put_all its : forall d, Forall (fun it => NoDup (dkeys it)) its -> NoDup (dkeys d) -> inhabited_lists d ->
  NoDup (dkeys (fold_left put its d)) /\ inhabited_lists (fold_left put its d) /\
  forall s, lget (fold_left put its d) s = lget d s ++ concat (map (fun it => vals it s) its).
Proof.
  induction its as [|it its IH]; intros d F N I; cbn [fold_left map concat].
  - split; [exact N|]. split; [exact I|]. intro s. now rewrite app_nil_r.
  - inversion F as [|? ? F1 F2]; subst. destruct (put_facts it d F1 N I) as (A1 & A2 & A3). destruct (IH _ F2 A1 A2) as (B1 & B2 & B3).
    split; [exact B1|]. split; [exact B2|]. intro s. now rewrite B3, A3, <- app_assoc.
Qed.
Lemma dget_lget d s l : inhabited_lists d -> (dget d s = Some l <-> l = lget d s /\ l <> []).
Proof.
  intro I. unfold lget. pose proof (I s) as Is. destruct (dget d s) as [m|].
  - split; [intros [= <-]; split; [reflexivity|congruence]|]. now intros [-> _].
  - split; [discriminate|]. intros [-> H]. congruence.
Qed.
Lemma put_add_all syms x : forall d : dict (list V), add_all d syms x = put d (map (fun s => (s, x)) syms).
Proof. unfold add_all, put. induction syms as [|s syms IH]; intro d; [reflexivity|]. cbn [fold_left map fst snd]. apply IH. Qed.
End Dicts.

Lemma dget_dfilter {W} f (d : dict W) s : dget (dfilter f d) s = if f s then dget d s else None.
Proof.
  unfold dfilter. induction d as [|[k v] d IH]; cbn [filter dget fst]; [now destruct (f s)|].
  destruct (f k) eqn:E; cbn [dget]; (destruct (seqb_spec s k) as [->|]; [|exact IH]); [now rewrite E|]. rewrite IH. now rewrite E.
Qed.
Lemma NoDup_dfilter {W} f (d : dict W) : NoDup (dkeys d) -> NoDup (dkeys (dfilter f d)).
Proof.
  unfold dfilter, dkeys. induction d as [|[k v] d IH]; intro N; cbn [filter map fst] in *; [constructor|]. inversion N as [|? ? N1 N2]; subst.
  destruct (f k); [|now apply IH]. cbn [map fst]. constructor; [|now apply IH]. intro H. apply N1. apply in_map_iff in H as (x & <- & Hx). apply filter_In in Hx as [Hx _]. now apply in_map.
Qed.
Lemma with_ignored_spec {W} ignored (d : dict W) : NoDup (dkeys d) -> NoDup (dkeys (with_ignored ignored d)) /\
  forall s v, dget (with_ignored ignored d) s = Some v <-> dget d s = Some v /\ ~ ignored_by ignored s.
Proof.
  intro N. unfold with_ignored. destruct ignored as [|p ig].
  - split; [exact N|]. intros s v. split; [|now intros [? _]]. intro H. split; [exact H|]. intros (q & [] & _).
  - split; [now apply NoDup_dfilter|]. intros s v. rewrite dget_dfilter. pose proof (not_ignored_iff (p :: ig) s) as HI. destruct (not_ignored (p :: ig) s).
    + intuition.
    + split; [discriminate|]. intros [_ H]. apply HI in H. discriminate.
Qed.

(** ** Picking *)
Lemma picks_fun {A} (P : A -> Prop) l r : picks P l r -> forall r', picks P l r' -> r' = r.
Proof. induction 1 as [|x l r H1 H2 IH|x l r H1 H2 IH]; intros r' H'; inversion H'; subst; try contradiction; [reflexivity|f_equal; auto|auto]. Qed.
Lemma picks_filter {A} (P : A -> Prop) f l : (forall x, f x = true <-> P x) -> picks P l (filter f l).
Proof. intro H. induction l as [|x l IH]; [constructor|]. cbn [filter]. destruct (f x) eqn:E; constructor; auto; [now apply H|]. intro X. apply H in X. congruence. Qed.
Lemma picks_In {A} (P : A -> Prop) l r : picks P l r -> forall x, In x r <-> In x l /\ P x.
Proof.
  induction 1 as [|y l r H1 H2 IH|y l r H1 H2 IH]; intro x; cbn [In]; [tauto| |]; rewrite IH.
  - split; [intros [<-|?]; tauto|intros [[<-|?] ?]; tauto].
  - split; [tauto|intros [[<-|?] ?]; [contradiction|tauto]].
Qed.
Lemma NoDup_const {W} (ks : list str) (x : W) : NoDup ks -> NoDup (dkeys (map (fun s => (s, x)) ks)).
Proof. intro H. unfold dkeys. rewrite map_map. cbn [fst]. now rewrite map_id. Qed.
Lemma vals_const {W} (ks : list str) (x : W) s : vals (map (fun s => (s, x)) ks) s = if smem s ks then [x] else [].
Proof. unfold vals. induction ks as [|k ks IH]; [reflexivity|]. cbn [map dget smem existsb]. unfold smem in IH. destruct (seqb s k); [reflexivity|exact IH]. Qed.

Section Info.
Variable fmt : pyval -> str.
Variable repr : pyval -> str.
Variable text : bytes -> res str.
Variable order : list str -> list str.
Hypothesis order_perm : forall l, Permutation (order l) l.

(** What one class contributes *)
Definition contributes (c : jclassfile) (x : list str * list str * list str) : Prop :=
  let '(r, v, p) := x in NoDup r /\ NoDup v /\ (forall s, In s r <-> found_symbol c s /\ ~ provided c true s) /\
  (forall s, In s v <-> provided c false s) /\ forall s, In s p <-> provided c true s.
Lemma not_ignored_nil s : ~ ignored_by [] s.
Proof. intros (p & [] & _). Qed.
Lemma class_api_ok c r : api_wf c -> class_shows c r -> exists x, class_api fmt repr order r = Ok x /\ contributes c x.
Proof.
  intros W HC. unfold class_api. destruct (class_requires_found fmt repr order order_perm c r [] W HC) as (a & -> & Na & Ha).
  destruct (class_provides fmt order order_perm c r [] false W HC) as (b & -> & Nb & Hb). destruct (class_provides fmt order order_perm c r [] true W HC) as (d & -> & Nd & Hd).
  cbn [rbind]. eexists. split; [reflexivity|]. unfold contributes. pose proof not_ignored_nil. split; [exact Na|]. split; [exact Nb|].
  split; [|split]; intro s; rewrite ?Ha, ?Hb, ?Hd; intuition.
Qed.

(** The dictionaries of a sequence of classes *)
Definition items {W} (mk : str -> W) (cs : jclasses) (sel : list str * list str * list str -> list str) (xs : list (list str * list str * list str)) : list (dict W) :=
  map (fun ex => map (fun s => (s, mk (fst (fst ex)))) (sel (snd ex))) (combine cs xs).
Lemma items_spec {W} (mk : str -> W) cs sel xs (Q : jclassfile -> str -> Prop) s :
  Forall2 (fun ec x => contributes (snd ec) x) cs xs -> (forall c x, contributes c x -> forall s, In s (sel x) <-> Q c s) ->
  exists r, picks (fun ec : str * jclassfile => Q (snd ec) s) cs r /\ concat (map (fun it => vals it s) (items mk cs sel xs)) = map (fun ec => mk (fst ec)) r.
Proof.
  intros HF HQ. unfold items. induction HF as [|[e c] x cs xs H1 H2 IH]; [exists []; split; [constructor|reflexivity]|].
  destruct IH as (r & A & B). cbn [combine map concat fst snd] in *. rewrite vals_const, B. destruct (smem s (sel x)) eqn:E.
  - exists ((e, c) :: r). split; [|reflexivity]. constructor; [|exact A]. apply (HQ c x H1). now apply smem_In.
  - exists r. split; [|reflexivity]. constructor; [|exact A]. cbn [snd]. intro X. apply (HQ c x H1) in X. apply smem_In in X. congruence.
Qed.
Lemma items_NoDup {W} (mk : str -> W) cs sel xs : Forall2 (fun ec x => contributes (snd ec) x) cs xs -> (forall c x, contributes c x -> NoDup (sel x)) ->
  Forall (fun it => NoDup (dkeys it)) (items mk cs sel xs).
Proof. intros HF HQ. unfold items. induction HF as [|[e c] x cs xs H1 H2 IH]; [constructor|]. cbn [combine map]. constructor; [|exact IH]. apply NoDup_const. exact (HQ _ _ H1). Qed.

Definition rsel (x : list str * list str * list str) := fst (fst x).
Definition vsel (x : list str * list str * list str) := snd (fst x).
Definition psel (x : list str * list str * list str) := snd x.
Lemma rsel_ok c x : contributes c x -> NoDup (rsel x) /\ forall s, In s (rsel x) <-> found_symbol c s /\ ~ provided c true s.
Proof. destruct x as [[r v] p]. unfold contributes. tauto. Qed.
Lemma vsel_ok c x : contributes c x -> NoDup (vsel x) /\ forall s, In s (vsel x) <-> provided c false s.
Proof. destruct x as [[r v] p]. unfold contributes. tauto. Qed.
Lemma psel_ok c x : contributes c x -> forall s, In s (psel x) <-> provided c true s.
Proof. destruct x as [[r v] p]. unfold contributes. tauto. Qed.
Lemma privs_spec cs xs s : Forall2 (fun ec : str * jclassfile => contributes (snd ec)) cs xs ->
  (In s (concat (map psel xs)) <-> exists e c, In (e, c) cs /\ provided c true s).
Proof.
  induction 1 as [|[e c] x cs xs H1 H2 IH]; cbn [map concat].
  - split; [intros []|intros (? & ? & [] & _)].
  - rewrite in_app_iff, IH, (psel_ok _ _ H1). cbn [snd In]. split.
    + intros [H|(e' & c' & H3 & H4)]; eauto 6.
    + intros (e' & c' & [[= <- <-]|H3] & H4); [now left|]. right. eauto.
Qed.

(** ** Jars *)
Lemma jar_classinfo_ok a e c : Zip_Model.a_kind a = Zip_Model.Zip -> Zip_Model.a_open a = true -> Zip_Spec.content a e (enc_class c) -> jclassfile_ok c = true ->
  exists r, jar_classinfo text a e = Ok r /\ class_shows c r.
Proof.
  intros K O HC HO. unfold jar_classinfo. rewrite (read_content text a e _ K O HC). cbn [rbind]. destruct (unpack_class_roundtrip c [] HO) as (r & _ & E & _ & _ & HS). rewrite app_nil_r in E. eauto.
Qed.
Lemma jar_loop_ok a cs : forall st, (forall e c, In (e, c) cs -> exists r, jar_classinfo text a e = Ok r /\ class_shows c r /\ api_wf c) ->
  exists xs, Forall2 (fun ec : str * jclassfile => contributes (snd ec)) cs xs /\
    jar_loop fmt repr text order a (map fst cs) st =
    Ok (fold_left put (items (fun e => e) cs rsel xs) (fst (fst st)), fold_left put (items (fun e => e) cs vsel xs) (snd (fst st)), snd st ++ concat (map psel xs)).
Proof.
  induction cs as [|[e c] cs IH]; intros [[rq pv] pr] H.
  - exists []. split; [constructor|]. cbn. now rewrite app_nil_r.
  - destruct (H e c (or_introl eq_refl)) as (r & E1 & E2 & E3). destruct (class_api_ok c r E3 E2) as (x & E4 & E5). destruct x as [[a1 a2] a3] eqn:Ex.
    destruct (IH (add_all rq a1 e, add_all pv a2 e, pr ++ a3)) as (xs & HX & EX); [intros; apply H; now right|].
    exists (x :: xs). subst x. split; [now constructor|]. cbn [map fst jar_loop]. rewrite E1. cbn [rbind]. rewrite E4. cbn [rbind]. rewrite EX.
    cbn [fst snd items combine map fold_left concat rsel vsel psel]. rewrite !put_add_all, <- app_assoc. reflexivity.
Qed.
Lemma class_entry_iff n : is_classfile n = true <-> class_entry n.
Proof. exact (is_classfile_iff n). Qed.

(** As [jar_requires_spec], with the symbols that are found *)
Definition jar_found_spec (cs : jclasses) (s : str) (by_ : list str) : Prop :=
  (exists r, picks (fun ec => found_symbol (snd ec) s /\ ~ provided (snd ec) true s) cs r /\ r <> [] /\ by_ = map fst r) /\
  (forall e c, In (e, c) cs -> ~ provided c true s).
Lemma picks_ext {A} (P Q : A -> Prop) l r : (forall x, In x l -> P x <-> Q x) -> picks P l r -> picks Q l r.
Proof.
  intros HX H. induction H as [|x l r H1 H2 IH|x l r H1 H2 IH]; constructor; try (apply IH; intros; apply HX; now right); [|intro X; apply H1]; apply (HX x (or_introl eq_refl)); assumption.
Qed.
Lemma found_required {deep} c s : flat_arrays deep c -> (found_symbol c s /\ ~ provided c true s <-> required deep c s).
Proof. intro F. unfold required. split; intros [A B]; (split; [|exact B]); [now apply found_mentioned|apply (@mentioned_found deep); assumption]. Qed.
Lemma jar_found_iff {deep} cs s by_ : (forall e c, In (e, c) cs -> flat_arrays deep c) -> (jar_found_spec cs s by_ <-> jar_requires_spec deep cs s by_).
Proof.
  intro F. unfold jar_found_spec, jar_requires_spec. split; intros ((r & A & B) & C); (split; [|exact C]); exists r; (split; [|exact B]); refine (picks_ext _ _ _ _ _ A); intros [e c] Hin; cbn [snd]; pose proof (@found_required deep c s (F e c Hin)); tauto.
Qed.

Lemma no_lists {W} : inhabited_lists (V := W) [].
Proof. intros s H. discriminate. Qed.
Lemma collected {W} (mk : str -> W) cs sel xs (Q : jclassfile -> str -> Prop) d :
  d = fold_left put (items mk cs sel xs) [] -> Forall2 (fun ec x => contributes (snd ec) x) cs xs ->
  (forall c x, contributes c x -> NoDup (sel x) /\ forall s, In s (sel x) <-> Q c s) ->
  NoDup (dkeys d) /\ (forall s l, dget d s = Some l <-> exists r, picks (fun ec => Q (snd ec) s) cs r /\ r <> [] /\ l = map (fun ec => mk (fst ec)) r) /\
  forall s, exists r, picks (fun ec => Q (snd ec) s) cs r.
Proof.
  intros -> HF HQ. destruct (put_all (items mk cs sel xs) []) as (A & B & C); [apply items_NoDup with (2 := fun c x H => proj1 (HQ c x H)); exact HF|constructor|apply no_lists|].
  split; [exact A|]. split; [|intro s; destruct (items_spec mk cs sel xs Q s HF (fun c x H => proj2 (HQ c x H))) as (r & P1 & _); eauto].
  intros s l. rewrite (dget_lget _ _ _ B), C. cbn [lget dget app]. destruct (items_spec mk cs sel xs Q s HF (fun c x H => proj2 (HQ c x H))) as (r & P1 & ->). split.
  - intros [-> H]. exists r. split; [exact P1|]. split; [|reflexivity]. intros ->. now apply H.
  - intros (r' & P2 & Hr & ->). rewrite (picks_fun _ _ _ P1 _ P2) in *. split; [reflexivity|]. intro X. apply map_eq_nil in X. contradiction.
Qed.

(** The results for a jar *)
Definition jar_answers (cs : jclasses) (x : dict (list str) * dict (list str)) : Prop :=
  NoDup (dkeys (fst x)) /\ NoDup (dkeys (snd x)) /\
  (forall s by_, dget (fst x) s = Some by_ <-> jar_found_spec cs s by_) /\
  (forall s by_, dget (snd x) s = Some by_ <-> jar_provides_spec cs s by_) /\
  forall s, exists r, picks (fun ec => provided (snd ec) false s) cs r.
Lemma jar_api_ok a cs : jar_holds a cs -> exists rq pv, jar_api fmt repr text order (Ok a) = Ok (rq, pv) /\ jar_answers cs (rq, pv).
Proof.
  intros [K O HN HD]. unfold jar_api. cbn [rbind]. unfold jar_classes, Zip_Model.namelist. rewrite K. cbn [rbind].
  replace (filter is_classfile (map Zip_Model.e_name (Zip_Model.a_entries a))) with (map fst cs) by exact (picks_fun _ _ _ (picks_filter _ _ _ class_entry_iff) _ HN).
  destruct (jar_loop_ok a cs ([], [], [])) as (xs & HF & E).
  { intros e c Hin. destruct (HD e c Hin) as (H1 & H2 & H3). destruct (jar_classinfo_ok a e c K O H1 H2) as (r & A & B). eauto. }
  rewrite E. cbn [rbind fst snd app].
  destruct (collected (fun e => e) cs rsel xs (fun c s => found_symbol c s /\ ~ provided c true s) _ eq_refl HF rsel_ok) as (R1 & R2 & _).
  destruct (collected (fun e => e) cs vsel xs (fun c s => provided c false s) _ eq_refl HF vsel_ok) as (V1 & V2 & V3).
  do 2 eexists. split; [reflexivity|]. split; [now apply NoDup_dfilter|]. split; [exact V1|]. split; [|split; [exact V2|exact V3]]. cbn [fst].
  intros s by_. rewrite dget_dfilter. unfold jar_found_spec. destruct (smem s (concat (map psel xs))) eqn:ES; cbn [negb].
  - apply smem_In, (privs_spec cs xs s HF) in ES as (e & c & H1 & H2). split; [discriminate|]. intros [_ H]. exfalso. exact (H e c H1 H2).
  - rewrite R2. split; [|tauto]. intro H. split; [exact H|]. intros e c Hin X. assert (Y : In s (concat (map psel xs))) by (apply (privs_spec cs xs s HF); eauto). apply smem_In in Y. congruence.
Qed.

Theorem jar_requires_ok {deep} a cs ignored : jar_holds a cs -> (forall e c, In (e, c) cs -> flat_arrays deep c) ->
  exists d, jar_requires fmt repr text order (Ok a) ignored = Ok d /\ NoDup (dkeys d) /\
    forall s by_, dget d s = Some by_ <-> jar_requires_spec deep cs s by_ /\ ~ ignored_by ignored s.
Proof.
  intros H F. destruct (jar_api_ok a cs H) as (rq & pv & E & N1 & N2 & R & P & _). unfold jar_requires. rewrite E. cbn [rbind fst]. destruct (with_ignored_spec ignored rq N1) as [W1 W2].
  eexists. split; [reflexivity|]. split; [exact W1|]. cbn [fst] in R. intros s by_. rewrite W2, R. pose proof (jar_found_iff cs s by_ F). tauto.
Qed.
Theorem jar_provides_ok a cs ignored : jar_holds a cs ->
  exists d, jar_provides fmt repr text order (Ok a) ignored = Ok d /\ NoDup (dkeys d) /\
    forall s by_, dget d s = Some by_ <-> jar_provides_spec cs s by_ /\ ~ ignored_by ignored s.
Proof.
  intros H. destruct (jar_api_ok a cs H) as (rq & pv & E & N1 & N2 & R & P & _). unfold jar_provides. rewrite E. cbn [rbind snd]. destruct (with_ignored_spec ignored pv N2) as [W1 W2].
  eexists. split; [reflexivity|]. split; [exact W1|]. cbn [snd] in P. intros s by_. now rewrite W2, P.
Qed.
(** ** Distributions *)
Variable unzip : bytes -> jar.
Definition shown_origin (o : origin) : source := match o with InJar e by_ => ByJar e by_ | Loose e => ByClass e end.

Definition jar_found_or (jd : jdist) (s : str) (o : list origin) : Prop :=
  all_origins (fun cs by_ => jar_found_spec cs s by_) (fun c => found_symbol c s /\ ~ provided c true s) jd o.

(** The results for a sequence of jars *)
Definition jitems (js : list (str * jclasses)) (sel : dict (list str) * dict (list str) -> dict (list str)) (xs : list (dict (list str) * dict (list str))) : list (dict source) :=
  map (fun ex => map (fun kv => (fst kv, ByJar (fst (fst ex)) (snd kv))) (sel (snd ex))) (combine js xs).
Lemma dkeys_map {A B} (f : A -> B) (d : dict A) : dkeys (map (fun kv => (fst kv, f (snd kv))) d) = dkeys d.
Proof. unfold dkeys. rewrite map_map. reflexivity. Qed.
Lemma dget_map {A B} (f : A -> B) (d : dict A) s : dget (map (fun kv => (fst kv, f (snd kv))) d) s = option_map f (dget d s).
Proof. induction d as [|[k v] d IH]; [reflexivity|]. cbn [map dget fst snd]. destruct (seqb s k); [reflexivity|exact IH]. Qed.
Lemma put_add_items its e : forall d, add_items d its e = put d (map (fun kv => (fst kv, ByJar e (snd kv))) its).
Proof. unfold add_items, put. induction its as [|[k v] its IH]; intro d; [reflexivity|]. cbn [fold_left map fst snd]. apply IH. Qed.

Lemma origins_fun (P : jclasses -> list str -> Prop) l r : (forall cs b b', P cs b -> P cs b' -> b = b') -> origins P l r -> forall r', origins P l r' -> r' = r.
Proof.
  intros HP. induction 1 as [|e cs by_ l r H1 H2 IH|e cs l r H1 H2 IH]; intros r' H'; inversion H' as [|e0 cs0 b0 l0 r0 A1 A2|e0 cs0 l0 r0 A1 A2]; subst.
  - reflexivity.
  - rewrite (HP _ _ _ A1 H1). f_equal. now apply IH.
  - exfalso. exact (A1 _ H1).
  - exfalso. exact (H1 _ A1).
  - now apply IH.
Qed.
Lemma jitems_spec js sel xs (P : jclasses -> str -> list str -> Prop) s : Forall2 (fun ec x => jar_answers (snd ec) x) js xs ->
  (forall cs x, jar_answers cs x -> forall s b, dget (sel x) s = Some b <-> P cs s b) ->
  exists r, origins (fun cs b => P cs s b) js r /\ concat (map (fun it => vals it s) (jitems js sel xs)) = map shown_origin r.
Proof.
  intros HF HQ. unfold jitems. induction HF as [|[e cs] x js xs H1 H2 IH]; [exists []; split; [constructor|reflexivity]|].
  destruct IH as (r & A & B). cbn [combine map concat fst snd] in *. rewrite B. unfold vals. rewrite dget_map. pose proof (HQ cs x H1 s) as HS. destruct (dget (sel x) s) as [b|]; cbn [option_map].
  - exists (InJar e b :: r). split; [|reflexivity]. constructor; [now apply HS|exact A].
  - exists r. split; [|reflexivity]. constructor; [|exact A]. intros b X. apply HS in X. discriminate.
Qed.
Lemma jitems_NoDup js sel xs : Forall2 (fun ec x => jar_answers (snd ec) x) js xs -> (forall cs x, jar_answers cs x -> NoDup (dkeys (sel x))) ->
  Forall (fun it => NoDup (dkeys it)) (jitems js sel xs).
Proof. intros HF HQ. unfold jitems. induction HF as [|[e c] x cs xs H1 H2 IH]; [constructor|]. cbn [combine map]. constructor; [|exact IH]. rewrite dkeys_map. exact (HQ _ _ H1). Qed.

Lemma dist_jar_loop_ok d js : forall st, (forall e cs, In (e, cs) js -> exists x, jar_api fmt repr text order (dist_jarinfo unzip d e) = Ok x /\ jar_answers cs x) ->
  exists xs, Forall2 (fun ec : str * jclasses => jar_answers (snd ec)) js xs /\
    dist_jar_loop fmt repr text order unzip d (map fst js) st =
    Ok (fold_left put (jitems js fst xs) (fst (fst st)), fold_left put (jitems js snd xs) (snd (fst st)), snd st ++ concat (map (fun x => dkeys (snd x)) xs)).
Proof.
  induction js as [|[e cs] js IH]; intros [[rq pv] pr] H.
  - exists []. split; [constructor|]. cbn. now rewrite app_nil_r.
  - destruct (H e cs (or_introl eq_refl)) as (x & E1 & E2).
    destruct (IH (add_items rq (fst x) e, add_items pv (snd x) e, pr ++ dkeys (snd x))) as (xs & HX & EX); [intros; apply H; now right|].
    exists (x :: xs). split; [now constructor|]. cbn [map fst dist_jar_loop]. rewrite E1. cbn [rbind]. rewrite EX.
    cbn [fst snd jitems combine map fold_left concat]. rewrite !put_add_items, <- app_assoc. reflexivity.
Qed.
Lemma dist_class_loop_ok d cs : forall st, (forall e c, In (e, c) cs -> exists r, dist_classinfo d e = Ok r /\ class_shows c r /\ api_wf c) ->
  exists xs, Forall2 (fun ec : str * jclassfile => contributes (snd ec)) cs xs /\
    dist_class_loop fmt repr order d (map fst cs) st =
    Ok (fold_left put (items ByClass cs rsel xs) (fst (fst st)), fold_left put (items ByClass cs vsel xs) (snd (fst st)), snd st ++ concat (map psel xs)).
Proof.
  induction cs as [|[e c] cs IH]; intros [[rq pv] pr] H.
  - exists []. split; [constructor|]. cbn. now rewrite app_nil_r.
  - destruct (H e c (or_introl eq_refl)) as (r & E1 & E2 & E3). destruct (class_api_ok c r E3 E2) as (x & E4 & E5). destruct x as [[a1 a2] a3] eqn:Ex.
    destruct (IH (add_all rq a1 (ByClass e), add_all pv a2 (ByClass e), pr ++ a3)) as (xs & HX & EX); [intros; apply H; now right|].
    exists (x :: xs). subst x. split; [now constructor|]. cbn [map fst dist_class_loop]. rewrite E1. cbn [rbind]. rewrite E4. cbn [rbind]. rewrite EX.
    cbn [fst snd items combine map fold_left concat rsel vsel psel]. rewrite !put_add_all, <- app_assoc. reflexivity.
Qed.

Lemma contents_eq d : dist_contents d = map Zip_Model.slashes (Dir_Proofs.wkeys (Zip_Model.walk [] (d_tree d))).
Proof. unfold dist_contents, Dir_Proofs.wkeys. rewrite concat_map, map_map. f_equal. apply map_ext. intros [[r ds] fs]. now rewrite map_map. Qed.
Lemma data_root l d : Zip_Model.is_dir l = true -> Dir_Spec.data_at l [] d -> False.
Proof. intros D (x & m & H). inversion H; subst. discriminate. Qed.

(** ** A distribution on disk *)
Variable t : Zip_Model.node.
Hypothesis t_dir : Zip_Model.is_dir t = true.
Hypothesis t_plain : Dir_Spec.plain t.
Hypothesis t_names : names_ok t.

Lemma file_names p : Dir_Spec.file_at t p -> p <> [] /\ Forall name_ok p.
Proof. intros (m & H & D). split; [|exact (t_names _ _ H)]. intros ->. inversion H; subst. congruence. Qed.
Lemma contents_In z n : In n (dist_contents (mkdist z t)) <-> exists p, Dir_Spec.file_at t p /\ n = Zip_Model.slashes p.
Proof.
  rewrite contents_eq, in_map_iff. cbn [d_tree]. split.
  - intros (p & <- & H). apply (Dir_Proofs.wkeys_In [] t p t_dir t_plain) in H as (q & -> & H). cbn [app]. eauto.
  - intros (p & H & ->). exists p. split; [reflexivity|]. apply (Dir_Proofs.wkeys_In [] t p t_dir t_plain). exists p. auto.
Qed.
Lemma contents_NoDup z : NoDup (dist_contents (mkdist z t)).
Proof.
  rewrite contents_eq. cbn [d_tree]. pose proof (Dir_Proofs.wkeys_NoDup t t_plain []) as N. pose proof (fun p => proj1 (Dir_Proofs.wkeys_In [] t p t_dir t_plain)) as HI.
  remember (Dir_Proofs.wkeys (Zip_Model.walk [] t)) as w. clear Heqw. induction N as [|p w N1 N2 IH]; cbn [map]; [constructor|]. constructor; [|apply IH; intros q Hq; apply HI; now right].
  intro H. apply in_map_iff in H as (q & E & Hq). apply N1. destruct (HI p (or_introl eq_refl)) as (p' & E1 & F1). destruct (HI q (or_intror Hq)) as (q' & E2 & F2). cbn [app] in E1, E2. subst p' q'.
  destruct (file_names p F1) as [P1 P2]. destruct (file_names q F2) as [Q1 Q2]. apply (f_equal components) in E. rewrite !components_slashes in E by assumption. now subst q.
Qed.
Lemma read_slashes p d : Dir_Spec.data_at t p d -> read_file t (Zip_Model.slashes p) = Ok d.
Proof.
  intros H. assert (p <> []) by (intros ->; exact (data_root t d t_dir H)). destruct H as (l & m & H). unfold read_file. rewrite components_slashes; [|assumption|exact (t_names _ _ H)]. now rewrite (lookup_found _ _ t_plain _ H).
Qed.
Lemma reorder {A} (l : list (str * A)) names : NoDup (map fst l) -> NoDup names -> (forall n, In n names <-> In n (map fst l)) ->
  exists l', Permutation l l' /\ map fst l' = names.
Proof.
  intros N1 N2 H. assert (P : Permutation names (map fst l)) by (apply NoDup_Permutation; assumption). apply Permutation_map_inv in P as (l' & -> & P). exists l'. auto.
Qed.

Lemma dist_api_ok jd : dist_holds unzip t jd -> exists jd' rq pv, Permutation (jd_jars jd) (jd_jars jd') /\ Permutation (jd_loose jd) (jd_loose jd') /\
  dist_api fmt repr text order unzip (mkdist false t) = Ok (rq, pv) /\ NoDup (dkeys rq) /\ NoDup (dkeys pv) /\
  (forall s l, dget rq s = Some l <-> exists o, l = map shown_origin o /\ jar_found_or jd' s o /\
     (forall e cs e' c, In (e, cs) (jd_jars jd') -> In (e', c) cs -> ~ provided c false s) /\ (forall e c, In (e, c) (jd_loose jd') -> ~ provided c true s)) /\
  (forall s l, dget pv s = Some l <-> exists o, l = map shown_origin o /\ dist_provides_spec jd' s o).
Proof.
  intros [NJ NL AJ AL HJ HL].
  destruct (reorder (jd_jars jd) (dist_jars (mkdist false t)) NJ) as (js & PJ & EJ).
  { apply NoDup_filter, contents_NoDup. }
  { intro n. unfold dist_jars. rewrite filter_In, contents_In. split.
    - intros ((p & H1 & ->) & H2). apply AJ; [exact H1|]. now apply is_jar_iff in H2.
    - intro H. apply in_map_iff in H as ([e cs] & <- & H). destruct (HJ e cs H) as (H1 & p & d & a & -> & H2 & _). cbn [fst]. split; [|now apply is_jar_iff].
      exists p. split; [exact (Dir_Proofs.data_file _ _ _ H2)|reflexivity]. }
  destruct (reorder (jd_loose jd) (dist_classes (mkdist false t)) NL) as (ls & PL & EL).
  { apply NoDup_filter, contents_NoDup. }
  { intro n. unfold dist_classes. rewrite filter_In, contents_In. split.
    - intros ((p & H1 & ->) & H2). apply AL; [exact H1|]. now apply class_entry_iff in H2.
    - intro H. apply in_map_iff in H as ([e cs] & <- & H). destruct (HL e cs H) as (H1 & p & -> & H2 & _). cbn [fst]. split; [|now apply class_entry_iff].
      exists p. split; [exact (Dir_Proofs.data_file _ _ _ H2)|reflexivity]. }
  exists (mkjdist js ls). cbn [jd_jars jd_loose].
  destruct (dist_jar_loop_ok (mkdist false t) js ([], [], [])) as (xs & FX & EX).
  { intros e cs H. apply (Permutation_in _ (Permutation_sym PJ)) in H. destruct (HJ e cs H) as (_ & p & d & a & -> & H2 & H3 & H4). destruct (jar_api_ok a cs H4) as (rq & pv & E & R).
    exists (rq, pv). split; [|exact R]. unfold dist_jarinfo, dist_open. cbn [d_zipped d_tree]. rewrite (read_slashes p d H2). cbn [rbind]. now rewrite H3. }
  destruct (dist_class_loop_ok (mkdist false t) ls (fold_left put (jitems js fst xs) [], fold_left put (jitems js snd xs) [], concat (map (fun x => dkeys (snd x)) xs))) as (ys & FY & EY).
  { intros e c H. apply (Permutation_in _ (Permutation_sym PL)) in H. destruct (HL e c H) as (_ & p & -> & H2 & H3 & H4). destruct (unpack_class_roundtrip c [] H3) as (r & _ & E & _ & _ & HS). rewrite app_nil_r in E.
    exists r. unfold dist_classinfo, dist_open. cbn [d_zipped d_tree]. rewrite (read_slashes _ _ H2). cbn [rbind]. auto. }
  cbn [fst snd app] in EX, EY. unfold dist_api. rewrite <- EJ, EX. cbn [rbind]. rewrite <- EL, EY. cbn [rbind].
  set (P := concat (map (fun x => dkeys (snd x)) xs) ++ concat (map psel ys)).
  assert (HP : forall s, In s P <-> (exists e cs e' c, In (e, cs) js /\ In (e', c) cs /\ provided c false s) \/ exists e c, In (e, c) ls /\ provided c true s).
  { intro s. unfold P. rewrite in_app_iff, (privs_spec ls ys s FY). apply or_iff_compat_r. clear -FX. induction FX as [|[e cs] x js xs H1 H2 IH]; cbn [map concat].
    - split; [intros []|intros (? & ? & ? & ? & [] & _)].
    - rewrite in_app_iff, IH. assert (HK : In s (dkeys (snd x)) <-> exists e' c, In (e', c) cs /\ provided c false s).
      { destruct H1 as (_ & _ & _ & H1 & HR). cbn [snd] in H1, HR. split.
        - intro H. destruct (dget (snd x) s) as [b|] eqn:E.
          + apply H1 in E as (r & R1 & R2 & _). destruct r as [|[e1 c1] r]; [congruence|]. destruct (proj1 (picks_In _ _ _ R1 (e1, c1)) (or_introl eq_refl)) as [I1 I2]. exists e1, c1. auto.
          + exfalso. clear -H E. induction (snd x) as [|[k v] d IH]; [exact H|]. cbn [dget dkeys map fst In] in *. destruct (seqb_spec s k) as [->|N]; [discriminate|]. destruct H as [H|H]; [congruence|now apply IH].
        - intros (e1 & c1 & I1 & I2). destruct (dget (snd x) s) as [b|] eqn:E.
          + clear -E. induction (snd x) as [|[k v] d IH]; [discriminate|]. cbn [dget dkeys map fst In] in *. destruct (seqb_spec s k) as [->|N]; [now left|right; now apply IH].
          + exfalso. destruct (HR s) as [r R]. assert (Hin : In (e1, c1) r) by (apply (picks_In _ _ _ R); auto). assert (dget (snd x) s = Some (map fst r)) by (apply H1; exists r; repeat split; [exact R|destruct r; [destruct Hin|discriminate]]). congruence. }
      rewrite HK. cbn [In]. split.
      + intros [(e1 & c1 & I1 & I2)|(e1 & cs1 & e2 & c1 & I1 & I2)]; [exists e, cs, e1, c1; auto|exists e1, cs1, e2, c1; tauto].
      + intros (e1 & cs1 & e2 & c1 & [[= <- <-]|I1] & I2 & I3); [left; eauto|right; eauto 8]. }
  destruct (put_all (jitems js fst xs) []) as (JR1 & JR2 & JR3); [apply jitems_NoDup; [exact FX|intros cs x H; apply H]|constructor|apply no_lists|].
  destruct (put_all (jitems js snd xs) []) as (JP1 & JP2 & JP3); [apply jitems_NoDup; [exact FX|intros cs x H; apply H]|constructor|apply no_lists|].
  destruct (put_all (items ByClass ls rsel ys) _ (items_NoDup ByClass ls rsel ys FY (fun c x H => proj1 (rsel_ok c x H))) JR1 JR2) as (R1 & R2 & R3).
  destruct (put_all (items ByClass ls vsel ys) _ (items_NoDup ByClass ls vsel ys FY (fun c x H => proj1 (vsel_ok c x H))) JP1 JP2) as (V1 & V2 & V3).
  do 2 eexists. split; [exact PJ|]. split; [exact PL|]. split; [reflexivity|]. split; [now apply NoDup_dfilter|]. split; [exact V1|].
  assert (GEN : forall (P1 : jclasses -> str -> list str -> Prop) (Q1 : jclassfile -> str -> Prop) sel1 sel2 d s,
    (forall cs x, jar_answers cs x -> forall s b, dget (sel1 x) s = Some b <-> P1 cs s b) -> (forall cs s b b', P1 cs s b -> P1 cs s b' -> b = b') ->
    (forall c x, contributes c x -> forall s, In s (sel2 x) <-> Q1 c s) -> inhabited_lists d ->
    lget d s = concat (map (fun it => vals it s) (jitems js sel1 xs)) ++ concat (map (fun it => vals it s) (items ByClass ls sel2 ys)) ->
    forall l, dget d s = Some l <-> exists o, l = map shown_origin o /\ all_origins (fun cs b => P1 cs s b) (fun c => Q1 c s) (mkjdist js ls) o).
  { intros P1 Q1 sel1 sel2 d s H1 HF H2 HI HE l. rewrite (dget_lget _ _ _ HI), HE. destruct (jitems_spec js sel1 xs P1 s FX H1) as (r1 & O1 & ->). destruct (items_spec ByClass ls sel2 ys Q1 s FY H2) as (r2 & O2 & ->).
    assert (EM : map shown_origin (r1 ++ map (fun ec : str * jclassfile => Loose (fst ec)) r2) = map shown_origin r1 ++ map (fun ec => ByClass (fst ec)) r2) by (rewrite map_app, map_map; reflexivity).
    split.
    - intros [-> Hl]. eexists. split; [symmetry; exact EM|]. exists r1, r2. split; [exact O1|]. split; [exact O2|]. split; [reflexivity|]. intro X. rewrite <- EM, X in Hl. now apply Hl.
    - intros (o & -> & r1' & r2' & A1 & A2 & -> & A3). cbn [jd_jars jd_loose] in A1, A2. rewrite (origins_fun _ _ _ (fun cs b b' => HF cs s b b') O1 _ A1), (picks_fun _ _ _ O2 _ A2) in *. split; [exact EM|]. intro X. apply map_eq_nil in X. contradiction. }
  assert (PF : forall (Q1 : str * jclassfile -> Prop) cs (b b' : list str), (exists r, picks Q1 cs r /\ r <> [] /\ b = map fst r) -> (exists r, picks Q1 cs r /\ r <> [] /\ b' = map fst r) -> b = b').
  { intros Q1 cs b b' (r & A & _ & ->) (r' & A' & _ & ->). now rewrite (picks_fun _ _ _ A _ A'). }
  split.
  - intros s l. rewrite dget_dfilter.
    pose proof (GEN jar_found_spec (fun c s => found_symbol c s /\ ~ provided c true s) fst rsel _ s (fun cs x H => proj1 (proj2 (proj2 H)))
      (fun cs s b b' H H' => PF _ cs b b' (proj1 H) (proj1 H')) (fun c x H => proj2 (rsel_ok c x H)) R2 ltac:(rewrite R3, JR3; reflexivity) l) as HG.
    destruct (smem s P) eqn:ES; cbn [negb].
    + split; [discriminate|]. intros (o & _ & _ & N1 & N2). apply smem_In, HP in ES as [(e & cs & e' & c & I1 & I2 & I3)|(e & c & I1 & I2)]; exfalso; [exact (N1 e cs e' c I1 I2 I3)|exact (N2 e c I1 I2)].
    + assert (NP : ~ In s P) by (intro X; apply smem_In in X; congruence). rewrite HP in NP. rewrite HG. split; intros (o & -> & H).
      * exists o. split; [reflexivity|]. split; [exact H|]. split; [intros e cs e' c I1 I2 I3; apply NP; left; eauto 8|intros e c I1 I2; apply NP; right; eauto].
      * exists o. split; [reflexivity|]. apply H.
  - intros s l. exact (GEN jar_provides_spec (fun c s => provided c false s) snd vsel _ s (fun cs x H => proj1 (proj2 (proj2 (proj2 H))))
      (fun cs s b b' H H' => PF _ cs b b' H H') (fun c x H => proj2 (vsel_ok c x H)) V2 ltac:(rewrite V3, JP3; reflexivity) l).
Qed.

Lemma origins_ext (P Q : jclasses -> list str -> Prop) l r : (forall e cs b, In (e, cs) l -> P cs b <-> Q cs b) -> origins P l r -> origins Q l r.
Proof.
  intros HX H. induction H as [|e cs b l r H1 H2 IH|e cs l r H1 H2 IH]; [constructor| |].
  - apply or_yes; [apply (HX e cs b (or_introl eq_refl)), H1|apply IH; intros; eapply HX; right; eassumption].
  - apply or_no; [intros b X; apply (H1 b), (HX e cs b (or_introl eq_refl)), X|apply IH; intros; eapply HX; right; eassumption].
Qed.

Theorem dist_requires_ok {deep} jd ignored : dist_holds unzip t jd -> (forall c, dist_class jd c -> flat_arrays deep c) ->
  exists jd' d, Permutation (jd_jars jd) (jd_jars jd') /\ Permutation (jd_loose jd) (jd_loose jd') /\
    dist_requires fmt repr text order unzip (mkdist false t) ignored = Ok d /\ NoDup (dkeys d) /\
    forall s l, dget d s = Some l <-> exists o, l = map shown_origin o /\ dist_requires_spec deep jd' s o /\ ~ ignored_by ignored s.
Proof.
  intros H F. destruct (dist_api_ok jd H) as (jd' & rq & pv & PJ & PL & E & N1 & N2 & R & _). destruct (with_ignored_spec ignored rq N1) as [W1 W2].
  assert (FJ : forall e cs, In (e, cs) (jd_jars jd') -> forall e' c, In (e', c) cs -> flat_arrays deep c).
  { intros e cs I1 e' c I2. apply F. left. exists e, cs, e'. split; [exact (Permutation_in _ (Permutation_sym PJ) I1)|exact I2]. }
  assert (FL : forall e c, In (e, c) (jd_loose jd') -> flat_arrays deep c).
  { intros e c I1. apply F. right. exists e. exact (Permutation_in _ (Permutation_sym PL) I1). }
  assert (HX : forall s o, jar_found_or jd' s o <-> all_origins (fun cs b => jar_requires_spec deep cs s b) (fun c => required deep c s) jd' o).
  { intros s o. unfold jar_found_or, all_origins. split; intros (r1 & r2 & A & B & C); exists r1, r2; (split; [|split; [|exact C]]).
    - refine (origins_ext _ _ _ _ _ A). intros e cs b I. apply jar_found_iff. eauto.
    - refine (picks_ext _ _ _ _ _ B). intros [e c] I. cbn [snd]. apply found_required. eauto.
    - refine (origins_ext _ _ _ _ _ A). intros e cs b I. symmetry. apply jar_found_iff. eauto.
    - refine (picks_ext _ _ _ _ _ B). intros [e c] I. cbn [snd]. symmetry. apply found_required. eauto. }
  exists jd'. unfold dist_requires. rewrite E. cbn [rbind fst]. eexists. split; [exact PJ|]. split; [exact PL|]. split; [reflexivity|]. split; [exact W1|].
  intros s l. rewrite W2, R. unfold dist_requires_spec. split.
  - intros ((o & -> & A & B) & C). exists o. split; [reflexivity|]. rewrite <- HX. auto.
  - intros (o & -> & (A & B) & C). rewrite <- HX in A. split; [|exact C]. exists o. auto.
Qed.
Theorem dist_provides_ok jd ignored : dist_holds unzip t jd ->
  exists jd' d, Permutation (jd_jars jd) (jd_jars jd') /\ Permutation (jd_loose jd) (jd_loose jd') /\
    dist_provides fmt repr text order unzip (mkdist false t) ignored = Ok d /\ NoDup (dkeys d) /\
    forall s l, dget d s = Some l <-> exists o, l = map shown_origin o /\ dist_provides_spec jd' s o /\ ~ ignored_by ignored s.
Proof.
  intros H. destruct (dist_api_ok jd H) as (jd' & rq & pv & PJ & PL & E & N1 & N2 & _ & R). destruct (with_ignored_spec ignored pv N2) as [W1 W2].
  exists jd'. unfold dist_provides. rewrite E. cbn [rbind snd]. eexists. split; [exact PJ|]. split; [exact PL|]. split; [reflexivity|]. split; [exact W1|].
  intros s l. rewrite W2, R. split; [intros ((o & -> & A) & B)|intros (o & -> & A & B)]; eauto.
Qed.
End Info.

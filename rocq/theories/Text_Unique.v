(** The report of two classes is determined by them. *)
From Verif Require Import Base Pack_Model ConstPool_Model ClassFile_Model Descr_Model Descr_Spec Opcodes_Model Opcodes_Spec Anno_Model
  Change_Model Classdiff_Model Classdiff_Spec Classdiff_Members Classdiff_Class Classdiff_Merge Info_Model Info_Spec Print_Spec Html_Spec Html_Page Html_Members Html_Values Html_Class
  Text_Spec Text_Proofs Text_Class.

Lemma Forall2_fun {A B} (P : A -> B -> Prop) l : (forall a b b', In a l -> P a b -> P a b' -> b = b') -> forall k k', Forall2 P l k -> Forall2 P l k' -> k = k'.
Proof.
  induction l as [|a l IH]; intros F k k' H H'; inversion H; inversion H'; subst; [reflexivity|]. f_equal; [eapply F; [now left|eassumption|eassumption]|].
  apply IH; [|assumption|assumption]. intros x b b' Hx. apply F. now right.
Qed.
Lemma entry_fun o n e t t' : entry o n e t -> entry o n e t' -> t = t'.
Proof. intros [A1 A2|A1 A2|A] [B1 B2|B1 B2|B]; try reflexivity; tauto. Qed.
Lemma entries_fun o n es ts ts' : Forall2 (entry o n) es ts -> Forall2 (entry o n) es ts' -> ts = ts'.
Proof. apply Forall2_fun. intros a b b' _. apply entry_fun. Qed.
Lemma picks_fun {A} (P : A -> Prop) l k k' : picks P l k -> picks P l k' -> k = k'.
Proof. intro H. revert k'. induction H as [|x l k Hx H IH|x l k Hx H IH]; intros k' H'; inversion H'; subst; try contradiction; [reflexivity|f_equal; now apply IH|now apply IH]. Qed.
Lemma pairing_fun {A} (same : A -> A -> Prop) ls rs : (forall l l' r, In l ls -> In l' ls -> In r rs -> same l r -> same l' r -> l = l') ->
  forall ps ps', pairing same ls rs ps -> pairing same ls rs ps' -> ps = ps'.
Proof.
  induction rs as [|r rs IH]; intros F ps ps' H H'; inversion H as [|? ? ? ? H1 H2 H3|? ? ? H1 H2]; inversion H' as [|? ? ? ? X1 X2 X3|? ? ? X1 X2]; subst.
  - reflexivity.
  - f_equal; [f_equal; eapply F; [exact H1|exact X1|now left|exact H2|exact X2]|apply IH; [|assumption|assumption]]. intros a b c Ha Hb Hc. apply F; try assumption. now right.
  - exfalso. exact (X1 _ H1 H2).
  - exfalso. exact (H1 _ X1 X2).
  - apply IH; [|assumption|assumption]. intros a b c Ha Hb Hc. apply F; try assumption. now right.
Qed.
Lemma strs_inj l : forall l', map PStr l = map PStr l' -> l = l'.
Proof. induction l as [|x l IH]; intros [|y l'] E; try discriminate E; [reflexivity|]. cbn [map] in E. injection E as -> E. f_equal. now apply IH. Qed.
Lemma opt_str_inj s s' : option_map PStr s = option_map PStr s' -> s = s'.
Proof. destruct s, s'; intro E; try discriminate E; [now injection E as ->|reflexivity]. Qed.
Lemma descs_map_inj l l' : map desc l = map desc l' -> l = l'.
Proof. intro E. apply descs_inj. now rewrite E, Forall2_eq. Qed.
Lemma body_fun o n l r t t' : body_entry o n l r t -> body_entry o n l r t' -> t = t'.
Proof. intros [A|? ? A D1 D2 A2|? ? A D1 D2 A2] [B|? ? B E1 E2 B2|? ? B E1 E2 B2]; try reflexivity; try contradiction; rewrite D1 in E1; rewrite D2 in E2; injection E1 as <-; injection E2 as <-; contradiction. Qed.

Section Unique.
Variable fmt : pyval -> str.
Variable reprs : str -> str.
Variable o : options.
Variable d : nat.

Lemma annos_fun p at_ a ts ts' : annos_shown fmt p at_ a ts -> annos_shown fmt p at_ a ts' -> ts = ts'.
Proof. intros (l & H1 & H2) (l' & H1' & H2'). rewrite H1 in H1'. apply ok_inj in H1'. subst l'. rewrite H2 in H2'. now apply ok_inj in H2'. Qed.
Lemma field_fun p m F G : field_is fmt p m F -> field_is fmt p m G -> F = G.
Proof.
  intros [K _ _ _ V I] [H _ _ _ V' I']. destruct F as [n t s c vs is], G as [n' t' s' c' vs' is']. cbn [fd_name fd_type fd_sig fd_const fd_vis fd_invis] in *.
  pose proof (annos_fun _ _ _ _ _ V V') as ->. pose proof (annos_fun _ _ _ _ _ I I') as ->.
  pose proof (kf_name _ _ _ _ _ _ K) as E. rewrite (kf_name _ _ _ _ _ _ H) in E. apply ok_inj in E. injection E as ->.
  pose proof (kf_desc _ _ _ _ _ _ K) as E. rewrite (kf_desc _ _ _ _ _ _ H) in E. apply ok_inj in E. injection E as E. apply desc_inj in E as ->.
  pose proof (kf_sig _ _ _ _ _ _ K) as E. rewrite (kf_sig _ _ _ _ _ _ H) in E. apply ok_inj, opt_str_inj in E as ->.
  pose proof (kf_const _ _ _ _ _ _ K) as E. rewrite (kf_const _ _ _ _ _ _ H) in E. apply ok_inj in E as ->. reflexivity.
Qed.
Lemma catch_fun p e t t' : catch_shown p e t -> catch_shown p e t' -> t = t'.
Proof. intros [E|x n E D] [E'|x' n' E' D']; try contradiction; [reflexivity|]. rewrite D in D'. apply ok_inj in D'. injection D' as -> ->. reflexivity. Qed.
Lemma code_fun p K H : code_is p K -> code_is p H -> cd_code K = cd_code H -> K = H.
Proof.
  intros [L C] [L' C'] E. destruct K as [k ls cs], H as [h ls' cs']. cbn [cd_code cd_lines cd_catch] in *. subst h. rewrite L in L'. apply ok_inj in L'. subst ls'. f_equal.
  eapply Forall2_fun; [|exact C|exact C']. intros a b b' _. apply catch_fun.
Qed.
Lemma method_fun p m M N : method_is fmt p m M -> method_is fmt p m N -> M = N.
Proof.
  intros [K _ V I C D] [H _ V' I' C' D']. destruct M as [n a r s x vs is c], N as [n' a' r' s' x' vs' is' c']. cbn [md_name md_args md_ret md_sig md_ex md_vis md_invis md_code] in *.
  pose proof (annos_fun _ _ _ _ _ V V') as ->. pose proof (annos_fun _ _ _ _ _ I I') as ->.
  destruct (known_texts fmt _ _ _ _ _ _ _ K) as (K1 & K2 & _). destruct (known_texts fmt _ _ _ _ _ _ _ H) as (H1 & H2 & _).
  rewrite K1 in H1. apply ok_inj, ret_desc_inj in H1. rewrite K2 in H2. apply ok_inj, descs_map_inj in H2. subst r' a'.
  pose proof (im_name _ _ _ _ _ (km_method _ _ _ _ _ _ _ K)) as E. rewrite (im_name _ _ _ _ _ (km_method _ _ _ _ _ _ _ H)) in E. apply ok_inj in E. injection E as ->.
  pose proof (km_sig _ _ _ _ _ _ _ K) as E. rewrite (km_sig _ _ _ _ _ _ _ H) in E. apply ok_inj, opt_str_inj in E as ->.
  pose proof (km_ex _ _ _ _ _ _ _ K) as E. rewrite (km_ex _ _ _ _ _ _ _ H) in E. apply ok_inj, strs_inj in E as ->.
  rewrite C in C'. apply ok_inj in C'. f_equal. destruct c as [k|], c' as [k'|]; try discriminate C'; [|reflexivity]. injection C' as C'. f_equal. exact (code_fun _ _ _ D D' C').
Qed.
Lemma class_fun c L L' : class_is fmt c L -> class_is fmt c L' -> L = L'.
Proof.
  intros [K V I _ _ _ _] [H V' I' _ _ _ _]. destruct L as [t u is s vs ins], L' as [t' u' is' s' vs' ins']. cbn [cl_this cl_super cl_ifs cl_sig cl_vis cl_invis] in *.
  pose proof (annos_fun _ _ _ _ _ V V') as ->. pose proof (annos_fun _ _ _ _ _ I I') as ->.
  pose proof (kc_this _ _ _ _ _ K) as E. rewrite (kc_this _ _ _ _ _ H) in E. apply ok_inj in E. injection E as ->.
  pose proof (kc_super _ _ _ _ _ K) as E. rewrite (kc_super _ _ _ _ _ H) in E. apply ok_inj in E. injection E as ->.
  pose proof (kc_ifs _ _ _ _ _ K) as E. rewrite (kc_ifs _ _ _ _ _ H) in E. apply ok_inj, strs_inj in E as ->.
  pose proof (kc_sig _ _ _ _ _ K) as E. rewrite (kc_sig _ _ _ _ _ H) in E. apply ok_inj, opt_str_inj in E as ->. reflexivity.
Qed.
Lemma code_block_fun lp rp K H t t' : code_block reprs o d lp rp K H t -> code_block reprs o d lp rp K H t' -> t = t'.
Proof.
  intros A B. destruct A as [K H ts t A1 A2|K|H|]; inversion B as [K' H' ts' x B1 B2| | |]; subst; try reflexivity. now rewrite (entries_fun _ _ _ _ _ A1 B1), (body_fun _ _ _ _ _ _ A2 B2).
Qed.
Lemma field_block_fun lp rp a b t t' : field_block fmt reprs o d lp rp a b t -> field_block fmt reprs o d lp rp a b t' -> t = t'.
Proof.
  intros (F & G & ts & H1 & H2 & H3 & ->) (F' & G' & ts' & H1' & H2' & H3' & ->). pose proof (field_fun _ _ _ _ H1 H1') as ->. pose proof (field_fun _ _ _ _ H2 H2') as ->. now rewrite (entries_fun _ _ _ _ _ H3 H3').
Qed.
Lemma method_block_fun lp rp a b t t' : method_block fmt reprs o d lp rp a b t -> method_block fmt reprs o d lp rp a b t' -> t = t'.
Proof.
  intros (F & G & ts & tc & H1 & H2 & H3 & H4 & ->) (F' & G' & ts' & tc' & H1' & H2' & H3' & H4' & ->). pose proof (method_fun _ _ _ _ H1 H1') as ->. pose proof (method_fun _ _ _ _ H2 H2') as ->.
  now rewrite (entries_fun _ _ _ _ _ H3 H3'), (code_block_fun _ _ _ _ _ _ H4 H4').
Qed.
Lemma field_line_fun p w m t t' : field_line fmt o d p w m t -> field_line fmt o d p w m t' -> t = t'.
Proof. intros (F & H & ->) (F' & H' & ->). now rewrite (field_fun _ _ _ _ H H'). Qed.
Lemma method_line_fun p w m t t' : method_line fmt o d p w m t -> method_line fmt o d p w m t' -> t = t'.
Proof. intros (F & H & ->) (F' & H' & ->). now rewrite (method_fun _ _ _ _ H H'). Qed.

Lemma one_left lp rp ls a a' b : distinct_ids fmt lp ls -> In a ls -> In a' ls -> same_identity fmt lp rp a b -> same_identity fmt lp rp a' b -> a = a'.
Proof.
  intros D Ha Ha' (x & y & X & Y & XY) (x' & y' & X' & Y' & XY'). apply (distinct_same fmt lp ls a a' D); [exact Ha|exact Ha'|]. exists x, x'. repeat split; try assumption.
  assert (y = y') by congruence. subst y'. apply (pyeq_trans _ y); [exact XY|now apply pyeq_sym].
Qed.
Lemma members_fun what (same : member -> member -> Prop) (added removed : member -> standing * str -> Prop) (changed : member -> member -> standing * str -> Prop) ls rs t t' :
  (forall l l' r, In l ls -> In l' ls -> In r rs -> same l r -> same l' r -> l = l') ->
  (forall m a b, added m a -> added m b -> a = b) -> (forall m a b, removed m a -> removed m b -> a = b) -> (forall l r a b, changed l r a -> changed l r b -> a = b) ->
  members_block o d what same added removed changed ls rs t -> members_block o d what same added removed changed ls rs t' -> t = t'.
Proof.
  intros FS FA FR FC (x & y & p & ta & tr & tc & P1 & P2 & P3 & A & R & C & ->) (x' & y' & p' & ta' & tr' & tc' & P1' & P2' & P3' & A' & R' & C' & ->).
  pose proof (picks_fun _ _ _ _ P1 P1') as <-. pose proof (picks_fun _ _ _ _ P2 P2') as <-. pose proof (pairing_fun _ _ _ FS _ _ P3 P3') as <-.
  rewrite (Forall2_fun _ _ (fun m a b _ => FA m a b) _ _ A A'), (Forall2_fun _ _ (fun m a b _ => FR m a b) _ _ R R'), (Forall2_fun _ _ (fun m a b _ => FC (fst m) (snd m) a b) _ _ C C'). reflexivity.
Qed.
Theorem class_unique l r t t' : class_block fmt reprs o d l r t -> class_block fmt reprs o d l r t' -> t = t'.
Proof.
  intros (L & R & th & ta & ti & tp & tf & tm & KL & KR & H1 & H2 & H3 & H4 & H5 & H6 & ->) (L' & R' & th' & ta' & ti' & tp' & tf' & tm' & KL' & KR' & H1' & H2' & H3' & H4' & H5' & H6' & ->).
  pose proof (class_fun _ _ _ KL KL') as <-. pose proof (class_fun _ _ _ KR KR') as <-.
  rewrite (entries_fun _ _ _ _ _ H1 H1'), (entry_fun _ _ _ _ _ H2 H2'), (entry_fun _ _ _ _ _ H3 H3'), (entry_fun _ _ _ _ _ H4 H4').
  assert (E5 : tf = tf').
  { refine (members_fun _ _ _ _ _ _ _ _ _ _ (field_line_fun _ _) (field_line_fun _ _) (field_block_fun _ _) H5 H5'). intros a a' b Ha Ha' Hb S S'.
    destruct (in_known _ _ _ (cs_fields _ _ _ KL) Ha) as (F & HF), (in_known _ _ _ (cs_fields _ _ _ KL) Ha') as (F' & HF'), (in_known _ _ _ (cs_fields _ _ _ KR) Hb) as (G & HG).
    apply (one_left (c_pool l) (c_pool r) (c_fields l) a a' b (cs_field_ids _ _ _ KL) Ha Ha'); eapply field_same_iff; eassumption. }
  assert (E6 : tm = tm').
  { refine (members_fun _ _ _ _ _ _ _ _ _ _ (method_line_fun _ _) (method_line_fun _ _) (method_block_fun _ _) H6 H6'). intros a a' b Ha Ha' Hb S S'.
    destruct (in_known _ _ _ (cs_methods _ _ _ KL) Ha) as (F & HF), (in_known _ _ _ (cs_methods _ _ _ KL) Ha') as (F' & HF'), (in_known _ _ _ (cs_methods _ _ _ KR) Hb) as (G & HG).
    apply (one_left (c_pool l) (c_pool r) (c_methods l) a a' b (cs_method_ids _ _ _ KL) Ha Ha'); eapply method_same_iff; eassumption. }
  rewrite E5, E6. reflexivity.
Qed.
End Unique.
Theorem report_unique fmt reprs o l r t t' : report_of fmt reprs o l r t -> report_of fmt reprs o l r t' -> t = t'.
Proof. intros (st & H) (st' & H'). pose proof (class_unique _ _ _ _ _ _ _ _ H H') as E. now injection E. Qed.

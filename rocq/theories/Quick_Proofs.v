(** Proofs about the report that is printed or written to the file of -o. *)
From Verif Require Import Base Change_Model Change_Spec Change_Proofs Change_Report Quick_Model Quick_Spec.

Definition follow (l : str) (r : str * option exn) : str * option exn := (l ++ fst r, snd r).
Lemma put_eq o n k ch d cs im : put o n (Node k ch d cs im) =
  let c := Node k ch d cs im in
  let rest := fun l => match collect c with Err e => (l, Some e) | Ok ks => follow l (in_turn (map (put o (S n)) ks)) end in
  match get_description c with
  | Err e => ([], Some e)
  | Ok de =>
    if is_change c then
      match is_ignored o c with
      | Err e => ([], Some e)
      | Ok true => if show_ignored o then rest (indent_line n [de; lit " [IGNORED]"]) else ([], None)
      | Ok false => rest (indent_line n [de])
      end
    else if show_unchanged o then rest (indent_line n [de]) else ([], None)
  end.
Proof.
  cbv zeta.
  assert (E : forall l, match pick false k ch (map (put o (S n)) cs) (map (put o (S n)) im) with Err e => (l, Some e) | Ok rs => let '(s, r) := in_turn rs in (l ++ s, r) end =
    match collect (Node k ch d cs im) with Err e => (l, Some e) | Ok ks => follow l (in_turn (map (put o (S n)) ks)) end).
  { intro l. rewrite pick_map. unfold collect. destruct (pick false k ch cs im) as [ks|]; [|reflexivity]. unfold follow. now destruct (in_turn _). }
  cbn [put]. destruct (get_description _); [|reflexivity]. destruct (is_change _); [destruct (is_ignored _ _) as [[]|]|]; try reflexivity; rewrite <- ?E; try reflexivity.
Qed.

(** ** The writes agree with the text of the report *)
Definition agrees (w : str * option exn) (r : res str) : Prop := match snd w with None => r = Ok (fst w) | Some e => r = Err e end.
Lemma in_turn_agrees {A} (f : A -> str * option exn) (g : A -> res str) ks : Forall (fun c => agrees (f c) (g c)) ks ->
  agrees (in_turn (map f ks)) (ls <- mapM g ks ;; Ok (concat ls)).
Proof.
  induction 1 as [|c ks H _ IH]; [reflexivity|]. cbn [map in_turn mapM]. unfold agrees in H. destruct (f c) as [s [e|]]; cbn [fst snd] in H; rewrite H; cbn [rbind]; [reflexivity|].
  destruct (in_turn (map f ks)) as [s' r]. unfold agrees in *. cbn [fst snd] in *. destruct (mapM g ks) as [ls|e]; cbn [rbind] in *.
  - destruct r; [discriminate|]. injection IH as <-. reflexivity.
  - destruct r; [exact IH|discriminate].
Qed.
Lemma put_agrees o c : forall n, agrees (put o n c) (indent_change o n c).
Proof.
  induction c as [k ch d cs im IC IM] using change_rect'. intro n. rewrite put_eq, indent_change_eq. cbv zeta. set (c := Node k ch d cs im).
  destruct (get_description c) as [de|e]; cbn [rbind]; [|reflexivity].
  assert (HR : forall l, agrees (match collect c with Err e => (l, Some e) | Ok ks => follow l (in_turn (map (put o (S n)) ks)) end)
    (r <- (kids <- collect c ;; ls <- mapM (indent_change o (S n)) kids ;; Ok (concat ls)) ;; Ok (l ++ r))).
  { intro l. destruct (collect c) as [ks|e] eqn:EC; [|reflexivity]. cbn [rbind].
    assert (HF : Forall (fun x => agrees (put o (S n) x) (indent_change o (S n) x)) ks).
    { eapply (pick_Forall _ false k ch cs im); [| |exact EC]; [eapply Forall_impl; [|exact IC]|eapply Forall_impl; [|exact IM]]; intros x Hx; apply Hx. }
    apply in_turn_agrees in HF. unfold agrees, follow in *. cbn [fst snd]. destruct (snd (in_turn _)); rewrite HF; reflexivity. }
  destruct (is_change c).
  - destruct (is_ignored o c) as [[]|e]; cbn [rbind]; [|apply HR|reflexivity]. destruct (show_ignored o); [apply HR|reflexivity].
  - destruct (show_unchanged o); [apply HR|reflexivity].
Qed.

(** ** Where a failing report stops *)
Definition until (o : options) (n : nat) (l : list (list change)) (w : str) (e : exn) : Prop := exists pre ch post, l = pre ++ ch :: post /\
  (forall p, In p pre -> visited o p = true -> speaks (tip p)) /\ visited o ch = true /\ get_description (tip ch) = Err e /\
  w = concat (map (lineat o n) (filter (shown o) pre)).
Lemma in_turn_until o n ks subs w e : Forall2 unfolds ks subs ->
  Forall (fun t => forall c w e, unfolds c t -> put o n c = (w, Some e) -> until o n (chains t) w e) subs ->
  in_turn (map (put o n) ks) = (w, Some e) -> until o n (concat (map chains subs)) w e.
Proof.
  intros H HI. revert w. induction H as [|c t ks subs HU H IH]; intros w HT; [discriminate|]. inversion HI as [|? ? I1 I2]; subst. cbn [map in_turn] in HT. cbn [map concat].
  destruct (put o n c) as [s [e'|]] eqn:EP.
  - injection HT as <- <-. destruct (I1 c s e' HU EP) as (pre & chn & post & E & H1 & H2 & H3 & H4). exists pre, chn, (post ++ concat (map chains subs)).
    split; [rewrite E, <- app_assoc; reflexivity|]. auto.
  - destruct (in_turn (map (put o n) ks)) as [s' r]. injection HT as <- ->. destruct (IH I2 s' eq_refl) as (pre & chn & post & E & H1 & H2 & H3 & H4).
    pose proof (put_agrees o c n) as HA. rewrite EP in HA. unfold agrees in HA. cbn [fst snd] in HA. pose proof (report_tells o t n c s HU HA) as HL. rewrite (report_spec o t n c HU HL) in HA. injection HA as <-.
    exists (chains t ++ pre), chn, post. split; [rewrite E, app_assoc; reflexivity|]. split.
    + intros p Hp Hv. apply in_app_iff in Hp as [Hp|Hp]; [exact (HL p Hp Hv)|exact (H1 p Hp Hv)].
    + split; [exact H2|]. split; [exact H3|]. rewrite filter_app, map_app, concat_app, H4. reflexivity.
Qed.
Lemma put_until o t : forall n c w e, unfolds c t -> put o n c = (w, Some e) -> until o n (chains t) w e.
Proof.
  induction t as [c0 subs IH] using rose_rect'. intros n c w e HU HP. pose proof (is_ignored_total o _ _ HU) as (b & Hb).
  apply unfolds_inv in HU as (ks & subs' & E & H1 & _ & H3). injection E as -> <-.
  destruct (get_description c) as [de|e'] eqn:HD.
  2: { exists [], [c], (concat (map (fun s => map (cons c) (chains s)) subs)). destruct c as [k ch d cs im]. rewrite put_eq in HP. cbv zeta in HP. rewrite HD in HP. injection HP as <- <-.
       split; [reflexivity|]. split; [intros p []|]. split; [reflexivity|]. split; [exact HD|reflexivity]. }
  assert (HR : forall l, (visible o c = true -> l = lineat o n [c]) -> visible o c = true ->
    match collect c with Err e => (l, Some e) | Ok ks => follow l (in_turn (map (put o (S n)) ks)) end = (w, Some e) -> until o n (chains (R c subs)) w e).
  { intros l Hl HV HC. rewrite H1 in HC. destruct (in_turn (map (put o (S n)) ks)) as [s r] eqn:ET. unfold follow in HC. cbn [fst snd] in HC. injection HC as <- ->.
    destruct (in_turn_until o (S n) ks subs s e H3) as (pre & chn & post & E & G1 & G2 & G3 & G4); [eapply Forall_impl; [|exact IH]; intros t Ht; apply Ht|exact ET|].
    assert (EC : chains (R c subs) = ([c] :: map (cons c) pre) ++ (c :: chn) :: map (cons c) post).
    { cbn [chains app]. f_equal. rewrite <- map_map, <- concat_map, E. now rewrite map_app. }
    assert (HN : forall p, In p (pre ++ chn :: post) -> p <> []).
    { intros p Hp. rewrite <- E in Hp. apply in_concat in Hp as (x & Hx & Hp). apply in_map_iff in Hx as (t & <- & _). exact (chain_ne _ _ Hp). }
    assert (HNc : chn <> []) by (apply HN, in_app_iff; right; now left). assert (HNp : forall p, In p pre -> p <> []) by (intros p Hp; apply HN, in_app_iff; now left).
    exists ([c] :: map (cons c) pre), (c :: chn), (map (cons c) post). split; [exact EC|]. split; [|split; [|split]].
    - intros p [<-|Hp] Hv; [exists de; exact HD|]. apply in_map_iff in Hp as (q & <- & Hq). rewrite (tip_cons c q (HNp q Hq)). rewrite (visited_cons o c q (HNp q Hq)), HV in Hv. exact (G1 q Hq Hv).
    - now rewrite (visited_cons o c chn HNc), HV.
    - now rewrite (tip_cons c chn HNc).
    - rewrite (Hl HV). cbn [filter]. unfold shown at 1. cbn [forallb]. rewrite HV. cbn [andb map concat]. f_equal. rewrite (filter_cons_map (visible o)) by reflexivity. rewrite HV, map_map, G4.
      f_equal. apply map_ext_in. intros p Hp. apply filter_In in Hp as [Hp _]. symmetry. exact (lineat_cons o n c p (HNp p Hp)). }
  pose proof (ignored_ok _ _ _ Hb) as HI. unfold visible in HR. rewrite HI in HR.
  assert (HL : forall m, m = (if is_change c && b then lit " [IGNORED]" else []) -> lineat o n [c] = concat (repeat (lit "  ") n) ++ escape de ++ m ++ [10]).
  { intros m ->. unfold lineat, line, said. cbn [tip last]. now rewrite HD, HI. }
  destruct c as [k ch d cs im]. rewrite put_eq in HP. cbv zeta in HP. set (c := Node k ch d cs im) in *. rewrite HD in HP.
  destruct (is_change c); cbn [andb] in *.
  - rewrite Hb in HP. destruct b; cbn [negb orb] in *.
    + destruct (show_ignored o); [|discriminate]. refine (HR _ _ eq_refl HP). intros _. rewrite (HL _ eq_refl). now rewrite (indent_line_2 _ _ _ escape_ignored).
    + refine (HR _ _ eq_refl HP). intros _. rewrite (HL _ eq_refl). now rewrite indent_line_1.
  - destruct (show_unchanged o); [|discriminate]. refine (HR _ _ eq_refl HP). intros _. rewrite (HL _ eq_refl). now rewrite indent_line_1.
Qed.
Lemma lineat_0 o l : map (lineat o 0) l = map (line o) l.
Proof. reflexivity. Qed.
Lemma put_told o c t : unfolds c t -> told o t (fst (put o 0 c)) (snd (put o 0 c)).
Proof.
  intro HU. destruct (put o 0 c) as [w [e|]] eqn:EP; cbn [fst snd].
  - destruct (put_until o t 0 c w e HU EP) as (pre & chn & post & E & H1 & H2 & H3 & ->). rewrite lineat_0. exact (told_until o t pre chn post e E H1 H2 H3).
  - pose proof (put_agrees o c 0) as HA. rewrite EP in HA. unfold agrees in HA. cbn [fst snd] in HA. pose proof (report_tells o t 0 c w HU HA) as HL. rewrite (report_spec o t 0 c HU HL) in HA. injection HA as <-. rewrite lineat_0. exact (told_all o t HL).
Qed.

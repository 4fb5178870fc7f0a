(** Proofs about the disassembler. *)
From Verif Require Import Base Pack_Model Pack_Spec Pack_Proofs Opcodes_Model Opcodes_Spec.
From Coq Require Import Sorting.Sorted.

(** ** The op table against the JVM table *)

Definition argfmt_eqb (a b : argfmt) : bool :=
  match a, b with
  | FStruct f, FStruct g =>
      if list_eq_dec (fun x y : fcode => ltac:(decide equality) : {x = y} + {x <> y}) f g
      then true else false
  | FLookup, FLookup | FTable, FTable | FWide, FWide => true
  | _, _ => false
  end.
Lemma argfmt_eqb_eq a b : argfmt_eqb a b = true -> a = b.
Proof.
  destruct a, b; simpl; try discriminate; try reflexivity.
  destruct (list_eq_dec _ f f0); [intros _; congruence|discriminate].
Qed.

Definition layout_fmt (code : Z) (l : olayout) : option argfmt :=
  match l with
  | Ops [] => None
  | Ops ks => Some (FStruct (shown_fmt code ks))
  | TableSwitch => Some FTable
  | LookupSwitch => Some FLookup
  | Wide => Some FWide
  end.

Definition all_codes : list Z := map Z.of_nat (seq 0 202).

Lemma in_all_codes c : 0 <= c < 202 -> In c all_codes.
Proof.
  intro H. unfold all_codes. apply in_map_iff. exists (Z.to_nat c).
  split; [lia|]. apply in_seq. lia.
Qed.

Lemma find_code_out c :
  ~ (0 <= c < 202) -> find (fun o => o_code o =? c) optable = None.
Proof.
  intro H.
  assert (HF : forallb (fun o => (0 <=? o_code o) && (o_code o <? 202)) optable = true)
    by (vm_compute; reflexivity).
  revert HF. generalize optable as l. induction l as [|o l IH]; intro HF; [reflexivity|].
  cbn [forallb] in HF. apply andb_prop in HF as [H1 H2].
  cbn [find]. destruct (Z.eqb_spec (o_code o) c) as [E|_]; [lia|]. apply IH, H2.
Qed.

Lemma jvm_layout_out c : ~ (0 <= c < 202) -> jvm_layout c = None.
Proof.
  intro H. unfold jvm_layout, jvm_entry. destruct (Z.ltb_spec c 0); [reflexivity|].
  assert (HN : nth_error jvm_table (Z.to_nat c) = None).
  { apply nth_error_None. change (length jvm_table) with 202%nat. lia. }
  now rewrite HN.
Qed.

Definition fmt_check (c : Z) : bool :=
  match get_arg_format c, jvm_layout c with
  | Ok None, Some l => match layout_fmt c l with None => true | _ => false end
  | Ok (Some f), Some l => match layout_fmt c l with Some g => argfmt_eqb f g | _ => false end
  | _, _ => false
  end.

Lemma get_arg_format_jvm c :
  get_arg_format c =
  match jvm_layout c with None => Err KeyError | Some l => Ok (layout_fmt c l) end.
Proof.
  assert (HD : 0 <= c < 202 \/ ~ (0 <= c < 202)) by lia.
  destruct HD as [H|H].
  - assert (HF : forallb fmt_check all_codes = true) by (vm_compute; reflexivity).
    rewrite forallb_forall in HF. specialize (HF c (in_all_codes c H)).
    unfold fmt_check in HF.
    destruct (get_arg_format c) as [[f|]|e]; destruct (jvm_layout c) as [l|]; try discriminate.
    + destruct (layout_fmt c l) as [g|]; [|discriminate]. apply argfmt_eqb_eq in HF. now subst.
    + destruct (layout_fmt c l) as [g|]; [discriminate|reflexivity].
  - rewrite jvm_layout_out by exact H.
    unfold get_arg_format, op_by_code. now rewrite find_code_out.
Qed.

(** ** Reading operands *)

Lemma all_bytes_skipn n bc : all_bytes bc -> all_bytes (skipn n bc).
Proof. intro H. rewrite <- (firstn_skipn n bc) in H. now apply Forall_app in H. Qed.
Lemma all_bytes_firstn n bc : all_bytes bc -> all_bytes (firstn n bc).
Proof. intro H. rewrite <- (firstn_skipn n bc) in H. now apply Forall_app in H. Qed.

Lemma unpack_at_sound f bc off vs off' :
  all_bytes bc -> unpack_at f bc off = Ok (vs, off') ->
  off' = (off + size f)%nat /\ (off' <= length bc)%nat /\ fields_ok f vs = true /\
  skipn off bc = enc_fields f vs ++ skipn off' bc.
Proof.
  intros Hb H. unfold unpack_at, unpack_from in H.
  destruct (Nat.ltb_spec (length bc) (off + size f)); [discriminate|].
  cbn in H. injection H as <- <-.
  destruct (encode_decode f (firstn (size f) (skipn off bc))) as [E1 E2].
  - apply all_bytes_firstn, all_bytes_skipn, Hb.
  - rewrite firstn_length, skipn_length. lia.
  - rewrite sdecode_firstn in E1, E2 by lia.
    split; [reflexivity|]. split; [lia|]. split; [exact E2|].
    rewrite E1, skipn_add, firstn_skipn. reflexivity.
Qed.

Lemma unpack_at_complete f vs pre rest :
  fields_ok f vs = true ->
  unpack_at f (pre ++ enc_fields f vs ++ rest) (length pre) = Ok (vs, (length pre + size f)%nat).
Proof. intro H. unfold unpack_at. rewrite unpack_from_enc by exact H. reflexivity. Qed.

Lemma unpack_at_err f bc off e : unpack_at f bc off = Err e -> e = StructError.
Proof.
  unfold unpack_at, unpack_from. destruct (_ <? _)%nat; cbn; intro H; [|discriminate]. now injection H.
Qed.

Lemma unpack_at_len f bc off vs off' :
  unpack_at f bc off = Ok (vs, off') ->
  off' = (off + size f)%nat /\ (off' <= length bc)%nat /\ length vs = length f.
Proof.
  unfold unpack_at, unpack_from. destruct (Nat.ltb_spec (length bc) (off + size f)); [discriminate|].
  cbn. intro H0. injection H0 as <- <-. split; [reflexivity|]. split; [lia|]. apply length_sdecode.
Qed.

Ltac bind_inv H :=
  match type of H with
  | rbind ?m _ = Ok _ => let E := fresh "E" in destruct m eqn:E; cbn [rbind] in H; [|discriminate]
  end.

Lemma read_pairs_sound fuel n bc off l off' :
  all_bytes bc -> (off <= length bc)%nat -> read_pairs fuel n bc off = Ok (l, off') ->
  Z.of_nat (length l) = Z.max 0 n /\ off' = (off + 8 * length l)%nat /\ (off' <= length bc)%nat /\
  Forall (fun p => field_ok ci (fst p) = true /\ field_ok ci (snd p) = true) l /\
  skipn off bc = concat (map (fun p => enc_field ci (fst p) ++ enc_field ci (snd p)) l) ++ skipn off' bc.
Proof.
  intro Hb. revert n off l off'. induction fuel as [|fu IH]; intros n off l off' Ho H; cbn [read_pairs] in H.
  - destruct (Z.leb_spec n 0); [|discriminate]. injection H as <- <-.
    cbn. rewrite Nat.add_0_r. split; [lia|]. auto.
  - destruct (Z.leb_spec n 0).
    { injection H as <- <-. cbn. rewrite Nat.add_0_r. split; [lia|]. auto. }
    bind_inv H. destruct a as [vs o1].
    apply unpack_at_sound in E as (Ho1 & Hle & Hf & Hs); [|exact Hb].
    destruct vs as [|a [|b [|? ?]]]; try discriminate.
    bind_inv H. destruct a0 as [l0 o2]. injection H as <- <-.
    apply IH in E as (HL & Ho2 & Hle2 & HF & Hs2); [|exact Hle].
    cbn [fields_ok] in Hf. rewrite andb_true_r in Hf. apply andb_prop in Hf as [Hfa Hfb].
    cbn [length map concat]. change (size [ci; ci]) with 8%nat in Ho1.
    split; [lia|]. split; [lia|]. split; [lia|]. split; [constructor; auto|].
    rewrite Hs, Hs2. cbn [enc_fields fst snd]. rewrite ?app_nil_r, !app_assoc. reflexivity.
Qed.

Lemma read_offs_sound fuel n bc off l off' :
  all_bytes bc -> (off <= length bc)%nat -> read_offs fuel n bc off = Ok (l, off') ->
  Z.of_nat (length l) = Z.max 0 n /\ off' = (off + 4 * length l)%nat /\ (off' <= length bc)%nat /\
  Forall (fun o => field_ok ci o = true) l /\
  skipn off bc = concat (map (enc_field ci) l) ++ skipn off' bc.
Proof.
  intro Hb. revert n off l off'. induction fuel as [|fu IH]; intros n off l off' Ho H; cbn [read_offs] in H.
  - destruct (Z.leb_spec n 0); [|discriminate]. injection H as <- <-.
    cbn. rewrite Nat.add_0_r. split; [lia|]. auto.
  - destruct (Z.leb_spec n 0).
    { injection H as <- <-. cbn. rewrite Nat.add_0_r. split; [lia|]. auto. }
    bind_inv H. destruct a as [vs o1].
    apply unpack_at_sound in E as (Ho1 & Hle & Hf & Hs); [|exact Hb].
    destruct vs as [|a [|? ?]]; try discriminate.
    bind_inv H. destruct a0 as [l0 o2]. injection H as <- <-.
    apply IH in E as (HL & Ho2 & Hle2 & HF & Hs2); [|exact Hle].
    cbn [fields_ok] in Hf. rewrite andb_true_r in Hf.
    cbn [length map concat]. change (size [ci]) with 4%nat in Ho1.
    split; [lia|]. split; [lia|]. split; [lia|]. split; [constructor; auto|].
    rewrite Hs, Hs2. cbn [enc_fields]. rewrite ?app_nil_r, !app_assoc. reflexivity.
Qed.

Definition enc_pairs (l : list (Z * Z)) : bytes :=
  concat (map (fun p => enc_field ci (fst p) ++ enc_field ci (snd p)) l).
Definition enc_offs (l : list Z) : bytes := concat (map (enc_field ci) l).

Lemma length_enc_pairs l : length (enc_pairs l) = (8 * length l)%nat.
Proof.
  induction l as [|p l IH]; [reflexivity|].
  unfold enc_pairs in *. cbn [map concat length]. rewrite !app_length, !length_enc_field, IH.
  cbn [fsize]. lia.
Qed.
Lemma length_enc_offs l : length (enc_offs l) = (4 * length l)%nat.
Proof.
  induction l as [|p l IH]; [reflexivity|].
  unfold enc_offs in *. cbn [map concat length]. rewrite !app_length, !length_enc_field, IH.
  cbn [fsize]. lia.
Qed.

Lemma read_pairs_complete fuel n l pre rest :
  Forall (fun p => field_ok ci (fst p) = true /\ field_ok ci (snd p) = true) l ->
  Z.of_nat (length l) = Z.max 0 n -> (length l <= fuel)%nat ->
  read_pairs fuel n (pre ++ enc_pairs l ++ rest) (length pre)
  = Ok (l, (length pre + length (enc_pairs l))%nat).
Proof.
  revert n pre fuel. induction l as [|[a b] l IH]; intros n pre fuel HF HL Hfu.
  - cbn [length] in HL. destruct fuel; cbn [read_pairs]; destruct (Z.leb_spec n 0); try lia;
    unfold enc_pairs; cbn; rewrite Nat.add_0_r; reflexivity.
  - destruct fuel as [|fu]; [cbn in Hfu; lia|].
    inversion HF as [|? ? [Ha Hb] HF']; subst. cbn [fst snd] in *.
    cbn [length] in HL, Hfu. cbn [read_pairs]. destruct (Z.leb_spec n 0); [lia|].
    unfold enc_pairs. cbn [map concat fst snd].
    replace (pre ++ ((enc_field ci a ++ enc_field ci b) ++ concat (map (fun p => enc_field ci (fst p) ++ enc_field ci (snd p)) l)) ++ rest)
      with (pre ++ enc_fields [ci; ci] [a; b] ++ (enc_pairs l ++ rest)).
    2:{ unfold enc_pairs. cbn [enc_fields]. rewrite ?app_nil_r, <- ?app_assoc. reflexivity. }
    rewrite unpack_at_complete by (cbn [fields_ok]; rewrite Ha, Hb; reflexivity).
    cbn [rbind].
    replace (length pre + size [ci; ci])%nat with (length (pre ++ enc_fields [ci; ci] [a; b])).
    2:{ rewrite app_length, length_enc_fields; [reflexivity|]. cbn [fields_ok]; rewrite Ha, Hb; reflexivity. }
    rewrite app_assoc. rewrite (IH (n - 1)) by (auto; lia). cbn [rbind].
    f_equal. f_equal.
    rewrite !app_length, !length_enc_field. cbn [enc_fields].
    rewrite !app_length, !length_enc_field. cbn [fsize length]. unfold enc_pairs. lia.
Qed.

Lemma read_offs_complete fuel n l pre rest :
  Forall (fun o => field_ok ci o = true) l ->
  Z.of_nat (length l) = Z.max 0 n -> (length l <= fuel)%nat ->
  read_offs fuel n (pre ++ enc_offs l ++ rest) (length pre)
  = Ok (l, (length pre + length (enc_offs l))%nat).
Proof.
  revert n pre fuel. induction l as [|a l IH]; intros n pre fuel HF HL Hfu.
  - cbn [length] in HL. destruct fuel; cbn [read_offs]; destruct (Z.leb_spec n 0); try lia;
    unfold enc_offs; cbn; rewrite Nat.add_0_r; reflexivity.
  - destruct fuel as [|fu]; [cbn in Hfu; lia|].
    inversion HF as [|? ? Ha HF']; subst.
    cbn [length] in HL, Hfu. cbn [read_offs]. destruct (Z.leb_spec n 0); [lia|].
    unfold enc_offs. cbn [map concat].
    replace (pre ++ (enc_field ci a ++ concat (map (enc_field ci) l)) ++ rest)
      with (pre ++ enc_fields [ci] [a] ++ (enc_offs l ++ rest)).
    2:{ unfold enc_offs. cbn [enc_fields]. rewrite ?app_nil_r, <- ?app_assoc. reflexivity. }
    rewrite unpack_at_complete by (cbn [fields_ok]; rewrite Ha; reflexivity).
    cbn [rbind].
    replace (length pre + size [ci])%nat with (length (pre ++ enc_fields [ci] [a])).
    2:{ rewrite app_length, length_enc_fields; [reflexivity|]. cbn [fields_ok]; rewrite Ha; reflexivity. }
    rewrite app_assoc. rewrite (IH (n - 1)) by (auto; lia). cbn [rbind].
    f_equal. f_equal.
    rewrite !app_length, !length_enc_field. cbn [enc_fields].
    rewrite !app_length, !length_enc_field. cbn [fsize length]. unfold enc_offs. lia.
Qed.

(** Alignment *)
Lemma align4_pad off : align4 (S off) = (S off + pad_len off)%nat.
Proof.
  unfold align4, pad_len.
  pose proof (Nat.div_mod off 4) as H1. pose proof (Nat.mod_upper_bound off 4) as H2.
  pose proof (Nat.div_mod (S off) 4) as H3. pose proof (Nat.mod_upper_bound (S off) 4) as H4.
  destruct (Nat.eqb_spec (S off mod 4) 0); lia.
Qed.

Lemma nth_error_skipn {A} (l : list A) n x :
  nth_error l n = Some x -> skipn n l = x :: skipn (S n) l.
Proof.
  revert l; induction n as [|n IH]; intros [|y l] H; cbn in *; try discriminate.
  - injection H as <-. reflexivity.
  - apply IH, H.
Qed.

Lemma skipn_split {A} (l : list A) n k :
  (n + k <= length l)%nat ->
  exists c, length c = k /\ skipn n l = c ++ skipn (n + k) l.
Proof.
  intro H. exists (firstn k (skipn n l)). split.
  - rewrite firstn_length, skipn_length. lia.
  - rewrite skipn_add, firstn_skipn. reflexivity.
Qed.

Lemma fields_ok_length f : forall vs, fields_ok f vs = true -> length vs = length f.
Proof.
  induction f as [|c f IH]; intros [|v vs] H; cbn [fields_ok] in H; try discriminate; [reflexivity|].
  apply andb_prop in H as [_ H]. cbn [length]. f_equal. apply IH, H.
Qed.

(** ** One instruction: soundness *)
Lemma dis_args_sound code bc off args off' :
  all_bytes bc -> nth_error bc off = Some code ->
  dis_args code bc (S off) = Ok (args, off') ->
  exists chunk, off' = (off + length chunk)%nat /\ (0 < length chunk)%nat /\ (off' <= length bc)%nat /\
    skipn off bc = chunk ++ skipn off' bc /\
    insn_bytes (mkinsn off code args) chunk.
Proof.
  intros Hb Hn H.
  assert (HoL : (S off <= length bc)%nat) by (apply nth_error_Some; congruence).
  pose proof (nth_error_skipn _ _ _ Hn) as Hsk.
  unfold dis_args in H. rewrite get_arg_format_jvm in H.
  unfold insn_bytes. cbn [i_code i_args i_off].
  destruct (jvm_layout code) as [lay|] eqn:HL; [|discriminate]. cbn [rbind] in H.
  destruct lay as [ks| | |]; cbn [layout_fmt] in H.
  - assert (Hsh : match ks with [] => shown_fmt code ks = [] \/ True | _ => True end) by (destruct ks; auto).
    assert (HR : exists vs o, unpack_at (shown_fmt code ks) bc (S off) = Ok (vs, o) /\ args = AInts vs /\ off' = o).
    { destruct ks as [|k ks].
      - injection H as <- <-.
        assert (Hc : shown_fmt code [] = []).
        { unfold shown_fmt. destruct (Z.eqb_spec code 16) as [->|]; [|reflexivity].
          vm_compute in HL. discriminate. }
        rewrite Hc. exists [], (S off). unfold unpack_at, unpack_from. cbn [size fold_right sdecode].
        rewrite Nat.add_0_r. destruct (Nat.ltb_spec (length bc) (S off)); [lia|]. auto.
      - bind_inv H. destruct a as [vs o]. injection H as <- <-. eauto. }
    destruct HR as (vs & o & HU & -> & ->).
    apply unpack_at_sound in HU as (Ho & Hle & Hf & Hs); [|exact Hb].
    exists (code :: enc_fields (shown_fmt code ks) vs).
    cbn [length]. rewrite length_enc_fields by exact Hf.
    repeat split; try lia.
    + rewrite Hsk, Hs. reflexivity.
    + eexists. split; [reflexivity|]. eauto.
  - (* tableswitch *)
    unfold unpack_tableswitch in H. bind_inv H. destruct a as [vs o1].
    rewrite align4_pad in E.
    apply unpack_at_sound in E as (Ho & Hle & Hf & Hs); [|exact Hb].
    destruct vs as [|d [|low [|high [|? ?]]]]; try discriminate.
    bind_inv H. destruct a as [offs o2]. injection H as <- <-.
    apply read_offs_sound in E as (HLn & Ho2 & Hle2 & HF & Hs2); [|exact Hb|exact Hle].
    change (size [ci; ci; ci]) with 12%nat in Ho.
    destruct (skipn_split bc (S off) (pad_len off)) as (pad & Hpl & Hps); [lia|].
    exists (code :: pad ++ enc_fields [ci; ci; ci] [d; low; high] ++ enc_offs offs).
    assert (Hlen : length (code :: pad ++ enc_fields [ci; ci; ci] [d; low; high] ++ enc_offs offs)
                   = (1 + pad_len off + 12 + 4 * length offs)%nat).
    { cbn [length]. rewrite !app_length, length_enc_fields, length_enc_offs, Hpl by exact Hf.
      change (size [ci;ci;ci]) with 12%nat. lia. }
    rewrite Hlen. repeat split; try lia.
    + rewrite Hsk, Hps, Hs, Hs2. unfold enc_offs. cbn [app]. rewrite <- ?app_assoc. reflexivity.
    + eexists. split; [reflexivity|]. exists pad, d, low, high, offs.
      repeat split; auto.
  - (* lookupswitch *)
    unfold unpack_lookupswitch in H. bind_inv H. destruct a as [vs o1].
    rewrite align4_pad in E.
    apply unpack_at_sound in E as (Ho & Hle & Hf & Hs); [|exact Hb].
    destruct vs as [|d [|n [|? ?]]]; try discriminate.
    bind_inv H. destruct a as [prs o2]. injection H as <- <-.
    apply read_pairs_sound in E as (HLn & Ho2 & Hle2 & HF & Hs2); [|exact Hb|exact Hle].
    change (size [ci; ci]) with 8%nat in Ho.
    destruct (skipn_split bc (S off) (pad_len off)) as (pad & Hpl & Hps); [lia|].
    exists (code :: pad ++ enc_fields [ci; ci] [d; n] ++ enc_pairs prs).
    assert (Hlen : length (code :: pad ++ enc_fields [ci; ci] [d; n] ++ enc_pairs prs)
                   = (1 + pad_len off + 8 + 8 * length prs)%nat).
    { cbn [length]. rewrite !app_length, length_enc_fields, length_enc_pairs, Hpl by exact Hf.
      change (size [ci;ci]) with 8%nat. lia. }
    rewrite Hlen. repeat split; try lia.
    + rewrite Hsk, Hps, Hs, Hs2. unfold enc_pairs. cbn [app]. rewrite <- ?app_assoc. reflexivity.
    + eexists. split; [reflexivity|]. exists pad, d, n, prs.
      repeat split; auto.
  - (* wide *)
    unfold unpack_wide in H. destruct (nth_error bc (S off)) as [c|] eqn:Hc; [|discriminate].
    pose proof (nth_error_skipn _ _ _ Hc) as Hsk2.
    destruct (Z.eqb_spec c OP_iinc) as [->|Hne].
    + bind_inv H. destruct a as [vs o]. injection H as <- <-.
      apply unpack_at_sound in E as (Ho & Hle & Hf & Hs); [|exact Hb].
      pose proof (fields_ok_length _ _ Hf) as HLv.
      destruct vs as [|x [|idx [|delta [|? ?]]]]; try discriminate HLv.
      cbn [fields_ok] in Hf. apply andb_prop in Hf as [Hx Hf]. apply andb_prop in Hf as [Hi Hf].
      apply andb_prop in Hf as [Hd _].
      change (size [cB; cH; ch]) with 5%nat in Ho.
      assert (Hx' : enc_field cB x = [x] /\ x = 132).
      { assert (enc_field cB x = [x]).
        { cbn [field_ok] in Hx. unfold enc_field. cbn [fsize enc_be app].
          change (2 ^ (8 * Z.of_nat 1)) with 256. rewrite Z.mod_mod by lia.
          rewrite Z.mod_small by lia. reflexivity. }
        split; [assumption|]. rewrite Hs in Hsk2. cbn [enc_fields] in Hsk2.
        rewrite H in Hsk2. cbn in Hsk2. injection Hsk2 as E _. exact E. }
      destruct Hx' as [Hx1 Hx2]. subst x.
      exists (code :: 132 :: enc_field cH idx ++ enc_field ch delta).
      cbn [length]. rewrite app_length, !length_enc_field. cbn [fsize].
      repeat split; try lia.
      * rewrite Hsk, Hs. cbn [enc_fields]. rewrite Hx1. cbn [app].
        rewrite ?app_nil_r, <- ?app_assoc. reflexivity.
      * eexists. split; [reflexivity|]. right. exists idx, delta. auto.
    + destruct (existsb (Z.eqb c) wide_codes) eqn:Hw; [|discriminate].
      bind_inv H. destruct a as [vs o]. injection H as <- <-.
      apply unpack_at_sound in E as (Ho & Hle & Hf & Hs); [|exact Hb].
      pose proof (fields_ok_length _ _ Hf) as HLv.
      destruct vs as [|x [|idx [|? ?]]]; try discriminate HLv.
      cbn [fields_ok] in Hf. apply andb_prop in Hf as [Hx Hf]. apply andb_prop in Hf as [Hi _].
      change (size [cB; cH]) with 3%nat in Ho.
      assert (Hx' : enc_field cB x = [x] /\ x = c).
      { assert (enc_field cB x = [x]).
        { cbn [field_ok] in Hx. unfold enc_field. cbn [fsize enc_be app].
          change (2 ^ (8 * Z.of_nat 1)) with 256. rewrite Z.mod_mod by lia.
          rewrite Z.mod_small by lia. reflexivity. }
        split; [assumption|]. rewrite Hs in Hsk2. cbn [enc_fields] in Hsk2.
        rewrite H in Hsk2. cbn in Hsk2. injection Hsk2 as E _. exact E. }
      destruct Hx' as [Hx1 Hx2]. subst x.
      exists (code :: c :: enc_field cH idx).
      cbn [length]. rewrite !length_enc_field. cbn [fsize].
      repeat split; try lia.
      * rewrite Hsk, Hs. cbn [enc_fields]. rewrite Hx1. cbn [app].
        rewrite ?app_nil_r. reflexivity.
      * eexists. split; [reflexivity|]. left. exists c, idx. repeat split; auto.
        apply existsb_exists in Hw as (y & Hy & Ey). apply Z.eqb_eq in Ey. subst y.
        revert Hy. unfold wide_codes, jvm_wide_codes. cbn [In]. intuition.
Qed.

(** ** One instruction: completeness *)
Lemma insn_bytes_head i chunk : insn_bytes i chunk -> exists body, chunk = i_code i :: body.
Proof. intros (body & H & _). eauto. Qed.

Lemma enc_field_B x : field_ok cB x = true -> enc_field cB x = [x].
Proof.
  intro Hx. cbn [field_ok] in Hx. unfold enc_field. cbn [fsize enc_be app].
  change (2 ^ (8 * Z.of_nat 1)) with 256. rewrite Z.mod_mod by lia.
  rewrite Z.mod_small by lia. reflexivity.
Qed.

Lemma dis_args_complete i chunk pre rest :
  i_off i = length pre -> insn_bytes i chunk ->
  dis_args (i_code i) (pre ++ chunk ++ rest) (S (length pre))
  = Ok (i_args i, (length pre + length chunk)%nat).
Proof.
  intros Hoff (body & -> & H).
  unfold dis_args. rewrite get_arg_format_jvm.
  destruct i as [off code args]. cbn [i_off i_code i_args] in *. subst off.
  destruct (jvm_layout code) as [lay|] eqn:HL; [|contradiction]. cbn [rbind].
  assert (Hpre : forall b : bytes, pre ++ (code :: b) ++ rest = (pre ++ [code]) ++ b ++ rest)
    by (intro b; rewrite <- app_assoc; reflexivity).
  assert (HlenS : S (length pre) = length (pre ++ [code])) by (rewrite app_length; cbn; lia).
  destruct lay as [ks| | |]; cbn [layout_fmt].
  - destruct H as (vs & -> & Hf & ->).
    assert (HU : unpack_at (shown_fmt code ks) (pre ++ (code :: enc_fields (shown_fmt code ks) vs) ++ rest)
                   (S (length pre)) = Ok (vs, (S (length pre) + size (shown_fmt code ks))%nat)).
    { rewrite Hpre, HlenS, unpack_at_complete by exact Hf. reflexivity. }
    destruct ks as [|k ks].
    + assert (Hc : shown_fmt code [] = []).
      { unfold shown_fmt. destruct (Z.eqb_spec code 16) as [->|]; [|reflexivity].
        vm_compute in HL. discriminate. }
      rewrite Hc in *. destruct vs; [|discriminate]. cbn [enc_fields length].
      do 2 f_equal. lia.
    + rewrite HU. cbn [rbind length]. rewrite length_enc_fields by exact Hf. do 2 f_equal. lia.
  - destruct H as (pad & d & low & high & offs & -> & Hpl & Hf & HF & Hn & ->).
    unfold unpack_tableswitch. rewrite align4_pad, <- Hpl.
    set (bc := pre ++ (code :: pad ++ enc_fields [ci; ci; ci] [d; low; high] ++ concat (map (enc_field ci) offs)) ++ rest).
    assert (Hbc : bc = (pre ++ [code] ++ pad) ++ enc_fields [ci; ci; ci] [d; low; high] ++ (enc_offs offs ++ rest)).
    { unfold bc, enc_offs. cbn [app]. rewrite <- ?app_assoc. cbn [app]. rewrite <- ?app_assoc. reflexivity. }
    replace (S (length pre) + length pad)%nat with (length (pre ++ [code] ++ pad))
      by (rewrite !app_length; cbn [length]; lia).
    rewrite Hbc at 1. rewrite unpack_at_complete by exact Hf. cbn [rbind].
    replace (length (pre ++ [code] ++ pad) + size [ci; ci; ci])%nat
      with (length ((pre ++ [code] ++ pad) ++ enc_fields [ci; ci; ci] [d; low; high]))
      by (rewrite (app_length _ (enc_fields _ _)), length_enc_fields by exact Hf; reflexivity).
    assert (Hfu : (length offs <= S (length bc))%nat).
    { rewrite Hbc, !app_length, length_enc_offs. lia. }
    assert (Hbc2 : bc = ((pre ++ [code] ++ pad) ++ enc_fields [ci; ci; ci] [d; low; high]) ++ enc_offs offs ++ rest).
    { rewrite Hbc. rewrite (app_assoc (pre ++ [code] ++ pad)). reflexivity. }
    rewrite Hbc2 at 2. rewrite read_offs_complete by auto. cbn [rbind].
    do 2 f_equal. unfold enc_offs. cbn [length].
    rewrite ?app_length. cbn [length app]. rewrite ?app_length. lia.
  - destruct H as (pad & d & n & prs & -> & Hpl & Hf & HF & Hn & ->).
    unfold unpack_lookupswitch. rewrite align4_pad, <- Hpl.
    fold (enc_pairs prs).
    set (bc := pre ++ (code :: pad ++ enc_fields [ci; ci] [d; n] ++ enc_pairs prs) ++ rest).
    assert (Hbc : bc = (pre ++ [code] ++ pad) ++ enc_fields [ci; ci] [d; n] ++ (enc_pairs prs ++ rest)).
    { unfold bc. cbn [app]. rewrite <- ?app_assoc. cbn [app]. rewrite <- ?app_assoc. reflexivity. }
    replace (S (length pre) + length pad)%nat with (length (pre ++ [code] ++ pad))
      by (rewrite !app_length; cbn [length]; lia).
    rewrite Hbc at 1. rewrite unpack_at_complete by exact Hf. cbn [rbind].
    replace (length (pre ++ [code] ++ pad) + size [ci; ci])%nat
      with (length ((pre ++ [code] ++ pad) ++ enc_fields [ci; ci] [d; n]))
      by (rewrite (app_length _ (enc_fields _ _)), length_enc_fields by exact Hf; reflexivity).
    assert (Hfu : (length prs <= S (length bc))%nat).
    { rewrite Hbc, !app_length, length_enc_pairs. lia. }
    assert (Hbc2 : bc = ((pre ++ [code] ++ pad) ++ enc_fields [ci; ci] [d; n]) ++ enc_pairs prs ++ rest).
    { rewrite Hbc. rewrite (app_assoc (pre ++ [code] ++ pad)). reflexivity. }
    rewrite Hbc2 at 2. rewrite read_pairs_complete by auto. cbn [rbind].
    do 2 f_equal. cbn [length].
    rewrite ?app_length. cbn [length app]. rewrite ?app_length. lia.
  - unfold unpack_wide.
    destruct H as [(c & idx & Hc & -> & Hi & ->)|(idx & delta & -> & Hi & Hd & ->)].
    + assert (Hn : nth_error (pre ++ (code :: c :: enc_field cH idx) ++ rest) (S (length pre)) = Some c).
      { rewrite nth_error_app2 by lia. replace (S (length pre) - length pre)%nat with 1%nat by lia. reflexivity. }
      rewrite Hn.
      assert (HcB : field_ok cB c = true /\ c <> OP_iinc /\ existsb (Z.eqb c) wide_codes = true).
      { unfold jvm_wide_codes in Hc. cbn [In] in Hc.
        repeat (destruct Hc as [<-|Hc]; [repeat split; try reflexivity; discriminate|]). contradiction. }
      destruct HcB as (HcB & Hne & Hw).
      destruct (Z.eqb_spec c OP_iinc) as [?|_]; [contradiction|]. rewrite Hw.
      replace (pre ++ (code :: c :: enc_field cH idx) ++ rest)
        with ((pre ++ [code]) ++ enc_fields [cB; cH] [c; idx] ++ rest).
      2:{ cbn [enc_fields]. rewrite enc_field_B by exact HcB. rewrite <- ?app_assoc. cbn [app].
          rewrite ?app_nil_r. reflexivity. }
      rewrite HlenS, unpack_at_complete by (cbn [fields_ok]; rewrite HcB, Hi; reflexivity).
      cbn [rbind]. do 2 f_equal. rewrite app_length. cbn [length size fold_right fsize].
      rewrite length_enc_field. cbn [fsize]. lia.
    + assert (Hn : nth_error (pre ++ (code :: 132 :: enc_field cH idx ++ enc_field ch delta) ++ rest) (S (length pre)) = Some 132).
      { rewrite nth_error_app2 by lia. replace (S (length pre) - length pre)%nat with 1%nat by lia. reflexivity. }
      rewrite Hn. change (132 =? OP_iinc) with true. cbn match.
      replace (pre ++ (code :: 132 :: enc_field cH idx ++ enc_field ch delta) ++ rest)
        with ((pre ++ [code]) ++ enc_fields [cB; cH; ch] [132; idx; delta] ++ rest).
      2:{ cbn [enc_fields]. rewrite enc_field_B by reflexivity. rewrite <- ?app_assoc. cbn [app].
          rewrite ?app_nil_r, <- app_assoc. reflexivity. }
      rewrite HlenS, unpack_at_complete by (cbn [fields_ok]; rewrite Hi, Hd; reflexivity).
      cbn [rbind]. do 2 f_equal. rewrite app_length. cbn [length size fold_right fsize].
      rewrite !app_length, !length_enc_field. cbn [fsize]. lia.
Qed.

(** ** The loop *)
Lemma dis_loop_sound fuel bc off l :
  all_bytes bc -> (off <= length bc)%nat ->
  dis_loop fuel bc off = (l, None) -> tiles off l (skipn off bc).
Proof.
  intro Hb. revert off l. induction fuel as [|fu IH]; intros off l Ho H; cbn [dis_loop] in H.
  - destruct (nth_error bc off) eqn:Hn; [discriminate|]. injection H as <-.
    apply nth_error_None in Hn. rewrite skipn_all2 by exact Hn. constructor.
  - destruct (nth_error bc off) as [code|] eqn:Hn.
    2:{ injection H as <-. apply nth_error_None in Hn. rewrite skipn_all2 by exact Hn. constructor. }
    destruct (dis_args code bc (S off)) as [[args off']|e] eqn:HA; [|discriminate].
    destruct (dis_loop fu bc off') as [l' e'] eqn:HL. injection H as <- ->.
    destruct (dis_args_sound _ _ _ _ _ Hb Hn HA) as (chunk & Ho' & _ & Hle & Hs & Hi).
    rewrite Hs. apply tiles_cons; [reflexivity|exact Hi|].
    rewrite <- Ho'. apply IH; assumption.
Qed.

Lemma dis_loop_complete l : forall fuel pre bc,
  tiles (length pre) l bc -> (length bc <= fuel)%nat ->
  dis_loop fuel (pre ++ bc) (length pre) = (l, None).
Proof.
  induction l as [|i l IH]; intros fuel pre bc HT Hf.
  - inversion HT; subst. rewrite ?app_nil_r.
    assert (Hn : nth_error pre (length pre) = None) by (apply nth_error_None; lia).
    destruct fuel; cbn [dis_loop]; rewrite Hn; reflexivity.
  - inversion HT as [|? ? ? chunk rest Hoff Hi HT']; subst.
    destruct (insn_bytes_head _ _ Hi) as (body & Hc).
    destruct fuel as [|fu]; [rewrite app_length, Hc in Hf; cbn in Hf; lia|].
    cbn [dis_loop].
    assert (Hn : nth_error (pre ++ chunk ++ rest) (length pre) = Some (i_code i)).
    { rewrite nth_error_app2 by lia. rewrite Nat.sub_diag, Hc. reflexivity. }
    rewrite Hn, dis_args_complete by assumption.
    replace (length pre + length chunk)%nat with (length (pre ++ chunk)) in * by (rewrite app_length; lia).
    rewrite app_assoc, (IH fu (pre ++ chunk) rest).
    + rewrite <- Hoff. destruct i; reflexivity.
    + exact HT'.
    + rewrite app_length, Hc in Hf. cbn [length] in Hf. lia.
Qed.

Lemma disassemble_iff bc l : all_bytes bc ->
  (disassemble bc = (l, None) <-> tiles 0 l bc).
Proof.
  intro Hb. unfold disassemble. split; intro H.
  - apply dis_loop_sound in H; [exact H|exact Hb|lia].
  - exact (dis_loop_complete l (length bc) [] bc H (le_n _)).
Qed.

(** ** Termination, errors, bounds *)
Definition dis_exn (e : exn) : Prop :=
  e = KeyError \/ e = StructError \/ e = TypeError \/ e = AssertionError.

Lemma read_pairs_err fuel n bc off e :
  (off <= length bc)%nat -> (length bc < off + fuel)%nat ->
  read_pairs fuel n bc off = Err e -> e = StructError.
Proof.
  revert n off. induction fuel as [|fu IH]; intros n off Ho Hf H; cbn [read_pairs] in H.
  - lia.
  - destruct (n <=? 0); [discriminate|].
    destruct (unpack_at [ci; ci] bc off) as [[vs o1]|e1] eqn:E; cbn [rbind] in H.
    2:{ injection H as <-. eapply unpack_at_err, E. }
    apply unpack_at_len in E as (-> & Hle & Hl). cbn [size fold_right fsize] in *.
    destruct vs as [|a [|b [|? ?]]]; try discriminate.
    destruct (read_pairs fu (n - 1) bc _) as [[? ?]|e2] eqn:E2; cbn [rbind] in H; [discriminate|].
    injection H as <-. eapply IH, E2; lia.
Qed.

Lemma read_offs_err fuel n bc off e :
  (off <= length bc)%nat -> (length bc < off + fuel)%nat ->
  read_offs fuel n bc off = Err e -> e = StructError.
Proof.
  revert n off. induction fuel as [|fu IH]; intros n off Ho Hf H; cbn [read_offs] in H.
  - lia.
  - destruct (n <=? 0); [discriminate|].
    destruct (unpack_at [ci] bc off) as [[vs o1]|e1] eqn:E; cbn [rbind] in H.
    2:{ injection H as <-. eapply unpack_at_err, E. }
    apply unpack_at_len in E as (-> & Hle & Hl). cbn [size fold_right fsize] in *.
    destruct vs as [|a [|? ?]]; try discriminate.
    destruct (read_offs fu (n - 1) bc _) as [[? ?]|e2] eqn:E2; cbn [rbind] in H; [discriminate|].
    injection H as <-. eapply IH, E2; lia.
Qed.

Lemma dis_args_err code bc off e : dis_args code bc off = Err e -> dis_exn e.
Proof.
  unfold dis_args, dis_exn. rewrite get_arg_format_jvm.
  destruct (jvm_layout code) as [lay|]; cbn [rbind]; [|intro H; injection H as <-; auto].
  destruct (layout_fmt code lay) as [[f| | |]|]; cbn [rbind]; try discriminate.
  - destruct (unpack_at f bc off) as [[? ?]|e1] eqn:E; cbn [rbind]; [discriminate|].
    intro H. injection H as <-. apply unpack_at_err in E. auto.
  - unfold unpack_lookupswitch.
    destruct (unpack_at _ bc _) as [[vs o1]|e1] eqn:E; cbn [rbind].
    2:{ intro H; injection H as <-. apply unpack_at_err in E. auto. }
    apply unpack_at_len in E as (-> & Hle & Hl).
    destruct vs as [|a [|b [|? ?]]]; try discriminate.
    destruct (read_pairs _ _ _ _) as [[? ?]|e2] eqn:E2; cbn [rbind]; [discriminate|].
    intro H; injection H as <-. apply read_pairs_err in E2; auto; lia.
  - unfold unpack_tableswitch.
    destruct (unpack_at _ bc _) as [[vs o1]|e1] eqn:E; cbn [rbind].
    2:{ intro H; injection H as <-. apply unpack_at_err in E. auto. }
    apply unpack_at_len in E as (-> & Hle & Hl).
    destruct vs as [|a [|b [|c [|? ?]]]]; try discriminate.
    destruct (read_offs _ _ _ _) as [[? ?]|e2] eqn:E2; cbn [rbind]; [discriminate|].
    intro H; injection H as <-. apply read_offs_err in E2; auto; lia.
  - unfold unpack_wide. destruct (nth_error bc off); [|intro H; injection H as <-; auto].
    destruct (z =? OP_iinc); [|destruct (existsb _ _)].
    + destruct (unpack_at _ bc off) as [[? ?]|e1] eqn:E; cbn [rbind]; [discriminate|].
      intro H. injection H as <-. apply unpack_at_err in E. auto.
    + destruct (unpack_at _ bc off) as [[? ?]|e1] eqn:E; cbn [rbind]; [discriminate|].
      intro H. injection H as <-. apply unpack_at_err in E. auto.
    + intro H; injection H as <-; auto.
Qed.

(** Every outcome: instructions tile a prefix; the rest is empty or starts with
    an instruction that cannot be decoded. *)
Lemma dis_loop_prefix fuel bc off l e :
  all_bytes bc -> (off <= length bc)%nat -> (length bc <= off + fuel)%nat ->
  dis_loop fuel bc off = (l, e) ->
  exists done rest, skipn off bc = done ++ rest /\ tiles off l done /\ (length l <= length done)%nat /\
    match e with
    | None => rest = []
    | Some x => dis_exn x /\ exists c r, rest = c :: r
    end.
Proof.
  intro Hb. revert off l e. induction fuel as [|fu IH]; intros off l e Ho Hf H; cbn [dis_loop] in H.
  - destruct (nth_error bc off) eqn:Hn.
    + assert (off < length bc)%nat by (apply nth_error_Some; congruence). lia.
    + injection H as <- <-. exists [], []. apply nth_error_None in Hn.
      rewrite skipn_all2 by exact Hn. repeat split; constructor.
  - destruct (nth_error bc off) as [code|] eqn:Hn.
    2:{ injection H as <- <-. exists [], []. apply nth_error_None in Hn.
        rewrite skipn_all2 by exact Hn. repeat split; constructor. }
    destruct (dis_args code bc (S off)) as [[args off']|x] eqn:HA.
    + destruct (dis_loop fu bc off') as [l' e'] eqn:HL. injection H as <- <-.
      destruct (dis_args_sound _ _ _ _ _ Hb Hn HA) as (chunk & Ho' & Hpos & Hle & Hs & Hi).
      destruct (IH off' l' e') as (done & rest & Hs' & HT & Hlen & He); [lia|lia|exact HL|].
      exists (chunk ++ done), rest. repeat split.
      * rewrite Hs, Hs', app_assoc. reflexivity.
      * apply tiles_cons; [reflexivity|exact Hi|]. rewrite <- Ho'. exact HT.
      * cbn [length]. rewrite app_length. lia.
      * exact He.
    + injection H as <- <-. exists [], (skipn off bc).
      split; [reflexivity|]. split; [constructor|]. split; [cbn; lia|].
      split; [eapply dis_args_err, HA|].
      exists code, (skipn (S off) bc). apply nth_error_skipn, Hn.
Qed.

(** ** Consequences of tiling *)
Lemma tiles_offsets off l bc : tiles off l bc ->
  Forall (fun i => (off <= i_off i < off + length bc)%nat) l.
Proof.
  induction 1 as [|off i l chunk rest Hoff Hi HT IH]; [constructor|].
  destruct (insn_bytes_head _ _ Hi) as (body & Hc).
  assert (Hp : (0 < length chunk)%nat) by (rewrite Hc; cbn; lia).
  constructor.
  - rewrite app_length. lia.
  - rewrite app_length. eapply Forall_impl; [|exact IH]. cbn. intros j Hj. lia.
Qed.

Lemma tiles_sorted off l bc : tiles off l bc -> StronglySorted lt (map i_off l).
Proof.
  induction 1 as [|off i l chunk rest Hoff Hi HT IH]; [constructor|].
  destruct (insn_bytes_head _ _ Hi) as (body & Hc).
  assert (Hp : (0 < length chunk)%nat) by (rewrite Hc; cbn; lia).
  cbn [map]. constructor; [exact IH|].
  apply Forall_map. eapply Forall_impl; [|apply tiles_offsets, HT]. cbn. intros j Hj. lia.
Qed.

Lemma tiles_first off i l bc : tiles off (i :: l) bc -> i_off i = off.
Proof. inversion 1; auto. Qed.

Lemma tiles_app_inv l1 : forall off l2 bc, tiles off (l1 ++ l2) bc ->
  exists b1 b2, bc = b1 ++ b2 /\ tiles off l1 b1 /\ tiles (off + length b1) l2 b2.
Proof.
  induction l1 as [|i l1 IH]; intros off l2 bc H.
  - exists [], bc. cbn. rewrite Nat.add_0_r. repeat split; [constructor|exact H].
  - cbn in H. inversion H as [|? ? ? chunk rest Hoff Hi HT]; subst.
    apply IH in HT as (b1 & b2 & -> & H1 & H2).
    exists (chunk ++ b1), b2. rewrite app_assoc, app_length, Nat.add_assoc. repeat split.
    + constructor; auto.
    + exact H2.
Qed.

Lemma disassemble_facts bc l : all_bytes bc -> disassemble bc = (l, None) ->
  StronglySorted lt (map i_off l) /\
  Forall (fun i => (i_off i < length bc)%nat /\ nth_error bc (i_off i) = Some (i_code i)) l /\
  (bc <> [] -> exists i l', l = i :: l' /\ i_off i = 0%nat).
Proof.
  intros Hb H. apply disassemble_iff in H; [|exact Hb]. repeat split.
  - eapply tiles_sorted, H.
  - apply Forall_forall. intros i Hi. split.
    + apply tiles_offsets in H. rewrite Forall_forall in H. apply H in Hi. lia.
    + apply in_split in Hi as (l1 & l2 & ->).
      apply tiles_app_inv in H as (b1 & b2 & -> & H1 & H2).
      inversion H2 as [|? ? ? chunk rest Hoff Hib HT]; subst.
      destruct (insn_bytes_head _ _ Hib) as (body & ->).
      rewrite Hoff. cbn [Nat.add]. rewrite nth_error_app2 by lia. rewrite Nat.sub_diag. reflexivity.
  - intro Hne. destruct l as [|i l']; [inversion H; subst; congruence|].
    exists i, l'. split; [reflexivity|]. eapply tiles_first, H.
Qed.

(** ** Assembling *)
Lemma enc_field_mod v : field_ok cb v = true ->
  enc_field cb v = enc_field cB (v mod 256) /\ field_ok cB (v mod 256) = true.
Proof.
  intro H. unfold enc_field. cbn [fsize]. change (2 ^ (8 * Z.of_nat 1)) with 256.
  rewrite Z.mod_mod by lia. split; [reflexivity|]. cbn [field_ok].
  pose proof (Z.mod_pos_bound v 256 eq_refl). change (2 ^ 8) with 256.
  apply andb_true_iff. split; [apply Z.leb_le|apply Z.ltb_lt]; lia.
Qed.

Lemma assemble1_bytes off j : jinsn_ok j = true -> insn_bytes (show1 off j) (assemble1 off j).
Proof.
  unfold insn_bytes.
  destruct j as [code ops|d low offs|d prs|code idx|idx delta]; cbn [jinsn_ok assemble1 show1 i_code i_off i_args]; intro H.
  - destruct (jvm_layout code) as [[ks| | |]|] eqn:HL; try discriminate.
    eexists. split; [reflexivity|].
    unfold shown_fmt. destruct (Z.eqb_spec code 16) as [->|Hne].
    + vm_compute in HL. injection HL as <-. cbn [map kfmt] in *.
      destruct ops as [|v [|? ?]]; cbn [fields_ok] in H; try discriminate.
      2:{ rewrite andb_false_r in H. discriminate. }
      rewrite andb_true_r in H. destruct (enc_field_mod v H) as [E1 E2].
      exists [v mod 256]. cbn [map fields_ok enc_fields]. rewrite E1, E2. auto.
    + exists ops. auto.
  - change (jvm_layout 170) with (Some TableSwitch).
    apply andb_prop in H as [H1 H2].
    eexists. split; [reflexivity|].
    exists (repeat 0 (pad_len off)), d, low, (low + Z.of_nat (length offs) - 1), offs.
    rewrite repeat_length. repeat split; auto.
    + apply Forall_forall. intros x Hx. rewrite forallb_forall in H2. auto.
    + lia.
  - change (jvm_layout 171) with (Some LookupSwitch).
    apply andb_prop in H as [H1 H2].
    eexists. split; [reflexivity|].
    exists (repeat 0 (pad_len off)), d, (Z.of_nat (length prs)), prs.
    rewrite repeat_length. repeat split; auto.
    + apply Forall_forall. intros x Hx. rewrite forallb_forall in H2.
      apply H2 in Hx. now apply andb_prop in Hx.
    + lia.
  - change (jvm_layout 196) with (Some Wide).
    apply andb_prop in H as [H1 H2]. apply existsb_exists in H1 as (c & Hc & E).
    apply Z.eqb_eq in E. subst c.
    eexists. split; [reflexivity|]. left. exists code, idx. auto.
  - change (jvm_layout 196) with (Some Wide).
    apply andb_prop in H as [H1 H2].
    eexists. split; [reflexivity|]. right. exists idx, delta. auto.
Qed.

Lemma assemble_tiles l : forall off, forallb jinsn_ok l = true -> tiles off (show off l) (assemble off l).
Proof.
  induction l as [|j l IH]; intros off H; [constructor|].
  cbn [forallb] in H. apply andb_prop in H as [Hj Hl].
  cbn [show assemble]. constructor.
  - destruct j; reflexivity.
  - apply assemble1_bytes, Hj.
  - apply IH, Hl.
Qed.

Lemma disassemble_assemble l : forallb jinsn_ok l = true ->
  disassemble (assemble 0 l) = (show 0 l, None).
Proof.
  intro H. exact (dis_loop_complete (show 0 l) (length (assemble 0 l)) [] (assemble 0 l) (assemble_tiles l 0 H) (le_n _)).
Qed.

(** ** Failure *)
Lemma disassemble_outcome bc l e : all_bytes bc -> disassemble bc = (l, e) ->
  exists done rest, bc = done ++ rest /\ tiles 0 l done /\ (length l <= length done)%nat /\
    match e with
    | None => rest = []
    | Some x => dis_exn x /\ rest <> [] /\ (forall l', ~ tiles 0 l' bc)
    end.
Proof.
  intros Hb H. unfold disassemble in H.
  destruct (dis_loop_prefix _ _ _ _ _ Hb (Nat.le_0_l _) (le_n _) H) as (done & rest & Hs & HT & Hl & He).
  exists done, rest. repeat split; auto.
  destruct e as [x|]; [|exact He]. destruct He as [Hx (c & r & ->)].
  repeat split; [exact Hx|discriminate|].
  intros l' HT'. apply disassemble_iff in HT'; [|exact Hb]. unfold disassemble in HT'. congruence.
Qed.

(** ** The table *)
Lemma find_code_in c : 0 <= c < 202 ->
  exists o, op_by_code c = Ok o /\ o_code o = c /\ In o optable.
Proof.
  intro H. unfold op_by_code. destruct (find _ _) as [o|] eqn:E.
  - exists o. apply find_some in E as [E1 E2]. apply Z.eqb_eq in E2. auto.
  - exfalso. assert (HF : forallb (fun c => existsb (fun o => o_code o =? c) optable) all_codes = true)
      by (vm_compute; reflexivity).
    rewrite forallb_forall in HF. specialize (HF c (in_all_codes c H)).
    apply existsb_exists in HF as (o & Ho & E2). eapply find_none in E; [|exact Ho]. cbn in E. congruence.
Qed.

(** Opcode number <-> mnemonic. *)
Definition name_check (c : Z) : bool :=
  match get_opname_by_code c with
  | Ok n => match get_opcode_by_name n with Ok c' => c' =? c | _ => false end && seqb (lower n) n
  | _ => false
  end.

Lemma lower_opname n c : get_opcode_by_name n = Ok c -> 0 <= c < 202.
Proof.
  unfold get_opcode_by_name, op_by_name. destruct (find _ _) as [o|] eqn:E; cbn [rbind]; [|discriminate].
  intro H. injection H as <-. apply find_some in E as [E _].
  assert (HF : forallb (fun o => (0 <=? o_code o) && (o_code o <? 202)) optable = true)
    by (vm_compute; reflexivity).
  rewrite forallb_forall in HF. apply HF in E. lia.
Qed.

Lemma name_code_name n c : get_opcode_by_name n = Ok c -> get_opname_by_code c = Ok (lower n).
Proof.
  intro H. unfold get_opcode_by_name, op_by_name in H.
  destruct (find _ _) as [o|] eqn:E; cbn [rbind] in H; [|discriminate].
  injection H as <-. apply find_some in E as [E1 E2]. apply seqb_eq in E2.
  assert (HF : forallb (fun o => match get_opname_by_code (o_code o) with Ok n => seqb n (o_name o) | _ => false end) optable = true)
    by (vm_compute; reflexivity).
  rewrite forallb_forall in HF. apply HF in E1.
  destruct (get_opname_by_code (o_code o)) as [m|]; [|discriminate].
  apply seqb_eq in E1. congruence.
Qed.

Lemma code_name_code c n : get_opname_by_code c = Ok n ->
  lower n = n /\ forall n', lower n' = n -> get_opcode_by_name n' = Ok c.
Proof.
  intro H.
  assert (HD : 0 <= c < 202 \/ ~ (0 <= c < 202)) by lia. destruct HD as [Hc|Hc].
  2:{ unfold get_opname_by_code, op_by_code in H. rewrite find_code_out in H by exact Hc. discriminate. }
  assert (HF : forallb name_check all_codes = true) by (vm_compute; reflexivity).
  rewrite forallb_forall in HF. specialize (HF c (in_all_codes c Hc)). unfold name_check in HF.
  rewrite H in HF. apply andb_prop in HF as [H1 H2]. apply seqb_eq in H2.
  split; [exact H2|]. intros n' <-.
  destruct (get_opcode_by_name (lower n')) as [c'|] eqn:E; [|discriminate].
  apply Z.eqb_eq in H1. subst c'.
  unfold get_opcode_by_name in E |- *. rewrite H2 in E. exact E.
Qed.

Lemma code_defined c :
  (0 <= c < 202 -> exists n f k, get_opname_by_code c = Ok n /\ get_arg_format c = Ok f /\ has_const_arg c = Ok k) /\
  (~ (0 <= c < 202) -> get_opname_by_code c = Err KeyError /\ get_arg_format c = Err KeyError
                       /\ has_const_arg c = Err KeyError).
Proof.
  unfold get_opname_by_code, get_arg_format, has_const_arg. split; intro H.
  - destruct (find_code_in c H) as (o & -> & _). cbn. eauto 10.
  - unfold op_by_code. rewrite find_code_out by exact H. auto.
Qed.


Lemma names_jvm c : c <> 194 ->
  get_opname_by_code c = match jvm_name c with Some n => Ok n | None => Err KeyError end.
Proof.
  intro Hne. assert (HD : 0 <= c < 202 \/ ~ (0 <= c < 202)) by lia. destruct HD as [Hc|Hc].
  - assert (HF : forallb (fun c => (c =? 194) || match get_opname_by_code c, jvm_name c with
        | Ok a, Some b => seqb a b | _, _ => false end) all_codes = true) by (vm_compute; reflexivity).
    rewrite forallb_forall in HF. specialize (HF c (in_all_codes c Hc)).
    destruct (Z.eqb_spec c 194); [contradiction|]. cbn [orb] in HF.
    destruct (get_opname_by_code c) as [a|]; [|discriminate].
    destruct (jvm_name c); [|discriminate]. apply seqb_eq in HF. now subst.
  - destruct (code_defined c) as [_ H]. destruct (H Hc) as [-> _].
    pose proof (jvm_layout_out c Hc) as HL. unfold jvm_layout in HL. unfold jvm_name.
    destruct (jvm_entry c) as [[? ?]|]; [discriminate|reflexivity].
Qed.


Lemma const_jvm c : c <> 197 ->
  has_const_arg c = match jvm_const c with Some b => Ok b | None => Err KeyError end.
Proof.
  intro Hne. assert (HD : 0 <= c < 202 \/ ~ (0 <= c < 202)) by lia. destruct HD as [Hc|Hc].
  - assert (HF : forallb (fun c => (c =? 197) || match has_const_arg c, jvm_const c with
        | Ok a, Some b => Bool.eqb a b | _, _ => false end) all_codes = true) by (vm_compute; reflexivity).
    rewrite forallb_forall in HF. specialize (HF c (in_all_codes c Hc)).
    destruct (Z.eqb_spec c 197); [contradiction|]. cbn [orb] in HF.
    destruct (has_const_arg c) as [a|]; [|discriminate].
    destruct (jvm_const c); [|discriminate]. apply eqb_prop in HF. now subst.
  - destruct (code_defined c) as [_ H]. destruct (H Hc) as (_ & _ & ->).
    unfold jvm_const. now rewrite jvm_layout_out.
Qed.

(** Signedness and width of the fixed operands *)
Lemma operands_jvm c ks : c <> 16 -> jvm_layout c = Some (Ops ks) -> ks <> [] ->
  get_arg_format c = Ok (Some (FStruct (map kfmt ks))).
Proof.
  intros Hne HL Hks. rewrite get_arg_format_jvm, HL. unfold layout_fmt, shown_fmt.
  destruct (Z.eqb_spec c 16); [contradiction|]. destruct ks; [contradiction|reflexivity].
Qed.

Lemma get_arg_format_layout c :
  get_arg_format c = match jvm_layout c with
                     | None => Err KeyError
                     | Some (Ops []) => Ok None
                     | Some (Ops ks) => Ok (Some (FStruct (shown_fmt c ks)))
                     | Some TableSwitch => Ok (Some FTable)
                     | Some LookupSwitch => Ok (Some FLookup)
                     | Some Wide => Ok (Some FWide)
                     end.
Proof.
  rewrite get_arg_format_jvm. destruct (jvm_layout c) as [[[|]| | |]|]; reflexivity.
Qed.

Lemma monitorenter : exists c n, jvm_name c = Some n /\ get_opname_by_code c <> Ok n
  /\ get_opcode_by_name n = Err KeyError.
Proof.
  exists 194, (lit "monitorenter"). split; [reflexivity|]. split; [|vm_compute; reflexivity].
  vm_compute. discriminate.
Qed.

Lemma multianewarray : exists c, jvm_const c = Some true /\ has_const_arg c = Ok false.
Proof. exists 197. vm_compute. auto. Qed.

Lemma signedness c ks ops :
  c <> 16 -> jvm_layout c = Some (Ops ks) -> fields_ok (map kfmt ks) ops = true ->
  disassemble (c :: enc_fields (map kfmt ks) ops) = ([mkinsn 0 c (AInts ops)], None).
Proof.
  intros Hne HL Hf.
  pose proof (disassemble_assemble [JOp c ops]) as H. cbn [forallb jinsn_ok assemble assemble1 show show1] in H.
  rewrite HL in H. rewrite Hf in H. rewrite app_nil_r in H. rewrite H by reflexivity.
  destruct (Z.eqb_spec c 16); [contradiction|reflexivity].
Qed.

Lemma bipush_shown v : field_ok cb v = true ->
  disassemble (16 :: enc_fields (map kfmt [S1]) [v]) = ([mkinsn 0 16 (AInts [v mod 256])], None).
Proof.
  intro Hv. pose proof (disassemble_assemble [JOp 16 [v]]) as H.
  cbn [forallb jinsn_ok assemble assemble1 show show1] in H.
  change (jvm_layout 16) with (Some (Ops [S1])) in H. cbn [map kfmt fields_ok] in H.
  rewrite Hv, app_nil_r in H. cbn [map kfmt]. rewrite H by reflexivity. reflexivity.
Qed.

Lemma bipush_refuted : exists v, field_ok cb v = true /\
  disassemble (16 :: enc_fields (map kfmt [S1]) [v]) <> ([mkinsn 0 16 (AInts [v])], None).
Proof. exists (-1). split; [reflexivity|]. vm_compute. discriminate. Qed.

(** Proofs about CRC-32. *)
From Verif Require Import Base Zip_Model Crc_Spec.

Definition Rel (c : Z) (reg : register) : Prop := 0 <= c < 2 ^ 32 /\ forall k, (k < 32)%nat -> reg k = Z.testbit c (31 - Z.of_nat k).
Lemma lt_bits c : 0 <= c -> (forall j, 32 <= j -> Z.testbit c j = false) -> c < 2 ^ 32.
Proof.
  intros H0 H. destruct (Z.eq_dec c 0) as [->|N]; [reflexivity|]. apply Z.log2_lt_pow2; [lia|]. destruct (Z_lt_le_dec (Z.log2 c) 32) as [|L]; [assumption|].
  pose proof (Z.bit_log2 c ltac:(lia)) as B. rewrite H in B by assumption. discriminate.
Qed.
Lemma bits_lt c j : 0 <= c < 2 ^ 32 -> 32 <= j -> Z.testbit c j = false.
Proof.
  intros [H0 H] Hj. destruct (Z.eq_dec c 0) as [->|N]; [apply Z.bits_0|]. apply Z.bits_above_log2; [assumption|]. apply Z.log2_lt_pow2 in H; lia.
Qed.
Lemma poly_bits : forall k, (k < 32)%nat -> Z.testbit 3988292384 (31 - Z.of_nat k) = existsb (Nat.eqb k) generator.
Proof. intros k H. do 32 (destruct k as [|k]; [reflexivity|]). lia. Qed.
Lemma lxor_range a b : 0 <= a < 2 ^ 32 -> 0 <= b < 2 ^ 32 -> 0 <= Z.lxor a b < 2 ^ 32.
Proof.
  intros Ha Hb. assert (H0 : 0 <= Z.lxor a b) by (apply Z.lxor_nonneg; split; lia). split; [exact H0|]. apply lt_bits; [exact H0|]. intros j Hj. rewrite Z.lxor_spec, !bits_lt by assumption. reflexivity.
Qed.
Lemma shiftr_range a : 0 <= a < 2 ^ 32 -> 0 <= Z.shiftr a 1 < 2 ^ 32.
Proof. intro H. rewrite Z.shiftr_div_pow2 by lia. change (2 ^ 1) with 2. split; [apply Z.div_pos; lia|]. apply Z.div_lt_upper_bound; lia. Qed.
Lemma b2z_range b : 0 <= Z.b2z b < 2 ^ 32.
Proof. destruct b; cbn; lia. Qed.
Lemma bit_step c reg b : Rel c reg -> Rel (crc_bit (Z.lxor c (Z.b2z b))) (shift reg b).
Proof.
  intros [H0 H]. pose proof (lxor_range c (Z.b2z b) H0 (b2z_range b)) as HX. set (x := Z.lxor c (Z.b2z b)) in *.
  assert (HO : Z.odd x = xorb (reg 31%nat) b). { unfold x. rewrite <- Z.bit0_odd, Z.lxor_spec, (H 31%nat) by lia. f_equal. now destruct b. }
  assert (HS : forall j, 1 <= j -> Z.testbit x j = Z.testbit c j). { intros j Hj. unfold x. rewrite Z.lxor_spec. replace (Z.testbit (Z.b2z b) j) with false; [apply xorb_false_r|]. destruct b; [|now rewrite Z.bits_0]. symmetry. apply Z.bits_above_log2; cbn; lia. }
  assert (HC : forall k, (k < 32)%nat -> Z.testbit (Z.shiftr x 1) (31 - Z.of_nat k) = match k with O => false | S j => reg j end).
  { intros k Hk. rewrite Z.shiftr_spec, HS by lia. destruct k as [|k]; [apply bits_lt; [assumption|lia]|]. rewrite (H k) by lia. f_equal. lia. }
  unfold crc_bit. rewrite HO. split.
  - destruct (xorb _ _); [apply lxor_range; [split; [discriminate|reflexivity]|]|]; now apply shiftr_range.
  - intros k Hk. unfold shift. cbv zeta. destruct (xorb (reg 31%nat) b); cbn [andb].
    + rewrite Z.lxor_spec, poly_bits, HC by assumption. apply xorb_comm.
    + rewrite HC by assumption. apply xorb_false_r.
Qed.
(** The higher bits may as well enter later. *)
Lemma crc_bit_high c m : 0 <= m -> crc_bit (Z.lxor c (2 * m)) = Z.lxor (crc_bit c) m.
Proof.
  intro Hm. unfold crc_bit. assert (HO : Z.odd (Z.lxor c (2 * m)) = Z.odd c). { rewrite <- !Z.bit0_odd, Z.lxor_spec, (Z.bit0_odd (2 * m)), Z.odd_mul. apply xorb_false_r. }
  assert (HS : Z.shiftr (Z.lxor c (2 * m)) 1 = Z.lxor (Z.shiftr c 1) m). { rewrite Z.shiftr_lxor. f_equal. rewrite Z.shiftr_div_pow2 by lia. change (2 ^ 1) with 2. rewrite Z.mul_comm. apply Z.div_mul. lia. }
  rewrite HO, HS. destruct (Z.odd c); [apply eq_sym, Z.lxor_assoc|reflexivity].
Qed.
Lemma split_low b : 0 <= b -> b = Z.lxor (Z.b2z (Z.testbit b 0)) (2 * (b / 2)).
Proof.
  intro H. apply Z.bits_inj'. intros j Hj. rewrite Z.lxor_spec. destruct (Z.eq_dec j 0) as [->|N].
  - replace (Z.testbit (2 * (b / 2)) 0) with false by (rewrite Z.bit0_odd, Z.odd_mul; reflexivity). rewrite xorb_false_r. now destruct (Z.testbit b 0).
  - replace j with (Z.succ (j - 1)) by lia. rewrite Z.testbit_even_succ by lia. replace (Z.testbit (Z.b2z (Z.testbit b 0)) (Z.succ (j - 1))) with false.
    + rewrite <- (Z.div2_div b), Z.div2_spec, Z.shiftr_spec by lia. rewrite xorb_false_l. f_equal.
    + destruct (Z.testbit b 0); [|now rewrite Z.bits_0]. symmetry. apply Z.bits_above_log2; cbn; lia.
Qed.
Lemma enter c b : 0 <= b -> crc_bit (Z.lxor c b) = Z.lxor (crc_bit (Z.lxor c (Z.b2z (Z.testbit b 0)))) (b / 2).
Proof.
  intro H. rewrite (split_low b H) at 1. rewrite <- Z.lxor_assoc. apply crc_bit_high. apply Z.div_pos; lia.
Qed.
Lemma iter_succ_r {A} n (f : A -> A) x : Nat.iter (S n) f x = Nat.iter n f (f x).
Proof. induction n as [|n IH]; [reflexivity|]. change (Nat.iter (S (S n)) f x) with (f (Nat.iter (S n) f x)). now rewrite IH. Qed.
Lemma bits_step n : forall c b reg, 0 <= b < 2 ^ Z.of_nat n -> Rel c reg ->
  Rel (Nat.iter n crc_bit (Z.lxor c b)) (fold_left shift (map (fun k => Z.testbit b (Z.of_nat k)) (seq 0 n)) reg).
Proof.
  induction n as [|n IH]; intros c b reg Hb H.
  - change (2 ^ Z.of_nat 0) with 1 in Hb. replace b with 0 by lia. cbn [seq map fold_left]. change (Nat.iter 0 crc_bit (Z.lxor c 0)) with (Z.lxor c 0). now rewrite Z.lxor_0_r.
  - rewrite iter_succ_r, enter by lia. cbn [seq map fold_left]. rewrite <- seq_shift, map_map.
    rewrite (map_ext _ (fun k => Z.testbit (b / 2) (Z.of_nat k))).
    + apply IH; [|now apply bit_step]. rewrite Nat2Z.inj_succ, Z.pow_succ_r in Hb by lia. split; [apply Z.div_pos; lia|]. apply Z.div_lt_upper_bound; lia.
    + intro k. rewrite <- (Z.div2_div b), Z.div2_spec, Z.shiftr_spec by lia. f_equal. lia.
Qed.
Lemma byte_step c b reg : 0 <= b < 256 -> Rel c reg -> Rel (crc_byte c b) (fold_left shift (byte_bits b) reg).
Proof. intros Hb H. exact (bits_step 8 c b reg Hb H). Qed.
Theorem crc32_standard data : Forall (fun b => 0 <= b < 256) data -> is_crc32 data (crc32 data 0).
Proof.
  intro HD. assert (G : forall c reg, Rel c reg -> Rel (fold_left crc_byte data c) (fold_left shift (message_bits data) reg)).
  { induction HD as [|b data Hb HD IH]; intros c reg H; [exact H|]. cbn [fold_left]. unfold message_bits. cbn [map concat]. rewrite fold_left_app. apply IH. now apply byte_step. }
  assert (G0 : Rel 4294967295 (fun _ => true)).
  { split; [split; [discriminate|reflexivity]|]. intros k Hk. do 32 (destruct k as [|k]; [reflexivity|]). lia. }
  destruct (G _ _ G0) as [R B]. unfold crc32. change (Z.lxor 4294967295 0) with 4294967295. split; [apply lxor_range; [split; [discriminate|reflexivity]|exact R]|].
  intros j Hj. rewrite Z.lxor_spec. unfold crc_register. rewrite B by lia. pose proof (proj2 G0 (31 - j)%nat ltac:(lia)) as HT. cbv beta in HT.
  replace (31 - Z.of_nat (31 - j)) with (Z.of_nat j) in HT |- * by lia. rewrite <- HT. apply xorb_true_l.
Qed.
Theorem is_crc32_fun data v w : is_crc32 data v -> is_crc32 data w -> v = w.
Proof.
  intros [Rv Bv] [Rw Bw]. apply Z.bits_inj'. intros j Hj. destruct (Z_lt_le_dec j 32) as [L|L].
  - rewrite <- (Z2Nat.id j Hj). rewrite Bv, Bw by lia. reflexivity.
  - rewrite !bits_lt by assumption. reflexivity.
Qed.

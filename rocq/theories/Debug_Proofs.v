(** Proofs about the source debug extension. *)
From Verif Require Import Base Pack_Model ConstPool_Model ClassFile_Model ClassFile_Spec Debug_Model Debug_Spec.

Lemma hex_digit n : 0 <= n < 16 -> Digit (hex_lower n) n.
Proof. intro H. unfold hex_lower. destruct (Z.ltb_spec n 10); constructor; lia. Qed.
Lemma byte_reads q c s b : q = 39 \/ q = 34 -> 0 <= c < 256 -> Reads q s b -> Reads q (byte_repr q c ++ s) (c :: b).
Proof.
  intros Hq Hc H. unfold byte_repr.
  destruct (Z.eqb_spec c q) as [->|N1]; [destruct Hq as [-> | ->]; cbn; now constructor|].
  destruct (Z.eqb_spec c 92) as [->|N2]; [cbn; now constructor|]. cbn [orb].
  destruct (Z.eqb_spec c 9) as [->|N3]; [cbn; now constructor|].
  destruct (Z.eqb_spec c 10) as [->|N4]; [cbn; now constructor|].
  destruct (Z.eqb_spec c 13) as [->|N5]; [cbn; now constructor|].
  destruct ((c <? 32) || (127 <=? c)) eqn:E.
  - cbn [app]. rewrite (Z.div_mod c 16) at 3 by lia.
    apply reads_hex; [apply hex_digit; split; [apply Z.div_pos; lia|apply Z.div_lt_upper_bound; lia]|apply hex_digit, Z.mod_pos_bound; lia|exact H].
  - apply orb_false_iff in E as [E1 E2]. apply Z.leb_gt in E2. apply reads_char; auto. lia.
Qed.
Lemma str_denotes b : Forall (fun c => 0 <= c < 256) b -> Denotes (str_bytes b) b.
Proof.
  intro HF. unfold str_bytes. set (q := if existsb (Z.eqb 39) b && negb (existsb (Z.eqb 34) b) then 34 else 39).
  assert (Hq : q = 39 \/ q = 34) by (unfold q; destruct (_ && _); auto). clearbody q.
  exists q, (concat (map (byte_repr q) b)). split; [exact Hq|]. split; [reflexivity|].
  induction HF as [|c b Hc HF IH]; [constructor|]. cbn [map concat]. now apply byte_reads.
Qed.
Lemma digit_fun h v v' : Digit h v -> Digit h v' -> v = v'.
Proof. intros H H'. inversion H; inversion H'; subst; lia. Qed.
Lemma reads_fun q s b : Reads q s b -> forall b', Reads q s b' -> b = b'.
Proof.
  induction 1; intros b' H'; inversion H'; subst; try congruence; try (f_equal; now auto).
  f_equal; [|now auto]. f_equal; [f_equal|]; eapply digit_fun; eassumption.
Qed.
Lemma denotes_fun t b b' : Denotes t b -> Denotes t b' -> b = b'.
Proof.
  intros (q & s & _ & -> & H) (q' & s' & _ & E & H'). injection E as <- E. apply app_inv_tail in E as <-. exact (reads_fun _ _ _ H _ H').
Qed.
Lemma reads_long q s b : Reads q s b -> (length b <= length s)%nat.
Proof. induction 1; cbn [length]; lia. Qed.
Lemma denotes_long t b : Denotes t b -> (length b + 3 <= length t)%nat.
Proof. intros (q & s & _ & -> & H). apply reads_long in H. cbn [length]. rewrite app_length. cbn [length]. lia. Qed.

(** Specification of CRC-32, independent of the model's word arithmetic: division
    of polynomials over the field of two elements by a shift register, as in
    ISO 3309 and RFC 1952. *)
From Verif Require Import Base.

(** The exponents of the generator below x^32. *)
Definition generator : list nat := [26; 23; 22; 16; 12; 11; 10; 8; 7; 5; 4; 2; 1; 0]%nat.
(** The register: the coefficient of each power of x. *)
Definition register := nat -> bool.
(** One bit of the message enters. *)
Definition shift (reg : register) (bit : bool) : register := fun k =>
  let carry := xorb (reg 31%nat) bit in
  xorb (match k with O => false | S j => reg j end) (carry && existsb (Nat.eqb k) generator).
(** The bits of a byte, least significant first. *)
Definition byte_bits (b : Z) : list bool := map (fun k => Z.testbit b (Z.of_nat k)) (seq 0 8).
Definition message_bits (data : bytes) : list bool := concat (map byte_bits data).
Definition crc_register (data : bytes) : register := fold_left shift (message_bits data) (fun _ => true).
(** [v] is the CRC-32 of the data: the complement of the register, the highest
    power of x in the least significant bit. *)
Definition is_crc32 (data : bytes) (v : Z) : Prop :=
  0 <= v < 2 ^ 32 /\ forall j, (j < 32)%nat -> Z.testbit v (Z.of_nat j) = negb (crc_register data (31 - j)%nat).

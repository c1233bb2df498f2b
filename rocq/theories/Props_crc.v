(** Property theorems C13, C14: CRC. Specification: S_crc. *)
From Verif Require Import Prelude Layout S_crc M_crc.
From Verif Require P_crc W_crc Facts.

(** * C13 *)
Theorem C13_bit_serial : forall l, bytes l ->
  crc32b l = Ok (crc_spec l) /\ crc_spec l < 2 ^ 32.
Proof. exact W_crc.crc_bit_serial. Qed.
Print Assumptions C13_bit_serial.
(** the same as polynomial division: the message, followed by 32 zero bits and with its
    first 32 bits complemented, leaves the CRC as remainder modulo the generator *)
Theorem C13_polynomial_division : forall l, bytes l -> exists r, crc32b l = Ok r /\
  poly_rem (N.lxor (N.shiftl (be l) 32) (N.shiftl 0xFFFFFFFF (8 * N.of_nat (length l)))) r.
Proof. exact W_crc.crc_division. Qed.
Print Assumptions C13_polynomial_division.
(** such a remainder is unique *)
Theorem C13_remainder_unique : forall p r1 r2, poly_rem p r1 -> poly_rem p r2 -> r1 = r2.
Proof. exact W_crc.poly_rem_unique. Qed.
Print Assumptions C13_remainder_unique.
Example C13_ex : crc32b [49; 50; 51; 52; 53; 54; 55; 56; 57] = Ok 0x0376e6e7.
Proof. reflexivity. Qed.

(** * C14 *)
Theorem C14_residue : forall l s, bytes l -> bytes s -> length s = 4%nat ->
  (crc32b (l ++ s) = Ok 0 <-> crc32b l = Ok (be s)).
Proof. exact W_crc.residue. Qed.
Print Assumptions C14_residue.
Theorem C14_append : forall l, bytes l -> exists c, crc32b l = Ok c /\ crc32b (l ++ to_be 4 c) = Ok 0.
Proof. exact W_crc.append_zero. Qed.
Print Assumptions C14_append.
Example C14_ex : crc32b [1; 2; 3] = Ok (be (to_be 4 453863761)) /\ crc32b ([1; 2; 3] ++ to_be 4 453863761) = Ok 0.
Proof. split; reflexivity. Qed.

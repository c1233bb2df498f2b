(** Specification: packed decimal digits and calendar time. *)
From Verif Require Import Prelude.

(** the number whose decimal digits are the [n] low nibbles of [v] (a nibble above 9
    counts with its weight) *)
Fixpoint nib_value (n : nat) (v : N) : N :=
  match n with O => 0 | S n' => 10 * nib_value n' (v / 16) + v mod 16 end.

(** the [n] low decimal digits of [v], one per nibble *)
Fixpoint dec_nibs (n : nat) (v : N) : N :=
  match n with O => 0 | S n' => 16 * dec_nibs n' (v / 10) + v mod 10 end.

(** all [n] low nibbles are decimal digits *)
Fixpoint nibs_ok (n : nat) (v : N) : bool :=
  match n with O => true | S n' => (v mod 16 <=? 9) && nibs_ok n' (v / 16) end.

(** clock time: hours, minutes, seconds as packed decimal *)
Definition hms (h mi s : N) : N := dec_nibs 2 h * 65536 + dec_nibs 2 mi * 256 + dec_nibs 2 s.
Definition hm (h mi : N) : N := dec_nibs 2 h * 256 + dec_nibs 2 mi.

(** MJD of 1970-01-01, and the first second not representable in a 16-bit MJD
    (2038-04-23T00:00:00Z) *)
Definition MJD_EPOCH : N := 40587.
Definition MJD_END : N := (65536 - 40587) * 86400.

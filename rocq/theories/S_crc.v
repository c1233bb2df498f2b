(** Specification: the CRC of ISO/IEC 13818-1 Annex A / EN 300 468 Annex C
    (CRC-32/MPEG-2), bit by bit and as polynomial division over GF(2). *)
From Verif Require Import Prelude Layout.

(** generator x^32+x^26+x^23+x^22+x^16+x^12+x^11+x^10+x^8+x^7+x^5+x^4+x^2+x+1, without
    and with its leading term *)
Definition POLY : N := 0x04C11DB7.
Definition GEN : N := 0x104C11DB7.

(** one step of the shift register: the outgoing top bit is added to the input bit *)
Definition crc_bit (r : N) (b : bool) : N :=
  let r' := (2 * r) mod 2 ^ 32 in
  if xorb (N.testbit r 31) b then N.lxor r' POLY else r'.

Definition crc_run (r : N) (bits : list bool) : N := fold_left crc_bit bits r.

(** CRC of a byte string: register preset to all ones, bits most significant first *)
Definition crc_spec (l : list N) : N := crc_run 0xFFFFFFFF (unpack l).

(** carry-less product of a polynomial given by its coefficients (highest first) and [g] *)
Definition clmul (q : list bool) (g : N) : N :=
  fold_left (fun (a : N) (b : bool) => N.lxor (2 * a) (if b then g else 0)) q 0.

(** [r] is the remainder of [p] divided by the generator *)
Definition poly_rem (p r : N) : Prop :=
  r < 2 ^ 32 /\ exists q, p = N.lxor (clmul q GEN) r.

(** bitwise difference of two equally long byte strings *)
Fixpoint xor_bytes (a b : list N) : list N :=
  match a, b with
  | x :: a', y :: b' => N.lxor x y :: xor_bytes a' b'
  | _, _ => []
  end.

(** number of ones in a byte string *)
Definition weight (e : list N) : nat := count_occ Bool.bool_dec (unpack e) true.

(** all ones of a byte string lie within [w] consecutive bits, and there is one *)
Definition burst (w : nat) (e : list N) : Prop :=
  exists a b c, unpack e = repeat false a ++ b ++ repeat false c /\ (length b <= w)%nat /\ In true b.

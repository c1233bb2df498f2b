(** Specification language, independent of the code: the bit syntax tables of
    ISO/IEC 13818-1 and EN 300 468. A table is a list of (width, value) fields,
    most significant bit first; [layout] packs it into bytes; [field l off w] reads
    the [w]-bit field that starts at bit [off] of a byte string. *)
From Verif Require Import Prelude.

(** the [w] low bits of [v], most significant first *)
Fixpoint bits_of (w : nat) (v : N) : list bool :=
  match w with
  | O => []
  | S w' => N.testbit v (N.of_nat w') :: bits_of w' v
  end.

(** number written by a list of bits, most significant first *)
Definition N_of_bits (l : list bool) : N :=
  fold_left (fun a b => 2 * a + N.b2n b) l 0.

(** eight bits to a byte *)
Fixpoint pack_bits (l : list bool) : list N :=
  match l with
  | b7 :: b6 :: b5 :: b4 :: b3 :: b2 :: b1 :: b0 :: r =>
      N_of_bits [b7; b6; b5; b4; b3; b2; b1; b0] :: pack_bits r
  | _ => []
  end.

Definition field_bits (fs : list (nat * N)) : list bool :=
  flat_map (fun f => bits_of (fst f) (snd f)) fs.

(** bytes of a syntax table *)
Definition layout (fs : list (nat * N)) : list N := pack_bits (field_bits fs).

(** bits of a byte string *)
Definition unpack (l : list N) : list bool := flat_map (bits_of 8) l.

(** value of the [w]-bit field at bit offset [off] *)
Definition field (l : list N) (off w : nat) : N :=
  N_of_bits (firstn w (skipn off (unpack l))).

(** one-bit field as a flag *)
Definition flag (l : list N) (off : nat) : bool := negb (field l off 1 =? 0).

(** big-endian number of a byte string *)
Definition be (l : list N) : N := fold_left (fun a b => 256 * a + b) l 0.

(** big-endian bytes of a number, [n] bytes *)
Fixpoint to_be (n : nat) (v : N) : list N :=
  match n with
  | O => []
  | S n' => (v / 256 ^ N.of_nat n') mod 256 :: to_be n' v
  end.

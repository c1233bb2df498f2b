(** Specification of descriptors that pass through the library: read from a stream and
    written again. *)
From Verif Require Import Prelude Layout S_utils S_text M_text M_desc S_desc.

(** one entry of a local time offset descriptor: a country code that is kept, the reserved bit
    set, times of day in range *)
Definition kept_58 (g : list N) : Prop :=
  stable (firstn 3 g) /\ field g 30 1 = 1 /\ nib_value 2 (field g 40 8) < 60 /\
  nib_value 2 (field g 64 8) < 24 /\ nib_value 2 (field g 72 8) < 60 /\ nib_value 2 (field g 80 8) < 60 /\
  nib_value 2 (field g 96 8) < 60.

(** bytes of the text behind the length byte at [i] *)
Definition wire_at (b : list N) (i : nat) : list N := firstn (len_at b i) (skipn (S i) b).

(** [faithful tag b]: the body holds nothing that reading loses. Reserved bits are ones, the
    last digit of a symbol rate (100 symbol/s) is zero, texts are in the form the library
    writes, extended events have no items. Bodies of a wrong length are kept as they are. *)
Definition faithful (t : N) (b : list N) : Prop :=
  match t with
  | 0x09 => (4 <= length b)%nat -> field b 16 3 = 7
  | 0x0A => (length b mod 4 = 0)%nat -> Forall (fun g => stable (firstn 3 g)) (all_groups 4 b)
  | 0x0E => length b = 3%nat -> field b 0 2 = 3
  | 0x40 => stable b
  | 0x43 => length b = 11%nat -> field b 80 4 = 0
  | 0x44 => length b = 11%nat -> field b 32 12 = 0xFFF /\ field b 80 4 = 0
  | 0x48 => (3 <= length b)%nat -> (length b = 3 + len_at b 1 + len_at b (2 + len_at b 1))%nat ->
      stable (wire_at b 1) /\ stable (wire_at b (2 + len_at b 1))
  | 0x4D => (5 <= length b)%nat -> (length b = 5 + len_at b 3 + len_at b (4 + len_at b 3))%nat ->
      stable (firstn 3 b) /\ stable (wire_at b 3) /\ stable (wire_at b (4 + len_at b 3))
  | 0x4E => (6 <= length b)%nat -> (length b = 6 + len_at b 4 + len_at b (5 + len_at b 4))%nat ->
      stable (firstn 3 (skipn 1 b)) /\ len_at b 4 = 0%nat /\ stable (wire_at b 5)
  | 0x58 => (length b mod 13 = 0)%nat -> Forall kept_58 (all_groups 13 b)
  | 0x5A => length b = 11%nat -> field b 38 2 = 3 /\ field b 56 32 = 0xFFFFFFFF
  | 0x83 => (length b mod 4 = 0)%nat -> Forall (fun g => field g 17 5 = 31) (all_groups 4 b)
  | _ => True
  end.

(** the length of the body suits the type that the tag selects *)
Definition well_sized (t : N) (b : list N) : Prop :=
  match t with
  | 0x09 => (4 <= length b)%nat
  | 0x0A => (length b mod 4 = 0)%nat
  | 0x0E => length b = 3%nat
  | 0x40 => True
  | 0x41 => (length b mod 3 = 0)%nat
  | 0x43 | 0x44 | 0x5A => length b = 11%nat
  | 0x48 => (3 <= length b)%nat /\ (length b = 3 + len_at b 1 + len_at b (2 + len_at b 1))%nat
  | 0x4D => (5 <= length b)%nat /\ (length b = 5 + len_at b 3 + len_at b (4 + len_at b 3))%nat
  | 0x4E => (6 <= length b)%nat /\ (length b = 6 + len_at b 4 + len_at b (5 + len_at b 4))%nat
  | 0x52 => length b = 1%nat
  | 0x58 => (length b mod 13 = 0)%nat
  | 0x83 => (length b mod 4 = 0)%nat
  | _ => True
  end.

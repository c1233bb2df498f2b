(** Specification: the clock references of packets, and packets with another clock. *)
From Verif Require Import Prelude Layout S_ts S_measure.

(** Table 2-6: an adaptation field of at least 7 bytes with PCR_flag, and the 27 MHz value *)
Definition has_pcr (pk : list N) : bool := flag pk 26 && (7 <=? field pk 32 8) && flag pk 43.
Definition pcr_of (pk : list N) : N := field pk 48 33 * 300 + field pk 87 9.

(** the same packet but for a clock [k] ticks ahead; reserved bits are ones *)
Definition later (k : N) (pk : list N) : list N :=
  if has_pcr pk
  then let v := (pcr_of pk + k) mod PERIOD in firstn 6 pk ++ pcr_bytes (v / 300) 63 (v mod 300) ++ skipn 12 pk
  else pk.

(** the PCR values on a PID, each with the bytes since the one before *)
Fixpoint clock (pid n : N) (l : list (list N)) : list (N * N) :=
  match l with
  | [] => []
  | pk :: l' => if (field pk 11 13 =? pid) && has_pcr pk then (pcr_of pk, n + 188) :: clock pid 0 l' else clock pid (n + 188) l'
  end.
Definition shifted (k : N) (l : list (N * N)) : list (N * N) := map (fun x => ((fst x + k) mod PERIOD, snd x)) l.

(** a PCR as the standard has it *)
Definition regular (pk : list N) : Prop := field pk 81 6 = 63 /\ field pk 87 9 < 300.

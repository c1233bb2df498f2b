(** Specification for C68: the clock of a sequence of packets, by the fields of ISO/IEC 13818-1
    tables 2-2 and 2-6. *)
From Verif Require Import Prelude Layout.

(** adaptation field present, of at least 7 bytes, PCR_flag set *)
Definition has_pcr (pk : list N) : bool :=
  (field pk 26 1 =? 1) && (7 <=? field pk 32 8) && (field pk 43 1 =? 1).
Definition pid_of (pk : list N) : N := field pk 11 13.
(** 27 MHz clock: base in units of 300, extension *)
Definition pcr_of (pk : list N) : N := field pk 48 33 * 300 + field pk 87 9.

(** PID of the first packet that carries a PCR, and the last PCR on that PID *)
Definition clock (pks : list (list N)) : option (N * N) :=
  match filter has_pcr pks with
  | [] => None
  | p :: _ => Some (pid_of p, last (map pcr_of (filter (fun q => pid_of q =? pid_of p) (filter has_pcr pks))) 0)
  end.

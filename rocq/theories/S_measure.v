(** Specification: PCR values of a stream of constant bit rate. Times are ticks of 27 MHz on a clock
    that never wraps; [rt] ticks pass in [rb] bytes. An observation is the time of a PCR and the
    bytes since the one before. *)
From Verif Require Import Prelude.

(** the clock of a program counts modulo 300 * 2^33 *)
Definition PERIOD : N := 300 * 2 ^ 33.
Definition wrapped (l : list (N * N)) : list (N * N) := map (fun x => (fst x mod PERIOD, snd x)) l.
Definition turns (t : N) : N := t / PERIOD.
Definition ns (ticks : Z) : Z := Z.quot (ticks * 1000) 27.

(** every PCR is exact, from time [t] on; at most a second (ISO/IEC 13818-1 asks for 0.1) and 4 GB
    between two *)
Inductive steady (rt rb : N) : N -> list (N * N) -> Prop :=
| steady_nil t : steady rt rb t []
| steady_cons t d n l : d * rb = n * rt -> d <= 27000000 -> 0 < n < 2 ^ 32 -> steady rt rb (t + d) l -> steady rt rb t ((t + d, n) :: l).
(** every PCR is rounded down, from byte [x] on; time 0 is [s] / [rb] ticks before byte 0 *)
Inductive paced (rt rb s : N) : N -> list (N * N) -> Prop :=
| paced_nil x : paced rt rb s x []
| paced_cons x n l : 0 < n < 2 ^ 32 -> (s + (x + n) * rt) / rb - (s + x * rt) / rb <= 27000000 -> paced rt rb s (x + n) l ->
    paced rt rb s x (((s + (x + n) * rt) / rb, n) :: l).

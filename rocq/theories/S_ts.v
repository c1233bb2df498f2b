(** Specification: transport packet header, PCR and PTS/DTS syntax tables of
    ISO/IEC 13818-1 (tables 2-2, 2-6, 2-21). *)
From Verif Require Import Prelude Layout.

(** Table 2-2: the 4-byte transport packet header *)
Definition ts_header (sync tei pusi prio pid tsc af pl cc : N) : list N :=
  layout [(8%nat, sync); (1%nat, tei); (1%nat, pusi); (1%nat, prio); (13%nat, pid);
          (2%nat, tsc); (1%nat, af); (1%nat, pl); (4%nat, cc)].

(** Table 2-6: program_clock_reference_base, reserved, program_clock_reference_extension *)
Definition pcr_bytes (base reserved ext : N) : list N :=
  layout [(33%nat, base); (6%nat, reserved); (9%nat, ext)].

(** Table 2-21: a PTS or DTS with its 4-bit prefix and three marker bits *)
Definition pts_bytes (prefix ts m1 m2 m3 : N) : list N :=
  layout [(4%nat, prefix); (3%nat, ts / 2 ^ 30); (1%nat, m1);
          (15%nat, ts / 2 ^ 15); (1%nat, m2); (15%nat, ts); (1%nat, m3)].

(** stream ids without the optional PES header (Table 2-21, condition on stream_id) *)
Definition no_optional_header : list N := [188; 190; 191; 240; 241; 242; 248; 255].

(** Specification of the coded fields of the delivery system descriptors, EN 300 468: tables
    of 6.2.13 (orbital position, polarization, roll-off, modulation, cable modulation, outer
    and inner FEC) and 6.2.13.4 (terrestrial: bandwidth, constellation, hierarchy, code rate,
    guard interval, transmission mode). The meaning is a constructor, the code its value. *)
From Verif Require Import Prelude.

Inductive coded :=
| F_west_east | F_polarization | F_rolloff | F_cable_modulation | F_sat_modulation | F_constellation
| F_outer | F_inner | F_bandwidth | F_hierarchy | F_code_rate | F_guard | F_transmission.

(** bits of the field *)
Definition width (f : coded) : N :=
  match f with
  | F_west_east => 1 | F_polarization => 2 | F_rolloff => 2 | F_cable_modulation => 8 | F_sat_modulation => 2
  | F_constellation => 2 | F_outer => 4 | F_inner => 4 | F_bandwidth => 3 | F_hierarchy => 3 | F_code_rate => 3
  | F_guard => 2 | F_transmission => 2
  end.

Inductive meaning :=
| West | East
| Linear_horizontal | Linear_vertical | Circular_left | Circular_right
| Alpha_035 | Alpha_025 | Alpha_020
| Cable_not_defined | Cable_16QAM | Cable_32QAM | Cable_64QAM | Cable_128QAM | Cable_256QAM
| Sat_auto | Sat_QPSK | Sat_8PSK | Sat_16QAM
| Terr_QPSK | Terr_16QAM | Terr_64QAM
| Outer_not_defined | Outer_none | Outer_RS_204_188
| Inner_not_defined | Inner_1_2 | Inner_2_3 | Inner_3_4 | Inner_5_6 | Inner_7_8 | Inner_8_9 | Inner_3_5 | Inner_4_5
| Inner_9_10 | Inner_none
| MHz_8 | MHz_7 | MHz_6 | MHz_5
| Native_non | Native_1 | Native_2 | Native_4 | Indepth_non | Indepth_1 | Indepth_2 | Indepth_4
| Rate_1_2 | Rate_2_3 | Rate_3_4 | Rate_5_6 | Rate_7_8
| Guard_1_32 | Guard_1_16 | Guard_1_8 | Guard_1_4
| Mode_2k | Mode_8k | Mode_4k.

Definition coding (x : meaning) : coded * N :=
  match x with
  | West => (F_west_east, 0) | East => (F_west_east, 1)
  | Linear_horizontal => (F_polarization, 0) | Linear_vertical => (F_polarization, 1)
  | Circular_left => (F_polarization, 2) | Circular_right => (F_polarization, 3)
  | Alpha_035 => (F_rolloff, 0) | Alpha_025 => (F_rolloff, 1) | Alpha_020 => (F_rolloff, 2)
  | Cable_not_defined => (F_cable_modulation, 0) | Cable_16QAM => (F_cable_modulation, 1)
  | Cable_32QAM => (F_cable_modulation, 2) | Cable_64QAM => (F_cable_modulation, 3)
  | Cable_128QAM => (F_cable_modulation, 4) | Cable_256QAM => (F_cable_modulation, 5)
  | Sat_auto => (F_sat_modulation, 0) | Sat_QPSK => (F_sat_modulation, 1)
  | Sat_8PSK => (F_sat_modulation, 2) | Sat_16QAM => (F_sat_modulation, 3)
  | Terr_QPSK => (F_constellation, 0) | Terr_16QAM => (F_constellation, 1) | Terr_64QAM => (F_constellation, 2)
  | Outer_not_defined => (F_outer, 0) | Outer_none => (F_outer, 1) | Outer_RS_204_188 => (F_outer, 2)
  | Inner_not_defined => (F_inner, 0) | Inner_1_2 => (F_inner, 1) | Inner_2_3 => (F_inner, 2)
  | Inner_3_4 => (F_inner, 3) | Inner_5_6 => (F_inner, 4) | Inner_7_8 => (F_inner, 5) | Inner_8_9 => (F_inner, 6)
  | Inner_3_5 => (F_inner, 7) | Inner_4_5 => (F_inner, 8) | Inner_9_10 => (F_inner, 9) | Inner_none => (F_inner, 15)
  | MHz_8 => (F_bandwidth, 0) | MHz_7 => (F_bandwidth, 1) | MHz_6 => (F_bandwidth, 2) | MHz_5 => (F_bandwidth, 3)
  | Native_non => (F_hierarchy, 0) | Native_1 => (F_hierarchy, 1) | Native_2 => (F_hierarchy, 2)
  | Native_4 => (F_hierarchy, 3) | Indepth_non => (F_hierarchy, 4) | Indepth_1 => (F_hierarchy, 5)
  | Indepth_2 => (F_hierarchy, 6) | Indepth_4 => (F_hierarchy, 7)
  | Rate_1_2 => (F_code_rate, 0) | Rate_2_3 => (F_code_rate, 1) | Rate_3_4 => (F_code_rate, 2)
  | Rate_5_6 => (F_code_rate, 3) | Rate_7_8 => (F_code_rate, 4)
  | Guard_1_32 => (F_guard, 0) | Guard_1_16 => (F_guard, 1) | Guard_1_8 => (F_guard, 2) | Guard_1_4 => (F_guard, 3)
  | Mode_2k => (F_transmission, 0) | Mode_8k => (F_transmission, 1) | Mode_4k => (F_transmission, 2)
  end.

(** the field of [w] bits that packs fields of the given sizes from its most significant bit
    on, zeros behind them *)
Fixpoint sizes (fs : list (N * N)) : N := match fs with [] => 0 | (_, s) :: r => s + sizes r end.

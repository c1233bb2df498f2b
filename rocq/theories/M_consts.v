(** src/constants.rs: every constant, with its line; and the macro of src/bits.rs. *)
From Verif Require Import Prelude.

(** constants.rs:8: 0 *)
Definition POSITION_WEST : N := 0.
(** constants.rs:9: 1 *)
Definition POSITION_EAST : N := 1.
(** constants.rs:11: 0b00 *)
Definition POLARIZATION_H : N := 0.
(** constants.rs:12: 0b01 *)
Definition POLARIZATION_V : N := 1.
(** constants.rs:13: 0b10 *)
Definition POLARIZATION_L : N := 2.
(** constants.rs:14: 0b11 *)
Definition POLARIZATION_R : N := 3.
(** constants.rs:16: 0b00 *)
Definition ROF_A035 : N := 0.
(** constants.rs:17: 0b01 *)
Definition ROF_A025 : N := 1.
(** constants.rs:18: 0b10 *)
Definition ROF_A020 : N := 2.
(** constants.rs:20: 0x00 *)
Definition MODULATION_DVB_C_NOT_DEFINED : N := 0.
(** constants.rs:21: 0x01 *)
Definition MODULATION_DVB_C_16_QAM : N := 1.
(** constants.rs:22: 0x02 *)
Definition MODULATION_DVB_C_32_QAM : N := 2.
(** constants.rs:23: 0x03 *)
Definition MODULATION_DVB_C_64_QAM : N := 3.
(** constants.rs:24: 0x04 *)
Definition MODULATION_DVB_C_128_QAM : N := 4.
(** constants.rs:25: 0x05 *)
Definition MODULATION_DVB_C_256_QAM : N := 5.
(** constants.rs:27: 0b00 *)
Definition MODULATION_DVB_S_AUTO : N := 0.
(** constants.rs:28: 0b01 *)
Definition MODULATION_DVB_S_QPSK : N := 1.
(** constants.rs:29: 0b10 *)
Definition MODULATION_DVB_S_8PSK : N := 2.
(** constants.rs:30: 0b11 *)
Definition MODULATION_DVB_S_16QAM : N := 3.
(** constants.rs:32: 0b00 *)
Definition MODULATION_DVB_T_QPSK : N := 0.
(** constants.rs:33: 0b01 *)
Definition MODULATION_DVB_T_16QAM : N := 1.
(** constants.rs:34: 0b10 *)
Definition MODULATION_DVB_T_64QAM : N := 2.
(** constants.rs:36: 0b0000 *)
Definition FEC_OUTER_NOT_DEFINED : N := 0.
(** constants.rs:37: 0b0001 *)
Definition FEC_OUTER_NO_CODING : N := 1.
(** constants.rs:38: 0b0001 *)
Definition FEC_OUTER_RS : N := 1.
(** constants.rs:40: 0b0000 *)
Definition FEC_NOT_DEFINED : N := 0.
(** constants.rs:41: 0b0001 *)
Definition FEC_1_2 : N := 1.
(** constants.rs:42: 0b0010 *)
Definition FEC_2_3 : N := 2.
(** constants.rs:43: 0b0011 *)
Definition FEC_3_4 : N := 3.
(** constants.rs:44: 0b0100 *)
Definition FEC_5_6 : N := 4.
(** constants.rs:45: 0b0101 *)
Definition FEC_7_8 : N := 5.
(** constants.rs:46: 0b0110 *)
Definition FEC_8_9 : N := 6.
(** constants.rs:47: 0b0111 *)
Definition FEC_3_5 : N := 7.
(** constants.rs:48: 0b1000 *)
Definition FEC_4_5 : N := 8.
(** constants.rs:49: 0b1001 *)
Definition FEC_9_10 : N := 9.
(** constants.rs:50: 0b1111 *)
Definition FEC_NONE : N := 15.
(** constants.rs:52: 0b000 *)
Definition BANDWIDTH_DVB_T_8MHZ : N := 0.
(** constants.rs:53: 0b001 *)
Definition BANDWIDTH_DVB_T_7MHZ : N := 1.
(** constants.rs:54: 0b010 *)
Definition BANDWIDTH_DVB_T_6MHZ : N := 2.
(** constants.rs:55: 0b011 *)
Definition BANDWIDTH_DVB_T_5MHZ : N := 3.
(** constants.rs:57: 0b000 *)
Definition HIERARCHY_DVB_T_NON_NATIVE : N := 0.
(** constants.rs:58: 0b001 *)
Definition HIERARCHY_DVB_T_A1_NATIVE : N := 1.
(** constants.rs:59: 0b010 *)
Definition HIERARCHY_DVB_T_A2_NATIVE : N := 2.
(** constants.rs:60: 0b011 *)
Definition HIERARCHY_DVB_T_A4_NATIVE : N := 3.
(** constants.rs:61: 0b100 *)
Definition HIERARCHY_DVB_T_NON_IN_DEPTH : N := 4.
(** constants.rs:62: 0b101 *)
Definition HIERARCHY_DVB_T_A1_IN_DEPTH : N := 5.
(** constants.rs:63: 0b110 *)
Definition HIERARCHY_DVB_T_A2_IN_DEPTH : N := 6.
(** constants.rs:64: 0b111 *)
Definition HIERARCHY_DVB_T_A4_IN_DEPTH : N := 7.
(** constants.rs:66: 0b000 *)
Definition CODE_RATE_DVB_T_1_2 : N := 0.
(** constants.rs:67: 0b001 *)
Definition CODE_RATE_DVB_T_2_3 : N := 1.
(** constants.rs:68: 0b010 *)
Definition CODE_RATE_DVB_T_3_4 : N := 2.
(** constants.rs:69: 0b011 *)
Definition CODE_RATE_DVB_T_5_6 : N := 3.
(** constants.rs:70: 0b100 *)
Definition CODE_RATE_DVB_T_7_8 : N := 4.
(** constants.rs:72: 0b00 *)
Definition GUARD_INTERVAL_1_32 : N := 0.
(** constants.rs:73: 0b01 *)
Definition GUARD_INTERVAL_1_16 : N := 1.
(** constants.rs:74: 0b10 *)
Definition GUARD_INTERVAL_1_8 : N := 2.
(** constants.rs:75: 0b11 *)
Definition GUARD_INTERVAL_1_4 : N := 3.
(** constants.rs:77: 0b00 *)
Definition TRANSMISSION_MODE_2K : N := 0.
(** constants.rs:78: 0b01 *)
Definition TRANSMISSION_MODE_8K : N := 1.
(** constants.rs:79: 0b10 *)
Definition TRANSMISSION_MODE_4K : N := 2.

(** ** set_bits!, bits.rs:8-21 *)
(** [v << s] on an unsigned type of [w] bits, where [s] is an i32 expression. A shift by a
    negative amount or by at least the width is an overflow: a panic with overflow checks,
    a shift by the amount modulo the width without. *)
Definition shl_i32 (m : mode) (w : N) (v : N) (s : Z) : res N :=
  if ((0 <=? s) && (s <? Z.of_N w))%Z then Ok (shlw (2 ^ w) v (Z.to_N s))
  else match m with Debug => Panic | Release => Ok (shlw (2 ^ w) v (Z.to_N (s mod Z.of_N w))) end.

(** bits.rs:13-20: the arguments behind the shift are pairs of a value and its size. The
    form without any size (bits.rs:10-12) is only reached from the other two. The
    subtraction on i32 is exact: sizes are small literals. *)
Fixpoint set_bits (m : mode) (w : N) (shift : Z) (args : list (N * N)) : res N :=
  match args with
  | [] => Ok 0
  | [(v, size)] => shl_i32 m w v (shift - Z.of_N size)
  | (v, size) :: rest =>
    a <- shl_i32 m w v (shift - Z.of_N size) ;;
    b <- set_bits m w (shift - Z.of_N size) rest ;;
    Ok (N.lor a b)
  end.

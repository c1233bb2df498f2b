(** Property theorems C16..C18: BCD, BCD time, MJD. Specification: S_utils. *)
From Verif Require Import Prelude S_utils M_utils.
From Verif Require P_utils W_utils.

(** * C16 *)
Theorem C16_from_bcd : forall m v,
  (v < 2 ^ 8 -> u8_from_bcd m v =
     match m with Debug => if nibs_ok 2 v then Ok (nib_value 2 v) else Panic | Release => Ok (nib_value 2 v) end) /\
  (v < 2 ^ 16 -> u16_from_bcd m v =
     match m with Debug => if nibs_ok 4 v then Ok (nib_value 4 v) else Panic | Release => Ok (nib_value 4 v) end) /\
  (v < 2 ^ 32 -> u32_from_bcd m v =
     match m with Debug => if nibs_ok 8 v then Ok (nib_value 8 v) else Panic | Release => Ok (nib_value 8 v) end).
Proof. exact W_utils.from_bcd_all. Qed.
Print Assumptions C16_from_bcd.
Theorem C16_to_bcd : forall m v,
  (v < 100 -> u8_to_bcd m v = Ok (dec_nibs 2 v)) /\
  (v < 10000 -> u16_to_bcd m v = Ok (dec_nibs 4 v)) /\
  (v < 100000000 -> u32_to_bcd m v = Ok (dec_nibs 8 v)) /\
  (100 <= v < 256 -> u8_to_bcd Debug v = Panic).
Proof. exact W_utils.to_bcd_all. Qed.
Print Assumptions C16_to_bcd.
Theorem C16_round_trip : forall m v,
  (v < 100 -> bind (u8_to_bcd m v) (u8_from_bcd m) = Ok v) /\
  (v < 10000 -> bind (u16_to_bcd m v) (u16_from_bcd m) = Ok v) /\
  (v < 100000000 -> bind (u32_to_bcd m v) (u32_from_bcd m) = Ok v).
Proof. exact W_utils.bcd_round. Qed.
Print Assumptions C16_round_trip.
Theorem C16_round_trip_back : forall m v,
  (v < 2 ^ 8 -> nibs_ok 2 v = true -> bind (u8_from_bcd m v) (u8_to_bcd m) = Ok v) /\
  (v < 2 ^ 16 -> nibs_ok 4 v = true -> bind (u16_from_bcd m v) (u16_to_bcd m) = Ok v) /\
  (v < 2 ^ 32 -> nibs_ok 8 v = true -> bind (u32_from_bcd m v) (u32_to_bcd m) = Ok v).
Proof. exact W_utils.bcd_back. Qed.
Print Assumptions C16_round_trip_back.
(** what u16 to_bcd does outside its range: only the low 8 bits of v/100 count *)
Theorem C16_to_bcd_u16_exact : forall m v, v < 2 ^ 16 ->
  let h := (v / 100) mod 256 in
  u16_to_bcd m v =
    if h <? 100 then Ok (256 * dec_nibs 2 h + dec_nibs 2 (v mod 100))
    else match m with
         | Debug => Panic
         | Release => Ok (256 * ((h + 6 * (h / 10)) mod 256) + dec_nibs 2 (v mod 100))
         end.
Proof. exact W_utils.u16_exact. Qed.
Print Assumptions C16_to_bcd_u16_exact.
(** "out of range values abort when debug assertions are on" is false for u16 and u32 *)
Theorem C16_range_check_refuted :
  (exists v, 10000 <= v < 2 ^ 16 /\ u16_to_bcd Debug v = Ok 0) /\
  (exists v, 100000000 <= v < 2 ^ 32 /\ u32_to_bcd Debug v = Ok 0).
Proof. exact W_utils.range_check_refuted. Qed.
Print Assumptions C16_range_check_refuted.
Example C16_ex : u32_to_bcd Debug 12345678 = Ok 0x12345678 /\ u32_from_bcd Debug 0x12345678 = Ok 12345678
  /\ u8_from_bcd Debug 0x1A = Panic /\ u8_from_bcd Release 0x1A = Ok 20 /\ nibs_ok 8 0x12345678 = true.
Proof. repeat split; reflexivity. Qed.

(** * C17 *)
Theorem C17_to_bcd_time : forall m v,
  (v < 2 ^ 32 -> u32_to_bcd_time m v = Ok (hms (v / 3600 mod 24) (v / 60 mod 60) (v mod 60))) /\
  (v < 2 ^ 16 -> u16_to_bcd_time m v = Ok (hm (v / 60 mod 24) (v mod 60))).
Proof. exact W_utils.to_time. Qed.
Print Assumptions C17_to_bcd_time.
Theorem C17_from_bcd_time : forall m h mi s, h < 100 -> mi < 100 -> s < 100 ->
  u32_from_bcd_time m (hms h mi s) = Ok (3600 * h + 60 * mi + s).
Proof. exact P_utils.from_hms. Qed.
Print Assumptions C17_from_bcd_time.
(** all inputs, including malformed ones *)
Theorem C17_from_bcd_time_any : forall m v, v < 2 ^ 32 ->
  u32_from_bcd_time m v =
    let t := 3600 * nib_value 2 (v / 2 ^ 16) + 60 * nib_value 2 (v / 2 ^ 8) + nib_value 2 v in
    match m with Debug => if nibs_ok 6 v then Ok t else Panic | Release => Ok t end.
Proof. exact P_utils.u32_from_bcd_time_spec. Qed.
Print Assumptions C17_from_bcd_time_any.
Theorem C17_seconds_round_trip : forall m v, v < 2 ^ 32 ->
  bind (u32_to_bcd_time m v) (u32_from_bcd_time m) = Ok (v mod 86400).
Proof. exact P_utils.bcd_time_round. Qed.
Print Assumptions C17_seconds_round_trip.
Theorem C17_minutes_round_trip : forall m v, v < 300 ->
  bind (u16_to_bcd_time m v) (u16_from_bcd_time m) = Ok v.
Proof. exact P_utils.bcd_time_round_u16. Qed.
Print Assumptions C17_minutes_round_trip.
(** from five hours up the u16 conversion is broken, at every value *)
Theorem C17_minutes_refuted : forall v, 300 <= v < 1440 ->
  bind (u16_to_bcd_time Debug v) (u16_from_bcd_time Debug) = Panic /\
  exists x, bind (u16_to_bcd_time Release v) (u16_from_bcd_time Release) = Ok x /\ x <> v.
Proof. exact P_utils.bcd_time_u16_broken. Qed.
Print Assumptions C17_minutes_refuted.
Example C17_ex : u32_to_bcd_time Debug 45296 = Ok 0x123456 /\ u32_from_bcd_time Debug 0x123456 = Ok 45296
  /\ u32_to_bcd_time Debug (86400 + 5) = Ok 5 /\ u16_from_bcd_time Release 0x0500 = Ok 44.
Proof. repeat split; reflexivity. Qed.

(** * C18 *)
Theorem C18_midnight : forall m t, t < MJD_END -> bind (to_mjd m t) (from_mjd m) = Ok (t - t mod 86400).
Proof. exact P_utils.mjd_midnight. Qed.
Print Assumptions C18_midnight.
Theorem C18_day_number : forall m t, t < MJD_END -> to_mjd m t = Ok (t / 86400 + MJD_EPOCH).
Proof. exact W_utils.day_number. Qed.
Print Assumptions C18_day_number.
Theorem C18_from_mjd : forall m v, v < 2 ^ 16 ->
  from_mjd m v = if MJD_EPOCH <=? v then Ok ((v - MJD_EPOCH) * 86400)
                 else match m with Debug => Panic | Release => Ok ((2 ^ 64 + v - MJD_EPOCH) * 86400 mod 2 ^ 64) end.
Proof. exact P_utils.from_mjd_spec. Qed.
Print Assumptions C18_from_mjd.
Theorem C18_back : forall m v, MJD_EPOCH <= v < 2 ^ 16 -> bind (from_mjd m v) (to_mjd m) = Ok v.
Proof. exact P_utils.mjd_back. Qed.
Print Assumptions C18_back.
(** the (MJD, HHMMSS) pair written and read by TDT, TOT, EIT and descriptor 0x58 *)
Theorem C18_datetime : forall m t, t < MJD_END ->
  bind (to_mjd m t) (fun d => bind (u32_to_bcd_time m (cast U32 t)) (fun c =>
  bind (from_mjd m d) (fun a => bind (u32_from_bcd_time m c) (fun b => addw U64 m a b)))) = Ok t.
Proof. exact P_utils.datetime_round. Qed.
Print Assumptions C18_datetime.
(** the end of the range is sharp: the first second after it comes back 65536 days early *)
Theorem C18_end_refuted : to_mjd Debug MJD_END = Ok 0 /\ bind (to_mjd Debug MJD_END) (from_mjd Debug) = Panic.
Proof. exact W_utils.mjd_end. Qed.
Print Assumptions C18_end_refuted.
Example C18_ex : to_mjd Debug 1577836799 = Ok 58848 /\ from_mjd Debug 58848 = Ok 1577750400 /\ 1577836799 < MJD_END.
Proof. repeat split; reflexivity. Qed.

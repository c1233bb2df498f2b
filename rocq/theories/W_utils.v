(** Combinations of P_utils lemmas into property shape. *)
From Verif Require Import Prelude Facts S_utils M_utils P_utils.

Lemma from_bcd_all m v :
  (v < 2 ^ 8 -> u8_from_bcd m v =
     match m with Debug => if nibs_ok 2 v then Ok (nib_value 2 v) else Panic | Release => Ok (nib_value 2 v) end) /\
  (v < 2 ^ 16 -> u16_from_bcd m v =
     match m with Debug => if nibs_ok 4 v then Ok (nib_value 4 v) else Panic | Release => Ok (nib_value 4 v) end) /\
  (v < 2 ^ 32 -> u32_from_bcd m v =
     match m with Debug => if nibs_ok 8 v then Ok (nib_value 8 v) else Panic | Release => Ok (nib_value 8 v) end).
Proof. split; [|split]; [apply u8_from_bcd_spec|apply u16_from_bcd_spec|apply u32_from_bcd_spec]. Qed.

Lemma to_bcd_all m v :
  (v < 100 -> u8_to_bcd m v = Ok (dec_nibs 2 v)) /\
  (v < 10000 -> u16_to_bcd m v = Ok (dec_nibs 4 v)) /\
  (v < 100000000 -> u32_to_bcd m v = Ok (dec_nibs 8 v)) /\
  (100 <= v < 256 -> u8_to_bcd Debug v = Panic).
Proof.
  repeat split.
  - intros H. rewrite u8_to_bcd_spec by lia. destruct (N.ltb_spec v 100); [reflexivity|lia].
  - apply u16_to_bcd_ok.
  - apply u32_to_bcd_ok.
  - intros H. rewrite u8_to_bcd_spec by lia. destruct (N.ltb_spec v 100); [lia|reflexivity].
Qed.

Lemma bcd_round m v :
  (v < 100 -> bind (u8_to_bcd m v) (u8_from_bcd m) = Ok v) /\
  (v < 10000 -> bind (u16_to_bcd m v) (u16_from_bcd m) = Ok v) /\
  (v < 100000000 -> bind (u32_to_bcd m v) (u32_from_bcd m) = Ok v).
Proof. split; [|split]; [apply bcd_round_u8|apply bcd_round_u16|apply bcd_round_u32]. Qed.

Lemma bcd_back m v :
  (v < 2 ^ 8 -> nibs_ok 2 v = true -> bind (u8_from_bcd m v) (u8_to_bcd m) = Ok v) /\
  (v < 2 ^ 16 -> nibs_ok 4 v = true -> bind (u16_from_bcd m v) (u16_to_bcd m) = Ok v) /\
  (v < 2 ^ 32 -> nibs_ok 8 v = true -> bind (u32_from_bcd m v) (u32_to_bcd m) = Ok v).
Proof. split; [|split]; [apply bcd_back_u8|apply bcd_back_u16|apply bcd_back_u32]. Qed.

Lemma u16_exact m v : v < 2 ^ 16 ->
  let h := (v / 100) mod 256 in
  u16_to_bcd m v =
    if h <? 100 then Ok (256 * dec_nibs 2 h + dec_nibs 2 (v mod 100))
    else match m with
         | Debug => Panic
         | Release => Ok (256 * ((h + 6 * (h / 10)) mod 256) + dec_nibs 2 (v mod 100))
         end.
Proof. intros _. apply u16_to_bcd_spec. Qed.

Lemma range_check_refuted :
  (exists v, 10000 <= v < 2 ^ 16 /\ u16_to_bcd Debug v = Ok 0) /\
  (exists v, 100000000 <= v < 2 ^ 32 /\ u32_to_bcd Debug v = Ok 0).
Proof.
  split.
  - exists 25600. split; [|reflexivity]. change (2 ^ 16) with 65536. lia.
  - exists 655360000. split; [|reflexivity]. change (2 ^ 32) with 4294967296. lia.
Qed.

Lemma to_time m v :
  (v < 2 ^ 32 -> u32_to_bcd_time m v = Ok (hms (v / 3600 mod 24) (v / 60 mod 60) (v mod 60))) /\
  (v < 2 ^ 16 -> u16_to_bcd_time m v = Ok (hm (v / 60 mod 24) (v mod 60))).
Proof. split; [apply u32_to_bcd_time_spec|apply u16_to_bcd_time_spec]. Qed.

Lemma day_number m t : t < MJD_END -> to_mjd m t = Ok (t / 86400 + MJD_EPOCH).
Proof.
  unfold MJD_END. intros H. rewrite to_mjd_spec by (unfold U64; lia). unfold MJD_EPOCH. f_equal. apply N.mod_small. dlia.
Qed.

Lemma mjd_end : to_mjd Debug MJD_END = Ok 0 /\ bind (to_mjd Debug MJD_END) (from_mjd Debug) = Panic.
Proof. split; reflexivity. Qed.

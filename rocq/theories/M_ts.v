(** Model of src/ts/mod.rs and src/ts/pcr.rs. *)
From Verif Require Import Prelude.

(** ts/mod.rs:9-11 *)
Definition PID_NONE : N := 8192.
Definition PID_NULL : N := PID_NONE - 1.
Definition PACKET_SIZE : nat := 188.

(** ts/mod.rs:16-29 *)
Definition NULL_PACKET : list N := [71; 31; 255; 16] ++ repeat 255 184.
(** ts/mod.rs:33-46 *)
Definition FILL_PACKET : list N := repeat 255 188.

(** ts/mod.rs:51 *)
Definition is_sync (ts : list N) : res bool := b <- get ts 0 ;; Ok (b =? 71).
(** ts/mod.rs:56 *)
Definition is_error (ts : list N) : res bool := b <- get ts 1 ;; Ok (negb (N.land b 128 =? 0)).
(** ts/mod.rs:61 *)
Definition is_payload (ts : list N) : res bool := b <- get ts 3 ;; Ok (negb (N.land b 16 =? 0)).
(** ts/mod.rs:68 *)
Definition is_pusi (ts : list N) : res bool := b <- get ts 1 ;; Ok (negb (N.land b 64 =? 0)).
(** ts/mod.rs:74 *)
Definition is_adaptation (ts : list N) : res bool := b <- get ts 3 ;; Ok (negb (N.land b 32 =? 0)).
(** ts/mod.rs:94 *)
Definition is_scrambled (ts : list N) : res bool := b <- get ts 3 ;; Ok (negb (N.land b 192 =? 0)).
(** ts/mod.rs:102 *)
Definition get_adaptation_size (ts : list N) : res N := get ts 4.

(** ts/mod.rs:82-88. [4 + 1] is a constant; the second addition is u8. *)
Definition get_payload_offset (m : mode) (ts : list N) : res N :=
  a <- is_adaptation ts ;;
  if negb a then Ok 4
  else s <- get_adaptation_size ts ;; addw U8 m 5 s.

(** ts/mod.rs:107 *)
Definition get_pid (ts : list N) : res N :=
  b1 <- get ts 1 ;; b2 <- get ts 2 ;;
  Ok (N.lor (shlw U16 (N.land b1 31) 8) b2).

(** ts/mod.rs:113 *)
Definition get_cc (ts : list N) : res N := b <- get ts 3 ;; Ok (N.land b 15).

(** ts/mod.rs:118-122 *)
Definition set_pid (m : mode) (ts : list N) (pid : N) : res (list N) :=
  _ <- dassert m (pid <? 8192) ;;
  b1 <- get ts 1 ;;
  ts <- set ts 1 (N.lor (N.land b1 224) (cast U8 (N.shiftr pid 8))) ;;
  set ts 2 (cast U8 pid).

(** ts/mod.rs:126-129 *)
Definition set_cc (m : mode) (ts : list N) (cc : N) : res (list N) :=
  _ <- dassert m (cc <? 16) ;;
  b3 <- get ts 3 ;;
  set ts 3 (N.lor (N.land b3 240) (N.land cc 15)).

(** ts/mod.rs:133; [!0x10] as u8 is 0xEF *)
Definition set_payload_0 (ts : list N) : res (list N) := b <- get ts 3 ;; set ts 3 (N.land b 239).
(** ts/mod.rs:137 *)
Definition set_payload_1 (ts : list N) : res (list N) := b <- get ts 3 ;; set ts 3 (N.lor b 16).
(** ts/mod.rs:141; [!0x40] as u8 is 0xBF *)
Definition set_pusi_0 (ts : list N) : res (list N) := b <- get ts 1 ;; set ts 1 (N.land b 191).
(** ts/mod.rs:145 *)
Definition set_pusi_1 (ts : list N) : res (list N) := b <- get ts 1 ;; set ts 1 (N.lor b 64).

(** ts/pcr.rs:17-21 *)
Definition PCR_CLOCK_US : N := 27.
Definition PCR_CLOCK_MS : N := PCR_CLOCK_US * 1000.
Definition PCR_SYSTEM_CLOCK : N := PCR_CLOCK_US * 1000000.
Definition PCR_NONE : N := N.shiftl 1 33 * 300.
Definition PCR_MAX : N := PCR_NONE - 1.

(** ts/pcr.rs:26-28 (both [&&] are short-circuiting) *)
Definition is_pcr (p : list N) : res bool :=
  a <- is_adaptation p ;;
  if negb a then Ok false else
  s <- get_adaptation_size p ;;
  if negb (7 <=? s) then Ok false else
  b5 <- get p 5 ;;
  Ok (negb (N.land b5 16 =? 0)).

(** ts/pcr.rs:33-43 *)
Definition set_pcr (p : list N) (pcr : N) : res (list N) :=
  let pcr_base := pcr / 300 in
  let pcr_ext := pcr mod 300 in
  p <- set p 6 (cast U8 (N.land (N.shiftr pcr_base 25) 255)) ;;
  p <- set p 7 (cast U8 (N.land (N.shiftr pcr_base 17) 255)) ;;
  p <- set p 8 (cast U8 (N.land (N.shiftr pcr_base 9) 255)) ;;
  p <- set p 9 (cast U8 (N.land (N.shiftr pcr_base 1) 255)) ;;
  p <- set p 10 (N.lor (N.lor (cast U8 (N.land (shlw U64 pcr_base 7) 128)) 126)
                       (cast U8 (N.land (N.shiftr pcr_ext 8) 1))) ;;
  set p 11 (cast U8 (N.land pcr_ext 255)).

(** ts/pcr.rs:48-60. The final [* 300 +] is u64 arithmetic on a 33-bit base and
    cannot overflow; it is still written with the checked operations. *)
Definition get_pcr (m : mode) (p : list N) : res N :=
  b6 <- get p 6 ;; b7 <- get p 7 ;; b8 <- get p 8 ;; b9 <- get p 9 ;;
  b10 <- get p 10 ;;
  let pcr_base :=
    N.lor (N.lor (N.lor (N.lor (shlw U64 b6 25) (shlw U64 b7 17)) (shlw U64 b8 9))
                 (shlw U64 b9 1)) (N.shiftr b10 7) in
  b11 <- get p 11 ;;
  let pcr_ext := N.lor (shlw U64 (N.land b10 1) 8) b11 in
  x <- mulw U64 m pcr_base 300 ;;
  addw U64 m x pcr_ext.

(** ts/pcr.rs:65-71 *)
Definition pcr_delta (m : mode) (last_pcr current_pcr : N) : res N :=
  if last_pcr <=? current_pcr then Ok (current_pcr - last_pcr)
  else x <- addw U64 m current_pcr PCR_MAX ;; subw U64 m x last_pcr.

(** ts/pcr.rs:108-110 *)
Definition pcr_to_stc (m : mode) (last_pcr nbytes last_delta last_bytes : N) : res N :=
  x <- mulw U64 m last_delta nbytes ;;
  y <- divw x last_bytes ;;
  addw U64 m y last_pcr.

(** i64: two's complement reading of a u64 ([as i64]) and of a mathematical integer *)
Definition i64_of_u64 (v : N) : Z :=
  if v <? 9223372036854775808 then Z.of_N v else (Z.of_N v - 18446744073709551616)%Z.
Definition i64_wrap (z : Z) : Z :=
  ((z + 9223372036854775808) mod 18446744073709551616 - 9223372036854775808)%Z.
(** checked / wrapping i64 result of an arithmetic operation *)
Definition i64_op (m : mode) (z : Z) : res Z :=
  if ((-9223372036854775808 <=? z) && (z <? 9223372036854775808))%Z then Ok z
  else match m with Debug => Panic | Release => Ok (i64_wrap z) end.

(** ts/pcr.rs:115-129. Rust's [/] on i64 truncates toward zero: [Z.quot]. *)
Definition pcr_jitter_ns (m : mode) (pcr stc : N) : res Z :=
  r <- (if pcr <? stc then x <- addw U64 m pcr PCR_MAX ;; subw U64 m x stc
        else Ok (pcr - stc)) ;;
  let result := i64_of_u64 r in
  result <- (if (Z.of_N PCR_SYSTEM_CLOCK <? result)%Z
             then i64_op m (result - Z.of_N PCR_MAX)%Z else Ok result) ;;
  x <- i64_op m (result * 1000)%Z ;;
  Ok (Z.quot x (Z.of_N PCR_CLOCK_US)).

(** ts/pcr.rs:134 *)
Definition pcr_to_us (pcr : N) : N := pcr / PCR_CLOCK_US.
(** ts/pcr.rs:139 *)
Definition pcr_to_ms (pcr : N) : N := pcr / PCR_CLOCK_MS.
(** ts/pcr.rs:144-146 *)
Definition pcr_delta_bitrate (m : mode) (delta nbytes : N) : res N :=
  x <- mulw U64 m nbytes 8 ;; divw x (pcr_to_ms delta).

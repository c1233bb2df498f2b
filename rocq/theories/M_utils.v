(** Model of src/psi/utils/bcd.rs and mjd.rs. *)
From Verif Require Import Prelude.

(** BCD for u8, bcd.rs:19-23 *)
Definition u8_from_bcd (m : mode) (v : N) : res N :=
  _ <- dassert m (N.land v 0xF0 <? 0xA0) ;;
  _ <- dassert m (N.land v 0x0F <? 0x0A) ;;
  k <- mulw U8 m (N.shiftr v 4) 6 ;;
  subw U8 m v k.

(** bcd.rs:26-29 *)
Definition u8_to_bcd (m : mode) (v : N) : res N :=
  _ <- dassert m (v <? 100) ;;
  k <- mulw U8 m (v / 10) 6 ;;
  addw U8 m v k.

(** BCD for u16, bcd.rs:35-37 *)
Definition u16_from_bcd (m : mode) (v : N) : res N :=
  hi <- u8_from_bcd m (cast U8 (N.shiftr v 8)) ;;
  h <- mulw U16 m hi 100 ;;
  lo <- u8_from_bcd m (cast U8 v) ;;
  addw U16 m h lo.

(** bcd.rs:40-42 *)
Definition u16_to_bcd (m : mode) (v : N) : res N :=
  hi <- u8_to_bcd m (cast U8 (v / 100)) ;;
  lo <- u8_to_bcd m (cast U8 (v mod 100)) ;;
  addw U16 m (shlw U16 hi 8) lo.

(** BCD for u32, bcd.rs:48-50 *)
Definition u32_from_bcd (m : mode) (v : N) : res N :=
  hi <- u16_from_bcd m (cast U16 (N.shiftr v 16)) ;;
  h <- mulw U32 m hi 10000 ;;
  lo <- u16_from_bcd m (cast U16 v) ;;
  addw U32 m h lo.

(** bcd.rs:53-55 *)
Definition u32_to_bcd (m : mode) (v : N) : res N :=
  hi <- u16_to_bcd m (cast U16 (v / 10000)) ;;
  lo <- u16_to_bcd m (cast U16 (v mod 10000)) ;;
  addw U32 m (shlw U32 hi 16) lo.

(** BCDTime for u16, bcd.rs:69-72 (the product is computed in u8) *)
Definition u16_from_bcd_time (m : mode) (v : N) : res N :=
  hi <- u8_from_bcd m (cast U8 (N.shiftr v 8)) ;;
  h <- mulw U8 m hi 60 ;;
  lo <- u8_from_bcd m (cast U8 v) ;;
  addw U16 m h lo.

(** bcd.rs:75-78 *)
Definition u16_to_bcd_time (m : mode) (v : N) : res N :=
  hi <- u8_to_bcd m (cast U8 (v / 60 mod 24)) ;;
  lo <- u8_to_bcd m (cast U8 (v mod 60)) ;;
  addw U16 m (shlw U16 hi 8) lo.

(** BCDTime for u32, bcd.rs:85-89 *)
Definition u32_from_bcd_time (m : mode) (v : N) : res N :=
  hh <- u8_from_bcd m (cast U8 (N.shiftr v 16)) ;;
  h <- mulw U32 m hh 3600 ;;
  mm <- u8_from_bcd m (cast U8 (N.shiftr v 8)) ;;
  mi <- mulw U32 m mm 60 ;;
  hm <- addw U32 m h mi ;;
  s <- u8_from_bcd m (cast U8 v) ;;
  addw U32 m hm s.

(** bcd.rs:92-96 *)
Definition u32_to_bcd_time (m : mode) (v : N) : res N :=
  hh <- u8_to_bcd m (cast U8 (v / 3600 mod 24)) ;;
  mm <- u8_to_bcd m (cast U8 (v / 60 mod 60)) ;;
  hm <- addw U32 m (shlw U32 hh 16) (shlw U32 mm 8) ;;
  ss <- u8_to_bcd m (cast U8 (v mod 60)) ;;
  addw U32 m hm ss.

(** MJDFrom for u16, mjd.rs:19-22 *)
Definition from_mjd (m : mode) (v : N) : res N :=
  _ <- dassert m (40587 <=? v) ;;
  d <- subw U64 m v 40587 ;;
  mulw U64 m d 86400.

(** MJDTo for u64, mjd.rs:27-29 *)
Definition to_mjd (m : mode) (v : N) : res N :=
  s <- addw U64 m (v / 86400) 40587 ;;
  Ok (cast U16 s).

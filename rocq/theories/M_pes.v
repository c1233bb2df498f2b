(** Model of src/es/pes.rs. *)
From Verif Require Import Prelude.

(** pes.rs:11-13 *)
Definition PTS_CLOCK_MS : N := 90.
Definition PTS_NONE : N := N.shiftl 1 33.
Definition PTS_MAX : N := PTS_NONE - 1.

(** pes.rs:18-20 (short-circuiting [&&]) *)
Definition is_prefix (p : list N) : res bool :=
  b0 <- get p 0 ;; if negb (b0 =? 0) then Ok false else
  b1 <- get p 1 ;; if negb (b1 =? 0) then Ok false else
  b2 <- get p 2 ;; Ok (b2 =? 1).

(** pes.rs:25-37 *)
Definition is_syntax_spec (p : list N) : res bool :=
  b <- get p 3 ;;
  Ok (if b =? 188 then false        (* program_stream_map *)
      else if b =? 190 then false   (* padding_stream *)
      else if b =? 191 then false   (* private_stream_2 *)
      else if b =? 240 then false   (* ECM *)
      else if b =? 241 then false   (* EMM *)
      else if b =? 242 then false   (* DSMCC_stream *)
      else if b =? 248 then false   (* H.222.1 type E *)
      else if b =? 255 then false   (* program_stream_directory *)
      else true).

(** pes.rs:42-44 *)
Definition pes_get_length (m : mode) (p : list N) : res N :=
  b4 <- get p 4 ;; b5 <- get p 5 ;; addw U16 m (shlw U16 b4 8) b5.

(** pes.rs:49-55 *)
Definition pes_get_payload_offset (m : mode) (p : list N) : res N :=
  s <- is_syntax_spec p ;;
  if negb s then Ok 6 else b8 <- get p 8 ;; addw U16 m 9 b8.

(** pes.rs:60-62 *)
Definition is_pts (p : list N) : res bool := b <- get p 7 ;; Ok (negb (N.land b 128 =? 0)).

(** pes.rs:67-73 *)
Definition get_pts (p : list N) : res N :=
  b9 <- get p 9 ;; b10 <- get p 10 ;; b11 <- get p 11 ;; b12 <- get p 12 ;; b13 <- get p 13 ;;
  Ok (N.lor (N.lor (N.lor (N.lor (shlw U64 (N.land b9 14) 29) (shlw U64 b10 22))
       (shlw U64 (N.land b11 254) 14)) (shlw U64 b12 7)) (N.shiftr b13 1)).

(** pes.rs:78-84 *)
Definition pts_delta (m : mode) (last_pts current_pts : N) : res N :=
  if last_pts <=? current_pts then Ok (current_pts - last_pts)
  else x <- addw U64 m current_pts PTS_MAX ;; subw U64 m x last_pts.

(** pes.rs:89 *)
Definition pts_to_ms (pts : N) : N := pts / PTS_CLOCK_MS.

(** pes.rs:94-96 *)
Definition is_dts (p : list N) : res bool := b <- get p 7 ;; Ok (negb (N.land b 64 =? 0)).

(** pes.rs:101-107 *)
Definition get_dts (p : list N) : res N :=
  b14 <- get p 14 ;; b15 <- get p 15 ;; b16 <- get p 16 ;; b17 <- get p 17 ;; b18 <- get p 18 ;;
  Ok (N.lor (N.lor (N.lor (N.lor (shlw U64 (N.land b14 14) 29) (shlw U64 b15 22))
       (shlw U64 (N.land b16 254) 14)) (shlw U64 b17 7)) (N.shiftr b18 1)).

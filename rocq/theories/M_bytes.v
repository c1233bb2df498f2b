(** Model of src/bytes.rs (trait Bytes for [u8]). The [debug_assert!] on the length
    of each function is not modelled separately: a slice that violates it makes the
    indexing below panic in both profiles. *)
From Verif Require Import Prelude.

(** bytes.rs:22-25 *)
Definition get_u16 (l : list N) : res N :=
  b0 <- get l 0 ;; b1 <- get l 1 ;;
  Ok (N.lor (shlw U16 b0 8) b1).

(** bytes.rs:28-32 *)
Definition set_u16 (l : list N) (v : N) : res (list N) :=
  l <- set l 0 (cast U8 (N.shiftr v 8)) ;;
  set l 1 (cast U8 v).

(** bytes.rs:35-38 *)
Definition get_u24 (l : list N) : res N :=
  b0 <- get l 0 ;; b1 <- get l 1 ;; b2 <- get l 2 ;;
  Ok (N.lor (N.lor (shlw U32 b0 16) (shlw U32 b1 8)) b2).

(** bytes.rs:41-46 *)
Definition set_u24 (l : list N) (v : N) : res (list N) :=
  l <- set l 0 (cast U8 (N.shiftr v 16)) ;;
  l <- set l 1 (cast U8 (N.shiftr v 8)) ;;
  set l 2 (cast U8 v).

(** bytes.rs:49-52 *)
Definition get_u32 (l : list N) : res N :=
  b0 <- get l 0 ;; b1 <- get l 1 ;; b2 <- get l 2 ;; b3 <- get l 3 ;;
  Ok (N.lor (N.lor (N.lor (shlw U32 b0 24) (shlw U32 b1 16)) (shlw U32 b2 8)) b3).

(** bytes.rs:55-61 *)
Definition set_u32 (l : list N) (v : N) : res (list N) :=
  l <- set l 0 (cast U8 (N.shiftr v 24)) ;;
  l <- set l 1 (cast U8 (N.shiftr v 16)) ;;
  l <- set l 2 (cast U8 (N.shiftr v 8)) ;;
  set l 3 (cast U8 v).

(** slice at an offset, then read: [l[off ..].get_u16()] and so on *)
Definition get_u16_at (l : list N) (off : nat) : res N := t <- slice_from l off ;; get_u16 t.
Definition get_u24_at (l : list N) (off : nat) : res N := t <- slice_from l off ;; get_u24 t.
Definition get_u32_at (l : list N) (off : nat) : res N := t <- slice_from l off ;; get_u32 t.
(** [l[off ..].set_u16(v)] and so on *)
Definition set_u16_at (l : list N) (off : nat) (v : N) : res (list N) := on_from l off (fun t => set_u16 t v).
Definition set_u24_at (l : list N) (off : nat) (v : N) : res (list N) := on_from l off (fun t => set_u24 t v).
Definition set_u32_at (l : list N) (off : nat) (v : N) : res (list N) := on_from l off (fun t => set_u32 t v).

(** Model of src/psi/mod.rs: struct Psi (section reassembly, checking, finalizing,
    packetisation) and the trait PsiDemux. [&mut self] methods return the new value.
    Simplification: usize arithmetic on buffer lengths is unbounded nat, except where a
    subtraction can underflow ([sub_idx]); buffer capacity is not modelled. *)
From Verif Require Import Prelude M_bytes M_ts M_crc.

(** psi/mod.rs:37-43 *)
Record psi := mkPsi { p_buffer : list N; p_size : nat; p_pid : N; p_cc : N }.

(** field updates *)
Definition with_buffer (p : psi) (b : list N) : psi := mkPsi b (p_size p) (p_pid p) (p_cc p).
Definition with_cc (p : psi) (c : N) : psi := mkPsi (p_buffer p) (p_size p) (p_pid p) c.
Definition with_pid (p : psi) (i : N) : psi := mkPsi (p_buffer p) (p_size p) i (p_cc p).

(** psi/mod.rs:46-59 *)
Definition psi_default : psi := mkPsi [] 0 0 0.

(** psi/mod.rs:75-86 *)
Definition psi_new (m : mode) (table_id : N) (size : nat) (version : N) : res psi :=
  _ <- dassert m (3 <=? size)%nat ;;
  let b := resize [] size 0 in
  b <- set b 0 table_id ;;
  b <- set b 1 0xB0 ;;
  b <- (if (6 <=? size)%nat
        then set b 5 (N.lor (N.lor 0xC0 (N.land (shlw U8 version 1) 0x3E)) 0x01)
        else Ok b) ;;
  Ok (with_buffer psi_default b).

(** psi/mod.rs:89-92 *)
Definition psi_clear (p : psi) : psi := mkPsi [] 0 (p_pid p) (p_cc p).

(** psi/mod.rs:95-101 *)
Definition psi_push (p : psi) (payload : list N) : res psi :=
  let b := p_buffer p ++ payload in
  if ((p_size p =? 0) && (3 <=? length b))%nat
  then v <- get_u16_at b 1 ;; Ok (mkPsi b (3 + N.to_nat (N.land v 0x0FFF)) (p_pid p) (p_cc p))
  else Ok (with_buffer p b).

(** [cc != (self.cc + 1) & 0x0F], psi/mod.rs:125 and 143 *)
Definition cc_breaks (m : mode) (p : psi) (cc : N) : res bool :=
  n <- addw U8 m (p_cc p) 1 ;; Ok (negb (cc =? N.land n 0x0F)).

(** psi/mod.rs:104-155 *)
Definition psi_mux (m : mode) (p : psi) (ts : list N) : res psi :=
  pl <- is_payload ts ;;
  if negb pl then Ok p else
  off <- get_payload_offset m ts ;;
  let ts_offset := N.to_nat off in
  if (188 <=? ts_offset)%nat then Ok (psi_clear p) else
  cc <- get_cc ts ;;
  pusi <- is_pusi ts ;;
  if pusi then
    pf <- get ts ts_offset ;;
    let pointer_field := N.to_nat pf in
    if (183 <=? pointer_field)%nat then Ok (psi_clear p) else
    let ts_offset := S ts_offset in
    restart <- (if (pointer_field =? 0)%nat then Ok true else cc_breaks m p cc) ;;
    let p := if restart : bool then psi_clear p else p in
    p <- (match p_buffer p with
          | [] =>
            pay <- slice ts (ts_offset + pointer_field) 188 ;;
            p <- psi_push p pay ;;
            Ok (if (negb (p_size p =? 0) && (p_size p <? length (p_buffer p)))%nat
                then with_buffer p (resize (p_buffer p) (p_size p) 0) else p)
          | _ =>
            let p := if (negb (p_size p =? 0) && (p_size p <? length (p_buffer p)))%nat
                     then mkPsi (skipn (p_size p) (p_buffer p)) 0 (p_pid p) (p_cc p) else p in
            pay <- slice ts ts_offset 188 ;;
            psi_push p pay
          end) ;;
    Ok (with_cc p cc)
  else
    brk <- cc_breaks m p cc ;;
    if brk : bool then Ok (psi_clear p) else
    pay <- slice ts ts_offset 188 ;;
    p <- psi_push p pay ;;
    let p := if (p_size p <? length (p_buffer p))%nat
             then with_buffer p (resize (p_buffer p) (p_size p) 0) else p in
    Ok (with_cc p cc).

(** psi/mod.rs:159-162 *)
Definition psi_get_crc32 (p : psi) : res N :=
  skip <- sub_idx (p_size p) 4 ;; get_u32_at (p_buffer p) skip.

(** psi/mod.rs:166-169 *)
Definition psi_calc_crc32 (p : psi) : res N :=
  size <- sub_idx (p_size p) 4 ;; b <- slice (p_buffer p) 0 size ;; crc32b b.

(** psi/mod.rs:172-174 *)
Definition psi_check_crc32 (p : psi) : res bool :=
  a <- psi_get_crc32 p ;; b <- psi_calc_crc32 p ;; Ok (a =? b).

(** psi/mod.rs:178-183 *)
Definition psi_check (p : psi) : res bool :=
  if negb (7 <? p_size p)%nat then Ok false else
  if negb (p_size p <=? length (p_buffer p))%nat then Ok false else
  psi_check_crc32 p.

(** PartialEq::eq, psi/mod.rs:63-65 *)
Definition psi_eq (a b : psi) : res bool :=
  if negb (p_size a =? p_size b)%nat then Ok false else
  x <- psi_get_crc32 a ;; y <- psi_get_crc32 b ;; Ok (x =? y).

(** psi/mod.rs:187-199 *)
Definition psi_finalize (p : psi) : res psi :=
  p <- (if (p_size p =? 0)%nat then
          let size := (length (p_buffer p) + 4)%nat in
          let b := resize (p_buffer p) size 0 in
          b1 <- get b 1 ;;
          n <- sub_idx size 3 ;;
          let x := N.lor (shlw U16 (N.land b1 0xF0) 8) (cast U16 (N.of_nat n)) in
          b <- set_u16_at b 1 x ;;
          Ok (mkPsi b size (p_pid p) (p_cc p))
        else Ok p) ;;
  skip <- sub_idx (p_size p) 4 ;;
  h <- slice (p_buffer p) 0 skip ;;
  x <- crc32b h ;;
  b <- set_u32_at (p_buffer p) skip x ;;
  Ok (with_buffer p b).

(** the [while] loop of Psi::demux, psi/mod.rs:222-245; returns dst, dst_skip and the
    counter. Each round copies at least one byte, so [S size] rounds of fuel suffice. *)
Fixpoint demux_loop (fuel : nat) (m : mode) (p : psi) (cc : N) (dst : list N) (psi_skip dst_skip : nat)
  : res (list N * nat * N) :=
  match fuel with
  | O => Hang
  | S fuel' =>
    if (psi_skip <? p_size p)%nat then
      dst <- set dst dst_skip 0x47 ;;
      dst <- on_from dst dst_skip (fun t => set_pid m t (p_pid p)) ;;
      dst <- on_from dst dst_skip set_payload_1 ;;
      dst <- on_from dst dst_skip (fun t => set_cc m t cc) ;;
      c1 <- addw U8 m cc 1 ;;
      let cc := N.land c1 0x0F in
      dst <- (if (psi_skip =? 0)%nat then on_from dst dst_skip set_pusi_1 else Ok dst) ;;
      let hdr_len := if (psi_skip =? 0)%nat then 5%nat else 4%nat in
      let dst_skip := (dst_skip + hdr_len)%nat in
      let cpy_len := Nat.min (p_size p - psi_skip) (188 - hdr_len) in
      let dst_next := (dst_skip + cpy_len)%nat in
      let psi_next := (psi_skip + cpy_len)%nat in
      src <- slice (p_buffer p) psi_skip psi_next ;;
      dst <- copy_from dst dst_skip dst_next src ;;
      demux_loop fuel' m p cc dst psi_next dst_next
    else Ok (dst, dst_skip, cc)
  end.

(** psi/mod.rs:215-252; returns the section (whose counter advanced) and dst *)
Definition psi_demux (m : mode) (p : psi) (dst : list N) : res (psi * list N) :=
  let dst_skip := length dst in
  let ts_count := ((p_size p + 1 + 183) / 184)%nat in
  let dst := resize dst (dst_skip + 188 * ts_count) 0 in
  ' (dst, dst_skip, cc) <- demux_loop (S (p_size p)) m p (p_cc p) dst 0 dst_skip ;;
  remain <- sub_idx (length dst) dst_skip ;;
  dst <- (if (0 <? remain)%nat
          then f <- slice FILL_PACKET 0 remain ;; copy_from dst dst_skip (length dst) f
          else Ok dst) ;;
  Ok (with_cc p cc, dst).

(** PsiDemux::demux, psi/mod.rs:265-282, applied to the list returned by
    psi_list_assemble. The hook PsiDemux::finalize (psi/mod.rs:262) is a no-op that no
    implementor overrides; it is left out. Returns the counter and dst. *)
Fixpoint demux_sections (m : mode) (last pid : N) (n : nat) (l : list psi)
    (cc : N) (dst : list N) : res (N * list N) :=
  match l with
  | [] => Ok (cc, dst)
  | p :: l' =>
    b <- set (p_buffer p) 6 (cast U8 (N.of_nat n)) ;;
    b <- set b 7 last ;;
    p <- psi_finalize (with_buffer p b) ;;
    ' (p, dst) <- psi_demux m (with_cc (with_pid p pid) cc) dst ;;
    demux_sections m last pid (S n) l' (p_cc p) dst
  end.
Definition demux_table (m : mode) (l : list psi) (pid cc : N) (dst : list N) : res (N * list N) :=
  match l with
  | [] => Ok (cc, dst)
  | _ => demux_sections m (cast U8 (N.of_nat (length l - 1))) pid 0 l cc dst
  end.

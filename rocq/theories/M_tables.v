(** Model of src/psi/pat.rs, pmt.rs, nit.rs, sdt.rs, eit.rs, tdt.rs and tot.rs.
    [&mut self] methods return the new value. usize sums are exact. The [From<&Psi>]
    implementations are [parse] applied to the default value. *)
From Verif Require Import Prelude M_bytes M_utils M_desc M_psi.

(** [&psi.buffer[a .. psi.size - 4]] behind a size check that excludes underflow *)
Definition body_from (p : psi) (a : nat) : res (list N) := slice (p_buffer p) a (p_size p - 4).

(** the [while] loop of Pmt::parse (pmt.rs:145-152), Nit::parse (nit.rs:113-120), Sdt::parse
    (sdt.rs:118-125) and Eit::parse (eit.rs:144-151): items with a header of [h] bytes whose
    last two bytes hold the length of the rest. The four loops differ in [h] and in the item
    parser only. Fuel bounds the loop. *)
Fixpoint items_loop {A} (fuel : nat) (h : nat) (parse : list N -> res A) (ptr : list N) (skip : nat) (items : list A)
  : res (list A) :=
  match fuel with
  | O => Hang
  | S f =>
    if (skip + h <=? length ptr)%nat then
      v <- get_u16_at ptr (skip + (h - 2)) ;;
      let item_len := (h + N.to_nat (N.land v 0x0FFF))%nat in
      if (length ptr <? skip + item_len)%nat then Ok items
      else
        s <- slice ptr skip (skip + item_len) ;;
        i <- parse s ;;
        items_loop f h parse ptr (skip + item_len) (items ++ [i])
    else Ok items
  end.
Definition parse_items {A} (h : nat) (parse : list N -> res A) (ptr : list N) (items : list A) : res (list A) :=
  items_loop (S (length ptr)) h parse ptr 0 items.

(** the item loop of psi_list_assemble of Pmt (pmt.rs:174-187), Nit (nit.rs:145-158) and Sdt
    (sdt.rs:143-156): the vector psi_list is [done ++ [cur]]. [limit] is the *_SECTION_SIZE *)
Fixpoint pack {A} (limit : nat) (size : A -> nat) (assemble : A -> list N -> res (list N)) (init : res psi)
    (items : list A) (done : list psi) (cur : psi) : res (list psi) :=
  match items with
  | [] => Ok (done ++ [cur])
  | i :: r =>
    if (length (p_buffer cur) + size i <=? limit)%nat then
      b <- assemble i (p_buffer cur) ;; pack limit size assemble init r done (with_buffer cur b)
    else
      n <- init ;; b <- assemble i (p_buffer n) ;;
      pack limit size assemble init r (done ++ [cur]) (with_buffer n b)
  end.

(** [(buffer[5] & 0x3E) >> 1] *)
Definition version_of (b : list N) : res N := v <- get b 5 ;; Ok (N.shiftr (N.land v 0x3E) 1).

(** PAT_SECTION_SIZE, PMT_.., NIT_.., SDT_..: pat.rs:22, pmt.rs:20, nit.rs:22, sdt.rs:22 *)
Definition SECTION_SIZE : nat := N.to_nat (1024 - 4).

(** ** PAT *)
(** pat.rs:27-32 *)
Record pat_item := mkPatI { pati_pnr : N; pati_pid : N }.
(** pat.rs:62-69 *)
Record pat := mkPat { pat_version : N; pat_tsid : N; pat_items : list pat_item }.
(** derive(Default), pat.rs:61 *)
Definition pat_default : pat := mkPat 0 0 [].
(** pat.rs:36-43 *)
Definition pat_item_parse (s : list N) : res pat_item :=
  a <- get_u16_at s 0 ;; b <- get_u16_at s 2 ;; Ok (mkPatI a (N.land b 0x1FFF)).
(** pat.rs:45-50 *)
Definition pat_item_assemble (i : pat_item) (b : list N) : res (list N) :=
  let skip := length b in
  let b := resize b (skip + 4) 0 in
  b <- set_u16_at b skip (pati_pnr i) ;;
  set_u16_at b (skip + 2) (N.lor 0xE000 (pati_pid i)).
(** pat.rs:53-55 *)
Definition pat_item_size (i : pat_item) : nat := 4.
(** pat.rs:74-80 *)
Definition pat_check (p : psi) : res bool :=
  if negb (12 <=? p_size p)%nat then Ok false else
  b <- get (p_buffer p) 0 ;;
  if negb (b =? 0x00) then Ok false else psi_check p.
(** pat.rs:92-96 *)
Fixpoint pat_loop (fuel : nat) (ptr : list N) (skip : nat) (items : list pat_item) : res (list pat_item) :=
  match fuel with
  | O => Hang
  | S f =>
    if (skip + 4 <=? length ptr)%nat then
      s <- slice ptr skip (skip + 4) ;;
      i <- pat_item_parse s ;;
      pat_loop f ptr (skip + 4) (items ++ [i])
    else Ok items
  end.
(** pat.rs:83-97 *)
Definition pat_parse (m : mode) (t : pat) (p : psi) : res pat :=
  c <- pat_check p ;;
  if negb c then Ok t else
  tsid <- get_u16_at (p_buffer p) 3 ;;
  version <- version_of (p_buffer p) ;;
  ptr <- body_from p 8 ;;
  items <- pat_loop (S (length ptr)) ptr 0 (pat_items t) ;;
  Ok (mkPat version tsid items).
(** pat.rs:106-111 *)
Fixpoint pat_fill (items : list pat_item) (b : list N) : res (list N) :=
  match items with
  | [] => Ok b
  | i :: r =>
    if (SECTION_SIZE <? length b + pat_item_size i)%nat then Ok b
    else b <- pat_item_assemble i b ;; pat_fill r b
  end.
(** pat.rs:102-114 *)
Definition pat_sections (m : mode) (t : pat) : res (list psi) :=
  p <- psi_new m 0x00 8 (pat_version t) ;;
  b <- set_u16_at (p_buffer p) 3 (pat_tsid t) ;;
  b <- pat_fill (pat_items t) b ;;
  Ok [with_buffer p b].
(** PsiDemux::demux (psi/mod.rs:265-282) for Pat *)
Definition pat_demux (m : mode) (t : pat) (pid cc : N) (dst : list N) : res (N * list N) :=
  l <- pat_sections m t ;; demux_table m l pid cc dst.

(** ** PMT *)
(** pmt.rs:25-34 *)
Record pmt_item := mkPmtI { pmti_type : N; pmti_pid : N; pmti_descs : list desc }.
(** pmt.rs:109-120 *)
Record pmt := mkPmt { pmt_version : N; pmt_pnr : N; pmt_pcr : N; pmt_descs : list desc; pmt_items : list pmt_item }.
(** derive(Default), pmt.rs:108 *)
Definition pmt_default : pmt := mkPmt 0 0 0 [] [].
(** pmt.rs:38-47 *)
Definition pmt_item_parse (m : mode) (s : list N) : res pmt_item :=
  t <- get s 0 ;; pid <- get_u16_at s 1 ;;
  d <- slice_from s 5 ;; ds <- descs_parse m [] d ;;
  Ok (mkPmtI t (N.land pid 0x1FFF) ds).
(** pmt.rs:49-58 *)
Definition pmt_item_assemble (m : mode) (i : pmt_item) (b : list N) : res (list N) :=
  let skip := length b in
  let b := resize b (skip + 5) 0 in
  b <- set b skip (pmti_type i) ;;
  b <- set_u16_at b (skip + 1) (N.lor 0xE000 (pmti_pid i)) ;;
  ' (b, n) <- descs_assemble m (pmti_descs i) b ;;
  set_u16_at b (skip + 3) (N.lor 0xF000 (cast U16 (N.of_nat n))).
(** pmt.rs:61-63 *)
Definition pmt_item_size (i : pmt_item) : nat := 5 + descs_size (pmti_descs i).
(** pmt.rs:125-129 *)
Definition pmt_check (p : psi) : res bool :=
  if negb (16 <=? p_size p)%nat then Ok false else
  b <- get (p_buffer p) 0 ;;
  if negb (b =? 0x02) then Ok false else psi_check p.
(** pmt.rs:131-153 *)
Definition pmt_parse (m : mode) (t : pmt) (p : psi) : res pmt :=
  c <- pmt_check p ;;
  if negb c then Ok t else
  pnr <- get_u16_at (p_buffer p) 3 ;;
  version <- version_of (p_buffer p) ;;
  pcr <- get_u16_at (p_buffer p) 8 ;;
  n <- get_u16_at (p_buffer p) 10 ;;
  let descriptors_len := N.to_nat (N.land n 0x0FFF) in
  d <- slice (p_buffer p) 11 (11 + descriptors_len) ;;
  ds <- descs_parse m (pmt_descs t) d ;;
  ptr <- body_from p (12 + descriptors_len) ;;
  items <- parse_items 5 (pmt_item_parse m) ptr (pmt_items t) ;;
  Ok (mkPmt version pnr (N.land pcr 0x1FFF) ds items).
(** pmt.rs:155-166 *)
Definition pmt_init (m : mode) (t : pmt) (first : bool) : res psi :=
  p <- psi_new m 0x02 12 (pmt_version t) ;;
  b <- set_u16_at (p_buffer p) 3 (pmt_pnr t) ;;
  b <- set_u16_at b 8 (N.lor 0xE000 (pmt_pcr t)) ;;
  b <- (if first then
          ' (b, n) <- descs_assemble m (pmt_descs t) b ;;
          set_u16_at b 10 (N.lor 0xF000 (cast U16 (N.of_nat n)))
        else set b 10 0xF0) ;;
  Ok (with_buffer p b).
(** pmt.rs:171-189 *)
Definition pmt_sections (m : mode) (t : pmt) : res (list psi) :=
  p <- pmt_init m t true ;;
  pack SECTION_SIZE pmt_item_size (pmt_item_assemble m) (pmt_init m t false) (pmt_items t) [] p.
(** PsiDemux::demux (psi/mod.rs:265-282) for Pmt *)
Definition pmt_demux (m : mode) (t : pmt) (pid cc : N) (dst : list N) : res (N * list N) :=
  l <- pmt_sections m t ;; demux_table m l pid cc dst.

(** es/mod.rs:14-41 *)
Inductive stream_type := VIDEO | AUDIO | AIT | SUB | TTX | DATA.
(** the loop of pmt.rs:80-84 *)
Fixpoint type_05 (ds : list desc) : stream_type :=
  match ds with [] => DATA | d :: r => if desc_tag d =? 0x6F then AIT else type_05 r end.
(** the loop of pmt.rs:88-97 *)
Fixpoint type_06 (ds : list desc) : stream_type :=
  match ds with
  | [] => DATA
  | d :: r =>
    match desc_tag d with
    | 0x56 => TTX | 0x59 => SUB | 0x6A => AUDIO | 0x7A => AUDIO | 0x81 => AUDIO
    | _ => type_06 r
    end
  end.
(** pmt.rs:65-102 *)
Definition get_stream_type (i : pmt_item) : stream_type :=
  match pmti_type i with
  | 0x01 => VIDEO | 0x02 => VIDEO | 0x10 => VIDEO | 0x1B => VIDEO | 0x24 => VIDEO
  | 0x03 => AUDIO | 0x04 => AUDIO | 0x0F => AUDIO | 0x11 => AUDIO
  | 0x05 => type_05 (pmti_descs i)
  | 0x06 => type_06 (pmti_descs i)
  | _ => DATA
  end.

(** ** NIT *)
(** nit.rs:27-35 *)
Record nit_item := mkNitI { niti_tsid : N; niti_onid : N; niti_descs : list desc }.
(** nit.rs:74-88 *)
Record nit := mkNit { nit_table : N; nit_version : N; nit_network : N; nit_descs : list desc; nit_items : list nit_item }.
(** derive(Default), nit.rs:73 *)
Definition nit_default : nit := mkNit 0 0 0 [] [].
(** nit.rs:39-48 *)
Definition nit_item_parse (m : mode) (s : list N) : res nit_item :=
  a <- get_u16_at s 0 ;; b <- get_u16_at s 2 ;;
  d <- slice_from s 6 ;; ds <- descs_parse m [] d ;;
  Ok (mkNitI a b ds).
(** nit.rs:50-59 *)
Definition nit_item_assemble (m : mode) (i : nit_item) (b : list N) : res (list N) :=
  let skip := length b in
  let b := resize b (skip + 6) 0 in
  b <- set_u16_at b skip (niti_tsid i) ;;
  b <- set_u16_at b (skip + 2) (niti_onid i) ;;
  ' (b, n) <- descs_assemble m (niti_descs i) b ;;
  set_u16_at b (skip + 4) (N.lor 0xF000 (cast U16 (N.of_nat n))).
(** nit.rs:62-64 *)
Definition nit_item_size (i : nit_item) : nat := 6 + descs_size (niti_descs i).
(** nit.rs:93-97 *)
Definition nit_check (p : psi) : res bool :=
  if negb (16 <=? p_size p)%nat then Ok false else
  b <- get (p_buffer p) 0 ;;
  if negb (N.land b 0xFE =? 0x40) then Ok false else psi_check p.
(** nit.rs:99-121 *)
Definition nit_parse (m : mode) (t : nit) (p : psi) : res nit :=
  c <- nit_check p ;;
  if negb c then Ok t else
  table <- get (p_buffer p) 0 ;;
  network <- get_u16_at (p_buffer p) 3 ;;
  version <- version_of (p_buffer p) ;;
  n <- get_u16_at (p_buffer p) 8 ;;
  let descriptors_len := N.to_nat (N.land n 0x0FFF) in
  d <- slice (p_buffer p) 10 (10 + descriptors_len) ;;
  ds <- descs_parse m (nit_descs t) d ;;
  ptr <- body_from p (12 + descriptors_len) ;;
  items <- parse_items 6 (nit_item_parse m) ptr (nit_items t) ;;
  Ok (mkNit table version network ds items).
(** nit.rs:123-137 *)
Definition nit_init (m : mode) (t : nit) (first : bool) : res psi :=
  p <- psi_new m (nit_table t) 10 (nit_version t) ;;
  b <- set (p_buffer p) 1 0xF0 ;;
  b <- set_u16_at b 3 (nit_network t) ;;
  b <- (if first then
          ' (b, n) <- descs_assemble m (nit_descs t) b ;;
          set_u16_at b 8 (N.lor 0xF000 (cast U16 (N.of_nat n)))
        else set b 8 0xF0) ;;
  Ok (with_buffer p ((b ++ [0x00]) ++ [0x00])).
(** nit.rs:159-164, one section *)
Definition nit_close (m : mode) (p : psi) : res psi :=
  n <- get_u16_at (p_buffer p) 8 ;;
  let descriptors_len := N.to_nat (N.land n 0x0FFF) in
  l <- subw U64 m (N.of_nat (length (p_buffer p))) 12 ;;
  l <- subw U64 m l (N.of_nat descriptors_len) ;;
  b <- set_u16_at (p_buffer p) (10 + descriptors_len) (N.lor 0xF000 (cast U16 l)) ;;
  Ok (with_buffer p b).
Fixpoint nit_close_all (m : mode) (l : list psi) : res (list psi) :=
  match l with [] => Ok [] | p :: r => p <- nit_close m p ;; r <- nit_close_all m r ;; Ok (p :: r) end.
(** nit.rs:142-167 *)
Definition nit_sections (m : mode) (t : nit) : res (list psi) :=
  p <- nit_init m t true ;;
  l <- pack SECTION_SIZE nit_item_size (nit_item_assemble m) (nit_init m t false) (nit_items t) [] p ;;
  nit_close_all m l.
(** PsiDemux::demux (psi/mod.rs:265-282) for Nit *)
Definition nit_demux (m : mode) (t : nit) (pid cc : N) (dst : list N) : res (N * list N) :=
  l <- nit_sections m t ;; demux_table m l pid cc dst.

(** ** SDT *)
(** sdt.rs:27-40 *)
Record sdt_item := mkSdtI { sdti_pnr : N; sdti_sched : N; sdti_pf : N; sdti_status : N; sdti_ca : N; sdti_descs : list desc }.
(** sdt.rs:82-95 *)
Record sdt := mkSdt { sdt_table : N; sdt_version : N; sdt_tsid : N; sdt_onid : N; sdt_items : list sdt_item }.
(** derive(Default), sdt.rs:81 *)
Definition sdt_default : sdt := mkSdt 0 0 0 0 [].
(** sdt.rs:44-56 *)
Definition sdt_item_parse (m : mode) (s : list N) : res sdt_item :=
  pnr <- get_u16_at s 0 ;; b2 <- get s 2 ;; b3 <- get s 3 ;;
  d <- slice_from s 5 ;; ds <- descs_parse m [] d ;;
  Ok (mkSdtI pnr (N.land (N.shiftr b2 1) 0x01) (N.land b2 0x01) (N.land (N.shiftr b3 5) 0x07)
        (N.land (N.shiftr b3 4) 0x01) ds).
(** sdt.rs:58-68 *)
Definition sdt_item_assemble (m : mode) (i : sdt_item) (b : list N) : res (list N) :=
  let skip := length b in
  let b := resize b (skip + 5) 0 in
  b <- set_u16_at b skip (sdti_pnr i) ;;
  b <- set b (skip + 2) (N.lor (N.lor 0xFC (shlw U8 (sdti_sched i) 1)) (sdti_pf i)) ;;
  let flags_3 := N.lor (shlw U8 (sdti_status i) 5) (shlw U8 (sdti_ca i) 4) in
  ' (b, n) <- descs_assemble m (sdti_descs i) b ;;
  set_u16_at b (skip + 3) (N.lor (shlw U16 flags_3 8) (cast U16 (N.of_nat n))).
(** sdt.rs:71-73 *)
Definition sdt_item_size (i : sdt_item) : nat := 5 + descs_size (sdti_descs i).
(** sdt.rs:100-104 *)
Definition sdt_check (p : psi) : res bool :=
  if negb (15 <=? p_size p)%nat then Ok false else
  b <- get (p_buffer p) 0 ;;
  if negb (N.land b 0xFB =? 0x42) then Ok false else psi_check p.
(** sdt.rs:106-126 *)
Definition sdt_parse (m : mode) (t : sdt) (p : psi) : res sdt :=
  c <- sdt_check p ;;
  if negb c then Ok t else
  table <- get (p_buffer p) 0 ;;
  tsid <- get_u16_at (p_buffer p) 3 ;;
  version <- version_of (p_buffer p) ;;
  onid <- get_u16_at (p_buffer p) 8 ;;
  ptr <- body_from p 11 ;;
  items <- parse_items 5 (sdt_item_parse m) ptr (sdt_items t) ;;
  Ok (mkSdt table version tsid onid items).
(** sdt.rs:128-135 *)
Definition sdt_init (m : mode) (t : sdt) : res psi :=
  p <- psi_new m (sdt_table t) 11 (sdt_version t) ;;
  b <- set (p_buffer p) 1 0xF0 ;;
  b <- set_u16_at b 3 (sdt_tsid t) ;;
  b <- set_u16_at b 8 (sdt_onid t) ;;
  b <- set b 10 0xFF ;;
  Ok (with_buffer p b).
(** sdt.rs:140-158 *)
Definition sdt_sections (m : mode) (t : sdt) : res (list psi) :=
  p <- sdt_init m t ;;
  pack SECTION_SIZE sdt_item_size (sdt_item_assemble m) (sdt_init m t) (sdt_items t) [] p.
(** PsiDemux::demux (psi/mod.rs:265-282) for Sdt *)
Definition sdt_demux (m : mode) (t : sdt) (pid cc : N) (dst : list N) : res (N * list N) :=
  l <- sdt_sections m t ;; demux_table m l pid cc dst.

(** ** EIT *)
(** EIT_SECTION_SIZE, eit.rs:25 *)
Definition EIT_SECTION_SIZE : nat := N.to_nat (4096 - 4).
(** eit.rs:30-49 *)
Record eit_item := mkEitI { eiti_id : N; eiti_start : N; eiti_duration : N; eiti_status : N; eiti_ca : N; eiti_descs : list desc }.
(** eit.rs:94-111 *)
Record eit := mkEit { eit_table : N; eit_version : N; eit_pnr : N; eit_tsid : N; eit_onid : N; eit_items : list eit_item }.
(** derive(Default), eit.rs:93 *)
Definition eit_default : eit := mkEit 0 0 0 0 0 [].
(** eit.rs:53-66 *)
Definition eit_item_parse (m : mode) (s : list N) : res eit_item :=
  id <- get_u16_at s 0 ;;
  d <- get_u16_at s 2 ;; d <- from_mjd m d ;;
  t <- get_u24_at s 4 ;; t <- u32_from_bcd_time m t ;;
  start <- addw U64 m d t ;;
  u <- get_u24_at s 7 ;; u <- u32_from_bcd_time m u ;;
  b <- get s 10 ;;
  d <- slice_from s 12 ;; ds <- descs_parse m [] d ;;
  Ok (mkEitI id start u (N.land (N.shiftr b 5) 0x07) (N.land (N.shiftr b 4) 0x01) ds).
(** eit.rs:68-82; set_bits! is bits.rs:9-21 *)
Definition eit_item_assemble (m : mode) (i : eit_item) (b : list N) : res (list N) :=
  let skip := length b in
  let b := resize b (skip + 12) 0 in
  b <- set_u16_at b skip (eiti_id i) ;;
  d <- to_mjd m (eiti_start i) ;;
  b <- set_u16_at b (skip + 2) d ;;
  t <- u32_to_bcd_time m (cast U32 (eiti_start i)) ;;
  b <- set_u24_at b (skip + 4) t ;;
  u <- u32_to_bcd_time m (eiti_duration i) ;;
  b <- set_u24_at b (skip + 7) u ;;
  let flags_10 := N.lor (shlw U8 (eiti_status i) 5) (shlw U8 (eiti_ca i) 4) in
  ' (b, n) <- descs_assemble m (eiti_descs i) b ;;
  set_u16_at b (skip + 10) (N.lor (shlw U16 flags_10 8) (cast U16 (N.of_nat n))).
(** eit.rs:85-87 *)
Definition eit_item_size (i : eit_item) : nat := 12 + descs_size (eiti_descs i).
(** eit.rs:116-128 *)
Definition eit_check (p : psi) : res bool :=
  if negb (18 <=? p_size p)%nat then Ok false else
  b <- get (p_buffer p) 0 ;;
  if negb ((b =? 0x4E) || (b =? 0x4F) || ((0x50 <=? b) && (b <=? 0x5F)) || ((0x60 <=? b) && (b <=? 0x6F)))
  then Ok false else psi_check p.
(** eit.rs:131-152 *)
Definition eit_parse (m : mode) (t : eit) (p : psi) : res eit :=
  c <- eit_check p ;;
  if negb c then Ok t else
  table <- get (p_buffer p) 0 ;;
  pnr <- get_u16_at (p_buffer p) 3 ;;
  version <- version_of (p_buffer p) ;;
  tsid <- get_u16_at (p_buffer p) 8 ;;
  onid <- get_u16_at (p_buffer p) 10 ;;
  ptr <- body_from p 14 ;;
  items <- parse_items 12 (eit_item_parse m) ptr (eit_items t) ;;
  Ok (mkEit table version pnr tsid onid items).
(** eit.rs:154-161 *)
Definition eit_init (m : mode) (t : eit) : res psi :=
  p <- psi_new m (eit_table t) 14 (eit_version t) ;;
  b <- set (p_buffer p) 1 0xF0 ;;
  b <- set_u16_at b 3 (eit_pnr t) ;;
  b <- set_u16_at b 8 (eit_tsid t) ;;
  b <- set_u16_at b 10 (eit_onid t) ;;
  Ok (with_buffer p b).
(** present/following, eit.rs:175-192: [n] counts the items *)
Fixpoint eit_pf (m : mode) (t : eit) (last : N) (n : nat) (items : list eit_item) : res (list psi) :=
  match items with
  | [] => Ok []
  | i :: r =>
    p <- eit_init m t ;;
    b <- set (p_buffer p) 6 (cast U8 (N.of_nat n)) ;;
    b <- set b 7 last ;;
    b <- set b 12 last ;;
    b <- set b 13 (eit_table t) ;;
    b <- eit_item_assemble m i b ;;
    p <- psi_finalize (with_buffer p b) ;;
    l <- eit_pf m t last (S n) r ;;
    Ok (p :: l)
  end.
(** eit.rs:197-198 *)
Definition DAY_DURATION : N := 24 * 60 * 60.
Definition SEG_DURATION : N := 3 * 60 * 60.
(** the loop of eit.rs:228-235, [n] rounds; returns the sections pushed, midnight and
    current_section. The section [p] is cloned, so each round sets bytes of the same [p] *)
Fixpoint eit_blank (m : mode) (n : nat) (table : N) (p : psi) (midnight section : N) : res (list psi * N * N) :=
  match n with
  | O => Ok ([], midnight, section)
  | S n' =>
    b <- set (p_buffer p) 0 table ;;
    b <- set b 6 section ;;
    let p := with_buffer p b in
    midnight <- addw U64 m midnight SEG_DURATION ;;
    section <- addw U8 m section 8 ;;
    ' (l, midnight, section) <- eit_blank m n' table p midnight section ;;
    Ok (p :: l, midnight, section)
  end.
(** a new section with one item, eit.rs:261-265 and 272-276 *)
Definition eit_open (m : mode) (t : eit) (table section : N) (i : eit_item) : res psi :=
  p <- eit_init m t ;;
  b <- set (p_buffer p) 0 table ;;
  b <- set b 6 section ;;
  b <- eit_item_assemble m i b ;;
  Ok (with_buffer p b).
(** the loop of eit.rs:246-281; psi_list is [done ++ [cur]] *)
Fixpoint eit_fill (m : mode) (t : eit) (items : list eit_item) (next table section : N) (done : list psi) (cur : psi)
  : res (list psi) :=
  match items with
  | [] => Ok (done ++ [cur])
  | i :: r =>
    if next <=? eiti_start i then
      next <- addw U64 m next SEG_DURATION ;;
      let section := section / 8 * 8 in
      ' (section, table) <- (if section =? 248 then (t' <- addw U8 m table 1 ;; Ok (0, t'))
                             else (s' <- addw U8 m section 8 ;; Ok (s', table))) ;;
      p <- eit_open m t table section i ;;
      eit_fill m t r next table section (done ++ [cur]) p
    else if (EIT_SECTION_SIZE <=? eit_item_size i + length (p_buffer cur))%nat then
      section <- addw U8 m section 1 ;;
      p <- eit_open m t table section i ;;
      eit_fill m t r next table section (done ++ [cur]) p
    else
      b <- eit_item_assemble m i (p_buffer cur) ;;
      eit_fill m t r next table section done (with_buffer cur b)
  end.
(** the loop of eit.rs:289-303 over the reversed list; the result is in list order *)
Fixpoint eit_close (last_table : N) (rl : list psi) (table last : N) (acc : list psi) : res (list psi) :=
  match rl with
  | [] => Ok acc
  | p :: r =>
    b0 <- get (p_buffer p) 0 ;;
    b6 <- get (p_buffer p) 6 ;;
    let last := if negb (b0 =? table) then b6 else last in
    let table := if negb (b0 =? table) then b0 else table in
    b <- set (p_buffer p) 7 last ;;
    s <- get b 6 ;;
    b <- set b 12 s ;;
    b <- set b 13 last_table ;;
    p <- psi_finalize (with_buffer p b) ;;
    eit_close last_table r table last (p :: acc)
  end.
(** schedule, eit.rs:197-305 *)
Definition eit_schedule (m : mode) (t : eit) (first : eit_item) (items : list eit_item) : res (list psi) :=
  let table := N.land (eit_table t) 0xF0 in
  let midnight := eiti_start first / DAY_DURATION * DAY_DURATION in
  service <- subw U64 m (eiti_start (last items first)) midnight ;;
  last_table <- addw U8 m table (cast U8 (service / SEG_DURATION / 32)) ;;
  p <- eit_init m (mkEit table (eit_version t) (eit_pnr t) (eit_tsid t) (eit_onid t) []) ;;
  let segment := (eiti_start first - midnight) / (3 * 60 * 60) in
  ' (blank, midnight, section) <- eit_blank m (N.to_nat (segment + 1)) table p midnight 0 ;;
  next <- addw U64 m midnight SEG_DURATION ;;
  p <- eit_init m t ;;
  b <- set (p_buffer p) 6 section ;;
  l <- eit_fill m t (first :: items) next table section blank (with_buffer p b) ;;
  eit_close last_table (rev l) 0 0 [].
(** eit.rs:166-306 *)
Definition eit_sections (m : mode) (t : eit) : res (list psi) :=
  match eit_items t with
  | [] => Ok []
  | first :: items =>
    if (eit_table t =? 0x4E) || (eit_table t =? 0x4F)
    then eit_pf m t (cast U8 (N.of_nat (length (eit_items t) - 1))) 0 (eit_items t)
    else eit_schedule m t first items
  end.
(** eit.rs:315-320 *)
Fixpoint eit_send (m : mode) (pid : N) (l : list psi) (cc : N) (dst : list N) : res (N * list N) :=
  match l with
  | [] => Ok (cc, dst)
  | p :: r =>
    ' (p, dst) <- psi_demux m (with_cc (with_pid p pid) cc) dst ;;
    eit_send m pid r (p_cc p) dst
  end.
(** eit.rs:309-321 *)
Definition eit_demux (m : mode) (t : eit) (pid cc : N) (dst : list N) : res (N * list N) :=
  l <- eit_sections m t ;; eit_send m pid l cc dst.

(** ** TDT *)
(** tdt.rs:26-29: a Tdt is its time *)
(** tdt.rs:34-37 *)
Definition tdt_check (p : psi) : res bool :=
  if negb (p_size p =? 8)%nat then Ok false else
  b <- get (p_buffer p) 0 ;; Ok (b =? 0x70).
(** tdt.rs:39-46 *)
Definition tdt_parse (m : mode) (t : N) (p : psi) : res N :=
  c <- tdt_check p ;;
  if negb c then Ok t else
  d <- get_u16_at (p_buffer p) 3 ;; d <- from_mjd m d ;;
  s <- get_u24_at (p_buffer p) 5 ;; s <- u32_from_bcd_time m s ;;
  addw U64 m d s.
(** tdt.rs:51-61 *)
Definition tdt_section (m : mode) (t : N) : res psi :=
  p <- psi_new m 0x70 3 0 ;;
  b <- set (p_buffer p) 1 0x70 ;;
  b <- set b 2 5 ;;
  let b := resize b 8 0 in
  d <- to_mjd m t ;;
  b <- set_u16_at b 3 d ;;
  s <- u32_to_bcd_time m (cast U32 t) ;;
  b <- set_u24_at b 5 s ;;
  Ok (with_buffer p b).
(** tdt.rs:63-71 *)
Definition tdt_demux (m : mode) (t : N) (pid cc : N) (dst : list N) : res (N * list N) :=
  p <- tdt_section m t ;;
  let p := mkPsi (p_buffer p) (length (p_buffer p)) pid cc in
  ' (p, dst) <- psi_demux m p dst ;;
  Ok (p_cc p, dst).

(** ** TOT *)
(** tot.rs:27-32 *)
Record tot := mkTot { tot_time : N; tot_descs : list desc }.
(** derive(Default), tot.rs:26 *)
Definition tot_default : tot := mkTot 0 [].
(** tot.rs:37-41 *)
Definition tot_check (p : psi) : res bool :=
  if negb (14 <=? p_size p)%nat then Ok false else
  b <- get (p_buffer p) 0 ;;
  if negb (b =? 0x73) then Ok false else psi_check p.
(** tot.rs:43-53 *)
Definition tot_parse (m : mode) (t : tot) (p : psi) : res tot :=
  c <- tot_check p ;;
  if negb c then Ok t else
  d <- get_u16_at (p_buffer p) 3 ;; d <- from_mjd m d ;;
  s <- get_u24_at (p_buffer p) 5 ;; s <- u32_from_bcd_time m s ;;
  time <- addw U64 m d s ;;
  n <- get_u16_at (p_buffer p) 8 ;;
  let descriptors_len := N.to_nat (N.land n 0x0FFF) in
  d <- slice (p_buffer p) 10 (10 + descriptors_len) ;;
  ds <- descs_parse m (tot_descs t) d ;;
  Ok (mkTot time ds).
(** tot.rs:58-70 *)
Definition tot_section (m : mode) (t : tot) : res psi :=
  p <- psi_new m 0x73 10 0 ;;
  b <- set (p_buffer p) 1 0x70 ;;
  let b := resize b 10 0 in
  d <- to_mjd m (tot_time t) ;;
  b <- set_u16_at b 3 d ;;
  s <- u32_to_bcd_time m (cast U32 (tot_time t)) ;;
  b <- set_u24_at b 5 s ;;
  ' (b, n) <- descs_assemble m (tot_descs t) b ;;
  b <- set_u16_at b 8 (N.lor 0xF000 (cast U16 (N.of_nat n))) ;;
  Ok (with_buffer p b).
(** tot.rs:72-81 *)
Definition tot_demux (m : mode) (t : tot) (pid cc : N) (dst : list N) : res (N * list N) :=
  p <- tot_section m t ;;
  p <- psi_finalize p ;;
  let p := mkPsi (p_buffer p) (length (p_buffer p)) pid cc in
  ' (p, dst) <- psi_demux m p dst ;;
  Ok (p_cc p, dst).

(** Model of src/psi/descriptors/*.rs. usize sums are exact (sizes are far below 2^64).
    A [Descriptor] (mod.rs:50, a boxed trait object) is one of the fifteen types of this
    crate; implementations of the [Desc] trait outside the crate are not modelled. *)
From Verif Require Import Prelude M_bytes M_utils M_text.

(** raw.rs:13-18 *)
Record d_raw := mkRaw { raw_tag : N; raw_data : list N }.
(** x09.rs:21-29 *)
Record d_09 := mk09 { d09_caid : N; d09_pid : N; d09_data : list N }.
(** x0a.rs:16-19, 27-31 *)
Record d_0Ai := mk0Ai { d0A_code : dvb; d0A_type : N }.
(** x0e.rs:19-24 *)
Record d_0E := mk0E { d0E_bitrate : N }.
(** x41.rs:16-19, 27-30 *)
Record d_41i := mk41i { d41_sid : N; d41_type : N }.
(** x43.rs:23-43 *)
Record d_43 := mk43 { d43_freq : N; d43_orbital : N; d43_we : N; d43_pol : N; d43_rof : N; d43_s2 : N;
                      d43_mod : N; d43_rate : N; d43_fec : N }.
(** x44.rs:23-34 *)
Record d_44 := mk44 { d44_freq : N; d44_outer : N; d44_mod : N; d44_rate : N; d44_fec : N }.
(** x48.rs:20-27 *)
Record d_48 := mk48 { d48_type : N; d48_provider : dvb; d48_name : dvb }.
(** x4d.rs:20-27 *)
Record d_4D := mk4D { d4D_lang : dvb; d4D_name : dvb; d4D_text : dvb }.
(** x4e.rs:29-35 *)
Record d_4E := mk4E { d4E_num : N; d4E_last : N; d4E_lang : dvb; d4E_items : list (dvb * dvb); d4E_text : dvb }.
(** x58.rs:25-32, 40-42 *)
Record d_58i := mk58i { d58_code : dvb; d58_region : N; d58_pol : N; d58_offset : N; d58_time : N; d58_next : N }.
(** x5a.rs:19-53 *)
Record d_5A := mk5A { d5A_freq : N; d5A_bw : N; d5A_prio : N; d5A_ts : N; d5A_fec : N; d5A_mod : N; d5A_hier : N;
                      d5A_hp : N; d5A_lp : N; d5A_guard : N; d5A_trans : N; d5A_other : N }.
(** x83.rs:16-20, 27-30 *)
Record d_83i := mk83i { d83_sid : N; d83_visible : N; d83_lcn : N }.

(** mod.rs:50: what the box can hold. Desc40 (x40.rs:19-22) is its name, Desc52
    (x52.rs:20-24) its tag, Desc0A/41/58/83 their item lists. *)
Inductive desc :=
| D09 (d : d_09) | D0A (items : list d_0Ai) | D0E (d : d_0E) | D40 (name : dvb) | D41 (items : list d_41i)
| D43 (d : d_43) | D44 (d : d_44) | D48 (d : d_48) | D4D (d : d_4D) | D4E (d : d_4E)
| D52 (tag : N) | D58 (items : list d_58i) | D5A (d : d_5A) | D83 (items : list d_83i) | DRaw (d : d_raw).

(** the [tag] method of every type: raw.rs:38-40 and "fn tag" of x*.rs *)
Definition desc_tag (d : desc) : N :=
  match d with
  | D09 _ => 0x09 | D0A _ => 0x0A | D0E _ => 0x0E | D40 _ => 0x40 | D41 _ => 0x41 | D43 _ => 0x43 | D44 _ => 0x44
  | D48 _ => 0x48 | D4D _ => 0x4D | D4E _ => 0x4E | D52 _ => 0x52 | D58 _ => 0x58 | D5A _ => 0x5A | D83 _ => 0x83
  | DRaw d => raw_tag d
  end.

(** the item sizes summed by Desc4E::size, x4e.rs:89-92 *)
Fixpoint size_4E_items (l : list (dvb * dvb)) : nat :=
  match l with [] => 0 | (a, b) :: r => dvb_size a + dvb_size b + size_4E_items r end.

(** the [size] method of every type: raw.rs:43-45, x09.rs:54-56, x0a.rs:65-67, x0e.rs:47-49,
    x40.rs:45-47, x41.rs:63-65, x43.rs:74-76, x44.rs:61-63, x48.rs:63-65, x4d.rs:63-65,
    x4e.rs:88-94, x52.rs:47-49, x58.rs:87, x5a.rs:87-89, x83.rs:66-68 *)
Definition desc_size (d : desc) : nat :=
  match d with
  | D09 d => 6 + length (d09_data d)
  | D0A items => 2 + length items * 4
  | D0E _ => 5
  | D40 name => 2 + dvb_size name
  | D41 items => 2 + length items * 3
  | D43 _ => 13
  | D44 _ => 13
  | D48 d => 5 + dvb_size (d48_provider d) + dvb_size (d48_name d)
  | D4D d => 7 + dvb_size (d4D_name d) + dvb_size (d4D_text d)
  | D4E d => 8 + size_4E_items (d4E_items d) + dvb_size (d4E_text d)
  | D52 _ => 3
  | D58 items => 2 + length items * 13
  | D5A _ => 13
  | D83 items => 2 + length items * 4
  | DRaw d => 2 + length (raw_data d)
  end.

(** [(self.size() - 2) as u8] *)
Definition len_byte (size : nat) : N := cast U8 (N.of_nat (size - 2)).

(** ** parse *)
(** raw.rs:22-32 *)
Definition raw_parse (s : list N) : res d_raw :=
  t <- get s 0 ;; n <- get s 1 ;;
  data <- slice s 2 (2 + N.to_nat n) ;;
  Ok (mkRaw t data).

(** x09.rs:33-35 *)
Definition x09_check (s : list N) : bool := (6 <=? length s)%nat.
(** x09.rs:37-43 *)
Definition x09_parse (s : list N) : res d_09 :=
  caid <- get_u16_at s 2 ;; pid <- get_u16_at s 4 ;; data <- slice_from s 6 ;;
  Ok (mk09 caid (N.land pid 0x1FFF) data).

(** x0a.rs:35-38 *)
Definition x0A_check (s : list N) : bool := (2 <=? length s)%nat && (((length s - 2) mod 4) =? 0)%nat.
(** x0a.rs:40-54; fuel bounds the loop *)
Fixpoint x0A_loop (fuel : nat) (m : mode) (s : list N) (skip : nat) : res (list d_0Ai) :=
  match fuel with
  | O => Hang
  | S f =>
    if (skip <? length s)%nat then
      c <- slice s skip (skip + 3) ;; code <- dvb_from m c ;; t <- get s (skip + 3) ;;
      r <- x0A_loop f m s (skip + 4) ;; Ok (mk0Ai code t :: r)
    else Ok []
  end.
Definition x0A_parse (m : mode) (s : list N) : res (list d_0Ai) := x0A_loop (S (length s)) m s 2.

(** x0e.rs:28-30 *)
Definition x0E_check (s : list N) : bool := (length s =? 5)%nat.
(** x0e.rs:32-36 *)
Definition x0E_parse (s : list N) : res d_0E := b <- get_u24_at s 2 ;; Ok (mk0E (N.land b 0x003FFFFF)).

(** x40.rs:26-28 *)
Definition x40_check (s : list N) : bool := (2 <=? length s)%nat.
(** x40.rs:30-34 *)
Definition x40_parse (m : mode) (s : list N) : res dvb := t <- slice_from s 2 ;; dvb_from m t.

(** x41.rs:34-37 *)
Definition x41_check (s : list N) : bool := (2 <=? length s)%nat && (((length s - 2) mod 3) =? 0)%nat.
(** x41.rs:39-52 *)
Fixpoint x41_loop (fuel : nat) (s : list N) (skip : nat) : res (list d_41i) :=
  match fuel with
  | O => Hang
  | S f =>
    if (skip <? length s)%nat then
      i <- get_u16_at s skip ;; t <- get s (skip + 2) ;;
      r <- x41_loop f s (skip + 3) ;; Ok (mk41i i t :: r)
    else Ok []
  end.
Definition x41_parse (s : list N) : res (list d_41i) := x41_loop (S (length s)) s 2.

(** x43.rs:47-49 *)
Definition x43_check (s : list N) : bool := (length s =? 13)%nat.
(** x43.rs:51-63 *)
Definition x43_parse (m : mode) (s : list N) : res d_43 :=
  f <- get_u32_at s 2 ;; f <- u32_from_bcd m f ;; f <- mulw U32 m f 10 ;;
  o <- get_u16_at s 6 ;; o <- u16_from_bcd m o ;; o <- mulw U16 m o 6 ;;
  b <- get s 8 ;;
  r <- get_u24_at s 9 ;; r <- u32_from_bcd m r ;;
  c <- get s 12 ;;
  Ok (mk43 f o (N.shiftr (N.land b 0x80) 7) (N.shiftr (N.land b 0x60) 5) (N.shiftr (N.land b 0x18) 3)
        (N.shiftr (N.land b 0x04) 2) (N.land b 0x03) r (N.land c 0x0F)).

(** x44.rs:38-40 *)
Definition x44_check (s : list N) : bool := (length s =? 13)%nat.
(** x44.rs:42-50 *)
Definition x44_parse (m : mode) (s : list N) : res d_44 :=
  f <- get_u32_at s 2 ;; f <- u32_from_bcd m f ;; f <- mulw U32 m f 100 ;;
  o <- get s 7 ;; md <- get s 8 ;;
  r <- get_u24_at s 9 ;; r <- u32_from_bcd m r ;;
  c <- get s 12 ;;
  Ok (mk44 f (N.land o 0x0F) md r (N.land c 0x0F)).

(** x48.rs:31-40 *)
Definition x48_check (s : list N) : res bool :=
  if (length s <? 5)%nat then Ok false
  else
    p <- get s 3 ;; n <- get s (4 + N.to_nat p) ;; l <- get s 1 ;;
    Ok (N.to_nat l =? 5 - 2 + N.to_nat p + N.to_nat n)%nat.
(** x48.rs:42-53 *)
Definition x48_parse (m : mode) (s : list N) : res d_48 :=
  p <- get s 3 ;; let pe := (4 + N.to_nat p)%nat in
  n <- get s pe ;; let ns := (pe + 1)%nat in let ne := (ns + N.to_nat n)%nat in
  t <- get s 2 ;;
  ps <- slice s 4 pe ;; prov <- dvb_from m ps ;;
  nm <- slice s ns ne ;; name <- dvb_from m nm ;;
  Ok (mk48 t prov name).

(** x4d.rs:31-39 *)
Definition x4D_check (s : list N) : res bool :=
  if (length s <? 7)%nat then Ok false
  else
    a <- get s 5 ;; b <- get s (6 + N.to_nat a) ;; l <- get s 1 ;;
    Ok (N.to_nat l =? 7 - 2 + N.to_nat a + N.to_nat b)%nat.
(** x4d.rs:41-52 *)
Definition x4D_parse (m : mode) (s : list N) : res d_4D :=
  a <- get s 5 ;; let ne := (6 + N.to_nat a)%nat in
  b <- get s ne ;; let ts := (ne + 1)%nat in let te := (ts + N.to_nat b)%nat in
  ls <- slice s 2 5 ;; lang <- dvb_from m ls ;;
  nm <- slice s 6 ne ;; name <- dvb_from m nm ;;
  tx <- slice s ts te ;; text <- dvb_from m tx ;;
  Ok (mk4D lang name text).

(** x4e.rs:39-47 *)
Definition x4E_check (s : list N) : res bool :=
  if (length s <? 8)%nat then Ok false
  else
    a <- get s 6 ;; b <- get s (7 + N.to_nat a) ;; l <- get s 1 ;;
    Ok (N.to_nat l =? 8 - 2 + N.to_nat a + N.to_nat b)%nat.
(** the item loop of Desc4E::parse, x4e.rs:61-74; fuel bounds it *)
Fixpoint x4E_loop (fuel : nat) (m : mode) (s : list N) (is ie : nat) : res (list (dvb * dvb)) :=
  match fuel with
  | O => Hang
  | S f =>
    if (is <? ie)%nat then
      a <- get s is ;; let ds := (is + 1)%nat in let de := (ds + N.to_nat a)%nat in
      b <- get s de ;; let ts := (de + 1)%nat in let te := (ts + N.to_nat b)%nat in
      dd <- slice s ds de ;; x <- dvb_from m dd ;;
      tt <- slice s ts te ;; y <- dvb_from m tt ;;
      r <- x4E_loop f m s te ie ;; Ok ((x, y) :: r)
    else Ok []
  end.
(** x4e.rs:49-77 *)
Definition x4E_parse (m : mode) (s : list N) : res d_4E :=
  a <- get s 6 ;; let ie := (7 + N.to_nat a)%nat in
  b <- get s ie ;; let ts := (ie + 1)%nat in let te := (ts + N.to_nat b)%nat in
  n <- get s 2 ;;
  ls <- slice s 3 6 ;; lang <- dvb_from m ls ;;
  items <- x4E_loop (S (length s)) m s 7 ie ;;
  tx <- slice s ts te ;; text <- dvb_from m tx ;;
  Ok (mk4E (N.shiftr n 4) (N.land n 0x0F) lang items text).

(** x52.rs:28-30 *)
Definition x52_check (s : list N) : bool := (length s =? 3)%nat.
(** x52.rs:32-36 *)
Definition x52_parse (s : list N) : res N := get s 2.

(** x58.rs:46-49 *)
Definition x58_check (s : list N) : bool := (2 <=? length s)%nat && (((length s - 2) mod 13) =? 0)%nat.
(** x58.rs:51-78 *)
Fixpoint x58_loop (fuel : nat) (m : mode) (s : list N) (skip : nat) : res (list d_58i) :=
  match fuel with
  | O => Hang
  | S f =>
    if (skip <? length s)%nat then
      c <- slice s skip (skip + 3) ;; code <- dvb_from m c ;;
      b <- get s (skip + 3) ;;
      o <- get_u16_at s (skip + 4) ;; o <- u16_from_bcd_time m o ;;
      d <- get_u16_at s (skip + 6) ;; d <- from_mjd m d ;;
      t <- get_u24_at s (skip + 8) ;; t <- u32_from_bcd_time m t ;;
      time <- addw U64 m d t ;;
      n <- get_u16_at s (skip + 11) ;; n <- u16_from_bcd_time m n ;;
      r <- x58_loop f m s (skip + 13) ;;
      Ok (mk58i code (N.shiftr b 2) (N.land b 0x01) o time n :: r)
    else Ok []
  end.
Definition x58_parse (m : mode) (s : list N) : res (list d_58i) := x58_loop (S (length s)) m s 2.

(** x5a.rs:57-59 *)
Definition x5A_check (s : list N) : bool := (length s =? 13)%nat.
(** x5a.rs:61-76 *)
Definition x5A_parse (m : mode) (s : list N) : res d_5A :=
  f <- get_u32_at s 2 ;; f <- mulw U32 m f 10 ;;
  b6 <- get s 6 ;; b7 <- get s 7 ;; b8 <- get s 8 ;;
  Ok (mk5A f (N.shiftr (N.land b6 0xE0) 5) (N.shiftr (N.land b6 0x10) 4) (N.shiftr (N.land b6 0x08) 3)
        (N.shiftr (N.land b6 0x04) 2)
        (N.shiftr (N.land b7 0xC0) 6) (N.shiftr (N.land b7 0x38) 3) (N.land b7 0x07)
        (N.shiftr (N.land b8 0xE0) 5) (N.shiftr (N.land b8 0x18) 3) (N.shiftr (N.land b8 0x06) 1) (N.land b8 0x01)).

(** x83.rs:35-38 *)
Definition x83_check (s : list N) : bool := (2 <=? length s)%nat && (((length s - 2) mod 4) =? 0)%nat.
(** x83.rs:40-55 *)
Fixpoint x83_loop (fuel : nat) (s : list N) (skip : nat) : res (list d_83i) :=
  match fuel with
  | O => Hang
  | S f =>
    if (skip + 4 <=? length s)%nat then
      i <- get_u16_at s skip ;; b <- get s (skip + 2) ;; c <- get_u16_at s (skip + 2) ;;
      r <- x83_loop f s (skip + 4) ;;
      Ok (mk83i i (N.shiftr b 7) (N.land c 0x03FF) :: r)
    else Ok []
  end.
Definition x83_parse (s : list N) : res (list d_83i) := x83_loop (S (length s)) s 2.

(** [_ => DescRaw::parse(slice).into()], mod.rs:104 *)
Definition parse_raw (s : list N) : res desc := d <- raw_parse s ;; Ok (DRaw d).
(** [tag if check => parse, .. _ => raw], one arm of mod.rs:89-105 *)
Definition arm {A} (c : bool) (p : list N -> res A) (k : A -> desc) (s : list N) : res desc :=
  if c then x <- p s ;; Ok (k x) else parse_raw s.

(** Descriptor::parse, mod.rs:88-106 *)
Definition desc_parse (m : mode) (s : list N) : res desc :=
  t <- get s 0 ;;
  match t with
  | 0x09 => arm (x09_check s) x09_parse D09 s
  | 0x0A => arm (x0A_check s) (x0A_parse m) D0A s
  | 0x0E => arm (x0E_check s) x0E_parse D0E s
  | 0x40 => arm (x40_check s) (x40_parse m) D40 s
  | 0x41 => arm (x41_check s) x41_parse D41 s
  | 0x43 => arm (x43_check s) (x43_parse m) D43 s
  | 0x44 => arm (x44_check s) (x44_parse m) D44 s
  | 0x48 => c <- x48_check s ;; arm c (x48_parse m) D48 s
  | 0x4D => c <- x4D_check s ;; arm c (x4D_parse m) D4D s
  | 0x4E => c <- x4E_check s ;; arm c (x4E_parse m) D4E s
  | 0x52 => arm (x52_check s) x52_parse D52 s
  | 0x58 => arm (x58_check s) (x58_parse m) D58 s
  | 0x5A => arm (x5A_check s) (x5A_parse m) D5A s
  | 0x83 => arm (x83_check s) x83_parse D83 s
  | _ => parse_raw s
  end.

(** ** assemble: every function appends to the vector [b] *)
(** raw.rs:47-55 *)
Definition raw_assemble (d : d_raw) (b : list N) : list N :=
  if (255 <? length (raw_data d))%nat then b
  else b ++ [raw_tag d] ++ [cast U8 (N.of_nat (length (raw_data d)))] ++ raw_data d.

(** x09.rs:58-66 *)
Definition x09_assemble (d : d_09) (b : list N) : res (list N) :=
  let skip := length b in
  let b := resize b (skip + 6) 0 in
  b <- set b skip 0x09 ;;
  b <- set b (skip + 1) (len_byte (desc_size (D09 d))) ;;
  b <- set_u16_at b (skip + 2) (d09_caid d) ;;
  b <- set_u16_at b (skip + 4) (N.lor 0xE000 (d09_pid d)) ;;
  Ok (b ++ d09_data d).

(** x0a.rs:69-77 *)
Fixpoint x0A_items (m : mode) (items : list d_0Ai) (b : list N) : res (list N) :=
  match items with
  | [] => Ok b
  | i :: r => b <- dvb_assemble m (d0A_code i) b ;; x0A_items m r (b ++ [d0A_type i])
  end.
Definition x0A_assemble (m : mode) (items : list d_0Ai) (b : list N) : res (list N) :=
  x0A_items m items ((b ++ [0x0A]) ++ [len_byte (desc_size (D0A items))]).

(** x0e.rs:51-59 *)
Definition x0E_assemble (d : d_0E) (b : list N) : res (list N) :=
  let size := desc_size (D0E d) in let skip := length b in
  let b := resize b (skip + size) 0 in
  b <- set b skip 0x0E ;;
  b <- set b (skip + 1) (len_byte size) ;;
  set_u24_at b (skip + 2) (N.lor 0x00C00000 (d0E_bitrate d)).

(** x40.rs:49-52 *)
Definition x40_assemble (m : mode) (name : dvb) (b : list N) : res (list N) :=
  dvb_assemble_sized m name (b ++ [0x40]).

(** x41.rs:67-81 *)
Fixpoint x41_items (items : list d_41i) (b : list N) (skip : nat) : res (list N) :=
  match items with
  | [] => Ok b
  | i :: r =>
    b <- set_u16_at b skip (d41_sid i) ;; b <- set b (skip + 2) (d41_type i) ;; x41_items r b (skip + 3)
  end.
Definition x41_assemble (items : list d_41i) (b : list N) : res (list N) :=
  let size := desc_size (D41 items) in let skip := length b in
  let b := resize b (skip + size) 0 in
  b <- set b skip 0x41 ;;
  b <- set b (skip + 1) (len_byte size) ;;
  x41_items items b (skip + 2).

(** x43.rs:78-95; set_bits! is bits.rs:8-21 *)
Definition x43_assemble (m : mode) (d : d_43) (b : list N) : res (list N) :=
  let size := desc_size (D43 d) in let skip := length b in
  let b := resize b (skip + size) 0 in
  b <- set b skip 0x43 ;;
  b <- set b (skip + 1) (len_byte size) ;;
  f <- u32_to_bcd m (d43_freq d / 10) ;;
  b <- set_u32_at b (skip + 2) f ;;
  o <- u16_to_bcd m (d43_orbital d / 6) ;;
  b <- set_u16_at b (skip + 6) o ;;
  b <- set b (skip + 8)
         (N.lor (shlw U8 (d43_we d) 7) (N.lor (shlw U8 (d43_pol d) 5) (N.lor (shlw U8 (d43_rof d) 3)
           (N.lor (shlw U8 (d43_s2 d) 2) (shlw U8 (d43_mod d) 0))))) ;;
  r <- u32_to_bcd m (d43_rate d) ;;
  b <- set_u24_at b (skip + 9) r ;;
  set b (skip + 12) (d43_fec d).

(** x44.rs:65-78 *)
Definition x44_assemble (m : mode) (d : d_44) (b : list N) : res (list N) :=
  let size := desc_size (D44 d) in let skip := length b in
  let b := resize b (skip + size) 0 in
  b <- set b skip 0x44 ;;
  b <- set b (skip + 1) (len_byte size) ;;
  f <- u32_to_bcd m (d44_freq d / 100) ;;
  b <- set_u32_at b (skip + 2) f ;;
  b <- set b (skip + 6) 0xFF ;;
  b <- set b (skip + 7) (N.lor 0xF0 (d44_outer d)) ;;
  b <- set b (skip + 8) (d44_mod d) ;;
  r <- u32_to_bcd m (d44_rate d) ;;
  b <- set_u24_at b (skip + 9) r ;;
  set b (skip + 12) (d44_fec d).

(** x48.rs:67-75 *)
Definition x48_assemble (m : mode) (d : d_48) (b : list N) : res (list N) :=
  let b := (((b ++ [0x48]) ++ [len_byte (desc_size (D48 d))]) ++ [d48_type d]) in
  b <- dvb_assemble_sized m (d48_provider d) b ;;
  dvb_assemble_sized m (d48_name d) b.

(** x4d.rs:67-74 *)
Definition x4D_assemble (m : mode) (d : d_4D) (b : list N) : res (list N) :=
  let b := ((b ++ [0x4D]) ++ [len_byte (desc_size (D4D d))]) in
  b <- dvb_assemble m (d4D_lang d) b ;;
  b <- dvb_assemble_sized m (d4D_name d) b ;;
  dvb_assemble_sized m (d4D_text d) b.

(** x4e.rs:96-120 *)
Fixpoint x4E_items (m : mode) (items : list (dvb * dvb)) (b : list N) : res (list N) :=
  match items with
  | [] => Ok b
  | (x, y) :: r => b <- dvb_assemble_sized m x b ;; b <- dvb_assemble_sized m y b ;; x4E_items m r b
  end.
Definition x4E_assemble (m : mode) (d : d_4E) (b : list N) : res (list N) :=
  let size := (desc_size (D4E d) - 2)%nat in
  if (255 <? size)%nat then Ok b
  else
    let b := (((b ++ [0x4E]) ++ [cast U8 (N.of_nat size)]) ++
              [N.lor (shlw U8 (d4E_num d) 4) (shlw U8 (d4E_last d) 0)]) in
    b <- dvb_assemble m (d4E_lang d) b ;;
    let skip := length b in
    b <- x4E_items m (d4E_items d) (b ++ [0]) ;;
    n <- sub_idx (length b) skip ;; n <- sub_idx n 1 ;;
    b <- set b skip (cast U8 (N.of_nat n)) ;;
    dvb_assemble_sized m (d4E_text d) b.

(** x52.rs:51-55 *)
Definition x52_assemble (t : N) (b : list N) : list N :=
  ((b ++ [0x52]) ++ [len_byte (desc_size (D52 t))]) ++ [t].

(** x58.rs:89-107 *)
Fixpoint x58_items (m : mode) (items : list d_58i) (b : list N) : res (list N) :=
  match items with
  | [] => Ok b
  | i :: r =>
    b <- dvb_assemble m (d58_code i) b ;;
    let skip := length b in
    let b := resize b (skip + 10) 0 in
    b <- set b skip (N.lor (N.lor (shlw U8 (d58_region i) 2) 0x02) (d58_pol i)) ;;
    o <- u16_to_bcd_time m (d58_offset i) ;;
    b <- set_u16_at b (skip + 1) o ;;
    d <- to_mjd m (d58_time i) ;;
    b <- set_u16_at b (skip + 3) d ;;
    t <- u32_to_bcd_time m (cast U32 (d58_time i)) ;;
    b <- set_u24_at b (skip + 5) t ;;
    n <- u16_to_bcd_time m (d58_next i) ;;
    b <- set_u16_at b (skip + 8) n ;;
    x58_items m r b
  end.
Definition x58_assemble (m : mode) (items : list d_58i) (b : list N) : res (list N) :=
  x58_items m items ((b ++ [0x58]) ++ [len_byte (desc_size (D58 items))]).

(** x5a.rs:91-117 *)
Definition x5A_assemble (d : d_5A) (b : list N) : res (list N) :=
  let b := ((b ++ [0x5A]) ++ [len_byte 13]) in
  let skip := length b in
  let b := resize b (skip + 11) 0 in
  b <- set_u32_at b skip (d5A_freq d / 10) ;;
  b <- set b (skip + 4)
         (N.lor (shlw U8 (d5A_bw d) 5) (N.lor (shlw U8 (d5A_prio d) 4) (N.lor (shlw U8 (d5A_ts d) 3)
           (N.lor (shlw U8 (d5A_fec d) 2) (shlw U8 0x03 0))))) ;;
  b <- set b (skip + 5)
         (N.lor (shlw U8 (d5A_mod d) 6) (N.lor (shlw U8 (d5A_hier d) 3) (shlw U8 (d5A_hp d) 0))) ;;
  b <- set b (skip + 6)
         (N.lor (shlw U8 (d5A_lp d) 5) (N.lor (shlw U8 (d5A_guard d) 3) (N.lor (shlw U8 (d5A_trans d) 1)
           (shlw U8 (d5A_other d) 0)))) ;;
  set_u32_at b (skip + 7) 0xFFFFFFFF.

(** x83.rs:70-89 *)
Fixpoint x83_items (items : list d_83i) (b : list N) (skip : nat) : res (list N) :=
  match items with
  | [] => Ok b
  | i :: r =>
    b <- set_u16_at b skip (d83_sid i) ;;
    b <- set_u16_at b (skip + 2)
           (N.lor (shlw U16 (d83_visible i) 15) (N.lor (shlw U16 0x1F 10) (shlw U16 (d83_lcn i) 0))) ;;
    x83_items r b (skip + 4)
  end.
Definition x83_assemble (items : list d_83i) (b : list N) : res (list N) :=
  let size := desc_size (D83 items) in let skip := length b in
  let b := resize b (skip + size) 0 in
  b <- set b skip 0x83 ;;
  b <- set b (skip + 1) (len_byte size) ;;
  x83_items items b (skip + 2).

(** Descriptor::assemble, mod.rs:109 (dynamic dispatch) *)
Definition desc_assemble (m : mode) (d : desc) (b : list N) : res (list N) :=
  match d with
  | D09 d => x09_assemble d b
  | D0A items => x0A_assemble m items b
  | D0E d => x0E_assemble d b
  | D40 name => x40_assemble m name b
  | D41 items => x41_assemble items b
  | D43 d => x43_assemble m d b
  | D44 d => x44_assemble m d b
  | D48 d => x48_assemble m d b
  | D4D d => x4D_assemble m d b
  | D4E d => x4E_assemble m d b
  | D52 t => Ok (x52_assemble t b)
  | D58 items => x58_assemble m items b
  | D5A d => x5A_assemble d b
  | D83 items => x83_assemble items b
  | DRaw d => Ok (raw_assemble d b)
  end.

(** Clone for Descriptor, mod.rs:54-72: [downcast_ref] (mod.rs:118-120) panics unless the
    box holds the requested type; the derived Clone of each type copies it *)
Definition desc_clone (d : desc) : res desc :=
  match desc_tag d with
  | 0x09 => match d with D09 x => Ok (D09 x) | _ => Panic end
  | 0x0A => match d with D0A x => Ok (D0A x) | _ => Panic end
  | 0x0E => match d with D0E x => Ok (D0E x) | _ => Panic end
  | 0x40 => match d with D40 x => Ok (D40 x) | _ => Panic end
  | 0x41 => match d with D41 x => Ok (D41 x) | _ => Panic end
  | 0x43 => match d with D43 x => Ok (D43 x) | _ => Panic end
  | 0x44 => match d with D44 x => Ok (D44 x) | _ => Panic end
  | 0x48 => match d with D48 x => Ok (D48 x) | _ => Panic end
  | 0x4D => match d with D4D x => Ok (D4D x) | _ => Panic end
  | 0x4E => match d with D4E x => Ok (D4E x) | _ => Panic end
  | 0x52 => match d with D52 x => Ok (D52 x) | _ => Panic end
  | 0x58 => match d with D58 x => Ok (D58 x) | _ => Panic end
  | 0x5A => match d with D5A x => Ok (D5A x) | _ => Panic end
  | 0x83 => match d with D83 x => Ok (D83 x) | _ => Panic end
  | _ => match d with DRaw x => Ok (DRaw x) | _ => Panic end
  end.

(** ** Descriptors, mod.rs:131: a list *)
(** Descriptors::parse, mod.rs:141-151; fuel bounds the loop *)
Fixpoint descs_loop (fuel : nat) (m : mode) (s : list N) (skip : nat) (ds : list desc) : res (list desc) :=
  match fuel with
  | O => Hang
  | S f =>
    if (skip + 2 <=? length s)%nat then
      n <- get s (skip + 1) ;;
      let next := (skip + 2 + N.to_nat n)%nat in
      if (length s <? next)%nat then Ok ds
      else
        p <- slice s skip next ;;
        d <- desc_parse m p ;;
        descs_loop f m s next (ds ++ [d])
    else Ok ds
  end.
Definition descs_parse (m : mode) (ds : list desc) (s : list N) : res (list desc) :=
  descs_loop (S (length s)) m s 0 ds.

(** Descriptors::assemble, mod.rs:153-159: the vector and the returned length *)
Fixpoint descs_bytes (m : mode) (ds : list desc) (b : list N) : res (list N) :=
  match ds with [] => Ok b | d :: r => b <- desc_assemble m d b ;; descs_bytes m r b end.
Definition descs_assemble (m : mode) (ds : list desc) (b : list N) : res (list N * nat) :=
  let size := length b in
  b <- descs_bytes m ds b ;;
  Ok (b, length b - size)%nat.

(** Descriptors::size, mod.rs:162 *)
Definition descs_size (ds : list desc) : nat := fold_left (fun acc d => acc + desc_size d)%nat ds 0%nat.

(** Clone for Descriptors (derived): clones the vector element by element *)
Fixpoint descs_clone (ds : list desc) : res (list desc) :=
  match ds with [] => Ok [] | d :: r => d' <- desc_clone d ;; r' <- descs_clone r ;; Ok (d' :: r') end.

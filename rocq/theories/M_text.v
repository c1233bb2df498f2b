(** Model of src/textcode/mod.rs (StringDVB) and src/textcode/lang.rs.
    A Rust [&str] / [String] is the list of its chars (Unicode scalar values). *)
From Coq Require Import String Ascii.
From Verif Require Import Prelude M_textdata.

(** ** standard library *)
(** Unicode scalar values: the values of Rust's char *)
Definition scalar (c : N) : bool := (c <? 0xD800) || ((0xE000 <=? c) && (c <? 0x110000)).
(** [s.as_bytes()]: UTF-8 *)
Definition utf8_char (c : N) : list N :=
  if c <? 0x80 then [c]
  else if c <? 0x800 then [0xC0 + c / 64; 0x80 + c mod 64]
  else if c <? 0x10000 then [0xE0 + c / 4096; 0x80 + c / 64 mod 64; 0x80 + c mod 64]
  else [0xF0 + c / 262144; 0x80 + c / 4096 mod 64; 0x80 + c / 64 mod 64; 0x80 + c mod 64].
Definition utf8 (s : list N) : list N := flat_map utf8_char s.
(** [String::from_utf8_lossy]: every maximal ill-formed part becomes U+FFFD *)
Definition cont (b : N) : bool := (0x80 <=? b) && (b <? 0xC0).
Definition lossy3 (a b : N) : bool :=
  if a =? 0xE0 then (0xA0 <=? b) && (b <? 0xC0)
  else if a =? 0xED then (0x80 <=? b) && (b <? 0xA0)
  else cont b.
Definition lossy4 (a b : N) : bool :=
  if a =? 0xF0 then (0x90 <=? b) && (b <? 0xC0)
  else if a =? 0xF4 then (0x80 <=? b) && (b <? 0x90)
  else cont b.
Definition bad : N := 0xFFFD.
Fixpoint lossy (l : list N) : list N :=
  match l with
  | [] => []
  | a :: l1 =>
    if a <? 0x80 then a :: lossy l1
    else if (0xC2 <=? a) && (a <? 0xE0) then
      match l1 with
      | b :: l2 => if cont b then (a mod 32) * 64 + b mod 64 :: lossy l2 else bad :: lossy l1
      | [] => [bad]
      end
    else if (0xE0 <=? a) && (a <? 0xF0) then
      match l1 with
      | b :: l2 =>
        if lossy3 a b then
          match l2 with
          | c :: l3 => if cont c then (a mod 16) * 4096 + (b mod 64) * 64 + c mod 64 :: lossy l3 else bad :: lossy l2
          | [] => [bad]
          end
        else bad :: lossy l1
      | [] => [bad]
      end
    else if (0xF0 <=? a) && (a <? 0xF5) then
      match l1 with
      | b :: l2 =>
        if lossy4 a b then
          match l2 with
          | c :: l3 =>
            if cont c then
              match l3 with
              | d :: l4 =>
                if cont d then (a mod 8) * 262144 + (b mod 64) * 4096 + (c mod 64) * 64 + d mod 64 :: lossy l4
                else bad :: lossy l3
              | [] => [bad]
              end
            else bad :: lossy l2
          | [] => [bad]
          end
        else bad :: lossy l1
      | [] => [bad]
      end
    else bad :: lossy l1
  end.
(** [char::from_u32_unchecked]; undefined behaviour is counted as a panic *)
Definition char_unchecked (u : N) : res N := if scalar u then Ok u else Panic.
(** [iter().position(|&u| u == c)] *)
Fixpoint position (c : N) (l : list N) : option nat :=
  match l with
  | [] => None
  | u :: l' => if u =? c then Some O else match position c l' with Some i => Some (S i) | None => None end
  end.

(** textcode/mod.rs:17-60 *)
Definition ISO6937 : N := 0.
Definition ISO8859_4 : N := 4.
Definition ISO8859_15 : N := 15.
Definition UTF8 : N := 21.

(** textcode/mod.rs:64-84 *)
Definition codepage_map (cp : N) : option (list N) :=
  if cp =? 0 then Some tab_ISO6937
  else if cp =? 1 then Some tab_ISO8859_1
  else if cp =? 2 then Some tab_ISO8859_2
  else if cp =? 3 then Some tab_ISO8859_3
  else if cp =? 4 then Some tab_ISO8859_4
  else if cp =? 5 then Some tab_ISO8859_5
  else if cp =? 6 then Some tab_ISO8859_6
  else if cp =? 7 then Some tab_ISO8859_7
  else if cp =? 8 then Some tab_ISO8859_8
  else if cp =? 9 then Some tab_ISO8859_9
  else if cp =? 10 then Some tab_ISO8859_10
  else if cp =? 11 then Some tab_ISO8859_11
  else if cp =? 13 then Some tab_ISO8859_13
  else if cp =? 14 then Some tab_ISO8859_14
  else if cp =? 15 then Some tab_ISO8859_15
  else None.

(** textcode/mod.rs:86-90 (derives Default, Clone, PartialEq) *)
Record dvb := mkDvb { t_cp : N; t_data : list N }.
Definition dvb_default : dvb := mkDvb 0 [].

(** Display, textcode/mod.rs:92-121; [Ok None] is Err(fmt::Error), [Ok (Some s)] the text
    written (a formatter that itself does not fail, as in to_string) *)
Fixpoint display_loop (map : list N) (data : list N) : res (list N) :=
  match data with
  | [] => Ok []
  | c :: data' =>
    if c <=? 0x7F then r <- display_loop map data' ;; Ok (c :: r)
    else if 0xA0 <=? c then
      u <- get map (N.to_nat (c - 0xA0)) ;;
      v <- (if u =? 0 then Ok 63 else char_unchecked u) ;;
      r <- display_loop map data' ;; Ok (v :: r)
    else display_loop map data'
  end.
Definition dvb_display (t : dvb) : res (option (list N)) :=
  if (length (t_data t) =? 0)%nat then Ok (Some [])
  else if t_cp t =? UTF8 then Ok (Some (lossy (t_data t)))
  else match codepage_map (t_cp t) with
       | None => Ok None
       | Some map => r <- display_loop map (t_data t) ;; Ok (Some r)
       end.
(** ToString::to_string (std): panics if Display returns an error. Debug, 123-130, calls it. *)
Definition dvb_to_string (t : dvb) : res (list N) :=
  r <- dvb_display t ;; match r with Some s => Ok s | None => Panic end.

(** from_str, textcode/mod.rs:134-184 *)
Definition subst_char (c : N) : list N :=
  if (c =? 0x00AB) || (c =? 0x00BB) then [34]
  else if (c =? 0x2018) || (c =? 0x2019) then [39]
  else if c =? 0x201B then [39]
  else if (c =? 0x201C) || (c =? 0x201D) then [34]
  else if c =? 0x201F then [34]
  else if c =? 0x2026 then [46; 46; 46]
  else [63].
Fixpoint encode_loop (m : mode) (map : list N) (s : list N) : res (list N) :=
  match s with
  | [] => Ok []
  | c :: s' =>
    let c := cast U16 c in
    x <- (if c <=? 0x7F then Ok [cast U8 c]
          else if 0xA0 <=? c then
            match position c map with
            | Some v => v <- addw U8 m (cast U8 (N.of_nat v)) 0xA0 ;; Ok [v]
            | None => Ok (subst_char c)
            end
          else Ok []) ;;
    r <- encode_loop m map s' ;; Ok (x ++ r)
  end.
Definition dvb_from_str (m : mode) (s : list N) (cp : N) : res dvb :=
  if cp =? UTF8 then Ok (mkDvb cp (utf8 s))
  else match codepage_map cp with
       | None => Ok (mkDvb UTF8 (utf8 s))
       | Some map => d <- encode_loop m map s ;; Ok (mkDvb cp d)
       end.

(** textcode/mod.rs:204-213 *)
Definition dvb_size (t : dvb) : nat :=
  if (length (t_data t) =? 0)%nat then 0
  else if t_cp t =? ISO6937 then length (t_data t)
  else if t_cp t <=? ISO8859_4 then 3 + length (t_data t)
  else 1 + length (t_data t).

(** assemble, textcode/mod.rs:221-238: the bytes appended to [dst] *)
Definition dvb_bytes (m : mode) (t : dvb) : res (list N) :=
  if (length (t_data t) =? 0)%nat then Ok []
  else
    h <- (if t_cp t =? ISO6937 then Ok []
          else if t_cp t <=? ISO8859_4 then Ok [0x10; 0x00; t_cp t]
          else if t_cp t <=? ISO8859_15 then c <- subw U8 m (t_cp t) 4 ;; Ok [c]
          else Ok [t_cp t]) ;;
    Ok (h ++ t_data t).
Definition dvb_assemble (m : mode) (t : dvb) (dst : list N) : res (list N) :=
  b <- dvb_bytes m t ;; Ok (dst ++ b).
(** textcode/mod.rs:240-245 *)
Definition dvb_assemble_sized (m : mode) (t : dvb) (dst : list N) : res (list N) :=
  let size := length dst in
  dst <- dvb_assemble m t (dst ++ [0]) ;;
  n <- sub_idx (length dst) size ;;
  n <- sub_idx n 1 ;;
  set dst size (cast U8 (N.of_nat n)).

(** textcode/mod.rs:247-254 *)
Definition dvb_truncate (t : dvb) (size : nat) : res dvb :=
  if (size <? length (t_data t))%nat then
    let d := resize (t_data t) size 0 in
    i <- sub_idx size 1 ;; d <- set d i 46 ;;
    i <- sub_idx size 2 ;; d <- set d i 46 ;;
    i <- sub_idx size 3 ;; d <- set d i 46 ;;
    Ok (mkDvb (t_cp t) d)
  else Ok t.

(** textcode/mod.rs:256-291. usize has 64 bits. The inner [for _ in 1 .. 3] runs twice. *)
Fixpoint back_off (m : mode) (n : nat) (data : list N) (next : N) : res N :=
  match n with
  | O => Ok next
  | S n' =>
    b <- (if next <? N.of_nat (length data) then get data (N.to_nat next) else Panic) ;;
    if negb (N.land b 0xC0 =? 0x80) then Ok next
    else next <- subw U64 m next 1 ;; back_off m n' data next
  end.
Fixpoint split_loop (fuel : nat) (m : mode) (t : dvb) (size skip : N) : res (list dvb) :=
  let len := N.of_nat (length (t_data t)) in
  match fuel with
  | O => Hang
  | S fuel' =>
    if skip <? len then
      e <- addw U64 m skip size ;;
      let next := N.min len e in
      next <- (if (t_cp t =? UTF8) && (next <? len) then back_off m 2 (t_data t) next else Ok next) ;;
      piece <- (if (skip <=? next) && (next <=? len) then slice (t_data t) (N.to_nat skip) (N.to_nat next) else Panic) ;;
      r <- split_loop fuel' m t size next ;;
      Ok (mkDvb (t_cp t) piece :: r)
    else Ok []
  end.
Definition dvb_split (fuel : nat) (m : mode) (t : dvb) (size : N) : res (list dvb) :=
  size <- (if t_cp t =? 0 then Ok size
           else if t_cp t =? UTF8 then subw U64 m size 1
           else subw U64 m size 3) ;;
  if (length (t_data t) =? 0)%nat then Ok [t]
  else split_loop fuel m t size 0.

(** From<&[u8]>, textcode/mod.rs:294-322 *)
Definition dvb_from (m : mode) (data : list N) : res dvb :=
  match data with
  | [] => Ok dvb_default
  | _ =>
    b <- get data 0 ;;
    if b =? UTF8 then d <- slice_from data 1 ;; Ok (mkDvb UTF8 d)
    else if 0x20 <=? b then Ok (mkDvb 0 data)
    else if b <? 0x10 then c <- addw U8 m b 4 ;; d <- slice_from data 1 ;; Ok (mkDvb c d)
    else if (b =? 0x10) && (3 <=? length data)%nat then
      c <- get data 2 ;; d <- slice_from data 3 ;; Ok (mkDvb c d)
    else Ok (mkDvb 0 [63])
  end.

(** ** lang.rs *)
(** a string literal is its bytes *)
Fixpoint bytes_of (s : string) : list N :=
  match s with EmptyString => [] | String c s' => N_of_ascii c :: bytes_of s' end.
Fixpoint beq (a b : list N) : bool :=
  match a, b with
  | [], [] => true
  | x :: a', y :: b' => (x =? y) && beq a' b'
  | _, _ => false
  end.
(** convert, textcode/lang.rs:173-189; [code] are the bytes of the string, its len() the
    number of bytes *)
Fixpoint find2 (l : list (string * string * string)) (code : list N) : option (list N) :=
  match l with
  | [] => None
  | (a1, _, a3) :: l' => if beq (bytes_of a1) code then Some (bytes_of a3) else find2 l' code
  end.
Fixpoint find3 (l : list (string * string * string)) (code : list N) : option (list N) :=
  match l with
  | [] => None
  | (a1, a2, a3) :: l' =>
    if beq (bytes_of a2) code || beq (bytes_of a3) code then Some (bytes_of a1) else find3 l' code
  end.
Definition lang_convert (code : list N) : option (list N) :=
  match length code with
  | 2%nat => find2 lang_list code
  | 3%nat => find3 lang_list code
  | _ => None
  end.

(** Model of tools/iso8859-parser.rs, the program that made src/textcode/data.rs. A text is a list
    of Unicode scalar values. Not modelled: errors of the file system, files that are not UTF-8
    (both end the program with an error), directories among the files, and what has been
    printed before an abort. *)
From Coq Require Import String.
From Verif Require Import Prelude M_text.

(** char::is_whitespace (std): the White_Space property *)
Definition is_whitespace (c : N) : bool :=
  ((9 <=? c) && (c <=? 13)) || (c =? 0x20) || (c =? 0x85) || (c =? 0xA0) || (c =? 0x1680) ||
  ((0x2000 <=? c) && (c <=? 0x200A)) || (c =? 0x2028) || (c =? 0x2029) || (c =? 0x202F) || (c =? 0x205F) || (c =? 0x3000).

(** BufRead::lines (std): cut at line feeds, a carriage return before a line feed goes too *)
Definition strip_cr (rev_line : list N) : list N :=
  match rev_line with 13 :: r => rev r | r => rev r end.
Fixpoint lines (acc t : list N) : list (list N) :=
  match t with
  | [] => match acc with [] => [] | _ => [rev acc] end
  | c :: t' => if c =? 10 then strip_cr acc :: lines [] t' else lines (c :: acc) t'
  end.

(** str::trim_left, trim_right (std) *)
Fixpoint trim_left (t : list N) : list N :=
  match t with c :: t' => if is_whitespace c then trim_left t' else t | [] => [] end.
Definition trim_right (t : list N) : list N := rev (trim_left (rev t)).

(** str::split with a predicate (std): always at least one piece *)
Fixpoint split_on (f : N -> bool) (acc t : list N) : list (list N) :=
  match t with
  | [] => [rev acc]
  | c :: t' => if f c then rev acc :: split_on f [] t' else split_on f (c :: acc) t'
  end.

(** [&s[2 ..]] (std): counts bytes of UTF-8; panics beyond the end and inside a character *)
Definition from_byte_2 (s : list N) : res (list N) :=
  match s with
  | [] => Panic
  | c :: s' =>
    match length (utf8_char c) with
    | 1%nat => match s' with c' :: s'' => if (length (utf8_char c') =? 1)%nat then Ok s'' else Panic | [] => Panic end
    | 2%nat => Ok s'
    | _ => Panic
    end
  end.

(** char::to_digit (std) for radix 10 and 16 *)
Definition to_digit (radix c : N) : option N :=
  let d := if (48 <=? c) && (c <=? 57) then Some (c - 48)
           else if (97 <=? c) && (c <=? 102) then Some (c - 87)
           else if (65 <=? c) && (c <=? 70) then Some (c - 55) else None in
  match d with Some x => if x <? radix then Some x else None | None => None end.
(** from_str_radix (std) of a type whose values are below [limit]: a plus sign is allowed (a
    minus sign cannot occur where the program calls it for i32); None is an error *)
Fixpoint digits_value (limit radix acc : N) (s : list N) : option N :=
  match s with
  | [] => Some acc
  | c :: s' =>
    match to_digit radix c with
    | None => None
    | Some d => if acc * radix <? limit then if acc * radix + d <? limit then digits_value limit radix (acc * radix + d) s' else None else None
    end
  end.
Definition from_str_radix (limit radix : N) (s : list N) : option N :=
  match s with
  | [] => None
  | [43] => None
  | 43 :: s' => digits_value limit radix 0 s'
  | _ => digits_value limit radix 0 s
  end.
(** Option::unwrap, Result::unwrap (std) *)
Definition unwrap {A} (o : option A) : res A := match o with Some a => Ok a | None => Panic end.

(** iso8859-parser.rs:12 *)
Definition ARR_SIZE : nat := N.to_nat (0xFF - 0x9F).

(** the body of the loop over the lines, iso8859-parser.rs:23-43 *)
Definition read_line (arr line : list N) : res (list N) :=
  let line := trim_left line in
  if match line with 35 :: _ => true | _ => false end then Ok arr else
  let line := trim_right line in
  match line with
  | [] => Ok arr
  | _ =>
    let pieces := split_on is_whitespace [] line in
    code <- unwrap (nth_error pieces 0) ;;
    code <- from_byte_2 code ;;
    code <- unwrap (from_str_radix 256 16 code) ;;
    if code <? 0xA0 then Ok arr else
    let code := code - 0xA0 in
    unicode <- unwrap (nth_error pieces 1) ;;
    unicode <- from_byte_2 unicode ;;
    unicode <- unwrap (from_str_radix 65536 16 unicode) ;;
    set arr (N.to_nat code) unicode
  end.
Fixpoint read_lines (arr : list N) (l : list (list N)) : res (list N) :=
  match l with [] => Ok arr | x :: l' => arr <- read_line arr x ;; read_lines arr l' end.

(** {:04x} of a u16 (std::fmt): four lower case digits *)
Definition hex_char (d : N) : N := if d <? 10 then 48 + d else 87 + d.
Definition hex4 (n : N) : list N := map (fun k => hex_char (N.shiftr n k mod 16)) [12; 8; 4; 0].
(** iso8859-parser.rs:45-52 *)
Fixpoint print_arr (n : nat) (arr : list N) : list N :=
  match arr with
  | [] => []
  | u :: arr' =>
    (if (n mod 16 =? 0)%nat then [10; 32; 32; 32; 32] else [32]) ++ bytes_of "0x" ++ hex4 u ++ bytes_of "," ++ print_arr (S n) arr'
  end.
(** str::split(".").next(), str::replace("-", "_") (std) *)
Definition stem (path : list N) : list N := hd [] (split_on (fun c => c =? 46) [] path).
Definition underscore (s : list N) : list N := map (fun c => if c =? 45 then 95 else c) s.

(** read_file, iso8859-parser.rs:14-57; what it prints *)
Definition read_file (path part content : list N) : res (list N) :=
  arr <- read_lines (repeat 0 ARR_SIZE) (lines [] content) ;;
  Ok (bytes_of "/// " ++ part ++ [10] ++
      bytes_of "pub static ISO" ++ underscore (stem path) ++ bytes_of ": [u16; 96] = [" ++
      print_arr 0 arr ++ [10] ++ bytes_of "];" ++ [10; 10]).

(** get_part, iso8859-parser.rs:74-79 *)
Definition get_part (name : list N) : res N :=
  n <- unwrap (nth_error (split_on (fun c => c =? 45) [] (stem name)) 1) ;;
  unwrap (from_str_radix 0x80000000 10 n).
(** sort_by (std): a stable sort; iso8859-parser.rs:80-84 *)
Fixpoint insert (x : N * (list N * list N)) (l : list (N * (list N * list N))) :=
  match l with [] => [x] | y :: l' => if fst x <=? fst y then x :: l else y :: insert x l' end.
Definition sort_parts (l : list (N * (list N * list N))) := fold_right insert [] l.
(** iso8859-parser.rs:87-104 *)
Definition part_name (n : N) : res (list N) :=
  match n with
  | 1 => Ok (bytes_of "Western European")
  | 2 => Ok (bytes_of "Central European")
  | 3 => Ok (bytes_of "South European")
  | 4 => Ok (bytes_of "North European")
  | 5 => Ok (bytes_of "Cyrillic")
  | 6 => Ok (bytes_of "Arabic")
  | 7 => Ok (bytes_of "Greek")
  | 8 => Ok (bytes_of "Hebrew")
  | 9 => Ok (bytes_of "Turkish")
  | 10 => Ok (bytes_of "Nordic")
  | 11 => Ok (bytes_of "Thai")
  | 13 => Ok (bytes_of "Baltic Rim")
  | 14 => Ok (bytes_of "Celtic")
  | 15 => Ok (bytes_of "Western European")
  | 16 => Ok (bytes_of "South-Eastern European")
  | _ => Panic
  end.
Fixpoint mapM {A B} (f : A -> res B) (l : list A) : res (list B) :=
  match l with [] => Ok [] | x :: l' => y <- f x ;; ys <- mapM f l' ;; Ok (y :: ys) end.
(** main, iso8859-parser.rs:59-109; [files] are the names and contents in the directory, in
    the order of read_dir. A name without a number aborts wherever it is first looked at. *)
Definition main (files : list (list N * list N)) : res (list N) :=
  let arr := filter (fun f => match fst f with 46 :: _ => false | _ => true end) files in
  keyed <- mapM (fun f => n <- get_part (fst f) ;; Ok (n, f)) arr ;;
  outs <- mapM (fun x => pn <- part_name (fst x) ;; read_file (fst (snd x)) pn (snd (snd x))) (sort_parts keyed) ;;
  Ok (concat outs).

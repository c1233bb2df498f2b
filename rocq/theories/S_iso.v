(** Specification: mapping files of the Unicode consortium (ISO8859 directory) and array
    literals of Rust, as texts (lists of character codes). *)
From Coq Require Import String Ascii.
From Verif Require Import Prelude.

Fixpoint str (s : string) : list N := match s with EmptyString => [] | String c s' => N_of_ascii c :: str s' end.

(** numbers in hexadecimal, digits in either case *)
Fixpoint position (c : N) (l : list N) : option N :=
  match l with [] => None | x :: l' => if x =? c then Some 0 else match position c l' with Some k => Some (k + 1) | None => None end end.
Definition digit (c v : N) : Prop := position c (str "0123456789abcdef") = Some v \/ position c (str "0123456789ABCDEF") = Some v.
Inductive hex : list N -> N -> Prop :=
| hex_one c v : digit c v -> hex [c] v
| hex_more l c n v : hex l n -> digit c v -> hex (l ++ [c]) (16 * n + v).

Definition blank (c : N) : Prop := c = 32 \/ c = 9.
(** a line of a mapping file: a comment, nothing, or a code and its character in the first two columns *)
Inductive says : list N -> option (N * N) -> Prop :=
| says_comment w r : Forall blank w -> says (w ++ str "#" ++ r) None
| says_nothing w : Forall blank w -> says w None
| says_pair w c a s u b r : Forall blank w -> hex c a -> a < 256 -> blank s -> hex u b -> b < 65536 ->
    (r = [] \/ exists s' r', blank s' /\ r = s' :: r') ->
    says (w ++ str "0x" ++ c ++ [s] ++ str "0x" ++ u ++ r) (Some (a, b)).
(** lines end with a line feed, or a carriage return and a line feed *)
Definition line_end (e : list N) : Prop := e = [10] \/ e = [13; 10].
Inductive file : list N -> list (option (N * N)) -> Prop :=
| file_nil : file [] []
| file_last l o : says l o -> ~ In 10 l -> file l [o]
| file_line l o e t os : says l o -> ~ In 10 l -> line_end e -> file t os -> file (l ++ e ++ t) (o :: os).

(** the character of a code: the last line about it counts; 0 if there is none *)
Definition character (os : list (option (N * N))) (code : N) : N :=
  fold_left (fun v o => match o with Some (a, b) => if a =? code then b else v | None => v end) os 0.

(** the elements of an array literal of Rust, each followed by a comma *)
Definition space (c : N) : Prop := c = 32 \/ c = 10.
Inductive elements : list N -> list N -> Prop :=
| elements_nil w : Forall space w -> elements w []
| elements_cons w d v t l : Forall space w -> hex d v -> elements t l -> elements (w ++ str "0x" ++ d ++ str "," ++ t) (v :: l).

(** what the program has to print about one file: a comment, the declaration of a table of the characters of the
    codes 0xA0-0xFF, an empty line *)
Definition declares (part name : list N) (os : list (option (N * N))) (out : list N) : Prop :=
  exists body, out = str "/// " ++ part ++ [10] ++ str "pub static ISO" ++ name ++ str ": [u16; 96] = [" ++ body ++ str "];" ++ [10; 10] /\
    elements body (map (fun i => character os (0xA0 + N.of_nat i)) (seq 0 96)).

(** numbers in decimal *)
Inductive decimal : list N -> N -> Prop :=
| dec_one c v : position c (str "0123456789") = Some v -> decimal [c] v
| dec_more l c n v : decimal l n -> position c (str "0123456789") = Some v -> decimal (l ++ [c]) (10 * n + v).

(** the parts of ISO 8859 *)
Definition parts : list (N * string) :=
  [(1, "Western European"%string); (2, "Central European"%string); (3, "South European"%string); (4, "North European"%string); (5, "Cyrillic"%string);
   (6, "Arabic"%string); (7, "Greek"%string); (8, "Hebrew"%string); (9, "Turkish"%string); (10, "Nordic"%string); (11, "Thai"%string); (13, "Baltic Rim"%string);
   (14, "Celtic"%string); (15, "Western European"%string); (16, "South-Eastern European"%string)].

(** a file of the directory: part number and how it is written in the name, contents, and what they say *)
Record source := mkSource { f_part : N; f_digits : list N; f_text : list N; f_pairs : list (option (N * N)) }.
Definition file_name (s : source) : list N := str "8859-" ++ f_digits s ++ str ".TXT".
Definition good_source (s : source) : Prop :=
  decimal (f_digits s) (f_part s) /\ In (f_part s) (map fst parts) /\ file (f_text s) (f_pairs s).
Definition declared (s : source) (out : list N) : Prop :=
  exists title, In (f_part s, title) parts /\ declares (str title) (str "8859_" ++ f_digits s) (f_pairs s) out.

(** Specification of DVB text (EN 300 468 annex A) and of the code pages. *)
From Verif Require Import Prelude S_textdata.

(** the supported single-byte code pages by number *)
Definition pages : list (N * list (N * N * N)) :=
  [(0, iso6937); (1, iso8859_1); (2, iso8859_2); (3, iso8859_3); (4, iso8859_4); (5, iso8859_5);
   (6, iso8859_6); (7, iso8859_7); (8, iso8859_8); (9, iso8859_9); (10, iso8859_10);
   (11, iso8859_11); (13, iso8859_13); (14, iso8859_14); (15, iso8859_15)].

(** the text shown for one byte of a text in a code page *)
Definition shown (page : list (N * N * N)) (b : N) : list N :=
  if b <? 0x80 then [b]
  else if b <? 0xA0 then []
  else match in_runs page b with Some u => [u] | None => [63 (* ? *)] end.

(** [has page b c]: byte [b] of the upper half of the page is the character [c] *)
Definition has (page : list (N * N * N)) (b c : N) : Prop := 0xA0 <= b < 256 /\ in_runs page b = Some c.
Definition representable (page : list (N * N * N)) (c : N) : Prop := c < 0x80 \/ exists b, has page b c.

(** substitutes of characters that are not in the page *)
Definition substitute (c : N) : list N :=
  match c with
  | 0xAB | 0xBB | 0x201C | 0x201D | 0x201F => [34]   (* double quote *)
  | 0x2018 | 0x2019 | 0x201B => [39]                 (* apostrophe *)
  | 0x2026 => [46; 46; 46]                           (* three dots *)
  | _ => [63]
  end.
Inductive encoded (page : list (N * N * N)) (c : N) : list N -> Prop :=
| enc_ascii : c < 0x80 -> encoded page c [c]
| enc_control : 0x80 <= c < 0xA0 -> encoded page c []
| enc_page b : 0xA0 <= c -> has page b c -> encoded page c [b]
| enc_subst : 0xA0 <= c -> (forall b, ~ has page b c) -> encoded page c (substitute c).

(** Unicode scalar values *)
Definition is_char (c : N) : Prop := c < 0xD800 \/ 0xE000 <= c < 0x110000.

(** bytes in front of a text of a code page on the wire *)
Definition selector (cp : N) : list N :=
  if cp =? 0 then [] else if cp <=? 4 then [0x10; 0; cp] else if cp <=? 15 then [cp - 4] else [cp].
(** bytes that split reserves for the selector *)
Definition reserved (cp : N) : N := if cp =? 0 then 0 else if cp =? 21 then 1 else 3.

(** texts that are read back as they are *)
Definition rereadable (cp : N) (data : list N) : Prop :=
  (data = [] /\ cp = 0) \/
  (data <> [] /\ ((cp = 0 /\ 0x20 <= hd 0 data) \/ 1 <= cp <= 15 \/ cp = 21)).
(** byte strings that are written again as they were read *)
Definition stable (b : list N) : Prop :=
  b = [] \/ 0x20 <= hd 0 b \/
  ((hd 0 b = 0x15 \/ 1 <= hd 0 b <= 11) /\ (2 <= length b)%nat) \/
  (exists cp d, b = 0x10 :: 0 :: cp :: d /\ 1 <= cp <= 4 /\ d <> []).

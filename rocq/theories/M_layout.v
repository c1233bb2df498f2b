(** Model of the part of std::fmt that the Debug views of texts, descriptors, tables and
    sections (M_show) use: the characters written for {:?} and {:#?}. Other formatter flags
    are not modelled; no test or caller in /repo sets them. Characters are code points. The
    tables of core::unicode for characters from 127 on are a parameter ([higher c]: the
    character is printable and not a grapheme extension). *)
From Coq Require Import String HexadecimalString Ascii.
From Verif Require Import Prelude M_debug M_show.
Local Open Scope string_scope.
Local Open Scope list_scope.
Local Open Scope N_scope.

Fixpoint codes (s : string) : list N :=
  match s with "" => [] | String c s' => N_of_ascii c :: codes s' end.

(** core::fmt, LowerHex *)
Definition hex (n : N) : string := NilZero.string_of_uint (N.to_hex_uint n).
(** core::unicode::printable::is_printable and, for Debug of str, not Grapheme_Extend *)
Definition shows_itself (higher : N -> bool) (c : N) : bool :=
  if c <? 32 then false else if c <? 127 then true else higher c.
(** char::escape_debug_ext as Debug of str calls it *)
Definition escape (higher : N -> bool) (c : N) : list N :=
  if c =? 0 then codes "\0" else if c =? 9 then codes "\t" else if c =? 13 then codes "\r" else if c =? 10 then codes "\n"
  else if (c =? 34) || (c =? 92) then [92; c]
  else if shows_itself higher c then [c]
  else codes "\u{" ++ codes (hex c) ++ codes "}".
(** Debug of str *)
Definition text_chars (higher : N -> bool) (s : list N) : list N := [34] ++ flat_map (escape higher) s ++ [34].

(** core::fmt::builders::PadAdapter: four spaces in front of every line *)
Fixpoint pad (on_newline : bool) (s : list N) : list N :=
  match s with
  | [] => []
  | c :: s' => (if on_newline then codes "    " else []) ++ c :: pad (c =? 10) s'
  end.
(** DebugStruct::field *)
Definition struct_field (alt has_fields : bool) (name : string) (value : list N) : list N :=
  if alt then (if has_fields then [] else codes " {" ++ [10]) ++ pad true (codes name ++ codes ": " ++ value ++ codes "," ++ [10])
  else codes (if has_fields then ", " else " { ") ++ codes name ++ codes ": " ++ value.
(** DebugStruct::finish *)
Definition struct_finish (alt has_fields : bool) : list N :=
  if has_fields then codes (if alt then "}" else " }") else [].
(** DebugInner::entry of DebugList *)
Definition list_entry (alt has_fields : bool) (value : list N) : list N :=
  if alt then (if has_fields then [] else [10]) ++ pad true (value ++ codes "," ++ [10])
  else codes (if has_fields then ", " else "") ++ value.
(** DebugTuple::field with an empty name *)
Definition tuple_field (alt has_fields : bool) (value : list N) : list N :=
  if alt then (if has_fields then [] else codes "(" ++ [10]) ++ pad true (value ++ codes "," ++ [10])
  else codes (if has_fields then ", " else "(") ++ value.
(** DebugTuple::finish with an empty name and [n] fields *)
Definition tuple_finish (alt : bool) (n : nat) : list N :=
  match n with O => [] | S O => codes (if alt then ")" else ",)") | _ => codes ")" end.

(** the characters written for a view *)
Fixpoint written (higher : N -> bool) (alt : bool) (t : tree) : list N :=
  match t with
  | SNum n => codes (dec n)
  | SText s => text_chars higher s
  | SList l =>
    codes "[" ++
    (fix go (has : bool) (l : list tree) : list N :=
       match l with [] => [] | x :: l' => list_entry alt has (written higher alt x) ++ go true l' end) false l ++
    codes "]"
  | STuple l =>
    (fix go (has : bool) (l : list tree) : list N :=
       match l with [] => [] | x :: l' => tuple_field alt has (written higher alt x) ++ go true l' end) false l ++
    tuple_finish alt (length l)
  | SStruct name fields =>
    codes name ++
    (fix go (has : bool) (l : list (string * tree)) : list N :=
       match l with
       | [] => struct_finish alt has
       | (k, x) :: l' => struct_field alt has k (written higher alt x) ++ go true l'
       end) false fields
  end.
(** format!("{:?}", x) and, with [alt], format!("{:#?}", x) *)
Definition format_debug {A} (higher : N -> bool) (alt : bool) (show : A -> res tree) (x : A) : res (list N) :=
  t <- show x ;; Ok (written higher alt t).

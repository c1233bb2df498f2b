(** Specification of the characters written for a view: which views are well formed, and how
    they are laid out on one line and on several lines. *)
From Coq Require Import String.
From Verif Require Import Prelude M_debug M_show M_layout.
Local Open Scope string_scope.
Local Open Scope list_scope.
Local Open Scope N_scope.

(** identifiers *)
Definition letter (c : N) : bool := ((65 <=? c) && (c <=? 90)) || ((97 <=? c) && (c <=? 122)).
Definition digit (c : N) : bool := (48 <=? c) && (c <=? 57).
Definition wordy (c : N) : bool := letter c || digit c || (c =? 95).
Definition is_name (s : string) : bool :=
  match codes s with [] => false | c :: r => letter c && forallb wordy (c :: r) end.
(** trees whose names are identifiers, whose structures have fields and whose tuples have at least two *)
Fixpoint formed (t : tree) : Prop :=
  match t with
  | SNum _ | SText _ => True
  | SList l => (fix go l : Prop := match l with [] => True | x :: r => formed x /\ go r end) l
  | STuple l => (2 <= length l)%nat /\ (fix go l : Prop := match l with [] => True | x :: r => formed x /\ go r end) l
  | SStruct n fs => is_name n = true /\ fs <> [] /\
      (fix go (l : list (string * tree)) : Prop := match l with [] => True | x :: r => (is_name (fst x) = true /\ formed (snd x)) /\ go r end) fs
  end.

(** a view laid out at depth [k]: on one line, or ([alt]) every field and entry on a line of
    its own, indented by four spaces for each structure, list and tuple it is in *)
Definition spaces (k : nat) : list N := concat (repeat (codes "    ") k).
Definition nl (k : nat) : list N := 10 :: spaces k.
Definition sep (alt : bool) (k : nat) : list N := if alt then 44 :: nl (S k) else [44; 32].
Fixpoint rest (sp cl : list N) (l : list (list N)) : list N :=
  match l with [] => cl | x :: r => sp ++ x ++ rest sp cl r end.
(** [op] the bracket, [cp] the closing one *)
Definition body (alt : bool) (k : nat) (op cp : string) (l : list (list N)) : list N :=
  match l with
  | [] => []
  | x :: r => (if alt then nl (S k) else codes op) ++ x ++ rest (sep alt k) (if alt then 44 :: nl k ++ codes cp else codes op ++ codes cp) r
  end.
Fixpoint lay (higher : N -> bool) (alt : bool) (k : nat) (t : tree) : list N :=
  match t with
  | SNum n => codes (dec n)
  | SText s => text_chars higher s
  | SList l => match l with [] => codes "[]" | _ => codes "[" ++ body alt k "" "]" (map (lay higher alt (S k)) l) end
  | STuple l => codes "(" ++ body alt k "" ")" (map (lay higher alt (S k)) l)
  | SStruct n fs => codes n ++ codes " {" ++ body alt k " " "}" (map (fun p => codes (fst p) ++ codes ": " ++ lay higher alt (S k) (snd p)) fs)
  end.

(** characters that cannot disturb a log: printable ASCII, or printable according to Unicode *)
Definition harmless (higher : N -> bool) (c : N) : Prop := 32 <= c < 127 \/ (127 <= c /\ higher c = true).

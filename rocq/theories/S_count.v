(** Specification: pieces of PES packets on the way, and what a player that looks at the counters can give. *)
From Verif Require Import Prelude Layout S_ts S_play.

(** the pieces of a PES packet, with [true] for those that arrive; all pieces with payload_unit_start_indicator *)
Definition marked := list (piece * bool).
Definition later_pieces (r : marked) : list (N * piece * bool) := map (fun y => (0, fst y, snd y)) r.
Definition unit_pieces (u : marked) : list (N * piece * bool) :=
  match u with [] => [] | (x, b) :: r => (1, x, b) :: later_pieces r end.
(** the end of a PES packet, then whole ones *)
Definition on_air (lead : marked) (us : list marked) : list (N * piece * bool) := later_pieces lead ++ concat (map unit_pieces us).
Definition arrived (pid : N) (l : list (N * piece * bool)) : list (list N) :=
  flat_map (fun y => match y with (u, x, true) => [es_packet pid u x] | (_, _, false) => [] end) l.

(** the counters go on from [c] *)
Fixpoint in_step (c : N) (l : list (N * piece * bool)) : Prop :=
  match l with [] => True | (_, x, _) :: l' => e_cc x = c /\ in_step ((c + 1) mod 16) l' end.
(** never 16, 32, ... packets are lost in a row between two that arrive; [lost]: the number lost so far, [None] before the first that arrives *)
Fixpoint gaps_show (lost : option N) (l : list (N * piece * bool)) : Prop :=
  match l with
  | [] => True
  | (_, _, true) :: l' => match lost with Some k => k = 0 \/ k mod 16 <> 0 | None => True end /\ gaps_show (Some 0) l'
  | (_, _, false) :: l' => gaps_show (match lost with Some k => Some (k + 1) | None => None end) l'
  end.

Definition whole (u : marked) : bool := forallb snd u.
Definition starts (u : marked) : bool := match u with (_, b) :: _ => b | [] => false end.
Definition data (u : marked) : list N := concat (map (fun y => e_data (fst y)) u).
(** of the PES packets, each with what it is: those that arrive whole and whose end shows by the start of the next *)
Fixpoint given {A} (us : list (marked * A)) : list A :=
  match us with
  | (u, a) :: (((v, _) :: _) as r) => (if whole u && starts v then [a] else []) ++ given r
  | _ => []
  end.

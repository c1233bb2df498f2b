(** Specification: a PES packet cut into as few transport packets as can be. *)
From Verif Require Import Prelude Layout S_ts S_play.

(** the adaptation field of a packet with [k] bytes of payload (Table 2-6): only what fills the packet, and the PCR *)
Definition filling (pcr : option N) (k : nat) : option (list N) :=
  match pcr with
  | Some v => Some (layout [(3%nat, 0); (1%nat, 1); (4%nat, 0)] ++ pcr_bytes (v / 300) 63 (v mod 300) ++ repeat 0xFF (176 - k))
  | None => if (k =? 184)%nat then None else if (k =? 183)%nat then Some [] else Some (0 :: repeat 0xFF (182 - k))
  end.
Definition room (pcr : option N) : nat := match pcr with Some _ => 176 | None => 184 end.
(** pieces with counters from [c]: each is full unless it is the last; the PCR in the first *)
Fixpoint cut_up (pcr : option N) (c : N) (l : list piece) : Prop :=
  match l with
  | [] => True
  | x :: r => e_prio x = 0 /\ e_cc x = c /\ e_af x = filling pcr (length (e_data x)) /\ (length (e_data x) <= room pcr)%nat /\
              (r <> [] -> length (e_data x) = room pcr) /\ cut_up None ((c + 1) mod 16) r
  end.
(** number of packets for [n] bytes *)
Definition packets_for (pcr : option N) (n : nat) : nat := (1 + (n - room pcr + 183) / 184)%nat.
(** the counters go on over the PES packets *)
Fixpoint all_cut (c : N) (l : list (option N * list piece)) : Prop :=
  match l with [] => True | (pcr, x) :: r => cut_up pcr c x /\ all_cut ((c + N.of_nat (length x)) mod 16) r end.

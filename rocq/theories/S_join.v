(** Specification: a receiver that joins in the middle of a section. *)
From Verif Require Import Prelude Layout S_ts S_psi S_system S_loss.

(** the rest of a section whose start is missing: packets that continue it, with consecutive counters *)
Definition rest_of_section (l : list packet) : Prop :=
  Forall (fun k => packet_ok k /\ k_pusi k = false /\ (3 <= length (k_payload k))%nat) l /\ exists cc, counted cc l.
(** a receiver that has nothing and expects the counter after [cc] takes up the packets from the
    first one with that counter on *)
Fixpoint taken_up (cc : N) (l : list packet) : list packet :=
  match l with [] => [] | k :: l' => if k_cc k =? (cc + 1) mod 16 then l else taken_up cc l' end.
(** what it takes for a section, and in how many packets it looks complete *)
Definition phantom (l : list packet) : list N := let d := concat (map k_payload l) in firstn (section_length d) d.
Fixpoint complete_in (n have : nat) (l : list packet) : nat :=
  match l with
  | [] => 0
  | k :: l' => let h := (have + length (k_payload k))%nat in ((if (n <=? h)%nat then 1 else 0) + complete_in n h l')%nat
  end.

(** Specification: loss of packets on the way. *)
From Verif Require Import Prelude Layout S_ts S_psi S_system.

(** packets with a mark that says whether they arrive *)
Definition marked := list (packet * bool).
Definition arrived (l : marked) : list packet := map fst (filter snd l).
Definition sent_packets (l : marked) : list packet := map fst l.

(** packets in the order in which they were sent: all of them have a payload, so the
    counter advances by one with each; [cc] is the counter of the packet before *)
Fixpoint counted (cc : N) (l : list packet) : Prop :=
  match l with [] => True | k :: l' => k_haspl k = true /\ k_cc k = (cc + 1) mod 16 /\ counted (k_cc k) l' end.

(** what a receiver can know from the counters: no start of a section has arrived yet; the last packet
    has arrived and nothing is missing; or the last packet that fits is [d] packets back *)
Inductive sync := Nothing | In_step | Behind (d : nat).
Definition miss (s : sync) : sync := match s with Nothing => Nothing | In_step => Behind 2 | Behind d => Behind (S d) end.

(** every gap shows: the counter has 4 bits, so a packet that arrives behind a gap must not be 1, 17,
    33... packets after the last one that fits; before the first start nothing arrives *)
Fixpoint gaps_show (s : sync) (l : marked) : Prop :=
  match l with
  | [] => True
  | (k, false) :: l' => gaps_show (miss s) l'
  | (k, true) :: l' =>
    if k_pusi k then gaps_show In_step l'
    else match s with
         | Nothing => False
         | In_step => gaps_show In_step l'
         | Behind d => (d mod 16 <> 1)%nat /\ gaps_show (Behind (S d)) l'
         end
  end.

(** sections with their packets; those that arrive whole *)
Definition transmitted (xs : list (marked * list N)) : Prop :=
  Forall (fun x => carries (sent_packets (fst x)) (snd x) /\ framed (snd x)) xs.
Definition on_the_way (xs : list (marked * list N)) : marked := concat (map fst xs).
Definition intact (xs : list (marked * list N)) : list (list N) := map snd (filter (fun x => forallb snd (fst x)) xs).

(** Specification: where the bytes of a section come from, for any packets whatever. *)
From Verif Require Import Prelude Layout S_ts S_psi S_system.

Definition ts_packet (x : list N) : Prop := length x = 188%nat /\ bytes x.
(** the bytes a packet has for sections: its payload, without the pointer_field *)
Definition body (x : list N) : list N := skipn (N.to_nat (payload_at x) + (if flag x 9 then 1 else 0)) x.
(** packets whose counters follow each other *)
Fixpoint follow_on (cc : N) (l : list (list N)) : Prop :=
  match l with [] => True | x :: l' => field x 28 4 = (cc + 1) mod 16 /\ follow_on (field x 28 4) l' end.
Definition in_step (l : list (list N)) : Prop := match l with [] => True | x :: l' => follow_on (field x 28 4) l' end.
(** [s] is in one piece in packets that came one after the other (packets without payload aside) and in step *)
Definition part_of (l : list (list N)) (s : list N) : Prop :=
  exists before run behind pre post, filter (fun x => flag x 27) l = before ++ run ++ behind /\ in_step run /\
    Forall (fun x => payload_at x < 188) run /\ concat (map body run) = pre ++ s ++ post.

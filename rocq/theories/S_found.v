(** Specification: an elementary stream among the packets of a stream that is damaged on the way. *)
From Verif Require Import Prelude Layout S_ts S_play S_count.

(** packets of PID [pid] with payload *)
Definition mine (pid : N) (ts : list N) : bool := ((field ts 11 13 =? pid) && flag ts 27)%bool.
(** the counters of the pieces go on from [c] *)
Fixpoint counted (c : N) (l : list piece) : Prop := match l with [] => True | x :: l' => e_cc x = c /\ counted ((c + 1) mod 16) l' end.
(** the packets of the pieces, with their marks *)
Definition as_packets (pid : N) (l : list (N * piece * bool)) : list (list N * bool) := map (fun y => (es_packet pid (fst (fst y)) (snd (fst y)), snd y)) l.

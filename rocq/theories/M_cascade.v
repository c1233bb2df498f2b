(** Drivers (not code of /repo): remultiplexers (M_remux) one after another. *)
From Verif Require Import Prelude M_ts M_remux.

(** each with its own build and routes *)
Fixpoint remaps (stages : list (mode * (N -> option N))) (l : list (list N)) : res (list (list N)) :=
  match stages with [] => Ok l | (m, route) :: stages => l <- remap m route l ;; remaps stages l end.
(** each counting the packets of a PID from its own number *)
Fixpoint renumbers (stages : list (mode * N)) (l : list (list N)) : res (list (list N)) :=
  match stages with [] => Ok l | (m, c) :: stages => l <- renumber m c l ;; renumbers stages l end.

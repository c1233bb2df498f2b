(** What a caller of Psi::mux does: feed packets one after another to the same Psi
    (the loop of every unit test of the table modules, e.g. psi/pat.rs tests: `let mut psi
    = Psi::default(); psi.mux(&packet)`). Not part of the library; a driver. *)
From Verif Require Import Prelude M_psi.

Fixpoint mux_all (m : mode) (p : psi) (l : list (list N)) : res psi :=
  match l with
  | [] => Ok p
  | ts :: l' => p <- psi_mux m p ts ;; mux_all m p l'
  end.

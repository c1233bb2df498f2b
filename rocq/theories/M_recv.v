(** What a receiver of a table does: push every packet into the same Psi and hand the Psi to
    the table after each (the pattern of the unit tests in tests/*.rs, mux then parse, for every packet;
    parse does nothing until a section is complete). Not part of the library; a driver. *)
From Verif Require Import Prelude M_psi.

Fixpoint receive {T} (m : mode) (parse : T -> psi -> res T) (p : psi) (t : T) (l : list (list N)) : res (psi * T) :=
  match l with
  | [] => Ok (p, t)
  | ts :: l' => p <- psi_mux m p ts ;; t <- parse t p ;; receive m parse p t l'
  end.

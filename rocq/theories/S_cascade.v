(** Specification: routes one after another. *)
From Verif Require Import Prelude.
Fixpoint through (routes : list (N -> option N)) (pid : N) : option N :=
  match routes with [] => Some pid | r :: routes => match r pid with Some q => through routes q | None => None end end.

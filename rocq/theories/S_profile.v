(** Specification: the two build profiles. *)
From Verif Require Import Prelude.

(** a computation that does not panic with checks (overflow checks and debug assertions) gives
    the same without: the same value, or runs on the same *)
Definition alike {A} (f : mode -> res A) : Prop := f Debug = Panic \/ f Debug = f Release.

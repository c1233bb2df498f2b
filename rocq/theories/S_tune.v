(** Specification: the table of one section. *)
From Verif Require Import Prelude.

(** a section that is long enough for the table is read; a shorter one makes an empty table *)
Definition made {T} (min : nat) (rd : list N -> T -> Prop) (dflt : T) (s : list N) (u : T) : Prop :=
  if (min <=? length s)%nat then rd s u else u = dflt.

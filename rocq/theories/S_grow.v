(** Specification: how tables grow. *)
From Verif Require Import Prelude Layout M_text M_desc M_tables.

(** least number of bytes for entries with a header of [h] bytes and descriptors *)
Definition least {A} (h : nat) (descs : A -> list desc) (l : list A) : nat :=
  fold_right (fun i n => h + 2 * length (descs i) + n)%nat 0%nat l.
(** what is there stays; what is added, if anything, fits into [room] bytes *)
Definition grown {A} (h : nat) (descs : A -> list desc) (items items' : list A) (ds ds' : list desc) (room : nat) : Prop :=
  exists new nds, items' = items ++ new /\ ds' = ds ++ nds /\ (2 * length nds + least h descs new <= room)%nat.

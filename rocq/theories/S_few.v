(** Specification: what it costs to send sections. *)
From Verif Require Import Prelude.

(** the pointer_field and the section, in payloads of 184 bytes *)
Definition packets_of (s : list N) : nat := S (length s / 184).
Definition packets (ss : list (list N)) : nat := list_sum (map packets_of ss).
(** all bytes of the sections *)
Definition size_of (ss : list (list N)) : nat := length (concat ss).

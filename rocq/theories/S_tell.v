(** Specification: what a stream tells about the tables that were sent. *)
From Verif Require Import Prelude Layout M_tables S_tables S_system M_multi S_multi.

(** tables of at most 256 sections: the programs, transports or services take at most 120000 bytes *)
Definition few (t : table) : Prop :=
  match t with
  | TPmt t => (length (flat_map pmt_entry (pmt_items t)) <= N.to_nat 120000)%nat
  | TNit t => (length (flat_map nit_entry (nit_items t)) <= N.to_nat 120000)%nat
  | TSdt t => (length (flat_map sdt_entry (sdt_items t)) <= N.to_nat 120000)%nat
  | _ => True
  end.
(** a section that begins a table: the first one, and of a schedule the first one of its first table *)
Definition begins (s : list N) : bool :=
  let id := field s 0 8 in
  if (id =? 0x70) || (id =? 0x73) then true else (field s 48 8 =? 0) && (negb (0x50 <=? id) || (id mod 16 =? 0)).

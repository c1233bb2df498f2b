(** Specification: what a sender sends for any table. *)
From Verif Require Import Prelude Layout S_crc S_psi M_text M_desc M_tables S_sender.

(** at least a header and a CRC, the CRC is right, and if the length can be expressed in 12 bits, it is *)
Definition framed (s : list N) : Prop :=
  bytes s /\ (12 <= length s)%nat /\ crc_spec s = 0 /\ ((length s <= N.to_nat 4098)%nat -> length s = section_length s).
(** table_id, identifier, version of 5 bits with current_next, section_number and last_section_number of 8 bits *)
Definition starts (s : list N) (table ident version num last : N) : Prop :=
  exists x y r, s = table :: x :: y :: ident / 256 :: ident mod 256 :: 193 + 2 * (version mod 32) :: num mod 256 :: last mod 256 :: r.
(** sections numbered from 0 *)
Definition series (ss : list (list N)) (table ident version : N) : Prop :=
  Forall framed ss /\ forall i s, nth_error ss i = Some s -> starts s table ident version (N.of_nat i) (N.of_nat (length ss - 1)).

(** loops that are written with at most the bytes that are announced *)
Definition honest (ds : list desc) : Prop := Forall (fun d => (written d <= said d)%nat) ds.
(** a loop and the bytes around it in a section of at most [n] bytes with its CRC *)
Definition room (n k : nat) (ds : list desc) : Prop := honest ds /\ (k + sum written ds + 4 <= n)%nat.
Definition pmt_fits (t : pmt) : Prop := room (N.to_nat 1024) 12 (pmt_descs t) /\ Forall (fun i => room (N.to_nat 1024) 17 (pmti_descs i)) (pmt_items t).
Definition nit_fits (t : nit) : Prop := room (N.to_nat 1024) 12 (nit_descs t) /\ Forall (fun i => room (N.to_nat 1024) 18 (niti_descs i)) (nit_items t).
Definition sdt_fits (t : sdt) : Prop := Forall (fun i => room (N.to_nat 1024) 16 (sdti_descs i)) (sdt_items t).
Definition eit_fits (t : eit) : Prop := Forall (fun i => room (N.to_nat 4096) 26 (eiti_descs i)) (eit_items t).

(** Specification: what can make a receiver abort. *)
From Verif Require Import Prelude Layout S_ts S_crc S_utils S_psi M_desc S_desc M_tables S_tables S_system S_origin.

(** a packet that keeps to its own 188 bytes: the adaptation field and, in a packet that starts a section, the
    pointer_field (0 and what is 183 or more is no distance). The length of the adaptation field counts with overflow checks only. *)
Definition harmless (m : mode) (x : list N) : Prop := flag x 27 = true ->
  (m = Debug -> flag x 26 = true -> field x 32 8 <= 250) /\
  (payload_at x < 188 -> flag x 9 = true -> let pointer := nth (N.to_nat (payload_at x)) x 0 in
    pointer = 0 \/ 183 <= pointer \/ payload_at x + 1 + pointer <= 188).

(** a loop of descriptors without overflow checks: no descriptor is read outside of its own bytes *)
Definition loop_inside (l : list N) : Prop :=
  forall recs tail t b, l = loop_of recs ++ tail -> incomplete tail -> In (t, b) recs -> ~ oob t b.
(** the entries of [h] bytes and a loop that [l] is made of *)
Definition entries_inside (h : nat) (l : list N) : Prop :=
  forall recs tail r, l = concat recs ++ tail -> cut_off h tail -> Forall (entry h) recs -> In r recs -> loop_inside (skipn h r).

(** sections that can be read: with overflow checks those that mean something, without them all
    whose lengths stay inside *)
Definition pmt_safe (m : mode) (s : list N) : Prop := let n := N.to_nat (field s 84 12) in
  match m with
  | Debug => (16 + n <= length s)%nat /\ (exists ds, loop_reads (firstn n (skipn 11 s)) ds) /\ exists items, entries_read 5 pmt_read (inner (12 + n) s) items
  | Release => (16 + n <= length s)%nat /\ loop_inside (firstn n (skipn 11 s)) /\ entries_inside 5 (inner (12 + n) s)
  end.
Definition nit_safe (m : mode) (s : list N) : Prop := let n := N.to_nat (field s 68 12) in
  match m with
  | Debug => exists t, nit_reads s t
  | Release => (16 + n <= length s)%nat /\ loop_inside (firstn n (skipn 10 s)) /\ entries_inside 6 (inner (12 + n) s)
  end.
Definition sdt_safe (m : mode) (s : list N) : Prop :=
  match m with Debug => exists t, sdt_reads s t | Release => entries_inside 5 (inner 11 s) end.
Definition eit_safe (m : mode) (s : list N) : Prop :=
  match m with Debug => exists t, eit_reads s t | Release => entries_inside 12 (inner 14 s) end.
Definition tot_safe (m : mode) (s : list N) : Prop := let n := N.to_nat (field s 68 12) in (14 + n <= length s)%nat /\
  match m with Debug => exists t, tot_reads s t | Release => loop_inside (firstn n (skipn 10 s)) end.
Definition tdt_safe (m : mode) (s : list N) : Prop := match m with Debug => exists t, tdt_reads s t | Release => True end.

(** [c] is the end of what came in step *)
Definition end_of (l : list (list N)) (c : list N) : Prop :=
  exists before run pre, filter (fun x => flag x 27) l = before ++ run /\ in_step run /\ Forall (fun x => payload_at x < 188) run /\
    concat (map body run) = pre ++ c.
(** a time and date section that is not in one packet *)
Definition tdt_cut (l : list (list N)) : Prop :=
  exists d rest c, l = d ++ rest /\ end_of d c /\ (3 <= length c < 8)%nat /\ field c 0 8 = 0x70 /\ section_length c = 8%nat.

(** Specification: tables that can pass through the library without loss. The conditions are on
    the bytes of the sections received. *)
From Verif Require Import Prelude Layout S_utils S_text M_text M_desc S_desc S_forward M_tables S_tables.

(** packed hours, minutes, seconds of at most one day *)
Definition in_day (v : N) : Prop := seconds v < 86400.

(** a text that is read again as the same text and does not grow when it is written *)
Definition text_stays (b : list N) : Prop :=
  reread (text_read b) /\ (length (text (text_read b)) <= length b)%nat.

(** [value_stays tag b]: what is read from the body is read again after it was written. Weaker
    than [faithful] (C66), which asks for the same bytes: reserved bits do not matter. Descriptors
    without texts and times always stay. *)
Definition value_stays (t : N) (b : list N) : Prop :=
  match t with
  | 0x0A => (length b mod 4 = 0)%nat -> Forall (fun g => stable (firstn 3 g)) (all_groups 4 b)
  | 0x40 => text_stays b
  | 0x48 => (3 <= length b)%nat -> (length b = 3 + len_at b 1 + len_at b (2 + len_at b 1))%nat ->
      text_stays (wire_at b 1) /\ text_stays (wire_at b (2 + len_at b 1))
  | 0x4D => (5 <= length b)%nat -> (length b = 5 + len_at b 3 + len_at b (4 + len_at b 3))%nat ->
      stable (firstn 3 b) /\ text_stays (wire_at b 3) /\ text_stays (wire_at b (4 + len_at b 3))
  | 0x4E => (6 <= length b)%nat -> (length b = 6 + len_at b 4 + len_at b (5 + len_at b 4))%nat ->
      stable (firstn 3 (skipn 1 b)) /\ len_at b 4 = 0%nat /\ text_stays (wire_at b 5)
  | 0x58 => (length b mod 13 = 0)%nat ->
      Forall (fun g => stable (firstn 3 g) /\ minutes (field g 32 16) < 300 /\ in_day (field g 64 24) /\
                       minutes (field g 88 16) < 300) (all_groups 13 b)
  | _ => True
  end.

(** every complete record of the descriptor loop stays *)
Definition loop_kept (l : list N) : Prop :=
  forall recs tail, l = loop_of recs ++ tail -> incomplete tail -> Forall (fun r => value_stays (fst r) (snd r)) recs.
(** every complete entry, with a header of [h] bytes, satisfies [P] *)
Definition entries_kept (h : nat) (P : list N -> Prop) (l : list N) : Prop :=
  forall recs tail, l = concat recs ++ tail -> cut_off h tail -> Forall (entry h) recs -> Forall P recs.

(** a PMT without program descriptors (C45) *)
Definition pmt_kept (s : list N) : Prop :=
  field s 84 12 = 0 /\ entries_kept 5 (fun r => loop_kept (skipn 5 r)) (inner 12 s).
Definition nit_kept (s : list N) : Prop :=
  let n := N.to_nat (field s 68 12) in
  loop_kept (firstn n (skipn 10 s)) /\ entries_kept 6 (fun r => loop_kept (skipn 6 r)) (inner (12 + n) s).
Definition sdt_kept (s : list N) : Prop := entries_kept 5 (fun r => loop_kept (skipn 5 r)) (inner 11 s).
Definition eit_kept (s : list N) : Prop :=
  entries_kept 12 (fun r => loop_kept (skipn 12 r) /\ in_day (field r 32 24) /\ in_day (field r 56 24)) (inner 14 s).
Definition tot_kept (s : list N) : Prop :=
  let n := N.to_nat (field s 68 12) in
  in_day (field s 40 24) /\ loop_kept (firstn n (skipn 10 s)).

(** the bytes of the network descriptors of several sections *)
Definition total {A} (f : A -> nat) (l : list A) : nat := fold_right (fun x n => (f x + n)%nat) 0%nat l.
Definition network_bytes (ss : list (list N)) : nat := total (fun s => N.to_nat (field s 68 12)) ss.

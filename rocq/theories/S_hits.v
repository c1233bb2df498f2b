(** Specification: tables sent on one PID of which packets are lost and packets are hit by bit errors. *)
From Verif Require Import Prelude Layout S_ts S_psi M_tables S_system S_loss S_noise M_multi S_multi S_lossy.

(** a packet that is sent, and what arrives of it: nothing, or 188 bytes *)
Notation hit := (list N * option (list N))%type.
Definition some_way (x : hit) : bool := match snd x with Some _ => true | None => false end.
(** what is there at the end of the way (lost packets aside) *)
Definition come (l : list hit) : list (list N) := flat_map (fun x => match snd x with Some y => [y] | None => [] end) l.
(** which packets come at all *)
Definition come_marks (l : list hit) : list (list N * bool) := map (fun x => (fst x, some_way x)) l.

(** the section in the packets of a run: behind the header of each packet and the pointer field of the first *)
Definition body (ps : list (list N)) : list N := concat (map (skipn 4) ps).
Definition section_in (ps : list (list N)) : list N := let b := tl (body ps) in firstn (3 + N.to_nat (field b 12 12)) b.
(** what is sent, and what comes in its place (a lost packet counts as it was sent) *)
Definition sent (g : list hit) : list (list N) := map fst g.
Definition instead (g : list hit) : list (list N) := map (fun x => match snd x with Some y => y | None => fst x end) g.

(** errors that the CRC shows: the flags and the counter of the header, the pointer field and the length of the section
    arrive as sent; sync byte, error indicator, priority, PID, scrambling and stuffing do not matter; of the section up to
    three bits are wrong, or any bits within 32 *)
Definition mild_packet (x : hit) : Prop :=
  match snd x with
  | None => True
  | Some y => length y = 188%nat /\ bytes y /\ flag y 9 = flag (fst x) 9 /\ flag y 26 = flag (fst x) 26 /\ flag y 27 = flag (fst x) 27 /\ field y 28 4 = field (fst x) 28 4
  end.
Definition mild (g : list hit) : Prop :=
  Forall mild_packet g /\ hd 0 (body (instead g)) = 0 /\ field (tl (body (instead g))) 12 12 = field (tl (body (sent g))) 12 12 /\
  (section_in (instead g) = section_in (sent g) \/ few_errors (section_in (sent g)) (section_in (instead g))).
(** a section that is hit counts as lost *)
Definition good_marks (g : list hit) : list (list N * bool) :=
  if list_eq_dec N.eq_dec (section_in (instead g)) (section_in (sent g)) then come_marks g else map (fun x => (fst x, false)) g.
Definition good (l : list hit) : list (list N * bool) := concat (map good_marks (runs l)).

(** tables, each with its packets and what comes of them *)
Definition journey := list (table * list hit).
Definition all_hits (xs : journey) : list hit := concat (map snd xs).
Definition marks_of (f : list hit -> list (list N * bool)) (xs : journey) : delivery := map (fun x => (fst x, f (snd x))) xs.

(** in a multiplex: a packet that comes has the PID and the sync byte of the packet sent *)
Definition same_pid (x : hit) : Prop := match snd x with Some y => length y = 188%nat /\ bytes y /\ field y 0 8 = 0x47 /\ field y 11 13 = field (fst x) 11 13 | None => True end.

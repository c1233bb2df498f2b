(** Specification: bit errors on the way, on top of the loss of packets (S_loss). *)
From Verif Require Import Prelude Layout S_ts S_crc S_psi S_system S_loss.

(** a packet and what arrives in its place: payload bits and bits of the header that do not matter to
    sections (sync byte, error indicator, priority, PID, scrambling) may differ *)
Definition in_place (k k' : packet) : Prop :=
  k_pusi k' = k_pusi k /\ k_haspl k' = k_haspl k /\ k_cc k' = k_cc k /\ k_af k' = k_af k /\
  length (k_payload k') = length (k_payload k) /\ bytes (k_payload k').

(** packets that are sent, packets that arrive or not, and the section sent *)
Record trip := mkTrip { t_sent : list packet; t_got : marked; t_section : list N }.
(** the bytes that arrive in the place of the section (behind the pointer field) *)
Definition t_seen (x : trip) : list N := firstn (length (t_section x)) (tl (carried (sent_packets (t_got x)))).

(** up to three bits anywhere, or any bits within 32 *)
Definition few_errors (s s' : list N) : Prop :=
  exists e, bytes e /\ length e = length s /\ s' = xor_bytes s e /\ ((1 <= weight e <= 3)%nat \/ exists w, (w <= 32)%nat /\ burst w e).

(** the pointer field and the length field arrive unharmed; the section has a right CRC or is one the
    table does not look at because it is short *)
Definition noisy (min : nat) (x : trip) : Prop :=
  carries (t_sent x) (t_section x) /\ framed (t_section x) /\
  Forall2 in_place (t_sent x) (sent_packets (t_got x)) /\
  hd 0 (carried (sent_packets (t_got x))) = 0 /\ section_length (t_seen x) = section_length (t_section x) /\
  (t_seen x = t_section x \/
   few_errors (t_section x) (t_seen x) /\ (crc_spec (t_section x) = 0 \/ (length (t_section x) < min)%nat)).

(** everything on the way, and the sections that arrive whole and unharmed *)
Definition way (xs : list trip) : marked := concat (map t_got xs).
Definition unharmed (xs : list trip) : list (list N) :=
  map t_section (filter (fun x => forallb snd (t_got x) && (if list_eq_dec N.eq_dec (t_seen x) (t_section x) then true else false)) xs).

(** Specification: PES packets for times on clocks that never wrap (S_due), some with a PCR in their first packet. *)
From Verif Require Import Prelude Layout S_ts S_measure S_play S_due.

Record spoken := mkSpoken { k_pcr : option N; k_pts : N; k_id : N; k_bits : N; k_dts : option N; k_flags : N; k_rest : list N; k_data : list N; k_open : bool }.
Definition pes_of (k : spoken) : pes := Timed (k_id k) (k_bits k) (Some (k_pts k mod 2 ^ 33)) (k_dts k) (k_flags k) (k_rest k) (k_data k).
(** the PCR and the bytes to be sent *)
Definition wire (k : spoken) : option N * list N := (match k_pcr k with Some t => Some (t mod PERIOD) | None => None end, pes_bytes (pes_of k) (k_open k)).
Definition spoken_ok (k : spoken) : Prop := pes_ok (pes_of k) /\ length_ok (pes_of k) (k_open k).
(** the last PCR and the PTS of each PES packet from the first with PCR on *)
Fixpoint speech (c : option N) (l : list spoken) : list (N * N) :=
  match l with
  | [] => []
  | k :: l' => let c := match k_pcr k with Some t => Some t | None => c end in match c with Some t => (t, k_pts k) :: speech c l' | None => speech c l' end
  end.

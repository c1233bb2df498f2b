(** Specification: PES packets and the clock of the program. Times are on clocks that never wrap: ticks of 27 MHz for the clock of the program,
    of 90 kHz for the presentation of PES packets. *)
From Verif Require Import Prelude Layout S_ts S_measure S_restamp S_play.

(** a packet, the time of the PCR in it, and the time for which the PES packet that starts in it is *)
Definition moment := (list N * option N * option N)%type.
Definition tick_ok (pcr_pid : N) (e : moment) : Prop :=
  let p := fst (fst e) in
  match snd (fst e) with
  | Some t => field p 11 13 = pcr_pid /\ has_pcr p = true /\ pcr_of p = t mod PERIOD
  | None => field p 11 13 <> pcr_pid \/ has_pcr p = false
  end.
(** the first packet of a PES packet with PTS holds at least its time stamps *)
Definition start_ok (pid : N) (e : moment) : Prop :=
  let p := fst (fst e) in
  match snd e with
  | Some t => exists x l id b6 dts f6 rest data b, let q := Timed id b6 (Some (t mod 2 ^ 33)) dts f6 rest data in
      pes_ok q /\ length_ok q b /\ pieces_of (x :: l) (pes_bytes q b) /\ (9 + length (stamps (Some (t mod 2 ^ 33)%N) dts) <= length (e_data x))%nat /\ p = es_packet pid 1 x
  | None => field p 11 13 <> pid \/ flag p 27 = false \/ flag p 9 = false
  end.
(** of each PES packet behind the first PCR: the time of the last PCR, and the time for which it is *)
Fixpoint waits (c : option N) (l : list moment) : list (N * N) :=
  match l with
  | [] => []
  | (_, t, s) :: l' =>
    let c := match t with Some _ => t | None => c end in
    match c, s with Some t, Some p => (t, p) :: waits c l' | _, _ => waits c l' end
  end.
(** for a time that is still to come, less than a turn of the clock ahead *)
Definition ahead (w : N * N) : Prop := fst w / 300 <= snd w /\ snd w < fst w / 300 + 2 ^ 33.
(** ticks to wait; one less when the clock wraps between *)
Definition ticks (w : N * N) : N := snd w - fst w / 300 - (if fst w / PERIOD =? snd w / 2 ^ 33 then 0 else 1).

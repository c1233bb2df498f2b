(** Specification: PES packets (ISO/IEC 13818-1, Table 2-21) and how transport packets carry them. *)
From Verif Require Import Prelude Layout S_ts.

(** a PES packet with the optional header (stream_id, the six bits behind '10', PTS and DTS, the six flags behind
    PTS_DTS_flags, the rest of the header, data) or without *)
Inductive pes :=
| Timed (id bits6 : N) (pts dts : option N) (flags6 : N) (rest data : list N)
| Plain (id : N) (data : list N).

Definition stamps (pts dts : option N) : list N :=
  match pts, dts with
  | Some p, Some d => pts_bytes 3 p 1 1 1 ++ pts_bytes 1 d 1 1 1
  | Some p, None => pts_bytes 2 p 1 1 1
  | None, _ => []
  end.
Definition pts_dts_flags (pts dts : option N) : N := match pts, dts with Some _, Some _ => 3 | Some _, None => 2 | None, _ => 0 end.
Definition below (b : N) (o : option N) : Prop := match o with Some v => v < b | None => True end.
Definition pes_ok (p : pes) : Prop :=
  match p with
  | Timed id b6 pts dts f6 rest data =>
      id < 256 /\ ~ In id no_optional_header /\ below (2 ^ 33) pts /\ below (2 ^ 33) dts /\ (pts = None -> dts = None) /\
      (length (stamps pts dts) + length rest <= 255)%nat /\ bytes rest /\ bytes data
  | Plain id data => In id no_optional_header /\ bytes data
  end.
(** the bytes behind PES_packet_length *)
Definition pes_rest (p : pes) : list N :=
  match p with
  | Timed id b6 pts dts f6 rest data =>
      layout [(2%nat, 2); (6%nat, b6); (2%nat, pts_dts_flags pts dts); (6%nat, f6); (8%nat, N.of_nat (length (stamps pts dts) + length rest))] ++
      stamps pts dts ++ rest ++ data
  | Plain _ data => data
  end.
Definition pes_id (p : pes) : N := match p with Timed id _ _ _ _ _ _ => id | Plain id _ => id end.
(** [b]: PES_packet_length is left 0 (video) *)
Definition pes_bytes (p : pes) (b : bool) : list N :=
  layout [(24%nat, 1); (8%nat, pes_id p); (16%nat, if b then 0 else N.of_nat (length (pes_rest p)))] ++ pes_rest p.
(** the length fits its 16 bits *)
Definition length_ok (p : pes) (b : bool) : Prop := b = true \/ N.of_nat (length (pes_rest p)) < 65536.
Definition holds (p : pes) : option N * option N * list N :=
  match p with Timed _ _ pts dts _ _ data => (pts, dts, data) | Plain _ data => (None, None, data) end.

(** a piece of a PES packet in a transport packet: transport_priority, continuity_counter, adaptation field, payload *)
Record piece := mkPiece { e_prio : N; e_cc : N; e_af : option (list N); e_data : list N }.
Definition af_bytes (a : option (list N)) : list N := match a with Some b => N.of_nat (length b) :: b | None => [] end.
Definition piece_ok (x : piece) : Prop :=
  (length (af_bytes (e_af x)) + length (e_data x) = 184)%nat /\ bytes (match e_af x with Some b => b | None => [] end) /\ bytes (e_data x).
Definition es_packet (pid pusi : N) (x : piece) : list N :=
  ts_header 0x47 0 pusi (e_prio x) pid 0 (match e_af x with Some _ => 1 | None => 0 end) 1 (e_cc x) ++ af_bytes (e_af x) ++ e_data x.
Definition unit_packets (pid : N) (l : list piece) : list (list N) :=
  match l with [] => [] | x :: r => es_packet pid 1 x :: map (es_packet pid 0) r end.
(** the pieces of a PES packet, at least one *)
Definition pieces_of (l : list piece) (p : list N) : Prop := l <> [] /\ Forall piece_ok l /\ concat (map e_data l) = p.

(** a packet of another PID, or without payload *)
Definition foreign (pid : N) (ts : list N) : Prop := (4 <= length ts)%nat /\ bytes ts /\ (field ts 11 13 <> pid \/ flag ts 27 = false).
(** [own] among foreign packets *)
Inductive among (pid : N) : list (list N) -> list (list N) -> Prop :=
| among_nil : among pid [] []
| among_own p own l : among pid own l -> among pid (p :: own) (p :: l)
| among_foreign p own l : foreign pid p -> among pid own l -> among pid own (p :: l).

(** times on a clock of 90 kHz that never wraps, each less than a turn of 2^33 behind the one before *)
Fixpoint onward (t : N) (l : list N) : Prop := match l with [] => True | u :: l' => t <= u /\ u < t + 2 ^ 33 /\ onward u l' end.

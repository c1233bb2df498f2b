(** Specification: sections (ISO/IEC 13818-1 2.4.4), their packetisation (2.4.4.1, the
    pointer_field) and transport packets carrying them. *)
From Verif Require Import Prelude Layout S_ts S_crc.

(** length of the section starting at the head of [s]: 3 + section_length (12 bits) *)
Definition section_length (s : list N) : nat := N.to_nat (3 + field s 12 12).

(** [s] is exactly one complete section with a correct CRC *)
Definition section_ok (s : list N) : Prop :=
  bytes s /\ length s = section_length s /\ (8 <= length s)%nat /\ crc_spec s = 0.

(** cut a list into pieces of [n] *)
Fixpoint chop_fuel (f n : nat) (l : list N) : list (list N) :=
  match f, l with
  | S f', _ :: _ => firstn n l :: chop_fuel f' n (skipn n l)
  | _, _ => []
  end.
Definition chop (n : nat) (l : list N) : list (list N) := chop_fuel (length l) n l.

(** fill up to a multiple of 184 with 0xFF *)
Definition pad184 (l : list N) : list N := l ++ repeat 255 ((184 - length l mod 184) mod 184).

(** put headers with consecutive counters in front of the payloads *)
Fixpoint number_packets (pid cc : N) (first : bool) (ps : list (list N)) : list (list N) :=
  match ps with
  | [] => []
  | c :: ps' => (ts_header 0x47 0 (if first then 1 else 0) 0 pid 0 0 1 cc ++ c)
                :: number_packets pid ((cc + 1) mod 16) false ps'
  end.

(** the packets of a section: pointer_field 0, the section, stuffing *)
Definition section_packets (pid cc : N) (s : list N) : list (list N) :=
  number_packets pid cc true (chop 184 (pad184 (0 :: s))).

(** a transport packet: header fields, optional adaptation field, optional payload *)
Record packet := mkPacket {
  k_sync : N; k_tei : N; k_pusi : bool; k_prio : N; k_pid : N; k_tsc : N;
  k_haspl : bool; k_cc : N;
  k_af : option (list N);   (* contents after adaptation_field_length *)
  k_payload : list N
}.
Definition af_bytes (a : option (list N)) : list N :=
  match a with None => [] | Some l => N.of_nat (length l) :: l end.
Definition encode (k : packet) : list N :=
  ts_header (k_sync k) (k_tei k) (if k_pusi k then 1 else 0) (k_prio k) (k_pid k) (k_tsc k)
            (match k_af k with None => 0 | _ => 1 end) (if k_haspl k then 1 else 0) (k_cc k)
  ++ af_bytes (k_af k) ++ k_payload k.
Definition packet_ok (k : packet) : Prop :=
  length (encode k) = 188%nat /\ k_cc k < 16 /\ bytes (k_payload k) /\ bytes (af_bytes (k_af k)).

(** [continues cc ks]: the packets [ks] carry on a section after a packet with counter [cc]:
    no payload start, at least one payload byte, counters in sequence; packets without
    payload may be interleaved *)
Fixpoint continues (cc : N) (ks : list packet) : Prop :=
  match ks with
  | [] => True
  | k :: ks' =>
    packet_ok k /\
    if k_haspl k
    then k_pusi k = false /\ k_payload k <> [] /\ k_cc k = (cc + 1) mod 16 /\ continues (k_cc k) ks'
    else continues cc ks'
  end.
Definition carried (ks : list packet) : list N := concat (map k_payload (filter k_haspl ks)).
Definition last_cc (cc : N) (ks : list packet) : N := last (map k_cc (filter k_haspl ks)) cc.

(** where Psi::mux looks for the payload (u8 arithmetic) *)
Definition payload_at (ts : list N) : N := if flag ts 26 then (5 + field ts 32 8) mod 256 else 4.

(** an unfinished section (header and body without CRC, length field not set) made whole *)
Definition finished (b : list N) : list N :=
  let body := firstn 1 b ++ layout [(4%nat, field b 8 4); (12%nat, N.of_nat (length b + 1))] ++ skipn 3 b in
  body ++ to_be 4 (crc_spec body).

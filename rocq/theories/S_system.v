(** Specification: sections of any kind on one PID, packetised by any sender, in a stream of packets. *)
From Verif Require Import Prelude Layout S_ts S_crc S_utils S_psi S_desc M_desc M_tables S_tables.

(** the length field tells the truth; table_id, contents and CRC can be anything *)
Definition framed (s : list N) : Prop := bytes s /\ length s = section_length s.

(** the packets [l] carry [s]: it starts behind a pointer_field of 0 in the first packet, the
    others continue (payloads of any size, packets without payload anywhere between), and the last one
    is the one that completes it. The header is complete after the second payload. *)
Definition carries (l : list packet) (s : list N) : Prop :=
  exists k ks c stuffing, l = k :: ks /\
    packet_ok k /\ k_haspl k = true /\ k_pusi k = true /\ k_payload k = 0 :: c /\
    continues (k_cc k) ks /\
    match filter k_haspl ks with [] => True | k' :: _ => (3 <= length c + length (k_payload k'))%nat end /\
    c ++ carried ks = s ++ stuffing /\
    forall n, (n < length ks)%nat -> (length (c ++ carried (firstn n ks)) < length s)%nat.

(** the sections a receiver of a table has to look at: long enough, right table_id, right CRC *)
Definition heard (ids : N -> bool) (min : nat) (ss : list (list N)) : list (list N) :=
  filter (fun s => (min <=? length s)%nat && ids (field s 0 8) && (crc_spec s =? 0)) ss.
(** the time and date section has no CRC *)
Definition heard_tdt (ss : list (list N)) : list (list N) :=
  filter (fun s => (length s =? 8)%nat && (field s 0 8 =? 0x70)) ss.

Definition id_pat (b : N) : bool := b =? 0x00.
Definition id_pmt (b : N) : bool := b =? 0x02.
Definition id_nit (b : N) : bool := (b =? 0x40) || (b =? 0x41).
Definition id_sdt (b : N) : bool := (b =? 0x42) || (b =? 0x46).
Definition id_eit (b : N) : bool := (0x4E <=? b) && (b <=? 0x6F).
Definition id_tot (b : N) : bool := b =? 0x73.

(** the packets of one PID *)
Definition on (pid : N) (pk : list N) : bool := field pk 11 13 =? pid.

(** tables that are sent without loss (C44-C52): fields in range, items that fit into a section,
    descriptors that come back when read; programs without descriptors of their own (C45); at most 253
    programs in a PAT; at least one and at most 256 events *)
Definition exact_items {A} (ds : A -> list desc) (l : list A) : Prop := Forall (fun i => loop_exact (ds i)) l.
Definition pat_sendable (t : pat) : Prop := pat_ok t /\ (length (pat_items t) <= 253)%nat.
Definition pmt_sendable (t : pmt) : Prop :=
  pmt_ok t /\ pmt_fits (N.to_nat 4098) t /\ pmt_descs t = [] /\ exact_items pmti_descs (pmt_items t).
Definition nit_sendable (t : nit) : Prop :=
  nit_ok t /\ nit_fits (N.to_nat 4098) t /\ loop_exact (nit_descs t) /\ exact_items niti_descs (nit_items t) /\ (nit_table t = 0x40 \/ nit_table t = 0x41).
Definition sdt_sendable (t : sdt) : Prop :=
  sdt_ok t /\ sdt_fits (N.to_nat 4098) t /\ exact_items sdti_descs (sdt_items t) /\ (sdt_table t = 0x42 \/ sdt_table t = 0x46).
Definition pf_sendable (t : eit) : Prop :=
  eit_ok t /\ eit_fits (N.to_nat 4098) t /\ exact_items eiti_descs (eit_items t) /\ (eit_table t = 0x4E \/ eit_table t = 0x4F) /\
  (1 <= length (eit_items t) <= 256)%nat.
Definition tdt_sendable (t : N) : Prop := t < MJD_END.
Definition tot_sendable (t : tot) : Prop :=
  tot_time t < MJD_END /\ loop_ok (tot_descs t) /\ (length (wire (tot_descs t)) <= N.to_nat 4084)%nat /\ loop_exact (tot_descs t).

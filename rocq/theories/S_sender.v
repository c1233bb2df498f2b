(** Specification: what can make a sender of tables abort. *)
From Verif Require Import Prelude S_text S_desc M_text M_desc M_tables.

(** ** values of the types that the fields have (u8, u16, u32, u64, Vec<u8>), nothing more *)
Definition text_typed (t : dvb) : Prop := t_cp t < 2 ^ 8 /\ bytes (t_data t).
Definition desc_typed (d : desc) : Prop :=
  match d with
  | D09 d => d09_caid d < 2 ^ 16 /\ d09_pid d < 2 ^ 16 /\ bytes (d09_data d)
  | D0A items => Forall (fun i => text_typed (d0A_code i) /\ d0A_type i < 2 ^ 8) items
  | D0E d => d0E_bitrate d < 2 ^ 32
  | D40 name => text_typed name
  | D41 items => Forall (fun i => d41_sid i < 2 ^ 16 /\ d41_type i < 2 ^ 8) items
  | D43 d => d43_freq d < 2 ^ 32 /\ d43_orbital d < 2 ^ 16 /\ d43_we d < 2 ^ 8 /\ d43_pol d < 2 ^ 8 /\ d43_rof d < 2 ^ 8 /\
             d43_s2 d < 2 ^ 8 /\ d43_mod d < 2 ^ 8 /\ d43_rate d < 2 ^ 32 /\ d43_fec d < 2 ^ 8
  | D44 d => d44_freq d < 2 ^ 32 /\ d44_outer d < 2 ^ 8 /\ d44_mod d < 2 ^ 8 /\ d44_rate d < 2 ^ 32 /\ d44_fec d < 2 ^ 8
  | D48 d => d48_type d < 2 ^ 8 /\ text_typed (d48_provider d) /\ text_typed (d48_name d)
  | D4D d => text_typed (d4D_lang d) /\ text_typed (d4D_name d) /\ text_typed (d4D_text d)
  | D4E d => d4E_num d < 2 ^ 8 /\ d4E_last d < 2 ^ 8 /\ text_typed (d4E_lang d) /\
             Forall (fun i => text_typed (fst i) /\ text_typed (snd i)) (d4E_items d) /\ text_typed (d4E_text d)
  | D52 t => t < 2 ^ 8
  | D58 items => Forall (fun i => text_typed (d58_code i) /\ d58_region i < 2 ^ 8 /\ d58_pol i < 2 ^ 8 /\ d58_offset i < 2 ^ 16 /\
                                  d58_time i < 2 ^ 64 /\ d58_next i < 2 ^ 16) items
  | D5A d => d5A_freq d < 2 ^ 32 /\ d5A_bw d < 2 ^ 8 /\ d5A_prio d < 2 ^ 8 /\ d5A_ts d < 2 ^ 8 /\ d5A_fec d < 2 ^ 8 /\ d5A_mod d < 2 ^ 8 /\
             d5A_hier d < 2 ^ 8 /\ d5A_hp d < 2 ^ 8 /\ d5A_lp d < 2 ^ 8 /\ d5A_guard d < 2 ^ 8 /\ d5A_trans d < 2 ^ 8 /\ d5A_other d < 2 ^ 8
  | D83 items => Forall (fun i => d83_sid i < 2 ^ 16 /\ d83_visible i < 2 ^ 8 /\ d83_lcn i < 2 ^ 16) items
  | DRaw d => raw_tag d < 2 ^ 8 /\ bytes (raw_data d)
  end.
Definition descs_typed (ds : list desc) : Prop := Forall desc_typed ds.
Definition pat_typed (t : pat) : Prop := pat_version t < 2 ^ 8 /\ pat_tsid t < 2 ^ 16 /\ Forall (fun i => pati_pnr i < 2 ^ 16 /\ pati_pid i < 2 ^ 16) (pat_items t).
Definition pmt_typed (t : pmt) : Prop := pmt_version t < 2 ^ 8 /\ pmt_pnr t < 2 ^ 16 /\ pmt_pcr t < 2 ^ 16 /\ descs_typed (pmt_descs t) /\
  Forall (fun i => pmti_type i < 2 ^ 8 /\ pmti_pid i < 2 ^ 16 /\ descs_typed (pmti_descs i)) (pmt_items t).
Definition nit_typed (t : nit) : Prop := nit_table t < 2 ^ 8 /\ nit_version t < 2 ^ 8 /\ nit_network t < 2 ^ 16 /\ descs_typed (nit_descs t) /\
  Forall (fun i => niti_tsid i < 2 ^ 16 /\ niti_onid i < 2 ^ 16 /\ descs_typed (niti_descs i)) (nit_items t).
Definition sdt_typed (t : sdt) : Prop := sdt_table t < 2 ^ 8 /\ sdt_version t < 2 ^ 8 /\ sdt_tsid t < 2 ^ 16 /\ sdt_onid t < 2 ^ 16 /\
  Forall (fun i => sdti_pnr i < 2 ^ 16 /\ sdti_sched i < 2 ^ 8 /\ sdti_pf i < 2 ^ 8 /\ sdti_status i < 2 ^ 8 /\ sdti_ca i < 2 ^ 8 /\
                   descs_typed (sdti_descs i)) (sdt_items t).
Definition eit_typed (t : eit) : Prop := eit_table t < 2 ^ 8 /\ eit_version t < 2 ^ 8 /\ eit_pnr t < 2 ^ 16 /\ eit_tsid t < 2 ^ 16 /\ eit_onid t < 2 ^ 16 /\
  Forall (fun i => eiti_id i < 2 ^ 16 /\ eiti_start i < 2 ^ 64 /\ eiti_duration i < 2 ^ 32 /\ eiti_status i < 2 ^ 8 /\ eiti_ca i < 2 ^ 8 /\
                   descs_typed (eiti_descs i)) (eit_items t).
Definition tot_typed (t : tot) : Prop := tot_time t < 2 ^ 64 /\ descs_typed (tot_descs t).

(** ** numbers that are too large for their digits, as far as the library notices: of a number of four digits it
    looks at the hundreds as a byte, of one of eight at the tens of thousands as 16 bits *)
Definition over4 (v : N) : bool := 100 <=? v / 100 mod 256.
Definition over8 (v : N) : bool := over4 (v / 10000 mod 65536).
Definition desc_over (d : desc) : bool :=
  match d with
  | D43 d => over8 (d43_freq d / 10) || over4 (d43_orbital d / 6) || over8 (d43_rate d)
  | D44 d => over8 (d44_freq d / 100) || over8 (d44_rate d)
  | _ => false
  end.
Definition loop_over (ds : list desc) : bool := existsb desc_over ds.
(** a PID of more than 13 bits or a counter of more than 4 *)
Definition address_over (pid cc : N) : bool := (8192 <=? pid) || (16 <=? cc).

(** ** the size of a descriptor as the library announces it, and the bytes that it writes *)
Definition sum {A} (f : A -> nat) (l : list A) : nat := fold_right (fun a n => f a + n)%nat 0%nat l.
Definition len (t : dvb) : nat := length (text t).
Definition said (d : desc) : nat :=
  match d with
  | D09 d => 6 + length (d09_data d) | D0A items => 2 + 4 * length items | D0E _ => 5 | D40 name => 2 + len name | D41 items => 2 + 3 * length items
  | D43 _ => 13 | D44 _ => 13 | D48 d => 5 + len (d48_provider d) + len (d48_name d) | D4D d => 7 + len (d4D_name d) + len (d4D_text d)
  | D4E d => 8 + sum (fun i => (len (fst i) + len (snd i))%nat) (d4E_items d) + len (d4E_text d)
  | D52 _ => 3 | D58 items => 2 + 13 * length items | D5A _ => 13 | D83 items => 2 + 4 * length items | DRaw d => 2 + length (raw_data d)
  end.
Definition written (d : desc) : nat :=
  match d with
  | D0A items => 2 + sum (fun i => (len (d0A_code i) + 1)%nat) items
  | D4D d => 4 + len (d4D_lang d) + len (d4D_name d) + len (d4D_text d)
  | D4E e => if (257 <? said d)%nat then 0
             else 5 + len (d4E_lang e) + sum (fun i => (2 + len (fst i) + len (snd i))%nat) (d4E_items e) + len (d4E_text e)
  | D58 items => 2 + sum (fun i => (len (d58_code i) + 10)%nat) items
  | DRaw r => if (255 <? length (raw_data r))%nat then 0 else said d
  | _ => said d
  end.

(** ** a schedule: [next] is the end of the current segment, [q] 256 times the table and the section number, [used]
    the bytes in the section. A time beyond 64 bits, a table behind 0xFF, a section behind 255 *)
Definition event_said (i : eit_item) : nat := 12 + sum said (eiti_descs i).
Definition event_written (i : eit_item) : nat := 12 + sum written (eiti_descs i).
Fixpoint events_over (next q : N) (used : nat) (items : list eit_item) : bool :=
  match items with
  | [] => false
  | i :: r => loop_over (eiti_descs i) ||
    (if next <=? eiti_start i
     then (2 ^ 64 <=? next + 10800) || (65536 <=? q / 8 * 8 + 8) || events_over (next + 10800) (q / 8 * 8 + 8) (14 + event_written i) r
     else if (N.to_nat 4092 <=? used + event_said i)%nat
     then (q mod 256 =? 255) || events_over next (q + 1) (14 + event_written i) r
     else events_over next q (used + event_written i) r)
  end.
Definition schedule_over (t : eit) (first : eit_item) (items : list eit_item) : bool :=
  let base := eit_table t / 16 * 16 in
  let day := eiti_start first / 86400 * 86400 in
  let seg := (eiti_start first - day) / 10800 in
  let end_ := eiti_start (last items first) in
  (end_ <? day) || (256 <=? base + (end_ - day) / 10800 / 32 mod 256) || (2 ^ 64 <=? day + 10800 * (seg + 2)) ||
  events_over (day + 10800 * (seg + 2)) (256 * base + 8 * (seg + 1)) 14 (first :: items).

(** a whole table of events: present/following or a schedule *)
Definition eit_over (t : eit) (pid cc : N) : bool :=
  match eit_items t with
  | [] => false
  | first :: items =>
    address_over pid cc ||
    (if (eit_table t =? 0x4E) || (eit_table t =? 0x4F) then existsb (fun i => loop_over (eiti_descs i)) (eit_items t) else schedule_over t first items)
  end.

(** [f] runs through without overflow checks; with them it aborts if [over] holds and runs through otherwise *)
Definition stops_if {A} (f : mode -> res A) (over : bool) : Prop :=
  (exists a, f Release = Ok a) /\ (over = true -> f Debug = Panic) /\ (over = false -> exists a, f Debug = Ok a).

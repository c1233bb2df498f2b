(** Specification of the tables: the syntax tables of ISO/IEC 13818-1 clause 2.4.4 (PAT, PMT)
    and EN 300 468 clause 5.2 (NIT, SDT, EIT, TDT, TOT), written with [layout] and [field]. *)
From Verif Require Import Prelude Layout S_ts S_crc S_utils S_psi M_text M_desc S_desc M_tables.

(** ** sections *)
(** the long form: [dvb] is the bit behind section_syntax_indicator ('0' in ISO/IEC 13818-1,
    reserved_future_use in EN 300 468), [ident] the table_id_extension, current_next_indicator 1 *)
Definition section (table dvb ident version num last : N) (rest : list N) : list N :=
  let s := layout [(8%nat, table); (1%nat, 1); (1%nat, dvb); (2%nat, 3); (12%nat, N.of_nat (length rest + 9));
                   (16%nat, ident); (2%nat, 3); (5%nat, version); (1%nat, 1); (8%nat, num); (8%nat, last)] ++ rest in
  s ++ to_be 4 (crc_spec s).
(** the short form of TDT and TOT, without CRC *)
Definition short_section (table len : N) (rest : list N) : list N :=
  layout [(8%nat, table); (1%nat, 0); (1%nat, 1); (2%nat, 3); (12%nat, len)] ++ rest.

(** sections numbered from 0 *)
Fixpoint numbered {A} (f : nat -> A -> list N) (i : nat) (l : list A) : list (list N) :=
  match l with [] => [] | x :: r => f i x :: numbered f (S i) r end.

(** the packets of several sections, counters running through *)
Fixpoint stream (pid cc : N) (ss : list (list N)) : list (list N) :=
  match ss with
  | [] => []
  | s :: r => let ps := section_packets pid cc s in ps ++ stream pid ((cc + N.of_nat (length ps)) mod 16) r
  end.
(** ... and the counter behind them *)
Definition next_cc (pid cc : N) (ss : list (list N)) : N := (cc + N.of_nat (length (stream pid cc ss))) mod 16.

(** a descriptor loop on the wire, and its length *)
Definition wire (ds : list desc) : list N := loop_of (map (fun d => (desc_tag d, body d)) ds).
Definition wlen (ds : list desc) : N := N.of_nat (length (wire ds)).
(** descriptors that are sent, fit a 12-bit length and come back *)
Definition loop_ok (ds : list desc) : Prop := Forall desc_ok ds /\ (length (wire ds) < N.to_nat 4096)%nat.
Definition loop_exact (ds : list desc) : Prop := Forall exact ds.

(** a date and time *)
Definition day (t : N) : N := MJD_EPOCH + t / 86400.
Definition clock (t : N) : N := hms (t / 3600 mod 24) (t / 60 mod 60) (t mod 60).

(** ** what is sent *)
Definition pat_entry (i : pat_item) : list N := layout [(16%nat, pati_pnr i); (3%nat, 7); (13%nat, pati_pid i)].
Definition pmt_entry (i : pmt_item) : list N :=
  layout [(8%nat, pmti_type i); (3%nat, 7); (13%nat, pmti_pid i); (4%nat, 15); (12%nat, wlen (pmti_descs i))] ++ wire (pmti_descs i).
Definition nit_entry (i : nit_item) : list N :=
  layout [(16%nat, niti_tsid i); (16%nat, niti_onid i); (4%nat, 15); (12%nat, wlen (niti_descs i))] ++ wire (niti_descs i).
Definition sdt_entry (i : sdt_item) : list N :=
  layout [(16%nat, sdti_pnr i); (6%nat, 63); (1%nat, sdti_sched i); (1%nat, sdti_pf i); (3%nat, sdti_status i);
          (1%nat, sdti_ca i); (12%nat, wlen (sdti_descs i))] ++ wire (sdti_descs i).
Definition eit_entry (i : eit_item) : list N :=
  layout [(16%nat, eiti_id i); (16%nat, day (eiti_start i)); (24%nat, clock (eiti_start i)); (24%nat, clock (eiti_duration i));
          (3%nat, eiti_status i); (1%nat, eiti_ca i); (12%nat, wlen (eiti_descs i))] ++ wire (eiti_descs i).

Definition pat_section (t : pat) (items : list pat_item) : list N :=
  section 0x00 0 (pat_tsid t) (pat_version t) 0 0 (flat_map pat_entry items).
Definition pmt_section (t : pmt) (last : N) (i : nat) (items : list pmt_item) : list N :=
  let ds := if (i =? 0)%nat then pmt_descs t else [] in
  section 0x02 0 (pmt_pnr t) (pmt_version t) (N.of_nat i) last
    (layout [(3%nat, 7); (13%nat, pmt_pcr t); (4%nat, 15); (12%nat, wlen ds)] ++ wire ds ++ flat_map pmt_entry items).
Definition nit_section (t : nit) (last : N) (i : nat) (items : list nit_item) : list N :=
  let ds := if (i =? 0)%nat then nit_descs t else [] in
  let loop := flat_map nit_entry items in
  section (nit_table t) 1 (nit_network t) (nit_version t) (N.of_nat i) last
    (layout [(4%nat, 15); (12%nat, wlen ds)] ++ wire ds ++ layout [(4%nat, 15); (12%nat, N.of_nat (length loop))] ++ loop).
Definition sdt_section (t : sdt) (last : N) (i : nat) (items : list sdt_item) : list N :=
  section (sdt_table t) 1 (sdt_tsid t) (sdt_version t) (N.of_nat i) last
    (layout [(16%nat, sdt_onid t); (8%nat, 255)] ++ flat_map sdt_entry items).
Definition eit_section (t : eit) (table num last seg_last last_table : N) (items : list eit_item) : list N :=
  section table 1 (eit_pnr t) (eit_version t) num last
    (layout [(16%nat, eit_tsid t); (16%nat, eit_onid t); (8%nat, seg_last); (8%nat, last_table)] ++ flat_map eit_entry items).
Definition tdt_bytes (t : N) : list N := short_section 0x70 5 (layout [(16%nat, day t); (24%nat, clock t)]).
Definition tot_bytes (t : tot) : list N :=
  let s := short_section 0x73 (N.of_nat (length (wire (tot_descs t)) + 11))
             (layout [(16%nat, day (tot_time t)); (24%nat, clock (tot_time t)); (4%nat, 15); (12%nat, wlen (tot_descs t))]
              ++ wire (tot_descs t)) in
  s ++ to_be 4 (crc_spec s).

(** ** ranges: the fields fit their widths *)
Definition pat_item_ok (i : pat_item) : Prop := pati_pnr i < 2 ^ 16 /\ pati_pid i < 2 ^ 13.
Definition pmt_item_ok (i : pmt_item) : Prop := pmti_type i < 2 ^ 8 /\ pmti_pid i < 2 ^ 13 /\ loop_ok (pmti_descs i).
Definition nit_item_ok (i : nit_item) : Prop := niti_tsid i < 2 ^ 16 /\ niti_onid i < 2 ^ 16 /\ loop_ok (niti_descs i).
Definition sdt_item_ok (i : sdt_item) : Prop :=
  sdti_pnr i < 2 ^ 16 /\ sdti_sched i < 2 /\ sdti_pf i < 2 /\ sdti_status i < 8 /\ sdti_ca i < 2 /\ loop_ok (sdti_descs i).
Definition eit_item_ok (i : eit_item) : Prop :=
  eiti_id i < 2 ^ 16 /\ eiti_start i < MJD_END /\ eiti_duration i < 86400 /\ eiti_status i < 8 /\ eiti_ca i < 2 /\ loop_ok (eiti_descs i).
Definition pat_ok (t : pat) : Prop := pat_version t < 2 ^ 5 /\ pat_tsid t < 2 ^ 16 /\ Forall pat_item_ok (pat_items t).
Definition pmt_ok (t : pmt) : Prop :=
  pmt_version t < 2 ^ 5 /\ pmt_pnr t < 2 ^ 16 /\ pmt_pcr t < 2 ^ 13 /\ loop_ok (pmt_descs t) /\ Forall pmt_item_ok (pmt_items t).
Definition nit_ok (t : nit) : Prop :=
  nit_table t < 2 ^ 8 /\ nit_version t < 2 ^ 5 /\ nit_network t < 2 ^ 16 /\ loop_ok (nit_descs t) /\ Forall nit_item_ok (nit_items t).
Definition sdt_ok (t : sdt) : Prop :=
  sdt_table t < 2 ^ 8 /\ sdt_version t < 2 ^ 5 /\ sdt_tsid t < 2 ^ 16 /\ sdt_onid t < 2 ^ 16 /\ Forall sdt_item_ok (sdt_items t).
Definition eit_ok (t : eit) : Prop :=
  eit_table t < 2 ^ 8 /\ eit_version t < 2 ^ 5 /\ eit_pnr t < 2 ^ 16 /\ eit_tsid t < 2 ^ 16 /\ eit_onid t < 2 ^ 16 /\
  Forall eit_item_ok (eit_items t).

(** every section header with a loop, and every item alone, fits a section of [n] bytes *)
Definition pmt_fits (n : nat) (t : pmt) : Prop :=
  (16 + length (wire (pmt_descs t)) <= n)%nat /\ Forall (fun i => (16 + length (pmt_entry i) <= n)%nat) (pmt_items t).
Definition nit_fits (n : nat) (t : nit) : Prop :=
  (16 + length (wire (nit_descs t)) <= n)%nat /\ Forall (fun i => (16 + length (nit_entry i) <= n)%nat) (nit_items t).
Definition sdt_fits (n : nat) (t : sdt) : Prop := Forall (fun i => (15 + length (sdt_entry i) <= n)%nat) (sdt_items t).
Definition eit_fits (n : nat) (t : eit) : Prop := Forall (fun i => (18 + length (eit_entry i) <= n)%nat) (eit_items t).

(** the items in groups, one group per section; only the first group may be empty *)
Definition grouping {A} (items : list A) (groups : list (list A)) : Prop :=
  concat groups = items /\ groups <> [] /\ Forall (fun g => g <> []) (tl groups).

(** ** what is read *)
(** the bytes of a section from offset [a] up to the CRC *)
Definition inner (a : nat) (s : list N) : list N := firstn (length s - 4 - a) (skipn a s).
(** a descriptor loop *)
Definition loop_reads (l : list N) (ds : list desc) : Prop :=
  exists recs tail, l = loop_of recs ++ tail /\ incomplete tail /\ Forall2 (fun r d => reads (snd r) (fst r) d) recs ds.

(** entries with a header of [h] bytes that ends in a 12-bit length of the rest *)
Definition entry_len (h : nat) (r : list N) : nat := (h + N.to_nat (field r (8 * h - 12) 12))%nat.
Definition entry (h : nat) (r : list N) : Prop := (h <= length r)%nat /\ length r = entry_len h r.
Definition cut_off (h : nat) (l : list N) : Prop := (length l < h \/ length l < entry_len h l)%nat.
Definition entries_read {A} (h : nat) (rd : list N -> A -> Prop) (l : list N) (items : list A) : Prop :=
  exists recs tail, l = concat recs ++ tail /\ cut_off h tail /\ Forall (entry h) recs /\ Forall2 rd recs items.

Definition time_ok (d t : N) : Prop := MJD_EPOCH <= d /\ nibs_ok 6 t = true.
Definition time_at (d t : N) : N := (d - MJD_EPOCH) * 86400 + seconds t.

Definition pat_read (r : list N) : pat_item := mkPatI (field r 0 16) (field r 19 13).
Definition pmt_read (r : list N) (i : pmt_item) : Prop :=
  exists ds, i = mkPmtI (field r 0 8) (field r 11 13) ds /\ loop_reads (skipn 5 r) ds.
Definition nit_read (r : list N) (i : nit_item) : Prop :=
  exists ds, i = mkNitI (field r 0 16) (field r 16 16) ds /\ loop_reads (skipn 6 r) ds.
Definition sdt_read (r : list N) (i : sdt_item) : Prop :=
  exists ds, i = mkSdtI (field r 0 16) (field r 22 1) (field r 23 1) (field r 24 3) (field r 27 1) ds /\ loop_reads (skipn 5 r) ds.
Definition eit_read (r : list N) (i : eit_item) : Prop :=
  exists ds, i = mkEitI (field r 0 16) (time_at (field r 16 16) (field r 32 24)) (seconds (field r 56 24)) (field r 80 3) (field r 83 1) ds /\
    time_ok (field r 16 16) (field r 32 24) /\ nibs_ok 6 (field r 56 24) = true /\ loop_reads (skipn 12 r) ds.

(** the contents of one section *)
Definition pat_reads (s : list N) (t : pat) : Prop :=
  t = mkPat (field s 42 5) (field s 24 16) (map pat_read (all_groups 4 (inner 8 s))).
Definition pmt_reads (s : list N) (t : pmt) : Prop :=
  let n := N.to_nat (field s 84 12) in
  exists ds items, t = mkPmt (field s 42 5) (field s 24 16) (field s 67 13) ds items /\
    (12 + n <= length s - 4)%nat /\ loop_reads (firstn n (skipn 12 s)) ds /\ entries_read 5 pmt_read (inner (12 + n) s) items.
Definition nit_reads (s : list N) (t : nit) : Prop :=
  let n := N.to_nat (field s 68 12) in
  exists ds items, t = mkNit (field s 0 8) (field s 42 5) (field s 24 16) ds items /\
    (12 + n <= length s - 4)%nat /\ loop_reads (firstn n (skipn 10 s)) ds /\ entries_read 6 nit_read (inner (12 + n) s) items.
Definition sdt_reads (s : list N) (t : sdt) : Prop :=
  exists items, t = mkSdt (field s 0 8) (field s 42 5) (field s 24 16) (field s 64 16) items /\
    entries_read 5 sdt_read (inner 11 s) items.
Definition eit_reads (s : list N) (t : eit) : Prop :=
  exists items, t = mkEit (field s 0 8) (field s 42 5) (field s 24 16) (field s 64 16) (field s 80 16) items /\
    entries_read 12 eit_read (inner 14 s) items.
Definition tdt_reads (s : list N) (t : N) : Prop :=
  t = time_at (field s 24 16) (field s 40 24) /\ time_ok (field s 24 16) (field s 40 24).
Definition tot_reads (s : list N) (t : tot) : Prop :=
  let n := N.to_nat (field s 68 12) in
  exists ds, t = mkTot (time_at (field s 24 16) (field s 40 24)) ds /\ time_ok (field s 24 16) (field s 40 24) /\
    (10 + n <= length s)%nat /\ loop_reads (firstn n (skipn 10 s)) ds.

(** a table with the contents of another section added *)
Definition pat_add (a b : pat) : pat := mkPat (pat_version b) (pat_tsid b) (pat_items a ++ pat_items b).
Definition pmt_add (a b : pmt) : pmt :=
  mkPmt (pmt_version b) (pmt_pnr b) (pmt_pcr b) (pmt_descs a ++ pmt_descs b) (pmt_items a ++ pmt_items b).
Definition nit_add (a b : nit) : nit :=
  mkNit (nit_table b) (nit_version b) (nit_network b) (nit_descs a ++ nit_descs b) (nit_items a ++ nit_items b).
Definition sdt_add (a b : sdt) : sdt :=
  mkSdt (sdt_table b) (sdt_version b) (sdt_tsid b) (sdt_onid b) (sdt_items a ++ sdt_items b).
Definition eit_add (a b : eit) : eit :=
  mkEit (eit_table b) (eit_version b) (eit_pnr b) (eit_tsid b) (eit_onid b) (eit_items a ++ eit_items b).
Definition tot_add (a b : tot) : tot := mkTot (tot_time b) (tot_descs a ++ tot_descs b).

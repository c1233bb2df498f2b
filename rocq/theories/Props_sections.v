(** Property theorems C53-C55: numbering and sizes of sections, sections of other tables, and
    what happens with every section a receiver can hold. Specification: S_tables. *)
From Coq Require Import Sorting.Sorted.
From Verif Require Import Prelude Layout S_ts S_crc S_utils S_psi M_text M_psi M_drive M_recv M_desc S_desc M_tables S_tables Props_tables.
From Verif Require P_tab6 P_tab7 P_tot2 W_psi W_tables W_eit Facts.

(** * C53 *)
(** table_id, section_syntax_indicator, section_length, identifier, version, current_next,
    section_number, last_section_number *)
Definition header_is (s : list N) (table ident version num last : N) : Prop :=
  field s 0 8 = table /\ field s 8 1 = 1 /\ (N.to_nat (field s 12 12) + 3)%nat = length s /\ field s 24 16 = ident /\
  field s 42 5 = version /\ field s 47 1 = 1 /\ field s 48 8 = num mod 256 /\ field s 56 8 = last mod 256.
(** sections of at most [n] bytes numbered 0..last *)
Definition sized (n : nat) (ss : list (list N)) (table ident version : N) : Prop :=
  Forall (fun s => (length s <= n)%nat) ss /\
  forall i s, nth_error ss i = Some s -> header_is s table ident version (N.of_nat i) (N.of_nat (length ss - 1)).
(** no section could have taken the first item of the next *)
Definition filled {A} (w : A -> list N) (n : nat) (ss : list (list N)) (groups : list (list A)) : Prop :=
  forall i s x r, nth_error ss i = Some s -> nth_error groups (S i) = Some (x :: r) -> (n < length s + length (w x))%nat.
Theorem C53_pat : forall m t pid cc dst, pat_ok t -> pid < 8192 -> cc < 16 ->
  exists ss, sends (pat_demux m t pid cc dst) pid cc dst ss /\ length ss = 1%nat /\ sized (N.to_nat 1024) ss 0x00 (pat_tsid t) (pat_version t).
Proof. exact W_tables.pat_sized. Qed.
Print Assumptions C53_pat.
Theorem C53_pmt : forall m t pid cc dst, pmt_ok t -> pmt_fits (N.to_nat 1024) t -> pid < 8192 -> cc < 16 ->
  exists groups, grouping (pmt_items t) groups /\ let ss := numbered (pmt_section t (N.of_nat (length groups - 1))) 0 groups in
    sends (pmt_demux m t pid cc dst) pid cc dst ss /\ sized (N.to_nat 1024) ss 0x02 (pmt_pnr t) (pmt_version t) /\ filled pmt_entry (N.to_nat 1024) ss groups.
Proof. exact W_tables.pmt_sized. Qed.
Print Assumptions C53_pmt.
Theorem C53_nit : forall m t pid cc dst, nit_ok t -> nit_fits (N.to_nat 1024) t -> pid < 8192 -> cc < 16 ->
  exists groups, grouping (nit_items t) groups /\ let ss := numbered (nit_section t (N.of_nat (length groups - 1))) 0 groups in
    sends (nit_demux m t pid cc dst) pid cc dst ss /\ sized (N.to_nat 1024) ss (nit_table t) (nit_network t) (nit_version t) /\ filled nit_entry (N.to_nat 1024) ss groups.
Proof. exact W_tables.nit_sized. Qed.
Print Assumptions C53_nit.
Theorem C53_sdt : forall m t pid cc dst, sdt_ok t -> sdt_fits (N.to_nat 1024) t -> pid < 8192 -> cc < 16 ->
  exists groups, grouping (sdt_items t) groups /\ let ss := numbered (sdt_section t (N.of_nat (length groups - 1))) 0 groups in
    sends (sdt_demux m t pid cc dst) pid cc dst ss /\ sized (N.to_nat 1024) ss (sdt_table t) (sdt_tsid t) (sdt_version t) /\ filled sdt_entry (N.to_nat 1024) ss groups.
Proof. exact W_tables.sdt_sized. Qed.
Print Assumptions C53_sdt.
Theorem C53_eit_pf : forall m t pid cc dst, eit_ok t -> eit_fits (N.to_nat 4096) t -> eit_table t = 0x4E \/ eit_table t = 0x4F ->
  (length (eit_items t) <= 256)%nat -> pid < 8192 -> cc < 16 ->
  exists ss, sends (eit_demux m t pid cc dst) pid cc dst ss /\ length ss = length (eit_items t) /\
    sized (N.to_nat 4096) ss (eit_table t) (eit_pnr t) (eit_version t).
Proof. exact W_tables.pf_sized. Qed.
Print Assumptions C53_eit_pf.
(** schedules: the numbers are the subject of C51 *)
Theorem C53_eit_schedule : forall m t pid cc dst, eit_ok t -> eit_fits (N.to_nat 4096) t -> 0x50 <= eit_table t <= 0x6F ->
  eit_items t <> [] -> pid < 8192 -> cc < 16 ->
  (eit_demux m t pid cc dst = Panic /\ m = Debug) \/
  exists ss, sends (eit_demux m t pid cc dst) pid cc dst ss /\ Forall (fun s => (length s <= N.to_nat 4096)%nat) ss.
Proof.
  intros m t pid cc dst H F R NE Hp Hc. destruct (eit_items t) as [|first items] eqn:E; [congruence|].
  assert (F' : eit_fits (N.to_nat 4098) t) by (eapply Forall_impl; [|exact F]; intros i Hi; cbv beta in Hi; lia).
  destruct (W_eit.sched_whole m t first items pid cc dst H E F' R Hp Hc) as [D|(sl & D1 & _ & _ & _ & _ & _ & D7 & _)]; [left; exact D|right].
  eexists. split; [exact D1|]. apply (proj2 (Forall_map _ _ _)). apply D7; [apply Nat.le_refl|exact F].
Qed.
Print Assumptions C53_eit_schedule.
(** an item that does not fit is sent nevertheless: behind an empty section, in one that is too long *)
Definition ex_long : sdt := mkSdt 0x42 2 1 9 [mkSdtI 7 1 0 4 1 (repeat (DRaw (mkRaw 0x05 (repeat 7 250))) 5)].
Theorem C53_oversize_refuted : sdt_ok ex_long /\ exists s0 s1, sends (sdt_demux Debug ex_long 17 0 []) 17 0 [] [s0; s1] /\
  length s0 = 15%nat /\ length s1 = N.to_nat 1280.
Proof.
  split.
  - repeat split; try reflexivity. cbn [sdt_items ex_long]. constructor; [|constructor].
    unfold sdt_item_ok. cbn [sdti_pnr sdti_sched sdti_pf sdti_status sdti_ca sdti_descs]. repeat split; try reflexivity; [|vm_compute; lia].
    apply Forall_forall. intros d Hd. apply repeat_spec in Hd as ->. split; [|vm_compute; lia].
    split; [reflexivity|]. apply Forall_forall. intros x Hx. apply repeat_spec in Hx as ->. reflexivity.
  - exists (sdt_section ex_long 1 0 []), (sdt_section ex_long 1 1 (sdt_items ex_long)). split; [unfold sends; vm_compute; reflexivity|].
    split; [vm_compute; reflexivity|]. vm_compute. reflexivity.
Qed.
Print Assumptions C53_oversize_refuted.
Example C53_ex : exists s0 s1, sends (sdt_demux Debug (ex_sdt 70) 17 0 []) 17 0 [] [s0; s1] /\
  header_is s0 0x42 1 2 0 1 /\ header_is s1 0x42 1 2 1 1 /\ length s0 = N.to_nat 1020.
Proof.
  exists (sdt_section (ex_sdt 70) 1 0 (firstn 67 (sdt_items (ex_sdt 70)))), (sdt_section (ex_sdt 70) 1 1 (skipn 67 (sdt_items (ex_sdt 70)))).
  split; [unfold sends; vm_compute; reflexivity|]. split; [vm_compute; repeat split|]. split; [vm_compute; repeat split|vm_compute; reflexivity].
Qed.

(** * C54 *)
(** the table is unchanged *)
Theorem C54_pat : forall m t p, consistent p -> ~ accepted pat_ids 12 p -> pat_parse m t p = Ok t.
Proof. exact P_tab6.pat_pass. Qed.
Print Assumptions C54_pat.
Theorem C54_pmt : forall m t p, consistent p -> ~ accepted pmt_ids 16 p -> pmt_parse m t p = Ok t.
Proof. exact P_tab6.pmt_pass. Qed.
Print Assumptions C54_pmt.
Theorem C54_nit : forall m t p, consistent p -> ~ accepted nit_ids 16 p -> nit_parse m t p = Ok t.
Proof. exact P_tab6.nit_pass. Qed.
Print Assumptions C54_nit.
Theorem C54_sdt : forall m t p, consistent p -> ~ accepted sdt_ids 15 p -> sdt_parse m t p = Ok t.
Proof. exact P_tab6.sdt_pass. Qed.
Print Assumptions C54_sdt.
Theorem C54_eit : forall m t p, consistent p -> ~ accepted eit_ids 18 p -> eit_parse m t p = Ok t.
Proof. exact P_tab6.eit_pass. Qed.
Print Assumptions C54_eit.
Theorem C54_tot : forall m t p, consistent p -> ~ accepted tot_ids 14 p -> tot_parse m t p = Ok t.
Proof. exact P_tab6.tot_pass. Qed.
Print Assumptions C54_tot.
(** no CRC, and no check that the 8 bytes are there: C55 *)
Theorem C54_tdt : forall m t p, consistent p -> ~ (p_size p = 8%nat /\ field (p_buffer p) 0 8 = 0x70) -> tdt_parse m t p = Ok t.
Proof. exact P_tab6.tdt_pass. Qed.
Print Assumptions C54_tdt.
(** a PAT with one bit flipped, a NIT given to an SDT *)
Definition ex_psi (s : list N) : psi := mkPsi s (length s) 0 0.
Definition ex_pat_bytes : list N := pat_section ex_pat (pat_items ex_pat).
Example C54_ex : pat_parse Debug pat_default (ex_psi ex_pat_bytes) = Ok ex_pat /\
  pat_parse Debug ex_pat (ex_psi (firstn 9 ex_pat_bytes ++ [1] ++ skipn 10 ex_pat_bytes)) = Ok ex_pat /\ nth 9 ex_pat_bytes 0 = 0 /\
  sdt_parse Debug (ex_sdt 2) (ex_psi (nit_section ex_nit 0 0 (nit_items ex_nit))) = Ok (ex_sdt 2).
Proof. vm_compute. repeat split. Qed.

(** * C55 *)
(** a state of the receiver after any packets *)
Definition reached (m : mode) (p : psi) : Prop :=
  exists l, Forall (fun ts => length ts = 188%nat /\ bytes ts) l /\ mux_all m psi_default l = Ok p.
Lemma reached_consistent m p : reached m p -> consistent p.
Proof. intros (l & F & E). exact (proj1 (W_psi.reachable_inv m l p F E)). Qed.
Theorem C55_pat : forall m m' t p, reached m' p -> exists u, pat_parse m t p = Ok u.
Proof. intros m m' t p H. apply P_tab7.pat_total. exact (reached_consistent m' p H). Qed.
Print Assumptions C55_pat.
(** all others: an accepted section is read as specified, with overflow checks exactly when the
    specification can read it, and aborts otherwise. [pmt_seen] is the reading of C45. *)
Theorem C55_pmt : forall t p s, has p s -> pmt_ids (field s 0 8) -> (16 <= length s)%nat ->
  outcome_is (pmt_parse Debug t p) (pmt_seen s) (pmt_add t).
Proof. exact P_tab7.pmt_debug. Qed.
Print Assumptions C55_pmt.
Theorem C55_nit : forall t p s, has p s -> nit_ids (field s 0 8) -> (16 <= length s)%nat ->
  outcome_is (nit_parse Debug t p) (nit_reads s) (nit_add t).
Proof. exact P_tab7.nit_debug. Qed.
Print Assumptions C55_nit.
Theorem C55_sdt : forall t p s, has p s -> sdt_ids (field s 0 8) -> (15 <= length s)%nat ->
  outcome_is (sdt_parse Debug t p) (sdt_reads s) (sdt_add t).
Proof. exact P_tab7.sdt_debug. Qed.
Print Assumptions C55_sdt.
Theorem C55_eit : forall t p s, has p s -> eit_ids (field s 0 8) -> (18 <= length s)%nat ->
  outcome_is (eit_parse Debug t p) (eit_reads s) (eit_add t).
Proof. exact P_tab7.eit_debug. Qed.
Print Assumptions C55_eit.
(** the loop of the TOT is taken from the whole buffer, which may reach behind the section (C39) *)
Theorem C55_tot : forall t p s, has p s -> tot_ids (field s 0 8) -> (14 <= length s)%nat ->
  outcome_is (tot_parse Debug t p) (tot_reads (p_buffer p)) (tot_add t).
Proof. exact P_tot2.tot_debug_any. Qed.
Print Assumptions C55_tot.
(** a loop that ends before the CRC is read from the section alone *)
Theorem C55_tot_inside : forall t p s, has p s -> tot_ids (field s 0 8) -> (14 + N.to_nat (field s 68 12) <= length s)%nat ->
  outcome_is (tot_parse Debug t p) (tot_reads s) (tot_add t).
Proof. exact P_tot2.tot_debug_inside. Qed.
Print Assumptions C55_tot_inside.
Theorem C55_tdt : forall t p, consistent p -> p_size p = 8%nat -> field (p_buffer p) 0 8 = 0x70 ->
  ((8 <= length (p_buffer p))%nat -> outcome_is (tdt_parse Debug t p) (tdt_reads (firstn 8 (p_buffer p))) (fun u => u)) /\
  ((length (p_buffer p) < 8)%nat -> forall m, tdt_parse m t p = Panic) /\
  ((8 <= length (p_buffer p))%nat -> exists u, tdt_parse Release t p = Ok u).
Proof.
  intros t p H Z T. split; [exact (P_tab7.tdt_debug t p H Z T)|]. split; [intros L m; exact (P_tab7.tdt_short m t p H Z T L)|].
  exact (P_tab7.tdt_release t p H).
Qed.
Print Assumptions C55_tdt.
(** an accepted section is one that the Psi holds completely, so these cover all that C54 leaves *)
Theorem C55_covers : forall ids min p, consistent p -> (8 <= min)%nat -> accepted ids min p ->
  exists s, has p s /\ ids (field s 0 8) /\ (min <= length s)%nat.
Proof.
  intros ids min p H M A. destruct (P_tab6.accepted_has ids min p H M A) as (A1 & A2 & A3 & A4).
  exists (firstn (p_size p) (p_buffer p)). split; [exact A1|]. split; [exact A3|]. rewrite A2. exact A4.
Qed.
Print Assumptions C55_covers.

(** without overflow checks: only reads outside the section abort *)
Definition loop_oob (l : list N) : Prop :=
  exists recs tail t b, l = loop_of recs ++ tail /\ incomplete tail /\ In (t, b) recs /\ oob t b.
Definition entry_of (h : nat) (l r : list N) : Prop :=
  exists recs tail, l = concat recs ++ tail /\ cut_off h tail /\ Forall (entry h) recs /\ In r recs.
Theorem C55_pmt_release : forall t p s, has p s -> pmt_ids (field s 0 8) -> (16 <= length s)%nat -> let n := N.to_nat (field s 84 12) in
  pmt_parse Release t p = Panic <->
    (length s < 16 + n)%nat \/ loop_oob (firstn n (skipn 11 s)) \/ exists r, entry_of 5 (inner (12 + n) s) r /\ loop_oob (skipn 5 r).
Proof. exact P_tab7.pmt_release. Qed.
Print Assumptions C55_pmt_release.
Theorem C55_nit_release : forall t p s, has p s -> nit_ids (field s 0 8) -> (16 <= length s)%nat -> let n := N.to_nat (field s 68 12) in
  nit_parse Release t p = Panic <->
    (length s < 16 + n)%nat \/ loop_oob (firstn n (skipn 10 s)) \/ exists r, entry_of 6 (inner (12 + n) s) r /\ loop_oob (skipn 6 r).
Proof. exact P_tab7.nit_release. Qed.
Print Assumptions C55_nit_release.
Theorem C55_sdt_release : forall t p s, has p s -> sdt_ids (field s 0 8) -> (15 <= length s)%nat ->
  sdt_parse Release t p = Panic <-> exists r, entry_of 5 (inner 11 s) r /\ loop_oob (skipn 5 r).
Proof. exact P_tab7.sdt_release. Qed.
Print Assumptions C55_sdt_release.
Theorem C55_eit_release : forall t p s, has p s -> eit_ids (field s 0 8) -> (18 <= length s)%nat ->
  eit_parse Release t p = Panic <-> exists r, entry_of 12 (inner 14 s) r /\ loop_oob (skipn 12 r).
Proof. exact P_tab7.eit_release. Qed.
Print Assumptions C55_eit_release.
Theorem C55_tot_release : forall t p s, has p s -> tot_ids (field s 0 8) -> (14 <= length s)%nat -> let n := N.to_nat (field s 68 12) in
  tot_parse Release t p = Panic <-> (length (p_buffer p) < 10 + n)%nat \/ loop_oob (firstn n (skipn 10 (p_buffer p))).
Proof. exact P_tot2.tot_release_any. Qed.
Print Assumptions C55_tot_release.

(** such states are reached by ordinary packets with a correct CRC *)
Definition crc_on (s : list N) : list N := s ++ to_be 4 (crc_spec s).
Definition bad_pmt : list N := section 2 0 1 0 0 0 (layout [(3%nat, 7); (13%nat, 100); (4%nat, 15); (12%nat, 4095)]).
Definition bad_nit : list N := section 0x40 1 1 0 0 0 (layout [(4%nat, 15); (12%nat, 4095); (4%nat, 15); (12%nat, 0)]).
Definition bad_sdt : list N := section 0x42 1 1 0 0 0 (layout [(16%nat, 1); (8%nat, 255); (16%nat, 7); (8%nat, 0xFC); (4%nat, 8); (12%nat, 5)] ++ [0x48; 3; 1; 5; 0]).
Definition bad_eit : list N := section 0x4E 1 1 0 0 0 (layout [(16%nat, 1); (16%nat, 1); (8%nat, 0); (8%nat, 0x4E); (16%nat, 7); (16%nat, 60000); (24%nat, 0);
  (24%nat, 0); (4%nat, 8); (12%nat, 7)] ++ [0x4D; 5; 1; 2; 3; 9; 0]).
Definition bad_tot : list N := crc_on (short_section 0x73 11 (layout [(16%nat, 60000); (24%nat, 0); (4%nat, 15); (12%nat, 4095)])).
Definition bad_tdt : list N := [0x47; 0x40; 0x14; 0x10; 178] ++ repeat 0xFF 178 ++ [0x70; 0x70; 5; 0xEB; 0x66].
Definition aborts {T} (parse : mode -> T -> psi -> res T) (t : T) (l : list (list N)) : Prop :=
  Forall (fun ts => length ts = 188%nat /\ bytes ts) l /\ forall m, exists p, mux_all m psi_default l = Ok p /\ forall m', parse m' t p = Panic.
Ltac abort := split; [repeat constructor|intros [|]; eexists; (split; [vm_compute; reflexivity|intros [|]; vm_compute; reflexivity])].
Theorem C55_pmt_refuted : aborts pmt_parse pmt_default (section_packets 100 0 bad_pmt).
Proof. abort. Qed.
Print Assumptions C55_pmt_refuted.
Theorem C55_nit_refuted : aborts nit_parse nit_default (section_packets 16 0 bad_nit).
Proof. abort. Qed.
Print Assumptions C55_nit_refuted.
Theorem C55_sdt_refuted : aborts sdt_parse sdt_default (section_packets 17 0 bad_sdt).
Proof. abort. Qed.
Print Assumptions C55_sdt_refuted.
Theorem C55_eit_refuted : aborts eit_parse eit_default (section_packets 18 0 bad_eit).
Proof. abort. Qed.
Print Assumptions C55_eit_refuted.
Theorem C55_tot_refuted : aborts tot_parse tot_default (section_packets 20 0 bad_tot).
Proof. abort. Qed.
Print Assumptions C55_tot_refuted.
Theorem C55_tdt_refuted : aborts tdt_parse 0 [bad_tdt].
Proof. abort. Qed.
Print Assumptions C55_tdt_refuted.
(** the length of the loop is not compared with the end of the section: the CRC is returned as a
    descriptor, and so are bytes of the section that follows in the same packet *)
Definition crc_tot : list N := crc_on (short_section 0x73 11 (layout [(16%nat, 60001); (24%nat, 0x020000); (4%nat, 15); (12%nat, 4)])).
Definition behind_tot : list N := crc_on (short_section 0x73 11 (layout [(16%nat, 60017); (24%nat, 0x110000); (4%nat, 15); (12%nat, 10)])).
Theorem C55_tot_crc_refuted : exists s t b, section_ok s /\ length s = 14%nat /\ skipn 10 s = tlv t b /\ forall m, exists p,
  mux_all m psi_default (section_packets 20 0 s) = Ok p /\ tot_parse m tot_default p = Ok (mkTot 1677376800 [DRaw (mkRaw t b)]).
Proof.
  exists crc_tot, 0xE5, [0x42; 0x7E]. split; [repeat split; vm_compute; try reflexivity; repeat constructor|].
  split; [reflexivity|]. split; [vm_compute; reflexivity|]. intros [|]; eexists; (split; [vm_compute; reflexivity|vm_compute; reflexivity]).
Qed.
Print Assumptions C55_tot_crc_refuted.
Theorem C55_tot_behind_refuted : exists s t b c, section_ok s /\ length s = 14%nat /\ skipn 10 s ++ firstn 6 (tdt_bytes 1677376800) = t :: c :: b /\
  let packets := map encode [mkPacket 0x47 0 true 0 20 0 true 0 (Some (repeat 255 178)) (0 :: firstn 4 s);
                             mkPacket 0x47 0 true 0 20 0 true 1 (Some (repeat 255 164)) (10 :: skipn 4 s ++ tdt_bytes 1677376800)] in
  Forall (fun ts => length ts = 188%nat /\ bytes ts) packets /\
  forall m, exists p, mux_all m psi_default packets = Ok p /\ tot_parse m tot_default p = Ok (mkTot 1678791600 [DRaw (mkRaw t b)]).
Proof.
  exists behind_tot, 0x37, [0x8E; 0xD8; 0x70; 0x70; 5; 0xEA; 0x61; 2], 8. split; [repeat split; vm_compute; try reflexivity; repeat constructor|].
  split; [reflexivity|]. split; [vm_compute; reflexivity|]. cbv zeta. split; [repeat constructor|].
  intros [|]; eexists; (split; [vm_compute; reflexivity|vm_compute; reflexivity]).
Qed.
Print Assumptions C55_tot_behind_refuted.
Example C55_ex : reached Debug (ex_psi []) /\ consistent (ex_psi ex_pat_bytes) /\
  exists u, pat_parse Debug pat_default (ex_psi ex_pat_bytes) = Ok u.
Proof. split; [exists []; split; [constructor|reflexivity]|]. split; [split; [vm_compute; repeat constructor|right; split; vm_compute; [lia|reflexivity]]|eexists; vm_compute; reflexivity]. Qed.

(** Property theorems C89: whatever a table holds, it is sent as sections. Specification: S_framed, S_psi, S_tables. *)
From Verif Require Import Prelude Layout S_crc S_psi S_tables M_text M_desc M_psi M_tables S_sender S_framed.
From Verif Require P_framed.

(** * C89 *)
(** the packets appended and the counter returned are those of the sections [ss] *)
Definition sends (dm : res (N * list N)) (pid cc : N) (dst : list N) (ss : list (list N)) : Prop :=
  dm = Ok (next_cc pid cc ss, dst ++ concat (stream pid cc ss)).
Definition within (n : nat) (ss : list (list N)) : Prop := Forall (fun s => (length s <= n)%nat) ss.
(** a framed section that is not too long is a section *)
Theorem C89_section : forall s, framed s -> (length s <= N.to_nat 4098)%nat -> section_ok s.
Proof. exact P_framed.framed_ok. Qed.
Print Assumptions C89_section.
Theorem C89_pat : forall m t pid cc dst, pat_typed t -> pid < 8192 -> cc < 16 ->
  exists s, sends (pat_demux m t pid cc dst) pid cc dst [s] /\ series [s] 0x00 (pat_tsid t) (pat_version t) /\ (length s <= N.to_nat 1024)%nat.
Proof. exact P_framed.pat_framed. Qed.
Print Assumptions C89_pat.
Theorem C89_pmt : forall m t pid cc dst r, pmt_typed t -> pid < 8192 -> cc < 16 -> pmt_demux m t pid cc dst = Ok r ->
  exists ss, sends (pmt_demux m t pid cc dst) pid cc dst ss /\ ss <> [] /\ series ss 0x02 (pmt_pnr t) (pmt_version t) /\ (pmt_fits t -> within (N.to_nat 1024) ss).
Proof. exact P_framed.pmt_framed. Qed.
Print Assumptions C89_pmt.
Theorem C89_nit : forall m t pid cc dst r, nit_typed t -> pid < 8192 -> cc < 16 -> nit_demux m t pid cc dst = Ok r ->
  exists ss, sends (nit_demux m t pid cc dst) pid cc dst ss /\ ss <> [] /\ series ss (nit_table t) (nit_network t) (nit_version t) /\ (nit_fits t -> within (N.to_nat 1024) ss).
Proof. exact P_framed.nit_framed. Qed.
Print Assumptions C89_nit.
Theorem C89_sdt : forall m t pid cc dst r, sdt_typed t -> pid < 8192 -> cc < 16 -> sdt_demux m t pid cc dst = Ok r ->
  exists ss, sends (sdt_demux m t pid cc dst) pid cc dst ss /\ ss <> [] /\ series ss (sdt_table t) (sdt_tsid t) (sdt_version t) /\ (sdt_fits t -> within (N.to_nat 1024) ss).
Proof. exact P_framed.sdt_framed. Qed.
Print Assumptions C89_sdt.
(** present and following: a section for each event *)
Theorem C89_present : forall m t pid cc dst r, eit_typed t -> eit_table t = 0x4E \/ eit_table t = 0x4F -> pid < 8192 -> cc < 16 -> eit_demux m t pid cc dst = Ok r ->
  exists ss, sends (eit_demux m t pid cc dst) pid cc dst ss /\ length ss = length (eit_items t) /\ series ss (eit_table t) (eit_pnr t) (eit_version t) /\
    (eit_fits t -> within (N.to_nat 4096) ss).
Proof. exact P_framed.eit_pf_framed. Qed.
Print Assumptions C89_present.
Theorem C89_schedule : forall m t pid cc dst r, eit_typed t -> eit_table t <> 0x4E -> eit_table t <> 0x4F -> pid < 8192 -> cc < 16 -> eit_demux m t pid cc dst = Ok r ->
  exists ss, sends (eit_demux m t pid cc dst) pid cc dst ss /\
    Forall (fun s => framed s /\ exists table num last, table < 256 /\ num < 256 /\ last < 256 /\ starts s table (eit_pnr t) (eit_version t) num last) ss /\
    (eit_fits t -> within (N.to_nat 4096) ss).
Proof. exact P_framed.eit_schedule_framed. Qed.
Print Assumptions C89_schedule.
(** any number of seconds: eight bytes, without a CRC *)
Theorem C89_tdt : forall m t pid cc dst, t < 2 ^ 64 -> pid < 8192 -> cc < 16 ->
  exists a b c d e, bytes [a; b; c; d; e] /\ sends (tdt_demux m t pid cc dst) pid cc dst [[0x70; 0x70; 5; a; b; c; d; e]].
Proof. exact P_framed.tdt_framed. Qed.
Print Assumptions C89_tdt.
Theorem C89_tot : forall m t pid cc dst r, tot_typed t -> pid < 8192 -> cc < 16 -> tot_demux m t pid cc dst = Ok r ->
  exists s, sends (tot_demux m t pid cc dst) pid cc dst [s] /\ framed s /\ nth 0 s 0 = 0x73 /\ length s = (14 + sum written (tot_descs t))%nat.
Proof. exact P_framed.tot_framed. Qed.
Print Assumptions C89_tot.
(** nothing limits the loop of a TOT: a longer section is sent with a length of 12 bits *)
Theorem C89_tot_over : forall m t pid cc dst r, tot_typed t -> pid < 8192 -> cc < 16 -> (N.to_nat 4098 < 14 + sum written (tot_descs t))%nat -> tot_demux m t pid cc dst = Ok r ->
  exists s, sends (tot_demux m t pid cc dst) pid cc dst [s] /\ (section_length s < length s)%nat.
Proof. exact P_framed.tot_over. Qed.
Print Assumptions C89_tot_over.
(** not every table is sent as sections with their length, even if each descriptor is a descriptor *)
Definition loops : tot := mkTot 0 (repeat (DRaw (mkRaw 0x80 (repeat 0 255))) 16).
Theorem C89_length_refuted : exists t s, tot_typed t /\ Forall (fun d => (said d <= 257)%nat) (tot_descs t) /\
  sends (tot_demux Release t 20 0 []) 20 0 [] [s] /\ (section_length s < length s)%nat.
Proof.
  assert (T : tot_typed loops).
  { split; [reflexivity|]. apply Forall_forall. intros d D. apply repeat_spec in D. subst d. split; [reflexivity|]. apply Forall_forall. intros b Hb. apply repeat_spec in Hb. subst b. reflexivity. }
  destruct (P_framed.tot_release loops 20 0 [] T ltac:(constructor) eq_refl) as (r & R).
  destruct (C89_tot_over Release loops 20 0 [] r T eq_refl eq_refl ltac:(apply Nat.ltb_lt; vm_compute; reflexivity) R) as (s & S & L).
  exists loops, s. split; [exact T|]. split; [|split; [exact S|exact L]]. apply Forall_forall. intros d D. apply repeat_spec in D. subst d. apply Nat.leb_le. vm_compute. reflexivity.
Qed.
Print Assumptions C89_length_refuted.
(** the limit of 1024 bytes needs descriptors that are not longer than announced *)
Definition long_code : desc := D0A [mk0Ai (mkDvb 0 (repeat 65 250)) 0].
Definition services : sdt := mkSdt 0x42 0 1 1 (repeat (mkSdtI 1 0 0 0 0 [long_code]) 4).
Theorem C89_limit_refuted : exists t, sdt_typed t /\ Forall (fun i => (16 + sum written (sdti_descs i) + 4 <= N.to_nat 1024)%nat) (sdt_items t) /\
  forall m pid cc dst, pid < 8192 -> cc < 16 -> exists s, sends (sdt_demux m t pid cc dst) pid cc dst [s] /\ (N.to_nat 1024 < length s)%nat.
Proof.
  assert (T : sdt_typed services).
  { split; [reflexivity|]. split; [reflexivity|]. split; [reflexivity|]. split; [reflexivity|]. apply Forall_forall. intros i I. apply repeat_spec in I. subst i. cbn.
    repeat (split; [reflexivity|]). constructor; [|constructor]. constructor; [|constructor]. split; [split; [reflexivity|]|reflexivity].
    apply Forall_forall. intros b Hb. apply repeat_spec in Hb. subst b. reflexivity. }
  exists services. split; [exact T|]. split.
  - apply Forall_forall. intros i I. apply repeat_spec in I. subst i. apply Nat.leb_le. vm_compute. reflexivity.
  - intros m pid cc dst Hp Hc. assert (E : exists p, sdt_sections m services = Ok [p] /\ (N.to_nat 1024 <? length (p_buffer p) + 4)%nat = true).
    { destruct m; eexists; (split; [vm_compute; reflexivity|vm_compute; reflexivity]). }
    destruct E as (p & E & L). destruct (P_framed.sdt_lengths m services [p] pid cc dst T Hp Hc E) as (ss & S & X).
    destruct ss as [|s [|? ?]]; try discriminate. exists s. split; [exact S|]. injection X as X. rewrite X. apply Nat.ltb_lt. exact L.
Qed.
Print Assumptions C89_limit_refuted.

(** a PMT with values that are too wide for their fields: version 40, PCR on 0xFFFF, a stream on 0xFFFF *)
Definition wide : pmt := mkPmt 40 0x1234 0xFFFF [] [mkPmtI 2 0xFFFF [D52 7]].
Example C89_ex : pmt_typed wide /\
  exists r, pmt_demux Debug wide 32 5 [] = Ok (6, r) /\
  firstn 29 r = [0x47; 0x40; 32; 0x15; 0; 2; 0xB0; 21; 0x12; 0x34; 0xD1; 0; 0; 0xFF; 0xFF; 0xF0; 0; 2; 0xFF; 0xFF; 0xF0; 3; 0x52; 1; 7; 187; 135; 70; 184].
Proof.
  split; [repeat (split; [reflexivity|]); split; [constructor|]; constructor; [|constructor]; repeat (split; [reflexivity|]); constructor; [reflexivity|constructor]|].
  eexists. split; vm_compute; reflexivity.
Qed.

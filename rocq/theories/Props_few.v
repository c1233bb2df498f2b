(** Property theorems C92: how many sections and packets a table takes. Specification: S_few, S_tables. *)
From Coq Require Import Permutation.
From Verif Require Import Prelude S_utils S_psi M_text M_psi M_recv M_desc S_desc M_tables S_tables S_few.
From Verif Require Import Props_tables Props_sections.
From Verif Require P_few P_tab3 P_tab5 W_tables P_eit P_eit3.

(** ** packets: one for every 184 bytes begun by a section and its pointer_field, and the counter goes on by as many *)
Theorem C92_packets : forall dm pid cc dst ss, sends dm pid cc dst ss -> Forall bytes ss -> cc < 16 ->
  exists out, dm = Ok ((cc + N.of_nat (packets ss)) mod 16, dst ++ out) /\ length out = (188 * packets ss)%nat.
Proof. exact P_few.sends_cost. Qed.
Print Assumptions C92_packets.
Theorem C92_filling : forall ss, (length ss + size_of ss <= 184 * packets ss <= 184 * length ss + size_of ss)%nat.
Proof. intros ss. destruct (P_few.packets_le ss) as [A B]. split; assumption. Qed.
Print Assumptions C92_filling.

(** ** sections: no way to cut the items in their order into sections of at most 1024 bytes takes fewer *)
Definition least {A} (items : list A) (sec : N -> nat -> list A -> list N) (n : nat) : Prop :=
  forall other last, other <> [] -> concat other = items -> Forall (fun s => (length s <= N.to_nat 1024)%nat) (numbered (sec last) 0 other) -> (n <= length other)%nat.
Theorem C92_pmt : forall m t pid cc dst, pmt_ok t -> pmt_fits (N.to_nat 1024) t -> pid < 8192 -> cc < 16 ->
  exists groups, grouping (pmt_items t) groups /\ least (pmt_items t) (pmt_section t) (length groups) /\
    let ss := numbered (pmt_section t (N.of_nat (length groups - 1))) 0 groups in
    sends (pmt_demux m t pid cc dst) pid cc dst ss /\
    (920 * packets ss <= N.to_nat 1000 + 6 * length (wire (pmt_descs t)) + 7 * length (flat_map pmt_entry (pmt_items t)))%nat.
Proof. exact P_few.pmt_few. Qed.
Print Assumptions C92_pmt.
Theorem C92_nit : forall m t pid cc dst, nit_ok t -> nit_fits (N.to_nat 1024) t -> pid < 8192 -> cc < 16 ->
  exists groups, grouping (nit_items t) groups /\ least (nit_items t) (nit_section t) (length groups) /\
    let ss := numbered (nit_section t (N.of_nat (length groups - 1))) 0 groups in
    sends (nit_demux m t pid cc dst) pid cc dst ss /\
    (920 * packets ss <= N.to_nat 1000 + 6 * length (wire (nit_descs t)) + 7 * length (flat_map nit_entry (nit_items t)))%nat.
Proof. exact P_few.nit_few. Qed.
Print Assumptions C92_nit.
Theorem C92_sdt : forall m t pid cc dst, sdt_ok t -> sdt_fits (N.to_nat 1024) t -> pid < 8192 -> cc < 16 ->
  exists groups, grouping (sdt_items t) groups /\ least (sdt_items t) (sdt_section t) (length groups) /\
    let ss := numbered (sdt_section t (N.of_nat (length groups - 1))) 0 groups in
    sends (sdt_demux m t pid cc dst) pid cc dst ss /\ (920 * packets ss <= N.to_nat 1000 + 7 * length (flat_map sdt_entry (sdt_items t)))%nat.
Proof. exact P_few.sdt_few. Qed.
Print Assumptions C92_sdt.
(** ** tables whose number of packets is a formula *)
Theorem C92_pat : forall m t pid cc dst, pat_ok t -> pid < 8192 -> cc < 16 -> let n := (1 + (12 + 4 * Nat.min 253 (length (pat_items t))) / 184)%nat in
  exists out, pat_demux m t pid cc dst = Ok ((cc + N.of_nat n) mod 16, dst ++ out) /\ length out = (188 * n)%nat /\ (n <= 6)%nat.
Proof. exact P_few.pat_few. Qed.
Print Assumptions C92_pat.
Theorem C92_pf : forall m t pid cc dst, eit_ok t -> eit_fits (N.to_nat 4098) t -> eit_table t = 0x4E \/ eit_table t = 0x4F -> (length (eit_items t) <= 256)%nat -> pid < 8192 -> cc < 16 ->
  let n := list_sum (map (fun i => 1 + (30 + length (wire (eiti_descs i))) / 184)%nat (eit_items t)) in
  exists out, eit_demux m t pid cc dst = Ok ((cc + N.of_nat n) mod 16, dst ++ out) /\ length out = (188 * n)%nat.
Proof. exact P_few.pf_few. Qed.
Print Assumptions C92_pf.
Theorem C92_time : forall m t pid cc dst, t < MJD_END -> pid < 8192 -> cc < 16 ->
  exists out, tdt_demux m t pid cc dst = Ok ((cc + 1) mod 16, dst ++ out) /\ length out = 188%nat.
Proof. exact P_few.tdt_few. Qed.
Print Assumptions C92_time.
Theorem C92_tot : forall m t pid cc dst, tot_time t < MJD_END -> loop_ok (tot_descs t) -> (length (wire (tot_descs t)) <= N.to_nat 4084)%nat -> pid < 8192 -> cc < 16 ->
  let n := (1 + (14 + length (wire (tot_descs t))) / 184)%nat in
  exists out, tot_demux m t pid cc dst = Ok ((cc + N.of_nat n) mod 16, dst ++ out) /\ length out = (188 * n)%nat.
Proof. exact P_few.tot_few. Qed.
Print Assumptions C92_tot.

(** ** what is not so *)
(** in another order the same items may take fewer *)
Definition padded (n : nat) : list desc := repeat (DRaw (mkRaw 0x80 (repeat 0 193))) n.
Definition shop (sizes : list nat) : sdt := mkSdt 0x42 0 1 1 (map (fun n => mkSdtI 1 0 0 0 0 (padded n)) sizes).
Definition sent_packets (dm : res (N * list N)) : option nat := match dm with Ok (_, out) => Some (length out / 188)%nat | _ => None end.
Theorem C92_order_refuted : exists t t', Permutation (sdt_items t) (sdt_items t') /\ sdt_table t = sdt_table t' /\
  sent_packets (sdt_demux Debug t 17 0 []) = Some 13%nat /\ sent_packets (sdt_demux Debug t' 17 0 []) = Some 12%nat.
Proof.
  exists (shop [3; 3; 2; 2]%nat), (shop [3; 2; 3; 2]%nat). split; [|split; [reflexivity|split; vm_compute; reflexivity]].
  cbn [shop sdt_items map]. apply perm_skip. apply perm_swap.
Qed.
Print Assumptions C92_order_refuted.
Example C92_ex : sent_packets (sdt_demux Debug (ex_sdt 70) 17 0 []) = Some 7%nat /\ sent_packets (pat_demux Debug ex_pat 0 0 []) = Some 1%nat.
Proof. split; vm_compute; reflexivity. Qed.

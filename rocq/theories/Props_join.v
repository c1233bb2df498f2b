(** Property theorems C77: a receiver that joins in the middle of a section. Specification: S_join. *)
From Verif Require Import Prelude Layout S_ts S_crc S_utils S_psi M_text M_ts M_psi M_drive M_recv M_desc S_desc M_tables S_tables Props_tables
  M_reader S_reader M_system S_system Props_system S_loss Props_loss S_join.
From Verif Require P_psi P_tab2 P_packed P_join Facts.

(** * C77 *)
(** the receiver has no bytes of a section; the first packets that arrive continue a section whose
    start it has not seen. It takes them up from the packet with the counter it expects; what it takes for
    a section is read, if its CRC is right, with every packet that arrives before the next section starts. From there on all is well. *)
Definition joins {T} (parse : mode -> T -> psi -> res T) (ids : N -> bool) (min : nat) (rd : list N -> T -> Prop) (add : T -> T -> T) : Prop :=
  forall m p l xs cc t us ts, p_buffer p = [] -> p_size p = 0%nat -> p_cc p < 16 -> rest_of_section l ->
    let g := taken_up (p_cc p) l in Forall2 rd (heard ids min [phantom g]) us ->
    transmitted xs -> counted cc (sent_packets (on_the_way xs)) -> gaps_show Nothing (on_the_way xs) -> Forall2 rd (heard ids min (intact xs)) ts ->
    exists q, receive m (parse m) p t (map encode (l ++ arrived (on_the_way xs))) =
      Ok (q, fold_left add (concat (repeat us (complete_in (section_length (concat (map k_payload g))) 0 g)) ++ ts) t).
(** nothing is taken up if no packet of the rest has the expected counter *)
Definition joins_well {T} (parse : mode -> T -> psi -> res T) (ids : N -> bool) (min : nat) (rd : list N -> T -> Prop) (add : T -> T -> T) : Prop :=
  forall m p l xs cc t ts, p_buffer p = [] -> p_size p = 0%nat -> p_cc p < 16 -> rest_of_section l -> Forall (fun k => k_cc k <> (p_cc p + 1) mod 16) l ->
    transmitted xs -> counted cc (sent_packets (on_the_way xs)) -> gaps_show Nothing (on_the_way xs) -> Forall2 rd (heard ids min (intact xs)) ts ->
    exists q, receive m (parse m) p t (map encode (l ++ arrived (on_the_way xs))) = Ok (q, fold_left add ts t).
Theorem C77_pat : joins pat_parse id_pat 12 pat_reads pat_add /\ joins_well pat_parse id_pat 12 pat_reads pat_add.
Proof. split; intros m p l xs cc t; [exact (P_join.joined m _ _ _ _ (P_packed.pat_readable m) p l xs cc t)|exact (P_join.joined_clean m _ _ _ _ (P_packed.pat_readable m) p l xs cc t)]. Qed.
Print Assumptions C77_pat.
Theorem C77_pmt : joins pmt_parse id_pmt 16 P_tab2.pmt_seen pmt_add /\ joins_well pmt_parse id_pmt 16 P_tab2.pmt_seen pmt_add.
Proof. split; intros m p l xs cc t; [exact (P_join.joined m _ _ _ _ (P_packed.pmt_readable m) p l xs cc t)|exact (P_join.joined_clean m _ _ _ _ (P_packed.pmt_readable m) p l xs cc t)]. Qed.
Print Assumptions C77_pmt.
Theorem C77_nit : joins nit_parse id_nit 16 nit_reads nit_add /\ joins_well nit_parse id_nit 16 nit_reads nit_add.
Proof. split; intros m p l xs cc t; [exact (P_join.joined m _ _ _ _ (P_packed.nit_readable m) p l xs cc t)|exact (P_join.joined_clean m _ _ _ _ (P_packed.nit_readable m) p l xs cc t)]. Qed.
Print Assumptions C77_nit.
Theorem C77_sdt : joins sdt_parse id_sdt 15 sdt_reads sdt_add /\ joins_well sdt_parse id_sdt 15 sdt_reads sdt_add.
Proof. split; intros m p l xs cc t; [exact (P_join.joined m _ _ _ _ (P_packed.sdt_readable m) p l xs cc t)|exact (P_join.joined_clean m _ _ _ _ (P_packed.sdt_readable m) p l xs cc t)]. Qed.
Print Assumptions C77_sdt.
Theorem C77_eit : joins eit_parse id_eit 18 eit_reads eit_add /\ joins_well eit_parse id_eit 18 eit_reads eit_add.
Proof. split; intros m p l xs cc t; [exact (P_join.joined m _ _ _ _ (P_packed.eit_readable m) p l xs cc t)|exact (P_join.joined_clean m _ _ _ _ (P_packed.eit_readable m) p l xs cc t)]. Qed.
Print Assumptions C77_eit.
Theorem C77_tot : joins tot_parse id_tot 14 tot_reads tot_add /\ joins_well tot_parse id_tot 14 tot_reads tot_add.
Proof. split; intros m p l xs cc t; [exact (P_join.joined m _ _ _ _ (P_packed.tot_readable m) p l xs cc t)|exact (P_join.joined_clean m _ _ _ _ (P_packed.tot_readable m) p l xs cc t)]. Qed.
Print Assumptions C77_tot.

(** a private section that carries the bytes of a PAT: who joins at its third packet, with a new Psi,
    reads a PAT that was never sent, as often as packets of the section follow *)
Definition private : list N := finished ([0x80; 0xB0; 0; 0; 1; 0xC1; 0; 0] ++ repeat 0 359 ++ pat_a ++ repeat 0 200).
Definition plain (pusi : bool) (cc : N) (pay : list N) : packet := mkPacket 0x47 0 pusi 0 20 0 true cc None pay.
Definition private_packets : list packet :=
  let d := pad184 (0 :: private) in
  [plain true 15 (firstn 184 d); plain false 0 (firstn 184 (skipn 184 d)); plain false 1 (firstn 184 (skipn 368 d)); plain false 2 (skipn 552 d)].
Lemma plain_ok pusi cc pay : cc < 16 -> bytes pay -> length pay = 184%nat -> packet_ok (plain pusi cc pay).
Proof.
  intros H B L. split; [|split; [exact H|split; [exact B|constructor]]].
  unfold encode. rewrite !app_length, P_psi.ts_header_length. cbn [plain k_af k_payload af_bytes length]. lia.
Qed.
Theorem C77_phantom_refuted : exists l s u, carries l s /\ section_ok s /\ heard id_pat 12 [s] = [] /\ rest_of_section (skipn 1 l) /\
  forall m, exists q, receive m (pat_parse m) psi_default pat_default (map encode (skipn 1 l)) = Ok (q, fold_left pat_add [u; u] pat_default) /\ pat_items u <> [].
Proof.
  exists private_packets, private, (mkPat 0 1 [mkPatI 1 257; mkPatI 2 258; mkPatI 3 259]).
  assert (B : bytes (pad184 (0 :: private))) by (vm_compute; repeat constructor).
  assert (B' : forall n, bytes (firstn 184 (skipn n (pad184 (0 :: private))))) by (intros n; apply Facts.bytes_firstn, Facts.bytes_skipn, B).
  assert (Bl : bytes (skipn 552 (pad184 (0 :: private)))) by apply Facts.bytes_skipn, B.
  assert (O : forall pusi cc pay, cc < 16 -> bytes pay -> (length pay =? 184)%nat = true -> packet_ok (plain pusi cc pay)).
  { intros pusi cc pay H H' L. apply plain_ok; [exact H|exact H'|]. apply Nat.eqb_eq. exact L. }
  split; [|split; [|split; [|split]]].
  - exists (plain true 15 (firstn 184 (pad184 (0 :: private)))), (skipn 1 private_packets), (firstn 183 private), (repeat 255 140).
    split; [reflexivity|]. split; [apply O; [reflexivity|exact (B' 0%nat)|reflexivity]|]. do 3 (split; [reflexivity|]).
    split; [|split; [vm_compute; lia|split; [reflexivity|]]].
    + cbn [private_packets skipn continues plain k_haspl k_pusi k_payload k_cc].
      split; [apply O; [reflexivity|exact (B' 184%nat)|reflexivity]|]. split; [reflexivity|]. split; [discriminate|]. split; [reflexivity|].
      split; [apply O; [reflexivity|exact (B' 368%nat)|reflexivity]|]. split; [reflexivity|]. split; [discriminate|]. split; [reflexivity|].
      split; [apply O; [reflexivity|exact Bl|reflexivity]|]. split; [reflexivity|]. split; [discriminate|]. split; [reflexivity|exact I].
    + intros n Hn. cbn [private_packets skipn length] in Hn. destruct n as [|[|[|n]]]; [vm_compute; lia|vm_compute; lia|vm_compute; lia|lia].
  - split; [vm_compute; repeat constructor|]. vm_compute. intuition (try discriminate; try lia).
  - vm_compute. reflexivity.
  - split; [|exists 15; cbn; repeat split].
    cbn [private_packets skipn].
    constructor; [split; [apply O; [reflexivity|exact (B' 184%nat)|reflexivity]|split; [reflexivity|vm_compute; lia]]|].
    constructor; [split; [apply O; [reflexivity|exact (B' 368%nat)|reflexivity]|split; [reflexivity|vm_compute; lia]]|].
    constructor; [split; [apply O; [reflexivity|exact Bl|reflexivity]|split; [reflexivity|vm_compute; lia]]|constructor].
  - intros []; eexists; (split; [vm_compute; reflexivity|discriminate]).
Qed.
Print Assumptions C77_phantom_refuted.
(** joining elsewhere in the same packets, or with the counter somewhere else, is harmless *)
Example C77_ex : taken_up 0 (skipn 3 private_packets) = [] /\ taken_up 7 (skipn 1 private_packets) = [] /\
  taken_up 0 (skipn 1 private_packets) = skipn 2 private_packets /\ phantom (skipn 2 private_packets) = pat_a /\
  (forall m, exists q, receive m (pat_parse m) (with_cc psi_default 7) pat_default (map encode (skipn 1 private_packets ++ alone 3 pat_a)) =
     Ok (q, mkPat 0 1 [mkPatI 1 257; mkPatI 2 258; mkPatI 3 259])).
Proof. split; [reflexivity|]. split; [reflexivity|]. split; [reflexivity|]. split; [vm_compute; reflexivity|]. intros []; eexists; vm_compute; reflexivity. Qed.

(** Property theorems C61-C62: sections of any kind on one PID, tables followed in a byte stream. Specification: S_system. *)
From Verif Require Import Prelude Layout S_ts S_crc S_utils S_psi M_text M_ts M_psi M_drive M_recv M_desc S_desc M_tables S_tables Props_tables
  M_reader S_reader M_system S_system.
From Verif Require P_reader P_tab2 P_sys P_sys2 W_sys Facts.

(** * C61 *)
(** any sections in any packetisation: what is heard is read in order and added *)
Theorem C61_pat : forall m p old ls ss ts, Forall2 carries ls ss -> Forall framed ss -> Forall2 pat_reads (heard id_pat 12 ss) ts ->
  exists q, receive m (pat_parse m) p old (map encode (concat ls)) = Ok (q, fold_left pat_add ts old).
Proof. exact P_sys.pat_mixed. Qed.
Print Assumptions C61_pat.
Theorem C61_pmt : forall m p old ls ss ts, Forall2 carries ls ss -> Forall framed ss -> Forall2 pmt_seen (heard id_pmt 16 ss) ts ->
  exists q, receive m (pmt_parse m) p old (map encode (concat ls)) = Ok (q, fold_left pmt_add ts old).
Proof. exact P_sys.pmt_mixed. Qed.
Print Assumptions C61_pmt.
Theorem C61_nit : forall m p old ls ss ts, Forall2 carries ls ss -> Forall framed ss -> Forall2 nit_reads (heard id_nit 16 ss) ts ->
  exists q, receive m (nit_parse m) p old (map encode (concat ls)) = Ok (q, fold_left nit_add ts old).
Proof. exact P_sys.nit_mixed. Qed.
Print Assumptions C61_nit.
Theorem C61_sdt : forall m p old ls ss ts, Forall2 carries ls ss -> Forall framed ss -> Forall2 sdt_reads (heard id_sdt 15 ss) ts ->
  exists q, receive m (sdt_parse m) p old (map encode (concat ls)) = Ok (q, fold_left sdt_add ts old).
Proof. exact P_sys.sdt_mixed. Qed.
Print Assumptions C61_sdt.
Theorem C61_eit : forall m p old ls ss ts, Forall2 carries ls ss -> Forall framed ss -> Forall2 eit_reads (heard id_eit 18 ss) ts ->
  exists q, receive m (eit_parse m) p old (map encode (concat ls)) = Ok (q, fold_left eit_add ts old).
Proof. exact P_sys.eit_mixed. Qed.
Print Assumptions C61_eit.
Theorem C61_tot : forall m p old ls ss ts, Forall2 carries ls ss -> Forall framed ss -> Forall2 tot_reads (heard id_tot 14 ss) ts ->
  exists q, receive m (tot_parse m) p old (map encode (concat ls)) = Ok (q, fold_left tot_add ts old).
Proof. exact P_sys.tot_mixed. Qed.
Print Assumptions C61_tot.
(** a time section must be in one packet (any packet holds one) *)
Definition tdt_alone (l : list packet) (s : list N) : Prop := (length s =? 8)%nat && (field s 0 8 =? 0x70) = true -> length l = 1%nat.
Theorem C61_tdt : forall m p old ls ss ts, Forall2 carries ls ss -> Forall framed ss -> Forall2 tdt_alone ls ss ->
  Forall2 tdt_reads (heard_tdt ss) ts ->
  exists q, receive m (tdt_parse m) p old (map encode (concat ls)) = Ok (q, last ts old).
Proof. exact P_sys2.tdt_mixed. Qed.
Print Assumptions C61_tdt.
(** with overflow checks: no other result, and an abort exactly at a section that cannot be read *)
Definition only_result {T} (parse : mode -> T -> psi -> res T) (rd : list N -> T -> Prop) (add : T -> T -> T) (p : psi) (old : T)
  (l : list (list N)) (h : list (list N)) : Prop :=
  (forall q u, receive Debug (parse Debug) p old l = Ok (q, u) -> exists ts, Forall2 rd h ts /\ u = fold_left add ts old) /\
  (Exists (fun s => forall u, ~ rd s u) h -> receive Debug (parse Debug) p old l = Panic).
Theorem C61_pmt_exact : forall p old ls ss, Forall2 carries ls ss -> Forall framed ss ->
  only_result pmt_parse pmt_seen pmt_add p old (map encode (concat ls)) (heard id_pmt 16 ss).
Proof. exact P_sys.pmt_mixed_debug. Qed.
Print Assumptions C61_pmt_exact.
Theorem C61_nit_exact : forall p old ls ss, Forall2 carries ls ss -> Forall framed ss ->
  only_result nit_parse nit_reads nit_add p old (map encode (concat ls)) (heard id_nit 16 ss).
Proof. exact P_sys.nit_mixed_debug. Qed.
Print Assumptions C61_nit_exact.
Theorem C61_sdt_exact : forall p old ls ss, Forall2 carries ls ss -> Forall framed ss ->
  only_result sdt_parse sdt_reads sdt_add p old (map encode (concat ls)) (heard id_sdt 15 ss).
Proof. exact P_sys.sdt_mixed_debug. Qed.
Print Assumptions C61_sdt_exact.
Theorem C61_eit_exact : forall p old ls ss, Forall2 carries ls ss -> Forall framed ss ->
  only_result eit_parse eit_reads eit_add p old (map encode (concat ls)) (heard id_eit 18 ss).
Proof. exact P_sys.eit_mixed_debug. Qed.
Print Assumptions C61_eit_exact.
Theorem C61_tot_exact : forall p old ls ss, Forall2 carries ls ss -> Forall framed ss ->
  only_result tot_parse tot_reads tot_add p old (map encode (concat ls)) (heard id_tot 14 ss).
Proof. exact P_sys.tot_mixed_debug. Qed.
Print Assumptions C61_tot_exact.
Theorem C61_tdt_exact : forall p old ls ss, Forall2 carries ls ss -> Forall framed ss -> Forall2 tdt_alone ls ss ->
  only_result tdt_parse tdt_reads (fun _ u => u) p old (map encode (concat ls)) (heard_tdt ss).
Proof. exact P_sys2.tdt_mixed_debug. Qed.
Print Assumptions C61_tdt_exact.
(** the packets this library makes are among them *)
Theorem C61_own_packets : forall pid cc ss, Forall framed ss -> cc < 16 ->
  exists ls, stream pid cc ss = map encode (concat ls) /\ Forall2 carries ls ss /\ Forall2 tdt_alone ls ss.
Proof. intros pid cc ss F H. exact (P_sys2.stream_carried pid ss F cc H). Qed.
Print Assumptions C61_own_packets.
(** a packet without payload behind a complete section has it read again *)
Definition one_program : list N := pat_section (mkPat 7 1 [mkPatI 100 256]) [mkPatI 100 256].
Definition with_section (s : list N) : packet := mkPacket 0x47 0 true 0 0 0 true 5 None (0 :: s ++ repeat 255 (183 - length s)).
Definition no_payload : packet := mkPacket 0x47 0 false 0 0 0 false 5 (Some (repeat 255 183)) [].
Lemma with_section_carries s : bytes s -> (3 <= length s <= 183)%nat -> carries [with_section s] s.
Proof. exact (W_sys.with_section_carries s). Qed.
Theorem C61_no_payload_refuted : exists l s k, Forall2 carries l [s] /\ framed s /\ pat_reads s (mkPat 7 1 [mkPatI 100 256]) /\
  heard id_pat 12 [s] = [s] /\ packet_ok k /\ k_haspl k = false /\
  forall m, exists q, receive m (pat_parse m) psi_default pat_default (map encode (concat l ++ [k])) = Ok (q, mkPat 7 1 [mkPatI 100 256; mkPatI 100 256]).
Proof.
  exists [[with_section one_program]], one_program, no_payload. split.
  { constructor; [|constructor]. apply with_section_carries; [vm_compute; repeat constructor|vm_compute; lia]. }
  split; [split; vm_compute; [repeat constructor|reflexivity]|]. split; [vm_compute; reflexivity|]. split; [vm_compute; reflexivity|].
  split; [split; [vm_compute; reflexivity|split; [reflexivity|split; vm_compute; repeat constructor]]|]. split; [reflexivity|].
  intros []; eexists; vm_compute; reflexivity.
Qed.
Print Assumptions C61_no_payload_refuted.
(** a time section in two packets aborts the receiver *)
Definition ex_tdt_time : list N := [0x70; 0x70; 5; 0xE6; 0x00; 0x12; 0x34; 0x56].
Definition half (pusi : bool) (cc : N) (pay : list N) : packet := mkPacket 0x47 0 pusi 0 20 0 true cc (Some (repeat 255 (183 - length pay))) pay.
Theorem C61_split_tdt_refuted : exists l s t, carries l s /\ framed s /\ tdt_reads s t /\ heard_tdt [s] = [s] /\
  forall m, receive m (tdt_parse m) psi_default 0 (map encode l) = Panic.
Proof.
  exists [half true 5 (0 :: firstn 5 ex_tdt_time); half false 6 (skipn 5 ex_tdt_time)], ex_tdt_time. eexists. split.
  { exists (half true 5 (0 :: firstn 5 ex_tdt_time)), [half false 6 (skipn 5 ex_tdt_time)], (firstn 5 ex_tdt_time), []. split; [reflexivity|].
    split; [split; [vm_compute; reflexivity|split; [reflexivity|split; vm_compute; repeat constructor]]|]. do 3 (split; [reflexivity|]).
    split; [split; [split; [vm_compute; reflexivity|split; [reflexivity|split; vm_compute; repeat constructor]]|]|].
    - cbn. repeat split. discriminate.
    - split; [vm_compute; lia|]. split; [reflexivity|]. intros n Hn. cbn [length] in Hn. assert (n = 0%nat) by lia. subst n. vm_compute. lia. }
  split; [split; vm_compute; [repeat constructor|reflexivity]|]. split; [split; [reflexivity|vm_compute; repeat split; discriminate]|].
  split; [reflexivity|]. intros []; vm_compute; reflexivity.
Qed.
Print Assumptions C61_split_tdt_refuted.
(** a damaged section, one of another table and a good one *)
Example C61_ex : heard id_pat 12 [firstn 9 one_program ++ [1] ++ skipn 10 one_program; nit_section ex_nit 0 0 (nit_items ex_nit); one_program] = [one_program] /\
  exists q, receive Debug (pat_parse Debug) psi_default pat_default
    (map encode (map with_section [firstn 9 one_program ++ [1] ++ skipn 10 one_program; nit_section ex_nit 0 0 (nit_items ex_nit); one_program])) =
    Ok (q, mkPat 7 1 [mkPatI 100 256]).
Proof. split; [vm_compute; reflexivity|eexists; vm_compute; reflexivity]. Qed.

(** * C62 *)
Definition no_fail (l : list event) : Prop := Forall (fun e => match e with Fail _ => False | _ => True end) l.
(** [pks] are the packets in a stream of bytes; it is read to its end, in pieces of any size *)
Definition readable (data : list N) (pks : list (list N)) (sched : list event) (buf : list N) (n : nat) : Prop :=
  in_stream data pks /\ bytes data /\ no_fail sched /\ (188 <= length buf)%nat /\ (length pks < n)%nat.
(** following a table is receiving the packets of its PID *)
Theorem C62_follow : forall T m (parse : T -> psi -> res T) pid data pks sched buf n p t, readable data pks sched buf n ->
  match receive m parse p t (filter (on pid) pks) with
  | Ok (q, u) => exists s, follow n m parse pid (mkSource data sched) buf p t = Ok (s, q, u) /\ s_data s = []
  | Panic => follow n m parse pid (mkSource data sched) buf p t = Panic
  | Hang => follow n m parse pid (mkSource data sched) buf p t = Hang
  end.
Proof. intros T m parse pid data pks sched buf n p t (I & B & F & L & K). exact (P_sys2.follow_spec m parse pid pks data (mkSource data sched) buf n p t I eq_refl B F L K). Qed.
Print Assumptions C62_follow.
(** tables of this library, multiplexed with anything on other PIDs *)
Theorem C62_pat : forall m m' pid ts out data pks sched buf n p old, Forall pat_sendable ts -> pid < 8192 -> sent (pat_demux m) pid ts out ->
  readable data pks sched buf n -> concat (filter (on pid) pks) = out ->
  exists s q, follow n m' (pat_parse m') pid (mkSource data sched) buf p old = Ok (s, q, fold_left pat_add ts old) /\ s_data s = [].
Proof.
  intros m m' pid ts out data pks sched buf n p old S Hp D (I & B & F & L & K) E.
  refine (W_sys.sent_follow (pat_demux m) pat_parse pat_add pid ts out data pks sched buf n m' p old _ Hp D I B F L K E).
  eapply Forall_impl; [|exact S]. intros t H. exact (W_sys.pat_sends m t H).
Qed.
Print Assumptions C62_pat.
Theorem C62_pmt : forall m m' pid ts out data pks sched buf n p old, Forall pmt_sendable ts -> pid < 8192 -> sent (pmt_demux m) pid ts out ->
  readable data pks sched buf n -> concat (filter (on pid) pks) = out ->
  exists s q, follow n m' (pmt_parse m') pid (mkSource data sched) buf p old = Ok (s, q, fold_left pmt_add ts old) /\ s_data s = [].
Proof.
  intros m m' pid ts out data pks sched buf n p old S Hp D (I & B & F & L & K) E.
  refine (W_sys.sent_follow (pmt_demux m) pmt_parse pmt_add pid ts out data pks sched buf n m' p old _ Hp D I B F L K E).
  eapply Forall_impl; [|exact S]. intros t H. exact (W_sys.pmt_sends m t H).
Qed.
Print Assumptions C62_pmt.
Theorem C62_nit : forall m m' pid ts out data pks sched buf n p old, Forall nit_sendable ts -> pid < 8192 -> sent (nit_demux m) pid ts out ->
  readable data pks sched buf n -> concat (filter (on pid) pks) = out ->
  exists s q, follow n m' (nit_parse m') pid (mkSource data sched) buf p old = Ok (s, q, fold_left nit_add ts old) /\ s_data s = [].
Proof.
  intros m m' pid ts out data pks sched buf n p old S Hp D (I & B & F & L & K) E.
  refine (W_sys.sent_follow (nit_demux m) nit_parse nit_add pid ts out data pks sched buf n m' p old _ Hp D I B F L K E).
  eapply Forall_impl; [|exact S]. intros t H. exact (W_sys.nit_sends m t H).
Qed.
Print Assumptions C62_nit.
Theorem C62_sdt : forall m m' pid ts out data pks sched buf n p old, Forall sdt_sendable ts -> pid < 8192 -> sent (sdt_demux m) pid ts out ->
  readable data pks sched buf n -> concat (filter (on pid) pks) = out ->
  exists s q, follow n m' (sdt_parse m') pid (mkSource data sched) buf p old = Ok (s, q, fold_left sdt_add ts old) /\ s_data s = [].
Proof.
  intros m m' pid ts out data pks sched buf n p old S Hp D (I & B & F & L & K) E.
  refine (W_sys.sent_follow (sdt_demux m) sdt_parse sdt_add pid ts out data pks sched buf n m' p old _ Hp D I B F L K E).
  eapply Forall_impl; [|exact S]. intros t H. exact (W_sys.sdt_sends m t H).
Qed.
Print Assumptions C62_sdt.
Theorem C62_pf : forall m m' pid ts out data pks sched buf n p old, Forall pf_sendable ts -> pid < 8192 -> sent (eit_demux m) pid ts out ->
  readable data pks sched buf n -> concat (filter (on pid) pks) = out ->
  exists s q, follow n m' (eit_parse m') pid (mkSource data sched) buf p old = Ok (s, q, fold_left eit_add ts old) /\ s_data s = [].
Proof.
  intros m m' pid ts out data pks sched buf n p old S Hp D (I & B & F & L & K) E.
  refine (W_sys.sent_follow (eit_demux m) eit_parse eit_add pid ts out data pks sched buf n m' p old _ Hp D I B F L K E).
  eapply Forall_impl; [|exact S]. intros t H. exact (W_sys.pf_sends m t H).
Qed.
Print Assumptions C62_pf.
Theorem C62_tdt : forall m m' pid ts out data pks sched buf n p old, Forall tdt_sendable ts -> pid < 8192 -> sent (tdt_demux m) pid ts out ->
  readable data pks sched buf n -> concat (filter (on pid) pks) = out ->
  exists s q, follow n m' (tdt_parse m') pid (mkSource data sched) buf p old = Ok (s, q, fold_left (fun _ u => u) ts old) /\ s_data s = [].
Proof.
  intros m m' pid ts out data pks sched buf n p old S Hp D (I & B & F & L & K) E.
  refine (W_sys.sent_follow (tdt_demux m) tdt_parse (fun _ u => u) pid ts out data pks sched buf n m' p old _ Hp D I B F L K E).
  eapply Forall_impl; [|exact S]. intros t H. exact (W_sys.tdt_sends m t H).
Qed.
Print Assumptions C62_tdt.
Theorem C62_tot : forall m m' pid ts out data pks sched buf n p old, Forall tot_sendable ts -> pid < 8192 -> sent (tot_demux m) pid ts out ->
  readable data pks sched buf n -> concat (filter (on pid) pks) = out ->
  exists s q, follow n m' (tot_parse m') pid (mkSource data sched) buf p old = Ok (s, q, fold_left tot_add ts old) /\ s_data s = [].
Proof.
  intros m m' pid ts out data pks sched buf n p old S Hp D (I & B & F & L & K) E.
  refine (W_sys.sent_follow (tot_demux m) tot_parse tot_add pid ts out data pks sched buf n m' p old _ Hp D I B F L K E).
  eapply Forall_impl; [|exact S]. intros t H. exact (W_sys.tot_sends m t H).
Qed.
Print Assumptions C62_tot.
(** tables of any sender *)
Theorem C62_any_pat : forall m pid ls ss ts data pks sched buf n p old, readable data pks sched buf n ->
  filter (on pid) pks = map encode (concat ls) -> Forall2 carries ls ss -> Forall framed ss -> Forall2 pat_reads (heard id_pat 12 ss) ts ->
  exists s q, follow n m (pat_parse m) pid (mkSource data sched) buf p old = Ok (s, q, fold_left pat_add ts old) /\ s_data s = [].
Proof.
  intros m pid ls ss ts data pks sched buf n p old R E C F Rd. pose proof (C62_follow _ m (pat_parse m) pid data pks sched buf n p old R) as H.
  rewrite E in H. destruct (C61_pat m p old ls ss ts C F Rd) as [q Q]. rewrite Q in H. destruct H as (s & H). exists s, q. exact H.
Qed.
Print Assumptions C62_any_pat.
Theorem C62_any_pmt : forall m pid ls ss ts data pks sched buf n p old, readable data pks sched buf n ->
  filter (on pid) pks = map encode (concat ls) -> Forall2 carries ls ss -> Forall framed ss -> Forall2 pmt_seen (heard id_pmt 16 ss) ts ->
  exists s q, follow n m (pmt_parse m) pid (mkSource data sched) buf p old = Ok (s, q, fold_left pmt_add ts old) /\ s_data s = [].
Proof.
  intros m pid ls ss ts data pks sched buf n p old R E C F Rd. pose proof (C62_follow _ m (pmt_parse m) pid data pks sched buf n p old R) as H.
  rewrite E in H. destruct (C61_pmt m p old ls ss ts C F Rd) as [q Q]. rewrite Q in H. destruct H as (s & H). exists s, q. exact H.
Qed.
Print Assumptions C62_any_pmt.
Theorem C62_any_nit : forall m pid ls ss ts data pks sched buf n p old, readable data pks sched buf n ->
  filter (on pid) pks = map encode (concat ls) -> Forall2 carries ls ss -> Forall framed ss -> Forall2 nit_reads (heard id_nit 16 ss) ts ->
  exists s q, follow n m (nit_parse m) pid (mkSource data sched) buf p old = Ok (s, q, fold_left nit_add ts old) /\ s_data s = [].
Proof.
  intros m pid ls ss ts data pks sched buf n p old R E C F Rd. pose proof (C62_follow _ m (nit_parse m) pid data pks sched buf n p old R) as H.
  rewrite E in H. destruct (C61_nit m p old ls ss ts C F Rd) as [q Q]. rewrite Q in H. destruct H as (s & H). exists s, q. exact H.
Qed.
Print Assumptions C62_any_nit.
Theorem C62_any_sdt : forall m pid ls ss ts data pks sched buf n p old, readable data pks sched buf n ->
  filter (on pid) pks = map encode (concat ls) -> Forall2 carries ls ss -> Forall framed ss -> Forall2 sdt_reads (heard id_sdt 15 ss) ts ->
  exists s q, follow n m (sdt_parse m) pid (mkSource data sched) buf p old = Ok (s, q, fold_left sdt_add ts old) /\ s_data s = [].
Proof.
  intros m pid ls ss ts data pks sched buf n p old R E C F Rd. pose proof (C62_follow _ m (sdt_parse m) pid data pks sched buf n p old R) as H.
  rewrite E in H. destruct (C61_sdt m p old ls ss ts C F Rd) as [q Q]. rewrite Q in H. destruct H as (s & H). exists s, q. exact H.
Qed.
Print Assumptions C62_any_sdt.
Theorem C62_any_eit : forall m pid ls ss ts data pks sched buf n p old, readable data pks sched buf n ->
  filter (on pid) pks = map encode (concat ls) -> Forall2 carries ls ss -> Forall framed ss -> Forall2 eit_reads (heard id_eit 18 ss) ts ->
  exists s q, follow n m (eit_parse m) pid (mkSource data sched) buf p old = Ok (s, q, fold_left eit_add ts old) /\ s_data s = [].
Proof.
  intros m pid ls ss ts data pks sched buf n p old R E C F Rd. pose proof (C62_follow _ m (eit_parse m) pid data pks sched buf n p old R) as H.
  rewrite E in H. destruct (C61_eit m p old ls ss ts C F Rd) as [q Q]. rewrite Q in H. destruct H as (s & H). exists s, q. exact H.
Qed.
Print Assumptions C62_any_eit.
Theorem C62_any_tot : forall m pid ls ss ts data pks sched buf n p old, readable data pks sched buf n ->
  filter (on pid) pks = map encode (concat ls) -> Forall2 carries ls ss -> Forall framed ss -> Forall2 tot_reads (heard id_tot 14 ss) ts ->
  exists s q, follow n m (tot_parse m) pid (mkSource data sched) buf p old = Ok (s, q, fold_left tot_add ts old) /\ s_data s = [].
Proof.
  intros m pid ls ss ts data pks sched buf n p old R E C F Rd. pose proof (C62_follow _ m (tot_parse m) pid data pks sched buf n p old R) as H.
  rewrite E in H. destruct (C61_tot m p old ls ss ts C F Rd) as [q Q]. rewrite Q in H. destruct H as (s & H). exists s, q. exact H.
Qed.
Print Assumptions C62_any_tot.
Theorem C62_any_tdt : forall m pid ls ss ts data pks sched buf n p old, readable data pks sched buf n ->
  filter (on pid) pks = map encode (concat ls) -> Forall2 carries ls ss -> Forall framed ss -> Forall2 tdt_alone ls ss -> Forall2 tdt_reads (heard_tdt ss) ts ->
  exists s q, follow n m (tdt_parse m) pid (mkSource data sched) buf p old = Ok (s, q, last ts old) /\ s_data s = [].
Proof.
  intros m pid ls ss ts data pks sched buf n p old R E C F A Rd. pose proof (C62_follow _ m (tdt_parse m) pid data pks sched buf n p old R) as H.
  rewrite E in H. destruct (C61_tdt m p old ls ss ts C F A Rd) as [q Q]. rewrite Q in H. destruct H as (s & H). exists s, q. exact H.
Qed.
Print Assumptions C62_any_tdt.
(** a PAT and a TOT in a stream with junk in front, read in small pieces: each is found on its PID *)
Definition ex_tot : tot := mkTot 1700000000 [].
Definition ex_mux : list N :=
  [1; 2; 3] ++ concat (match pat_demux Debug ex_pat 0 3 [], tot_demux Debug ex_tot 20 0 [] with Ok (_, a), Ok (_, b) => [b; a; b] | _, _ => [] end) ++ [0x47; 1].
Example C62_ex :
  match follow 9 Debug (pat_parse Debug) 0 (mkSource ex_mux [Chunk 0; Chunk 9; Chunk 99; Chunk 300]) (repeat 0 200) psi_default pat_default with
  | Ok (_, _, t) => t = ex_pat | _ => False end /\
  match follow 9 Debug (tot_parse Debug) 20 (mkSource ex_mux [Chunk 9; Chunk 99; Chunk 300]) (repeat 0 200) psi_default tot_default with
  | Ok (_, _, t) => t = ex_tot | _ => False end.
Proof. split; vm_compute; reflexivity. Qed.


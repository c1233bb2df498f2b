(** Property theorems C75: several tables of one kind on one PID; the event guide. Specification: S_system. *)
From Verif Require Import Prelude Layout S_ts S_crc S_utils S_psi M_text M_ts M_psi M_drive M_recv M_desc S_desc M_tables S_tables Props_tables
  M_reader S_reader M_system S_system Props_again Props_system.
From Verif Require P_guide.

(** * C75 *)
(** a schedule that can be sent without loss (C50), a present/following table or a schedule *)
Definition sched_sendable (t : eit) : Prop :=
  eit_ok t /\ eit_fits (N.to_nat 4098) t /\ exact_items eiti_descs (eit_items t) /\ 0x50 <= eit_table t <= 0x6F /\
  (1 <= length (eit_items t) < N.to_nat 504)%nat.
Definition guide (t : eit) : Prop := pf_sendable t \/ sched_sendable t.
(** a schedule uses the 16 tables from 0x50 or from 0x60 *)
Definition kind_of (tb : N) (t : eit) : Prop := tb = eit_table t \/ (0x50 <= eit_table t /\ tb / 16 = eit_table t / 16).
(** what has been received after the tables [ts]: all events, in order, and the header of the last *)
Definition guide_seen (ts : list eit) (old u : eit) : Prop :=
  eit_version u = eit_version (last ts old) /\ eit_pnr u = eit_pnr (last ts old) /\ eit_tsid u = eit_tsid (last ts old) /\
  eit_onid u = eit_onid (last ts old) /\ kind_of (eit_table u) (last ts old) /\ eit_items u = eit_items old ++ flat_map eit_items ts.
(** any mixture of present/following tables and schedules *)
Theorem C75_guide : forall m pid ts, Forall guide ts -> pid < 8192 -> received (eit_demux m) eit_parse pid ts (guide_seen ts).
Proof. intros m pid ts F Hp out D. exact (P_guide.guide_receive m pid ts out Hp F D). Qed.
Print Assumptions C75_guide.
(** in a stream of bytes with anything on other PIDs *)
Theorem C75_followed : forall m m' pid ts out data pks sched buf n p old, Forall guide ts -> pid < 8192 -> sent (eit_demux m) pid ts out ->
  readable data pks sched buf n -> concat (filter (on pid) pks) = out ->
  exists s q u, follow n m' (eit_parse m') pid (mkSource data sched) buf p old = Ok (s, q, u) /\ s_data s = [] /\ guide_seen ts old u.
Proof.
  intros m m' pid ts out data pks sched buf n p old S Hp D (I & B & F & L & K) E.
  exact (P_guide.guide_follow m pid ts out data pks sched buf n m' p old S Hp D I B F L K E).
Qed.
Print Assumptions C75_followed.
(** the events of two services on one PID end up in one table, under one service *)
Definition show_at (id start : N) : eit_item := mkEitI id start 1800 4 0 [].
Definition of_service (pnr id start : N) : eit := mkEit 0x4E 1 pnr 1 2 [show_at id start].
Lemma of_service_ok pnr id start : pnr < 65536 -> id < 65536 -> start < MJD_END -> pf_sendable (of_service pnr id start).
Proof.
  intros H1 H2 H3. split; [|split; [|split; [|split; [left; reflexivity|cbn; lia]]]].
  - unfold of_service, eit_ok. cbn [eit_table eit_version eit_pnr eit_tsid eit_onid eit_items]. do 2 (split; [reflexivity|]). split; [exact H1|].
    do 2 (split; [reflexivity|]). constructor; [|constructor]. unfold show_at, eit_item_ok. cbn [eiti_id eiti_start eiti_duration eiti_status eiti_ca eiti_descs].
    split; [exact H2|]. split; [exact H3|]. do 3 (split; [reflexivity|]). split; [constructor|apply Nat.leb_le; vm_compute; reflexivity].
  - constructor; [|constructor]. apply Nat.leb_le. vm_compute. reflexivity.
  - constructor; [constructor|constructor].
Qed.
Theorem C75_services_refuted : exists a b out pks, pf_sendable a /\ pf_sendable b /\ eit_pnr a <> eit_pnr b /\ sent (eit_demux Debug) 18 [a; b] out /\
  out = concat pks /\ Forall (fun x => length x = 188%nat) pks /\
  forall m, exists q u, receive m (eit_parse m) psi_default eit_default pks = Ok (q, u) /\ eit_pnr u = eit_pnr b /\
    exists i, In i (eit_items u) /\ In i (eit_items a) /\ ~ In i (eit_items b).
Proof.
  set (a := of_service 100 1 1699999200). set (b := of_service 200 2 1700001000).
  assert (Sa : pf_sendable a) by (apply of_service_ok; reflexivity). assert (Sb : pf_sendable b) by (apply of_service_ok; reflexivity).
  destruct (eit_demux Debug a 18 5 []) as [[c o]| |] eqn:E; [|vm_compute in E; discriminate|vm_compute in E; discriminate].
  destruct (eit_demux Debug b 18 5 []) as [[c' o']| |] eqn:E'; [|vm_compute in E'; discriminate|vm_compute in E'; discriminate].
  assert (D : sent (eit_demux Debug) 18 [a; b] (o ++ o' ++ [])).
  { eapply (sent_cons _ _ _ _ 5); [reflexivity|exact E|]. eapply (sent_cons _ _ _ _ 5); [reflexivity|exact E'|constructor]. }
  clear E E'. assert (FS : Forall pf_sendable [a; b]) by (constructor; [exact Sa|constructor; [exact Sb|constructor]]).
  destruct (C63_pf Debug 18 [a; b] FS ltac:(reflexivity) _ D) as (pks & E1 & L & R).
  exists a, b, (o ++ o' ++ []), pks. do 2 (split; [assumption|]). split; [discriminate|]. split; [exact D|]. split; [exact E1|]. split; [exact L|].
  intros m. destruct (R m psi_default eit_default) as (q & u & Q & _ & _ & P & _ & _ & I). exists q, u. split; [exact Q|]. split; [exact P|].
  exists (show_at 1 1699999200). rewrite I. split; [left; reflexivity|]. split; [left; reflexivity|]. intros [X|[]]. discriminate X.
Qed.
Print Assumptions C75_services_refuted.
(** likewise the services of this and of another transport stream (tables 0x42 and 0x46), *)
Definition list_of (tb ts pnr : N) : sdt := mkSdt tb 2 ts 9 [mkSdtI pnr 1 0 4 1 []].
Lemma list_of_ok tb ts pnr : tb = 0x42 \/ tb = 0x46 -> ts < 65536 -> pnr < 65536 -> sdt_sendable (list_of tb ts pnr).
Proof.
  intros H1 H2 H3. split; [|split; [constructor; [apply Nat.leb_le; vm_compute; reflexivity|constructor]|split; [constructor; [constructor|constructor]|exact H1]]].
  split; [cbn [list_of sdt_table]; lia|]. split; [reflexivity|]. split; [exact H2|]. split; [reflexivity|]. constructor; [|constructor].
  split; [exact H3|]. do 4 (split; [reflexivity|]). split; [constructor|apply Nat.leb_le; vm_compute; reflexivity].
Qed.
Theorem C75_transports_refuted : exists a b out pks, sdt_sendable a /\ sdt_sendable b /\ sdt_table a = 0x42 /\ sdt_table b = 0x46 /\ sdt_tsid a <> sdt_tsid b /\
  sent (sdt_demux Debug) 17 [a; b] out /\ out = concat pks /\ Forall (fun x => length x = 188%nat) pks /\
  forall m, exists q u, receive m (sdt_parse m) psi_default sdt_default pks = Ok (q, u) /\ sdt_table u = 0x46 /\ sdt_tsid u = sdt_tsid b /\
    exists i, In i (sdt_items u) /\ In i (sdt_items a) /\ ~ In i (sdt_items b).
Proof.
  set (a := list_of 0x42 1 100). set (b := list_of 0x46 2 200).
  assert (Sa : sdt_sendable a) by (apply list_of_ok; [left; reflexivity|reflexivity|reflexivity]).
  assert (Sb : sdt_sendable b) by (apply list_of_ok; [right; reflexivity|reflexivity|reflexivity]).
  destruct (sdt_demux Debug a 17 5 []) as [[c o]| |] eqn:E; [|vm_compute in E; discriminate|vm_compute in E; discriminate].
  destruct (sdt_demux Debug b 17 5 []) as [[c' o']| |] eqn:E'; [|vm_compute in E'; discriminate|vm_compute in E'; discriminate].
  assert (D : sent (sdt_demux Debug) 17 [a; b] (o ++ o' ++ [])).
  { eapply (sent_cons _ _ _ _ 5); [reflexivity|exact E|]. eapply (sent_cons _ _ _ _ 5); [reflexivity|exact E'|constructor]. }
  clear E E'. assert (FS : Forall sdt_sendable [a; b]) by (constructor; [exact Sa|constructor; [exact Sb|constructor]]).
  destruct (C63_sdt Debug 17 [a; b] FS ltac:(reflexivity) _ D) as (pks & E1 & L & R).
  exists a, b, (o ++ o' ++ []), pks. do 2 (split; [assumption|]). do 2 (split; [reflexivity|]). split; [discriminate|]. split; [exact D|]. split; [exact E1|]. split; [exact L|].
  intros m. destruct (R m psi_default sdt_default) as (q & u & Q & T & _ & V & _ & I). exists q, u. split; [exact Q|]. split; [exact T|]. split; [exact V|].
  exists (mkSdtI 100 1 0 4 1 []). rewrite I. split; [left; reflexivity|]. split; [left; reflexivity|]. intros [X|[]]. discriminate X.
Qed.
Print Assumptions C75_transports_refuted.
(** and the streams of two programs whose PMTs share a PID *)
Definition program (pnr pid : N) : pmt := mkPmt 3 pnr pid [] [mkPmtI 2 pid []].
Lemma program_ok pnr pid : pnr < 65536 -> pid < 8192 -> pmt_sendable (program pnr pid).
Proof.
  intros H1 H2. split; [|split; [|split; [reflexivity|constructor; [constructor|constructor]]]].
  - split; [reflexivity|]. split; [exact H1|]. split; [exact H2|]. split; [split; [constructor|apply Nat.leb_le; vm_compute; reflexivity]|]. constructor; [|constructor]. split; [reflexivity|]. split; [exact H2|]. split; [constructor|apply Nat.leb_le; vm_compute; reflexivity].
  - split; [apply Nat.leb_le; vm_compute; reflexivity|]. constructor; [|constructor]. apply Nat.leb_le. vm_compute. reflexivity.
Qed.
Theorem C75_programs_refuted : exists a b out pks, pmt_sendable a /\ pmt_sendable b /\ pmt_pnr a <> pmt_pnr b /\ sent (pmt_demux Debug) 256 [a; b] out /\
  out = concat pks /\ Forall (fun x => length x = 188%nat) pks /\
  forall m, exists q u, receive m (pmt_parse m) psi_default pmt_default pks = Ok (q, u) /\ pmt_pnr u = pmt_pnr b /\
    exists i, In i (pmt_items u) /\ In i (pmt_items a) /\ ~ In i (pmt_items b).
Proof.
  set (a := program 100 300). set (b := program 200 400).
  assert (Sa : pmt_sendable a) by (apply program_ok; reflexivity). assert (Sb : pmt_sendable b) by (apply program_ok; reflexivity).
  destruct (pmt_demux Debug a 256 5 []) as [[c o]| |] eqn:E; [|vm_compute in E; discriminate|vm_compute in E; discriminate].
  destruct (pmt_demux Debug b 256 5 []) as [[c' o']| |] eqn:E'; [|vm_compute in E'; discriminate|vm_compute in E'; discriminate].
  assert (D : sent (pmt_demux Debug) 256 [a; b] (o ++ o' ++ [])).
  { eapply (sent_cons _ _ _ _ 5); [reflexivity|exact E|]. eapply (sent_cons _ _ _ _ 5); [reflexivity|exact E'|constructor]. }
  clear E E'. assert (FS : Forall pmt_sendable [a; b]) by (constructor; [exact Sa|constructor; [exact Sb|constructor]]).
  destruct (C63_pmt Debug 256 [a; b] FS ltac:(reflexivity) _ D) as (pks & E1 & L & R).
  exists a, b, (o ++ o' ++ []), pks. do 2 (split; [assumption|]). split; [discriminate|]. split; [exact D|]. split; [exact E1|]. split; [exact L|].
  intros m. destruct (R m psi_default pmt_default) as (q & u & Q & _ & P & _ & _ & I). exists q, u. split; [exact Q|]. split; [exact P|].
  exists (mkPmtI 2 300 []). rewrite I. split; [left; reflexivity|]. split; [left; reflexivity|]. intros [X|[]]. discriminate X.
Qed.
Print Assumptions C75_programs_refuted.

(** a present/following table, then a schedule of the same service over two segments *)
Definition ex_now : eit := of_service 100 1 1699999200.
Definition ex_later : eit := mkEit 0x50 1 100 1 2 [show_at 1 1699999200; show_at 2 1700001000; show_at 3 1700006400].
Example C75_ex : Forall guide [ex_now; ex_later] /\ exists out, sent (eit_demux Debug) 18 [ex_now; ex_later] out /\
  match receive Debug (eit_parse Debug) psi_default eit_default (in_packets (length out / 188) out) with
  | Ok (_, u) => u = mkEit 0x50 1 100 1 2 (eit_items ex_now ++ eit_items ex_later) | _ => False end.
Proof.
  split.
  - constructor; [left; apply of_service_ok; reflexivity|]. constructor; [|constructor]. right.
    split; [|split; [repeat (constructor; [apply Nat.leb_le; vm_compute; reflexivity|]); constructor|split; [repeat (constructor; [constructor|]); constructor|split; [vm_compute; split; discriminate|vm_compute; lia]]]].
    do 5 (split; [reflexivity|]). repeat (constructor; [do 5 (split; [reflexivity|]); split; [constructor|apply Nat.leb_le; vm_compute; reflexivity]|]). constructor.
  - eexists. split.
    + eapply (sent_cons _ _ _ _ 5); [reflexivity|vm_compute; reflexivity|]. eapply (sent_cons _ _ _ _ 6); [reflexivity|vm_compute; reflexivity|constructor].
    + vm_compute. reflexivity.
Qed.

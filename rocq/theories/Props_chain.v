(** Property theorems C113: tables passed on from relay to relay. Specification: S_system, S_relay; vocabulary of C69. *)
From Verif Require Import Prelude Layout S_ts S_utils S_psi S_text M_text M_ts M_reader M_psi M_recv M_desc S_desc S_forward M_tables S_tables Props_tables Props_eit M_system S_system S_relay
  Props_relay M_tower M_chain.
From Verif Require P_chain P_eit P_desc.

(** ** vocabulary of the statements *)
(** the PID and the counter fit their fields, buffers have the size of a packet *)
Definition proper (h : hop) : Prop := h_pid h < 8192 /\ h_cc h < 16 /\ (forall i, length (h_garbage h i) = 188%nat) /\ (188 <= length (h_buffer h))%nat.
(** a table; a relay that receives with the other build than it sends with *)
Definition ex_table : pat := mkPat 3 0x1234 [mkPatI 0 16; mkPatI 7 0x100].
Definition ex_hop (m : mode) (pid cc : N) (k : nat) (p : psi) : hop := mkHop m pid cc [0; 99; 7]%nat k (fun i => repeat (N.of_nat i) 188) (repeat 0x47 188) (match m with Debug => Release | Release => Debug end) p.

(** * C113 *)
(** A table that passes one relay passes any number of them, each with its own build, PID, counter, pieces of bytes, stack of readers, memory and Psi. *)
Theorem C113_along : forall T demux parse (new t : T), passes demux parse new t -> forall hs, Forall proper hs -> pass_along demux parse new hs t = Ok t.
Proof. intros T demux parse new t P hs F. exact (P_chain.pass_along_same demux parse new t P hs F). Qed.
Print Assumptions C113_along.
(** So it is with what a receiver made of a foreign sender's packets: the first relay's table is the last relay's (C69 has the conditions, for each kind of table). *)
Theorem C113_foreign : forall T demux parse (new t : T) pks, relayed demux parse new pks t -> forall m p hs, Forall proper hs ->
  (' (_, t1) <- receive m (parse m) p new pks ;; pass_along demux parse new hs t1) = Ok t.
Proof.
  intros T demux parse new t pks [R P] m p hs F. destruct (R m p) as [q ->]. cbn [bind]. exact (C113_along T demux parse new t P hs F).
Qed.
Print Assumptions C113_foreign.
(** and with the tables of this library. *)
Theorem C113_own : forall hs, Forall proper hs ->
  (forall t, pat_sendable t -> pass_along pat_demux pat_parse pat_default hs t = Ok t) /\
  (forall t, pmt_sendable t -> pass_along pmt_demux pmt_parse pmt_default hs t = Ok t) /\
  (forall t, nit_sendable t -> pass_along nit_demux nit_parse nit_default hs t = Ok t) /\
  (forall t, sdt_sendable t -> pass_along sdt_demux sdt_parse sdt_default hs t = Ok t) /\
  (forall t, pf_sendable t -> pass_along eit_demux eit_parse eit_default hs t = Ok t) /\
  (forall t, tot_sendable t -> pass_along tot_demux tot_parse tot_default hs t = Ok t) /\
  (forall t, tdt_sendable t -> pass_along tdt_demux tdt_parse 0 hs t = Ok t).
Proof.
  intros hs F.
  split; [|split; [|split; [|split; [|split; [|split]]]]]; intros t H; apply C113_along; try exact F; intros m pid cc dst Hp Hc.
  - destruct H as [H1 H2]. apply C44_recovered; assumption.
  - destruct H as (H1 & H2 & H3 & H4). apply C45_recovered; assumption.
  - destruct H as (H1 & H2 & H3 & H4 & H5). apply C47_recovered; assumption.
  - destruct H as (H1 & H2 & H3 & H4). apply C48_recovered; assumption.
  - destruct H as (H1 & H2 & H3 & H4 & H5). destruct (C49_recovered m t pid cc dst H1 H2 H4 ltac:(lia) H3 Hp Hc) as (ss & A & _ & B). exists ss. split; assumption.
  - destruct H as (H1 & H2 & H3 & H4). destruct (C52_tot m t pid cc dst H1 H2 H3 Hp Hc) as [A B]. eexists. split; [exact A|].
    intros m' p. destruct (B H4 m' p tot_default) as [q Q]. exists q. rewrite Q. destruct t. reflexivity.
  - destruct (C52_tdt m t pid cc dst H Hp Hc) as [A B]. eexists. split; [exact A|]. intros m' p. exact (B m' p 0).
Qed.
Print Assumptions C113_own.

(** Schedules of fewer than 504 events: the events and the header stay, but the number of the table within its sixteen may change (below). Debug builds may abort
    instead, under the conditions of C50. *)
Definition same_schedule (t u : eit) : Prop :=
  eit_items u = eit_items t /\ eit_version u = eit_version t /\ eit_pnr u = eit_pnr t /\ eit_tsid u = eit_tsid t /\ eit_onid u = eit_onid t /\ eit_table u / 16 = eit_table t / 16.
Definition no_abort (t : eit) (first : eit_item) (items : list eit_item) : Prop :=
  midnight first <= eiti_start (last items first) /\ base t + seg_at (midnight first) (last items first) / 32 mod 256 < 256 /\
  ((length (eit_items t) < 24)%nat \/ (14 + length (flat_map eit_entry (eit_items t)) < N.to_nat 4092)%nat).
Lemma schedule_hop t first items h : schedule t first items -> (length (eit_items t) < N.to_nat 504)%nat -> Forall (item_exact eiti_descs) (eit_items t) -> proper h ->
  (h_out h = Release \/ no_abort t first items) -> exists u, pass_on eit_demux eit_parse eit_default h t = Ok u /\ same_schedule t u /\ schedule u first items.
Proof.
  intros S L X P O. pose proof P as (Hp & Hc & _). destruct (C50_schedule (h_out h) t first items (h_pid h) (h_cc h) [] S Hp Hc) as [[D E]|(sl & S1 & S2 & S3 & S4)].
  - exfalso. destruct O as [O|(O1 & O2 & O3)]; [congruence|]. destruct (C50_no_abort t first items (h_pid h) (h_cc h) [] S Hp Hc O1 O2) as [r R]; [destruct O3; auto|]. rewrite E in D. congruence.
  - destruct (S3 X (h_in h) (h_psi h) eit_default) as [q Q]. destruct (S4 L) as [V B]. rewrite V, S2 in Q.
    eexists. split; [exact (P_chain.pass_on_of eit_demux eit_parse eit_default t _ h _ _ q P S1 Q)|].
    assert (T : base t <= slot_table (last sl no_slot) < base t + 16).
    { rewrite Forall_forall in B. apply B. apply P_eit.last_in. intros ->. destruct S as (_ & E & _). rewrite E in S2. discriminate. }
    destruct S as (K & E & F & R). assert (D : slot_table (last sl no_slot) / 16 = eit_table t / 16).
    { unfold base in T. revert T. generalize (slot_table (last sl no_slot)), (eit_table t). intros a b T. zify. Z.div_mod_to_equations. lia. }
    assert (U : 0x50 <= slot_table (last sl no_slot) <= 0x6F).
    { revert D R. generalize (slot_table (last sl no_slot)), (eit_table t). intros a b D R. zify. Z.div_mod_to_equations. lia. }
    split.
    + unfold same_schedule, eit_add. cbn [eit_items eit_version eit_pnr eit_tsid eit_onid eit_table eit_default app]. repeat (split; [reflexivity|]). exact D.
    + unfold schedule, eit_add. cbn [eit_items eit_version eit_pnr eit_tsid eit_onid eit_table eit_default app]. split; [|split; [exact E|split; [exact F|exact U]]].
      destruct K as (K1 & K2 & K3 & K4 & K5 & K6). unfold eit_ok. cbn [eit_items eit_version eit_pnr eit_tsid eit_onid eit_table]. split; [lia|]. auto.
Qed.
Theorem C113_schedule : forall t first items hs, schedule t first items -> (length (eit_items t) < N.to_nat 504)%nat -> Forall (item_exact eiti_descs) (eit_items t) ->
  Forall proper hs -> (Forall (fun h => h_out h = Release) hs \/ no_abort t first items) ->
  exists u, pass_along eit_demux eit_parse eit_default hs t = Ok u /\ same_schedule t u.
Proof.
  intros t first items hs S L X P. revert t S L X. induction P as [|h hs Ph P IH]; intros t S L X O.
  - exists t. split; [reflexivity|]. repeat (split; [reflexivity|]). reflexivity.
  - destruct (schedule_hop t first items h S L X Ph) as (v & E & (V1 & V2 & V3 & V4 & V5 & V6) & Sv); [destruct O as [O|O]; [left; inversion O; assumption|right; exact O]|].
    cbn [pass_along]. rewrite E. cbn [bind]. destruct (IH v Sv) as (u & Eu & (U1 & U2 & U3 & U4 & U5 & U6)); [rewrite V1; exact L|rewrite V1; exact X| |].
    + destruct O as [O|(O1 & O2 & O3)]; [left; inversion O; assumption|]. right. unfold no_abort, base in *. rewrite V1, V6. auto.
    + exists u. split; [exact Eu|]. unfold same_schedule. repeat (split; [congruence|]). congruence.
Qed.
Print Assumptions C113_schedule.

(** But a schedule of more than three days comes back with the number of its last table, and sending it again puts the first event into that table, into a section
    that the receivers of the first sender found in the first table. *)
Definition evenings : list eit_item := map (fun i => mkEitI (N.of_nat i) (1700082000 + 10800 * N.of_nat i) 600 0 0 []) (seq 0 26).
Definition sent_ids (r : res (N * list N)) : list (N * N) := match r with Ok (_, out) => map (fun p => (nth 5 p 0, nth 11 p 0)) (chop 188 out) | _ => [] end.
Theorem C113_schedule_refuted : exists t first items h u, schedule t first items /\ proper h /\ length (eit_items t) = 26%nat /\
  pass_on eit_demux eit_parse eit_default h t = Ok u /\ eit_table t = 0x50 /\ eit_table u = 0x51 /\
  sent_ids (eit_demux Release t 18 0 []) = map (fun k => (0x50, 8 * N.of_nat k)) (seq 0 32) ++ [(0x51, 0)] /\
  sent_ids (eit_demux Release u 18 0 []) = map (fun k => (0x50, 8 * N.of_nat k)) (seq 0 8) ++ (0x51, 64) :: map (fun k => (0x50, 8 * N.of_nat k)) (seq 9 23) ++ [(0x51, 0)].
Proof.
  exists (mkEit 0x50 0 1 1 1 evenings), (hd (mkEitI 0 0 0 0 0 []) evenings), (tl evenings), (ex_hop Release 18 0 0 psi_default), (mkEit 0x51 0 1 1 1 evenings).
  assert (A : Forall (fun i => eit_item_ok i /\ (18 + length (eit_entry i) <= N.to_nat 4098)%nat) evenings).
  { apply Forall_forall. intros i Hi. apply in_map_iff in Hi as (k & <- & Hk). apply in_seq in Hk. split.
    - unfold eit_item_ok. cbn [eiti_id eiti_start eiti_duration eiti_status eiti_ca eiti_descs]. unfold MJD_END. repeat split; try lia; try reflexivity; [constructor|vm_compute; lia].
    - unfold eit_entry. rewrite app_length, P_desc.layout_length by reflexivity. vm_compute. lia. }
  split; [split; [|split; [reflexivity|split; [|cbn; lia]]]|].
  - repeat (split; [reflexivity|]). eapply Forall_impl; [|exact A]. intros i [H _]. exact H.
  - eapply Forall_impl; [|exact A]. intros i [_ H]. exact H.
  - split; [split; [reflexivity|]; split; [reflexivity|]; split; [intros i; apply repeat_length|apply le_n]|]. split; [reflexivity|].
    split; [vm_compute; reflexivity|]. split; [reflexivity|]. split; [reflexivity|]. split; vm_compute; reflexivity.
Qed.
Print Assumptions C113_schedule_refuted.

(** three relays; the Psi of the last one was left in the middle of a section *)
Example C113_ex : pat_sendable ex_table /\ let hs := [ex_hop Debug 0 4 1 psi_default; ex_hop Release 0x1FF0 15 0 psi_default; ex_hop Debug 5 9 2 (mkPsi [0; 0xB0; 9; 1] 12 0 3)] in
  Forall proper hs /\ pass_along pat_demux pat_parse pat_default hs ex_table = Ok ex_table.
Proof.
  split; [split; [|cbn; lia]|].
  - repeat split; try reflexivity. repeat (constructor; [repeat split; reflexivity|]). constructor.
  - cbv zeta. split; [|vm_compute; reflexivity]. repeat (constructor; [split; [reflexivity|]; split; [reflexivity|]; split; [intros i; apply repeat_length|apply le_n]|]). constructor.
Qed.

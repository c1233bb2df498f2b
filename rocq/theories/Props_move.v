(** Property theorems C81: a program moved to other PIDs with its tables. Specification: S_tables, S_remux, S_restamp. *)
From Verif Require Import Prelude Layout S_ts S_crc S_utils S_psi M_text M_ts M_psi M_drive M_recv M_desc S_desc M_tables S_tables Props_tables
  M_reader S_reader M_system S_system Props_system M_from M_tune M_remux S_remux S_measure M_restamp S_restamp M_move.
From Verif Require P_move Props_remux Props_restamp Facts.

(** * C81 *)
(** the packets of the streams of a program are moved with [f], its PMT with the new PIDs is made by the library and sent on [q] any number of
    times, and so is a PAT with this program alone, the first time in front; anything may be on other PIDs. Who follows the program in the new
    stream has the PMT with the new PIDs, on each of them the packets of the old stream, and on the PID of the clock the same clock *)
Theorem C81_program : forall m m' v tsid want q f t l out ts us o0 o1 x b, v < 32 -> tsid < 65536 -> q < 8192 -> q <> 0 ->
  pmt_sendable t -> pmt_pnr t = want -> (16 + length (flat_map pmt_entry (pmt_items t)) <= N.to_nat 1024)%nat ->
  (forall s, In s (streams t) -> f s < 8192) -> (forall s s', In s (streams t) -> In s' (streams t) -> f s = f s' -> s = s') ->
  Forall sound l -> remap m (route_of f t) l = Ok out ->
  sent (pat_demux m) 0 ts o0 -> Forall (eq (mkPat v tsid [mkPatI want q])) ts -> sent (pmt_demux m) q us o1 -> Forall (eq (moved f t)) us -> us <> [] ->
  Forall (fun pk => length pk = 188%nat /\ bytes pk) (x :: b) -> on 0 x = true -> concat (filter (on 0) (x :: b)) = o0 -> concat (filter (on q) (x :: b)) = o1 ->
  (forall s, In s (streams t) -> filter (on (f s)) (x :: b) = filter (on (f s)) out) ->
  (exists p0 p, tune m' want tuner_new (x :: b) = Ok (mkTuner p0 (mkPat v tsid [mkPatI want q]) p (moved f t))) /\
  (forall s, In s (streams t) -> filter (on (f s)) (x :: b) = map (retag (f s)) (filter (on s) l)) /\
  exists c c', observe m' (pmt_pcr t) 0 l = Ok c /\ observe m' (pmt_pcr (moved f t)) 0 (x :: b) = Ok c' /\ map fst c' = map fst c.
Proof. exact P_move.move_program. Qed.
Print Assumptions C81_program.

(** such a PMT is one section *)
Theorem C81_one_section : forall m t pid cc dst, pmt_ok t -> pmt_descs t = [] -> (16 + length (flat_map pmt_entry (pmt_items t)) <= N.to_nat 1024)%nat ->
  pid < 8192 -> cc < 16 -> sends (pmt_demux m t pid cc dst) pid cc dst [pmt_section t 0 0 (pmt_items t)].
Proof. intros m t pid cc dst H D L P C. exact (proj1 (P_move.one_section m t pid cc dst H D L P C)). Qed.
Print Assumptions C81_one_section.

(** a larger one is sent in two; who keeps the latest PMT then has the streams of the last section only *)
Definition many (n : nat) : pmt := mkPmt 1 100 257 [] (map (fun i => mkPmtI 6 (257 + N.of_nat i) []) (seq 0 n)).
Lemma many_ok n : (n <= N.to_nat 1000)%nat -> pmt_sendable (many n).
Proof.
  intros L. split; [|split; [|split; [reflexivity|]]].
  - split; [reflexivity|]. split; [reflexivity|]. split; [reflexivity|]. split; [split; [constructor|apply Nat.leb_le; vm_compute; reflexivity]|].
    unfold many. cbn [pmt_items]. apply Forall_map, Forall_forall. intros i Hi. apply in_seq in Hi.
    split; [reflexivity|]. cbn [pmti_pid pmti_descs]. split; [change (2 ^ 13) with 8192; lia|]. split; [constructor|apply Nat.leb_le; vm_compute; reflexivity].
  - split; [apply Nat.leb_le; vm_compute; reflexivity|]. unfold many. cbn [pmt_items]. apply Forall_map, Forall_forall. intros i _. apply Nat.leb_le. vm_compute. reflexivity.
  - unfold many. cbn [pmt_items]. apply Forall_map, Forall_forall. intros i _. constructor.
Qed.
Theorem C81_split_refuted : exists t out pks, pmt_sendable t /\ length (pmt_items t) = 202%nat /\ sent (pmt_demux Debug) 80 [t] out /\ out = concat pks /\
  Forall (fun x => length x = 188%nat) pks /\
  forall m, exists q u, receive m (latest_pmt m 100) psi_default pmt_default pks = Ok (q, u) /\ length (pmt_items u) = 1%nat.
Proof.
  exists (many 202). eexists. exists (stream 80 0 [pmt_section (many 202) 1 0 (pmt_items (many 201)); pmt_section (many 202) 1 1 [mkPmtI 6 458 []]]).
  split; [apply many_ok; lia|]. split; [reflexivity|].
  split; [eapply (sent_cons _ _ _ _ 0); [reflexivity|vm_compute; reflexivity|constructor]|]. split; [vm_compute; reflexivity|].
  split; [apply Forall_forall; intros x Hx; apply Nat.eqb_eq; revert x Hx; apply forallb_forall; vm_compute; reflexivity|].
  intros []; do 2 eexists; (split; [vm_compute; reflexivity|vm_compute; reflexivity]).
Qed.
Print Assumptions C81_split_refuted.


Definition two_streams : pmt := mkPmt 3 100 0x100 [] [mkPmtI 0x1B 0x100 []; mkPmtI 0x03 0x102 [D52 7]].
Definition up (s : N) : N := s + 0x100.
Definition old_streams : list (list N) :=
  [Props_restamp.beat 5; Props_remux.raw 1 0x102 5 [1; 2; 3]; Props_remux.raw 1 0x300 7 [4; 5]; Props_restamp.beat 300; Props_remux.raw 0 0x102 6 [9]].
Example C81_ex : forall m, exists out cc0 o0 cc1 o1 p0 p,
  remap m (route_of up two_streams) old_streams = Ok out /\ length out = 4%nat /\
  pat_demux m (mkPat 1 9 [mkPatI 100 80]) 0 0 [] = Ok (cc0, o0) /\ pmt_demux m (moved up two_streams) 80 0 [] = Ok (cc1, o1) /\
  tune m 100 tuner_new (o0 :: firstn 2 out ++ o1 :: skipn 2 out) = Ok (mkTuner p0 (mkPat 1 9 [mkPatI 100 80]) p
    (mkPmt 3 100 0x200 [] [mkPmtI 0x1B 0x200 []; mkPmtI 0x03 0x202 [D52 7]])) /\
  observe m 0x200 0 (o0 :: firstn 2 out ++ o1 :: skipn 2 out) = Ok [(5, 376); (300, 564)] /\
  observe m 0x100 0 old_streams = Ok [(5, 188); (300, 564)] /\
  map (skipn 4) (filter (on 0x202) out) = map (skipn 4) (filter (on 0x102) old_streams).
Proof.
  intros []; (do 7 eexists; split; [vm_compute; reflexivity|]; split; [reflexivity|]; split; [vm_compute; reflexivity|]; split; [vm_compute; reflexivity|];
    split; [vm_compute; reflexivity|]; split; [vm_compute; reflexivity|]; split; [vm_compute; reflexivity|vm_compute; reflexivity]).
Qed.

(** C102: elementary streams after remultiplexing. Specification: S_remux, S_restamp. *)
From Verif Require Import Prelude Layout S_ts S_crc S_utils S_psi M_text M_ts M_psi M_drive M_recv M_desc S_desc M_tables S_tables Props_tables
  M_reader S_reader M_system S_system Props_system M_from M_tune M_remux S_remux S_measure M_restamp S_restamp M_move M_pes M_play S_play.
From Verif Require P_replay P_move Props_remux Props_restamp Props_move Props_play Facts.

(** packets whose adaptation field is not so long that its length overflows (what is in them, whether PES or not, does not matter) are sent on
    other PIDs: a player of the new PID gets what one of the old PID gets, and aborts when it does *)
Theorem C102_route : forall m m' route pid q l, Forall sound l -> (forall x y, route x = Some y -> y < 8192) -> route pid = Some q ->
  (forall x, route x = Some q -> x = pid) -> exists out, remap m route l = Ok out /\ play m' q out = play m' pid l.
Proof. exact P_replay.route_play. Qed.
Print Assumptions C102_route.

(** the same with the packets counted anew, and with another clock *)
Theorem C102_count : forall m m' pid c l, Forall sound l -> c < 16 ->
  exists out, renumber m c l = Ok out /\ unbroken c out /\ play m' pid out = play m' pid l.
Proof. exact P_replay.count_play. Qed.
Print Assumptions C102_count.
Theorem C102_clock : forall m m' pid k l, Forall sound l -> k < 2 ^ 63 -> exists out, restamp m k l = Ok out /\ play m' pid out = play m' pid l.
Proof. exact P_replay.clock_play. Qed.
Print Assumptions C102_clock.

(** a program moved to other PIDs with a new PAT and PMT (C81): who follows it in the new stream, where anything may be on other PIDs, finds
    the streams in the new PMT, and each of them plays as the old one *)
Definition shown (m : mode) (t : pmt) (l : list (list N)) := map (fun i => (pmti_type i, play m (pmti_pid i) l)) (pmt_items t).
Theorem C102_program : forall m m' v tsid want q f t l out ts us o0 o1 x b, v < 32 -> tsid < 65536 -> q < 8192 -> q <> 0 ->
  pmt_sendable t -> pmt_pnr t = want -> (16 + length (flat_map pmt_entry (pmt_items t)) <= N.to_nat 1024)%nat ->
  (forall s, In s (streams t) -> f s < 8192) -> (forall s s', In s (streams t) -> In s' (streams t) -> f s = f s' -> s = s') ->
  Forall sound l -> remap m (route_of f t) l = Ok out ->
  sent (pat_demux m) 0 ts o0 -> Forall (eq (mkPat v tsid [mkPatI want q])) ts -> sent (pmt_demux m) q us o1 -> Forall (eq (moved f t)) us -> us <> [] ->
  Forall (fun pk => length pk = 188%nat /\ bytes pk) (x :: b) -> on 0 x = true -> concat (filter (on 0) (x :: b)) = o0 -> concat (filter (on q) (x :: b)) = o1 ->
  (forall s, In s (streams t) -> filter (on (f s)) (x :: b) = filter (on (f s)) out) ->
  exists p0 p u, tune m' want tuner_new (x :: b) = Ok (mkTuner p0 (mkPat v tsid [mkPatI want q]) p u) /\ shown m' u (x :: b) = shown m' t l.
Proof.
  intros m m' v tsid want q f t l out ts us o0 o1 x b H1 H2 H3 H4 H5 H6 H7 H8 H9 H10 H11 H12 H13 H14 H15 H16 H17 H18 H19 H20 H21.
  destruct (Props_move.C81_program m m' v tsid want q f t l out ts us o0 o1 x b H1 H2 H3 H4 H5 H6 H7 H8 H9 H10 H11 H12 H13 H14 H15 H16 H17 H18 H19 H20 H21)
    as ((p0 & p & T) & S & _).
  exists p0, p, (moved f t). split; [exact T|]. unfold shown, moved. cbn [pmt_items]. rewrite map_map. apply map_ext_in. intros i Hi. cbn [pmti_type pmti_pid].
  assert (K : In (pmti_pid i) (streams t)) by (right; apply in_map; exact Hi).
  rewrite (P_replay.stream_play m' (pmti_pid i) (f (pmti_pid i)) l (x :: b) (H8 _ K) H10 H17 (S _ K)). reflexivity.
Qed.
Print Assumptions C102_program.

(** the library can set the clock but no time stamps: with another clock the time stamps, unchanged, are for another time of it *)
Definition timed : pes := Timed 0xC0 5 (Some 90000) None 0 [] [7; 8; 9].
Definition stamped (pcr : N) : list N := es_packet 0x100 1 (mkPiece 0 3 (Some (0x10 :: pcr_bytes (pcr / 300) 63 (pcr mod 300) ++ repeat 0xFF 159)) (pes_bytes timed true)).
Theorem C102_clock_refuted : exists l k out, Forall sound l /\ k < PERIOD /\ forall m, restamp m k l = Ok out /\
  play m 0x100 l = Ok [Some (Some 90000, None, [7; 8; 9])] /\ play m 0x100 out = Ok [Some (Some 90000, None, [7; 8; 9])] /\
  observe m 0x100 0 l = Ok [(90000 * 300 - 2700000, 188)] /\ observe m 0x100 0 out = Ok [(90000 * 300 + 2700000, 188)].
Proof.
  exists [stamped 24300000], 5400000, [stamped 29700000]. split.
  { constructor; [|constructor]. split; [vm_compute; reflexivity|]. split; [apply Facts.bytesb_iff; vm_compute; reflexivity|vm_compute; discriminate]. }
  split; [vm_compute; reflexivity|]. intros [];
    (split; [vm_compute; reflexivity|]; split; [vm_compute; reflexivity|]; split; [vm_compute; reflexivity|]; split; vm_compute; reflexivity).
Qed.
Print Assumptions C102_clock_refuted.

(** the stream of C101 sent on PID 0x200, counted from 9, 12 ticks later *)
Example C102_ex : Forall sound Props_play.stream /\ forall m, exists o1 o2 o3,
  remap m (fun p => if p =? 0x100 then Some 0x200 else None) Props_play.stream = Ok o1 /\ length o1 = 5%nat /\
  renumber m 9 o1 = Ok o2 /\ map (fun pk => field pk 28 4) o2 = [10; 11; 11; 12; 13] /\ restamp m 12 o2 = Ok o3 /\
  play m 0x200 o3 = Ok [Some (Some 0x123456789, Some 8589934591, [0; 0; 1; 9; 0x47; 7]); Some (None, None, [0xFF; 0xFF])] /\
  play m 0x100 o3 = Ok [].
Proof.
  split.
  - apply Forall_forall. intros x X. assert (E : ((length x =? 188)%nat && bytesb x && (negb (flag x 26) || (field x 32 8 <=? 250)))%bool = true).
    { revert x X. apply forallb_forall. vm_compute. reflexivity. }
    apply andb_prop in E as [E E3]. apply andb_prop in E as [E1 E2]. split; [apply Nat.eqb_eq; exact E1|]. split; [apply Facts.bytesb_iff; exact E2|].
    intros G. rewrite G in E3. apply N.leb_le. exact E3.
  - intros []; (do 3 eexists; split; [vm_compute; reflexivity|]; split; [vm_compute; reflexivity|]; split; [vm_compute; reflexivity|]; split; [vm_compute; reflexivity|];
      split; [vm_compute; reflexivity|]; split; vm_compute; reflexivity).
Qed.

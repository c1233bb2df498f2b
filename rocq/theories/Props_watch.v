(** C105: a program sent and watched. Specification: S_tables, S_play, S_count, S_watch. *)
From Verif Require Import Prelude Layout S_ts S_crc S_utils S_psi M_text M_ts M_psi M_drive M_recv M_desc S_desc M_tables S_tables Props_tables
  M_reader S_reader M_system S_system Props_system M_from M_tune M_move M_pes M_play S_play M_count S_count M_watch S_watch.
From Verif Require S_found P_found P_watch P_count Props_reader Props_count Props_move Facts.

Definition no_errors (l : list event) : Prop := Forall (fun e => match e with Fail _ => False | Chunk _ => True end) l.
Definition is_packet (pk : list N) : Prop := length pk = 188%nat /\ hd 0 pk = 0x47.

(** a program: the PMT (one section) is sent by the library, any number of times, the PAT also, the first time in front of everything else *)
Definition announced (m : mode) (want q : N) (t : pmt) (l : list (list N)) : Prop :=
  pmt_sendable t /\ pmt_pnr t = want /\ (16 + length (flat_map pmt_entry (pmt_items t)) <= N.to_nat 1024)%nat /\ (forall s, In s (streams t) -> s < 8192) /\
  q < 8192 /\ q <> 0 /\ Forall (fun pk => length pk = 188%nat /\ bytes pk) l /\ (exists x b, l = x :: b /\ on 0 x = true) /\
  exists v tsid ts us, v < 32 /\ tsid < 65536 /\ Forall (eq (mkPat v tsid [mkPatI want q])) ts /\ Forall (eq t) us /\ us <> [] /\
    sent (pat_demux m) 0 ts (concat (filter (on 0) l)) /\ sent (pmt_demux m) q us (concat (filter (on q) l)).

(** between them the streams of the PMT, each with packets lost so that it shows in the counters, and anything on other PIDs: the viewer of the
    program sees of each stream, with its type, exactly the PES packets that arrive whole and whose end shows *)
Theorem C105_watch : forall m m' want q t es l, announced m want q t l ->
  (forall i, In i (pmt_items t) -> on_pid (pmti_pid i) (es (pmti_pid i)) l) ->
  watch m' want l = Ok (map (fun i => (pmti_type i, seen (es (pmti_pid i)))) (pmt_items t)).
Proof.
  intros m m' want q t es l (S & W & Sz & R & Q & Q0 & F & (x & b & -> & O) & v & tsid & ts & us & V & T & F0 & F1 & N1 & S0 & S1) E.
  destruct (P_watch.own_program m m' v tsid want q t ts us _ _ x b V T Q Q0 S W Sz R S0 F0 S1 F1 N1 F O eq_refl eq_refl) as (p0 & p & U).
  unfold watch. rewrite U. cbn [bind u_pmt]. apply P_watch.each_ok. intros i I.
  destruct (E i I) as ((C & L & K & G & St & Gp) & A).
  rewrite (P_count.careful_given m' (pmti_pid i) (es_count (es (pmti_pid i))) (es_lead (es (pmti_pid i))) (es_units (es (pmti_pid i))) (x :: b)); [reflexivity| |assumption..].
  apply R. right. apply in_map. exact I.
Qed.
Print Assumptions C105_watch.

(** from the bytes, read in portions of any sizes *)
Theorem C105_stream : forall m m' want q t es l n junk tail sched packet, announced m want q t l ->
  (forall i, In i (pmt_items t) -> on_pid (pmti_pid i) (es (pmti_pid i)) l) ->
  ~ In 0x47 junk -> Forall is_packet l -> (length (to_sync tail) < 188)%nat -> no_errors sched -> (188 <= length packet)%nat -> (length l <= n)%nat ->
  (' (pks, _) <- read_all n (mkSource (junk ++ concat l ++ tail) sched) packet ;; watch m' want pks) =
    Ok (map (fun i => (pmti_type i, seen (es (pmti_pid i)))) (pmt_items t)).
Proof.
  intros m m' want q t es l n junk tail sched packet A E J K T N B H.
  destruct (Props_reader.C57_aligned n junk l tail sched packet J K T N B) as (s & R & _).
  rewrite R. cbn [bind]. rewrite firstn_all2 by exact H. exact (C105_watch m m' want q t es l A E).
Qed.
Print Assumptions C105_stream.

(** a video and an audio stream; of the video a packet is lost *)
Definition program : pmt := mkPmt 3 100 0x100 [] [mkPmtI 0x1B 0x100 []; mkPmtI 0x03 0x102 [D52 7]].
Definition video : elementary := mkEs 12 Props_count.lead Props_count.heard.
Definition audio : elementary := mkEs 6 [] [Props_count.sound_unit 6 (true, true) 8; Props_count.sound_unit 8 (true, true) 9].
Definition packet_of (r : res (N * list N)) : list N := match r with Ok (_, x) => x | _ => [] end.
Definition pat_packet : list N := packet_of (pat_demux Debug (mkPat 1 9 [mkPatI 100 80]) 0 0 []).
Definition pmt_packet : list N := packet_of (pmt_demux Debug program 80 0 []).
Definition v_packets : list (list N) := arrived 0x100 (es_pieces video).
Definition a_packets : list (list N) := arrived 0x102 (es_pieces audio).
Definition recording : list (list N) := pat_packet :: firstn 3 v_packets ++ pmt_packet :: firstn 3 a_packets ++ skipn 3 v_packets ++ skipn 3 a_packets.

(** without the PAT in front the PMT is not noticed *)
Theorem C105_order_refuted : exists l, Forall is_packet l /\ In pat_packet l /\ In pmt_packet l /\
  forall m, watch m 100 l = Ok [] /\ watch m 100 (rev l) = Ok [(0x1B, []); (0x03, [])].
Proof.
  exists [pmt_packet; pat_packet]. split; [repeat (constructor; [split; vm_compute; reflexivity|]); constructor|]. split; [right; left; reflexivity|]. split; [left; reflexivity|].
  intros []; split; vm_compute; reflexivity.
Qed.
Print Assumptions C105_order_refuted.

Lemma es_example e : forallb Props_count.okb (es_lead e) = true ->
  forallb (fun x => (negb (length (fst x) =? 0)%nat && forallb Props_count.okb (fst x))%bool) (es_units e) = true ->
  Forall (fun x => data (fst x) = pes_bytes (fst (snd x)) (snd (snd x))) (es_units e) ->
  Forall (fun x => pes_ok (fst (snd x)) /\ length_ok (fst (snd x)) (snd (snd x))) (es_units e) ->
  es_count e < 16 -> in_step (es_count e) (es_pieces e) -> gaps_show None (es_pieces e) -> es_ok e.
Proof.
  intros L U D O C I G. split; [exact C|]. split; [exact (Props_count.okb_ok _ L)|]. split; [|split; [exact O|split; [exact I|exact G]]].
  rewrite forallb_forall in U. rewrite Forall_forall in D. apply Forall_forall. intros x X. specialize (U x X). apply andb_prop in U as [U1 U2].
  split; [intros E; rewrite E in U1; discriminate U1|]. split; [exact (Props_count.okb_ok _ U2)|exact (D x X)].
Qed.
Example C105_ex : announced Debug 100 80 program recording /\
  on_pid 0x100 video recording /\ on_pid 0x102 audio recording /\
  (forall m, watch m 100 recording =
    Ok [(0x1B, map (fun d => Some (Some (90000 * d), None, repeat d 200)) [1; 3]); (0x03, [Some (Some 720000, None, repeat 8 200)])]).
Proof.
  assert (B : forallb (fun x => ((length x =? 188)%nat && bytesb x)%bool) recording = true) by (vm_compute; reflexivity).
  assert (F : Forall (fun pk => length pk = 188%nat /\ bytes pk) recording).
  { apply Forall_forall. intros x X. apply (proj1 (forallb_forall _ _) B), andb_prop in X as [X Y]. split; [apply Nat.eqb_eq; exact X|apply Facts.bytesb_iff; exact Y]. }
  assert (A : forall pid, among pid (filter (S_found.mine pid) recording) recording).
  { intros pid. apply P_found.among_filter. eapply Forall_impl; [|exact F]. intros x (L & X). split; [lia|exact X]. }
  split.
  { split.
    { split; [|split; [|split; [reflexivity|]]].
      - split; [reflexivity|]. split; [reflexivity|]. split; [reflexivity|]. split; [split; [constructor|apply Nat.leb_le; vm_compute; reflexivity]|].
        change (pmt_items program) with [mkPmtI 0x1B 0x100 []; mkPmtI 0x03 0x102 [D52 7]]. apply Forall_cons; [|apply Forall_cons; [|apply Forall_nil]].
        + split; [reflexivity|]. split; [reflexivity|]. split; [constructor|apply Nat.leb_le; vm_compute; reflexivity].
        + split; [reflexivity|]. split; [reflexivity|]. split; [|apply Nat.leb_le; vm_compute; reflexivity]. constructor; [|constructor]. split; [reflexivity|]. split; [apply Nat.leb_le; reflexivity|exact I].
      - split; [apply Nat.leb_le; vm_compute; reflexivity|]. repeat (constructor; [apply Nat.leb_le; vm_compute; reflexivity|]). constructor.
      - constructor; [constructor|constructor; [constructor; [exact I|constructor]|constructor]]. }
    split; [reflexivity|]. split; [apply Nat.leb_le; vm_compute; reflexivity|]. split; [intros s [<-|[<-|[<-|[]]]]; reflexivity|]. split; [reflexivity|]. split; [discriminate|]. split; [exact F|].
    split; [exists pat_packet, (tl recording); split; [reflexivity|vm_compute; reflexivity]|].
    exists 1, 9, [mkPat 1 9 [mkPatI 100 80]], [program]. split; [reflexivity|]. split; [reflexivity|]. split; [repeat constructor|]. split; [repeat constructor|]. split; [discriminate|].
    assert (E0 : concat (filter (on 0) recording) = pat_packet ++ []) by (vm_compute; reflexivity).
    assert (E1 : concat (filter (on 80) recording) = pmt_packet ++ []) by (vm_compute; reflexivity). rewrite E0, E1.
    split; (eapply (sent_cons _ _ _ _ 0); [reflexivity|vm_compute; reflexivity|constructor]). }
  destruct Props_count.C103_ex as (_ & _ & X3 & X4 & X5 & _). split; [|split].
  - split; [|assert (E : arrived 0x100 (es_pieces video) = filter (S_found.mine 0x100) recording) by (vm_compute; reflexivity); rewrite E; apply A].
    apply es_example; [vm_compute; reflexivity|vm_compute; reflexivity| |exact X3|reflexivity|exact X4|exact X5].
    repeat (constructor; [vm_compute; reflexivity|]). constructor.
  - split; [|assert (E : arrived 0x102 (es_pieces audio) = filter (S_found.mine 0x102) recording) by (vm_compute; reflexivity); rewrite E; apply A].
    apply es_example; [reflexivity|vm_compute; reflexivity| | |reflexivity|vm_compute; repeat split|vm_compute; intuition discriminate].
    + repeat (constructor; [vm_compute; reflexivity|]). constructor.
    + repeat (constructor; [split; [|right; vm_compute; reflexivity]; split; [vm_compute; reflexivity|]; split; [vm_compute; intuition discriminate|];
        split; [vm_compute; reflexivity|]; split; [exact I|]; split; [reflexivity|]; split; [apply Nat.leb_le; vm_compute; reflexivity|]; split; apply Facts.bytesb_iff; vm_compute; reflexivity|]). constructor.
  - intros []; vm_compute; reflexivity.
Qed.

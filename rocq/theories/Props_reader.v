(** Property theorems C56-C59: reading packets from a byte stream. Specification: S_reader
    (to_sync, in_stream). The underlying reader is described in M_reader: [s_data] are the
    bytes it still delivers, [s_sched] what its next calls do. *)
From Verif Require Import Prelude Layout S_reader M_ts M_reader.
From Verif Require P_reader.

(** ** vocabulary of the statements *)
Definition no_errors (l : list event) : Prop := Forall (fun e => match e with Fail _ => False | Chunk _ => True end) l.
Definition is_packet (pk : list N) : Prop := length pk = 188%nat /\ hd 0 pk = 0x47.
(** an inner TsRead, in a state [s] with [R s pks], delivers exactly [pks], then end of stream *)
Definition delivers {S} (tsread : S -> list N -> res (S * list N * io)) (R : S -> list (list N) -> Prop) : Prop :=
  forall s pks buf, R s pks -> (188 <= length buf)%nat ->
    exists s' buf', length buf' = length buf /\
      match pks with
      | [] => tsread s buf = Ok (s', buf', IoOk 0) /\ R s' []
      | pk :: pks' => tsread s buf = Ok (s', buf', IoOk 188) /\ firstn 188 buf' = pk /\ R s' pks'
      end.
(** every short read delivers one byte, or seven *)
Definition ones (n : nat) : list event := repeat (Chunk 0) n.
Definition ex_packet (b : N) : list N := 0x47 :: repeat b 187.

(** * C56 *)
(** every stream contains exactly one sequence of packets *)
Theorem C56_stream_unique : forall l, exists pks, in_stream l pks /\ forall pks', in_stream l pks' -> pks' = pks.
Proof.
  intros l. destruct (P_reader.in_stream_total l) as [pks H]. exists pks. split; [exact H|].
  intros pks' H'. symmetry. exact (P_reader.in_stream_fun l pks H pks' H').
Qed.
Print Assumptions C56_stream_unique.
(** the first n packets of the stream, whatever the schedule; afterwards end of stream *)
Theorem C56_schedule_independent : forall n data sched packet pks, no_errors sched -> in_stream data pks ->
  (188 <= length packet)%nat ->
  exists s', read_all n (mkSource data sched) packet = Ok (firstn n pks, s') /\
    ((length pks < n)%nat -> s_data s' = []).
Proof.
  intros n data sched packet pks Hn Hs Hl.
  destruct (P_reader.read_all_spec pks data (mkSource data sched) packet n Hs eq_refl Hn Hl) as (s' & E & H & _).
  exists s'. auto.
Qed.
Print Assumptions C56_schedule_independent.
(** one call: the packet is the next one of the stream, the buffer behind it is kept *)
Theorem C56_one_read : forall s packet, no_errors (s_sched s) -> (188 <= length packet)%nat ->
  exists s' packet' n, ts_read s packet = Ok (s', packet', IoOk n) /\
    skipn 188 packet' = skipn 188 packet /\ length packet' = length packet /\
    ((n = 188%nat /\ to_sync (s_data s) = firstn 188 packet' ++ s_data s') \/
     (n = 0%nat /\ (length (to_sync (s_data s)) < 188)%nat /\ s_data s' = [])).
Proof.
  intros s packet Hn Hl. destruct (P_reader.ts_read_ok s packet Hl Hn) as (s' & p' & _ & L & K & H).
  destruct (Nat.ltb_spec (length (to_sync (s_data s))) 188) as [G|G].
  - destruct H as [H H2]. exists s', p', 0%nat. repeat split; try assumption. right. auto.
  - destruct H as (H & H2 & H3). exists s', p', 188%nat. repeat split; try assumption. left. split; [reflexivity|].
    rewrite H2, H3. symmetry. apply firstn_skipn.
Qed.
Print Assumptions C56_one_read.
(** a buffer below the packet size is refused *)
Theorem C56_short_buffer : forall s packet, (length packet < 188)%nat -> ts_read s packet = Panic.
Proof. intros s packet H. unfold ts_read. destruct (Nat.leb_spec 188 (length packet)); [Lia.lia|reflexivity]. Qed.
Print Assumptions C56_short_buffer.
(** junk, a packet, junk, a packet, an incomplete packet; read byte by byte *)
Definition ex_stream : list N := [1; 2] ++ ex_packet 5 ++ [3] ++ ex_packet 6 ++ [9; 0x47; 1].
Example C56_ex : in_stream ex_stream [ex_packet 5; ex_packet 6] /\
  match read_all 5 (mkSource ex_stream (ones 400)) (repeat 7 190) with
  | Ok (l, s) => l = [ex_packet 5; ex_packet 6] /\ s_data s = []
  | _ => False
  end.
Proof.
  split.
  - eapply (in_next _ (ex_packet 5) ([3] ++ ex_packet 6 ++ [9; 0x47; 1])); [reflexivity|reflexivity|].
    eapply (in_next _ (ex_packet 6) [9; 0x47; 1]); [reflexivity|reflexivity|]. constructor; apply Nat.ltb_lt; reflexivity.
  - vm_compute. split; reflexivity.
Qed.

(** * C57 *)
Theorem C57_aligned : forall n junk pks tail sched packet, ~ In 0x47 junk -> Forall is_packet pks ->
  (length (to_sync tail) < 188)%nat -> no_errors sched -> (188 <= length packet)%nat ->
  exists s', read_all n (mkSource (junk ++ concat pks ++ tail) sched) packet = Ok (firstn n pks, s') /\
    ((length pks < n)%nat -> s_data s' = []).
Proof.
  intros n junk pks tail sched packet Hj Hp Ht Hn Hl.
  apply C56_schedule_independent; [assumption| |assumption]. apply P_reader.aligned_stream; assumption.
Qed.
Print Assumptions C57_aligned.
(** at the end of the data every call reports end of stream *)
Theorem C57_end : forall s packet, no_errors (s_sched s) -> s_data s = [] -> (188 <= length packet)%nat ->
  exists s' packet', ts_read s packet = Ok (s', packet', IoOk 0) /\ s_data s' = [] /\ no_errors (s_sched s').
Proof.
  intros s packet Hn Hd Hl. destruct (P_reader.ts_read_ok s packet Hl Hn) as (s' & p' & Hn' & L & K & H).
  rewrite Hd in H. cbn [to_sync length Nat.ltb Nat.leb] in H. destruct H as [H H2]. exists s', p'. auto.
Qed.
Print Assumptions C57_end.
Example C57_ex : match read_all 9 (mkSource ([1; 2; 3] ++ concat [ex_packet 1; ex_packet 0x47; ex_packet 2] ++ [0x47; 3])
                          [Chunk 0; Chunk 5; Chunk 0; Chunk 100; Chunk 3]) (repeat 0 188) with
  | Ok (l, s) => l = [ex_packet 1; ex_packet 0x47; ex_packet 2] /\ s_data s = []
  | _ => False end.
Proof. vm_compute. split; reflexivity. Qed.

(** * C58 *)
(** any schedule: the outcome of a call, and exactly what is consumed *)
Theorem C58_any_schedule : forall s packet, (188 <= length packet)%nat ->
  exists s' packet' r, ts_read s packet = Ok (s', packet', r) /\
    length packet' = length packet /\ skipn 188 packet' = skipn 188 packet /\
    match r with
    | IoOk n =>
      (exists used, no_errors used /\ s_sched s = used ++ s_sched s') /\
      ((n = 188%nat /\ exists junk pk, s_data s = junk ++ pk ++ s_data s' /\ ~ In 0x47 junk /\ is_packet pk /\
          packet' = pk ++ skipn 188 packet) \/
       (n = 0%nat /\ s_data s' = [] /\ (length (to_sync (s_data s)) < 188)%nat))
    | IoErr e =>
      (exists used, no_errors used /\ s_sched s = used ++ Fail e :: s_sched s') /\
      exists junk lost, s_data s = junk ++ lost ++ s_data s' /\ ~ In 0x47 junk /\
        (lost = [] \/ (hd 0 lost = 0x47 /\ (length lost < 188)%nat))
    end.
Proof.
  intros s packet Hl. destruct (P_reader.ts_read_spec s packet Hl) as (s' & p' & r & E & L & K & (u & Hu & HU) & H).
  exists s', p', r. split; [exact E|]. split; [assumption|]. split; [assumption|]. destruct r as [n|e].
  - split; [exists u; auto|]. destruct H as [(-> & junk & pk & D & J & P & L2 & Ep)|H]; [|right; assumption].
    left. split; [reflexivity|]. exists junk, pk. unfold is_packet. auto.
  - split; [exists u; auto|]. exact H.
Qed.
Print Assumptions C58_any_schedule.
(** an error before anything is read loses nothing *)
Theorem C58_error_first : forall data e sched packet, (188 <= length packet)%nat ->
  ts_read (mkSource data (Fail e :: sched)) packet = Ok (mkSource data sched, packet, IoErr e).
Proof.
  intros data e sched packet Hl. unfold ts_read. destruct (Nat.leb_spec 188 (length packet)); [|Lia.lia].
  destruct packet as [|b t]; [cbn in Hl; Lia.lia|]. reflexivity.
Qed.
Print Assumptions C58_error_first.
(** retrying after an error does not always give the packets of the stream: the error
    comes after three bytes of the first packet *)
Theorem C58_lossless_refuted : exists data sched packet s1 p1 e,
  in_stream data [ex_packet 5; ex_packet 6] /\
  ts_read (mkSource data sched) packet = Ok (s1, p1, IoErr e) /\ no_errors (s_sched s1) /\
  exists s2, read_all 9 s1 p1 = Ok ([ex_packet 6], s2).
Proof.
  exists (ex_packet 5 ++ ex_packet 6), [Chunk 0; Chunk 1; Fail 4], (repeat 0 188).
  eexists _, _, 4. split.
  - eapply (in_next _ (ex_packet 5) (ex_packet 6)); [reflexivity|reflexivity|].
    eapply (in_next _ (ex_packet 6) []); [reflexivity|reflexivity|]. constructor; apply Nat.ltb_lt; reflexivity.
  - split; [vm_compute; reflexivity|]. split; [constructor|]. eexists. vm_compute. reflexivity.
Qed.
Print Assumptions C58_lossless_refuted.
(** and what is delivered afterwards need not even be a packet of the stream *)
Theorem C58_aligned_refuted : exists data sched packet s1 p1 e pk s2,
  in_stream data [ex_packet 0x47; ex_packet 6] /\
  ts_read (mkSource data sched) packet = Ok (s1, p1, IoErr e) /\ no_errors (s_sched s1) /\
  read_all 9 s1 p1 = Ok ([pk], s2) /\ pk <> ex_packet 0x47 /\ pk <> ex_packet 6.
Proof.
  exists (ex_packet 0x47 ++ ex_packet 6), [Chunk 0; Chunk 1; Fail 4], (repeat 0 188).
  eexists _, _, 4. eexists _, _. split.
  - eapply (in_next _ (ex_packet 0x47) (ex_packet 6)); [reflexivity|reflexivity|].
    eapply (in_next _ (ex_packet 6) []); [reflexivity|reflexivity|]. constructor; apply Nat.ltb_lt; reflexivity.
  - split; [vm_compute; reflexivity|]. split; [constructor|]. split; [vm_compute; reflexivity|].
    split; vm_compute; discriminate.
Qed.
Print Assumptions C58_aligned_refuted.
Example C58_ex :
  match ts_read (mkSource ([1] ++ ex_packet 5) [Chunk 0; Chunk 0; Chunk 3; Fail 11]) (repeat 0 188) with
  | Ok (s, p, IoErr e) => e = 11 /\ s_data s = repeat 5 183
  | _ => False end.
Proof. vm_compute. split; reflexivity. Qed.

(** * C59 *)
(** over any inner reader: the chunks are the packets, in order; as long as something is
    left every read delivers at least a byte *)
Theorem C59_drain_any_reader : forall (St : Type) tsread (R : St -> list (list N) -> Prop) inner pks garbage bufs,
  delivers tsread R -> R inner pks -> length garbage = 188%nat -> Forall (fun b => b <> []) bufs ->
  exists chunks rest d, drain_all tsread (drain_new inner garbage) bufs = Ok (chunks, d) /\
    length chunks = length bufs /\ concat pks = concat chunks ++ rest /\
    (rest <> [] -> Forall (fun c => c <> []) chunks).
Proof.
  intros St tsread R inner pks garbage bufs HD HR Hg Hb.
  destruct (P_reader.drain_all_spec tsread R bufs HD Hb (drain_new inner garbage) (concat pks)) as (cs & rest & d & E & L & Er & _ & Hc).
  - split; [exact Hg|]. split; [cbn; Lia.lia|]. exists pks. split; [exact HR|reflexivity].
  - exists cs, rest, d. auto.
Qed.
Print Assumptions C59_drain_any_reader.
(** over TsReader *)
Theorem C59_drain_reader : forall data sched pks garbage bufs, no_errors sched -> in_stream data pks ->
  length garbage = 188%nat -> Forall (fun b => b <> []) bufs ->
  exists chunks rest d, drain_all ts_read (drain_new (mkSource data sched) garbage) bufs = Ok (chunks, d) /\
    length chunks = length bufs /\ concat pks = concat chunks ++ rest /\
    (rest <> [] -> Forall (fun c => c <> []) chunks).
Proof.
  intros data sched pks garbage bufs Hn Hs Hg Hb.
  apply (C59_drain_any_reader source ts_read P_reader.reader_pending); try assumption.
  - exact P_reader.reader_delivers.
  - split; assumption.
Qed.
Print Assumptions C59_drain_reader.
(** an error of the inner reader at a packet boundary is passed on, nothing is delivered,
    the next read asks the inner reader again *)
Theorem C59_drain_error : forall (St : Type) (tsread : St -> list N -> res (St * list N * io)) d buf s b e,
  d_pos d = 0%nat ->
  tsread (d_inner d) (if (188 <=? length buf)%nat then buf else d_buf d) = Ok (s, b, IoErr e) ->
  exists d' buf', drain_read tsread d buf = Ok (d', buf', IoErr e) /\ d_pos d' = 0%nat /\ d_inner d' = s.
Proof.
  intros St tsread d buf s b e Hp H. unfold drain_read. rewrite Hp. cbn [Nat.eqb].
  destruct (188 <=? length buf)%nat; rewrite H; cbn [bind]; eexists _, _; auto.
Qed.
Print Assumptions C59_drain_error.
(** an empty buffer at a packet boundary loses a packet *)
Theorem C59_empty_buffer_refuted : exists data pks bufs d,
  in_stream data pks /\ concat pks <> [] /\
  drain_all ts_read (drain_new (mkSource data []) (repeat 0 188)) bufs = Ok ([[]; []], d) /\ bufs = [[]; [0]].
Proof.
  exists (ex_packet 5), [ex_packet 5], [[]; [0]]. eexists. split.
  - eapply (in_next _ (ex_packet 5) []); [reflexivity|reflexivity|]. constructor; apply Nat.ltb_lt; reflexivity.
  - split; [discriminate|]. split; [vm_compute; reflexivity|reflexivity].
Qed.
Print Assumptions C59_empty_buffer_refuted.
Example C59_ex : match drain_all ts_read (drain_new (mkSource ex_stream (ones 50)) (repeat 99 188))
      [repeat 0 100; repeat 0 100; repeat 0 200; repeat 0 3] with
  | Ok (l, _) => l = [0x47 :: repeat 5 99; repeat 5 88; ex_packet 6; []]
  | _ => False end.
Proof. vm_compute. reflexivity. Qed.

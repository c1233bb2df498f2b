(** Property theorems C111: the memory of fresh buffers does not show. Specification: S_memory. *)
From Verif Require Import Prelude M_ts M_reader M_cbr S_memory.
From Verif Require P_memory.

(** ** vocabulary of the statements *)
(** a reader that reports nothing or a whole packet *)
Definition whole_packets {S} (read : S -> list N -> res (S * list N * io)) : Prop :=
  forall s b s' b' n, read s b = Ok (s', b', IoOk n) -> n = 0%nat \/ n = 188%nat.
(** the state of Cbr without the memory of the buffers beyond what was collected *)
Definition kept_block (b : block) : nat * nat * N * N * list N := (b_pos b, b_cap b, b_pcr b, b_delta b, firstn (b_cap b) (b_buffer b)).
Definition kept {S} (c : cbr S) : S * nat * list (nat * nat * N * N * list N) * N * N :=
  (c_inner c, c_parity c, map kept_block (c_blocks c), c_pid c, c_last c).
(** a stream: a packet on PID 5 with a PCR; the reader inside fails once *)
Definition ex_packet : list N := [0x47; 0; 5; 0x20; 183; 0x10; 0; 0; 0; 1; 0; 7] ++ repeat 0xFF 176.
Definition ex_source : source := mkSource ([1; 2] ++ ex_packet ++ ex_packet) [Chunk 0; Fail 11].

(** * C111 *)
(** Whatever the reader inside does, errors included: TsReader reads the same into all buffers of a size and reports only what it wrote. *)
Theorem C111_reader : careful ts_read /\ whole_packets ts_read.
Proof. exact (conj P_memory.ts_read_careful P_memory.ts_read_whole). Qed.
Print Assumptions C111_reader.
(** So its callers get the same bytes and errors, and it ends in the same state, *)
Theorem C111_reader_gets : forall s bufs bufs', map (@length N) bufs = map (@length N) bufs' -> same_for_caller (gets ts_read s bufs) (gets ts_read s bufs') eq.
Proof.
  intros s bufs bufs' E. exact (P_memory.gets_same ts_read eq (P_memory.careful_result ts_read P_memory.ts_read_careful) bufs bufs' s s eq_refl E).
Qed.
Print Assumptions C111_reader_gets.
(** and so do the callers of TsDrain, over TsReader or any reader of that kind, whatever its fresh buffer holds. *)
Theorem C111_drain : forall S (read : S -> list N -> res (S * list N * io)) s g h bufs bufs', careful read -> whole_packets read ->
  length g = 188%nat -> length h = 188%nat -> map (@length N) bufs = map (@length N) bufs' ->
  same_for_caller (gets (drain_read read) (drain_new s g) bufs) (gets (drain_read read) (drain_new s h) bufs') (fun d d' => d_inner d = d_inner d' /\ d_pos d = d_pos d').
Proof.
  intros S read s g h bufs bufs' C W G H E.
  assert (A : P_memory.alike_drain (drain_new s g) (drain_new s h)).
  { unfold P_memory.alike_drain, drain_new. cbn [d_inner d_pos d_buf]. repeat (split; [reflexivity || assumption || lia|]). left. reflexivity. }
  destruct (P_memory.gets_same (drain_read read) P_memory.alike_drain (fun s t b c X L => P_memory.drain_same read s t b c C W X L) bufs bufs' _ _ A E)
    as [K|[K|(l & d & d' & E1 & E2 & D1 & D2 & _)]]; [left; exact K|right; left; exact K|]. right. right. exists l, d, d'. auto.
Qed.
Print Assumptions C111_drain.
(** Cbr over a careful reader: the answers, the clock it finds and the packets it collects are the same. *)
Theorem C111_cbr : forall S (read : S -> list N -> res (S * list N * io)) m s g0 g1 h0 h1 bufs bufs', careful read -> length g0 = length h0 -> length g1 = length h1 -> length bufs = length bufs' ->
  (cbr_reads read m (cbr_new s g0 g1) bufs = Panic /\ cbr_reads read m (cbr_new s h0 h1) bufs' = Panic) \/
  (cbr_reads read m (cbr_new s g0 g1) bufs = Hang /\ cbr_reads read m (cbr_new s h0 h1) bufs' = Hang) \/
  exists l l' c d, cbr_reads read m (cbr_new s g0 g1) bufs = Ok (l, c) /\ cbr_reads read m (cbr_new s h0 h1) bufs' = Ok (l', d) /\ map snd l = map snd l' /\ kept c = kept d.
Proof.
  intros S read m s g0 g1 h0 h1 bufs bufs' C L0 L1 E.
  assert (A : P_memory.alike_cbr (cbr_new s g0 g1) (cbr_new s h0 h1)).
  { unfold P_memory.alike_cbr, cbr_new. cbn [c_inner c_parity c_pid c_last c_blocks]. repeat (split; [reflexivity|]). eexists _, _, _, _. split; [reflexivity|]. split; [reflexivity|].
    unfold P_memory.alike_block, block_new. cbn [b_pos b_cap b_pcr b_delta b_buffer firstn]. split; repeat (split; [reflexivity || assumption|]); reflexivity. }
  destruct (P_memory.cbr_reads_same read m C bufs bufs' _ _ A E) as [K|[K|(l & l' & c & d & E1 & E2 & X & A1 & A2 & A3 & A4 & A5 & b0 & b1 & d0 & d1 & B & D & B0 & B1)]];
    [left; exact K|right; left; exact K|]. right. right. exists l, l', c, d. split; [exact E1|]. split; [exact E2|]. split; [exact X|].
  unfold kept. rewrite A1, A2, A3, A4, A5, B, D. cbn [map]. destruct B0 as (P1 & P2 & P3 & P4 & _ & P6). destruct B1 as (Q1 & Q2 & Q3 & Q4 & _ & Q6).
  unfold kept_block. rewrite P1, P3, P4, P6, P2, Q1, Q3, Q4, Q6, Q2. reflexivity.
Qed.
Print Assumptions C111_cbr.
(** But Cbr itself is not careful: it reports a packet without writing it, so TsDrain over it gives its caller the memory of its own fresh buffer. *)
Theorem C111_cbr_refuted : exists s c0 g b d b', s_data s <> [] /\ length g = 188%nat /\ length b = 100%nat /\
  drain_read (cbr_read ts_read Debug) (drain_new (cbr_new s c0 c0) g) b = Ok (d, b', IoOk 100) /\ b' = firstn 100 g /\ b' <> b /\ ~ In 0x47 b'.
Proof.
  exists (mkSource ex_packet []), (repeat 0 188), (repeat 0xAB 188), (repeat 0 100). eexists _, _. split; [discriminate|]. split; [reflexivity|]. split; [reflexivity|].
  split; [vm_compute; reflexivity|]. split; [reflexivity|]. split; [discriminate|]. intros H. apply (repeat_spec 100) in H. discriminate.
Qed.
Print Assumptions C111_cbr_refuted.

(** the reader inside gives a byte, then fails, then gives all: the packet after the failure arrives the same from any memory *)
Example C111_ex : forall x y, In x [0; 0x47; 0xAB] -> In y [1; 0x47; 0xFF] ->
  match gets (drain_read ts_read) (drain_new ex_source (repeat x 188)) (repeat (repeat y 94) 3) with
  | Ok (l, d) => l = [(IoErr 11, []); (IoOk 94, firstn 94 ex_packet); (IoOk 94, skipn 94 ex_packet)] /\ d_pos d = 0%nat
  | _ => False
  end.
Proof.
  intros x y [<-|[<-|[<-|[]]]] [<-|[<-|[<-|[]]]]; vm_compute; split; reflexivity.
Qed.

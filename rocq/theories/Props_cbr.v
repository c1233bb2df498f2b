(** Property theorems C68: the constant bit rate muxer (src/mux/cbr/mod.rs) as it stands. It is a
    TsRead over an inner TsRead. Specification: S_cbr (clock), S_reader (in_stream). *)
From Verif Require Import Prelude Layout S_reader S_cbr M_ts M_reader M_cbr.
From Verif Require P_cbr.

(** ** vocabulary of the statements *)
Definition no_errors (l : list event) : Prop := Forall (fun e => match e with Fail _ => False | Chunk _ => True end) l.
(** an inner TsRead, in a state [s] with [R s pks], delivers exactly [pks], then end of stream *)
Definition delivers {S} (tsread : S -> list N -> res (S * list N * io)) (R : S -> list (list N) -> Prop) : Prop :=
  forall s pks buf, R s pks -> (188 <= length buf)%nat ->
    exists s' buf', length buf' = length buf /\
      match pks with
      | [] => tsread s buf = Ok (s', buf', IoOk 0) /\ R s' []
      | pk :: pks' => tsread s buf = Ok (s', buf', IoOk 188) /\ firstn 188 buf' = pk /\ R s' pks'
      end.
(** the examples: packets on PID 5 with and without a PCR, one on PID 6 with a PCR *)
Definition with_pcr (pid v : N) : list N :=
  [0x47; 0; pid; 0x20; 183; 0x10; 0; 0; 0; 0; 128 * (v mod 2); 7] ++ repeat 0xFF 176.
Definition plain (pid : N) : list N := [0x47; 0; pid; 0x10] ++ repeat 0xAA 184.

(** * C68 *)
(** n reads collect the first n packets in the first block and follow the clock of the first PID
    with a PCR; every read reports 188 bytes, but the caller's buffers stay as they were *)
Theorem C68_collects : forall (S : Type) (tsread : S -> list N -> res (S * list N * io)) (R : S -> list (list N) -> Prop)
  m inner pks g0 g1 bufs,
  delivers tsread R -> R inner pks -> Forall bytes pks ->
  (length bufs <= length pks)%nat -> (188 * length bufs <= length g0)%nat ->
  exists c tail, cbr_reads tsread m (cbr_new inner g0 g1) bufs = Ok (map (fun b => (b, IoOk 188)) bufs, c) /\
    c_parity c = 0%nat /\
    c_blocks c = [mkBlock (concat (firstn (length bufs) pks) ++ tail) 0 (188 * length bufs) 0 0; block_new g1] /\
    c_pid c = match clock (firstn (length bufs) pks) with Some (pid, _) => pid | None => 8192 end /\
    c_last c = match clock (firstn (length bufs) pks) with Some (_, pcr) => pcr | None => 2 ^ 33 * 300 end.
Proof. exact P_cbr.collects. Qed.
Print Assumptions C68_collects.

(** the end of the stream is reported as often as it is read, and nothing changes *)
Theorem C68_end : forall (S : Type) (tsread : S -> list N -> res (S * list N * io)) (R : S -> list (list N) -> Prop)
  m inner pks g0 g1 bufs more,
  delivers tsread R -> R inner pks -> Forall bytes pks ->
  length bufs = length pks -> (188 * length pks + 188 <= length g0)%nat ->
  exists c tail, cbr_reads tsread m (cbr_new inner g0 g1) (bufs ++ more) =
      Ok (map (fun b => (b, IoOk 188)) bufs ++ map (fun b => (b, IoOk 0)) more, c) /\
    c_blocks c = [mkBlock (concat pks ++ tail) 0 (188 * length pks) 0 0; block_new g1] /\
    c_pid c = match clock pks with Some (pid, _) => pid | None => 8192 end /\
    c_last c = match clock pks with Some (_, pcr) => pcr | None => 2 ^ 33 * 300 end.
Proof. exact P_cbr.ends. Qed.
Print Assumptions C68_end.

(** an error of the inner reader is passed on and keeps the packets and the clock collected so far *)
Theorem C68_error : forall (S : Type) (tsread : S -> list N -> res (S * list N * io)) m c b0 b1 buf s t e,
  c_parity c = 0%nat -> c_blocks c = [b0; b1] -> (b_cap b0 <= length (b_buffer b0))%nat ->
  tsread (c_inner c) (skipn (b_cap b0) (b_buffer b0)) = Ok (s, t, IoErr e) ->
  exists c' b', cbr_read tsread m c buf = Ok (c', buf, IoErr e) /\
    c_inner c' = s /\ c_parity c' = 0%nat /\ c_blocks c' = [b'; b1] /\ c_pid c' = c_pid c /\ c_last c' = c_last c /\
    b_cap b' = b_cap b0 /\ firstn (b_cap b0) (b_buffer b') = firstn (b_cap b0) (b_buffer b0).
Proof. exact P_cbr.error_kept. Qed.
Print Assumptions C68_error.

(** the block is never emptied: over a TsReader the read after the block is full aborts, *)
Theorem C68_overflow : forall m data sched pks g0 g1 bufs,
  no_errors sched -> in_stream data pks -> bytes data ->
  (length g0 / 188 <= length pks)%nat -> (length g0 / 188 < length bufs)%nat ->
  cbr_reads ts_read m (cbr_new (mkSource data sched) g0 g1) bufs = Panic.
Proof. exact P_cbr.overflow. Qed.
Print Assumptions C68_overflow.
(** which with the 5 000 000 bytes of the code is read number 26596 *)
Theorem C68_overflow_size : forall m data sched pks g0 g1 bufs,
  no_errors sched -> in_stream data pks -> bytes data ->
  N.of_nat (length g0) = DEFAULT_BUF_SIZE -> 26595 <= N.of_nat (length pks) -> 26595 < N.of_nat (length bufs) ->
  cbr_reads ts_read m (cbr_new (mkSource data sched) g0 g1) bufs = Panic.
Proof. exact P_cbr.overflow_size. Qed.
Print Assumptions C68_overflow_size.

(** so Cbr is not a reader of the packets: the packet is in the stream, the read reports it, and
    the caller has something else *)
Theorem C68_delivers_refuted : exists data pk g0 g1 buf c r,
  in_stream data [pk] /\
  cbr_read ts_read Debug (cbr_new (mkSource data []) g0 g1) buf = Ok (c, r, IoOk 188) /\ firstn 188 r <> pk.
Proof.
  exists (plain 5), (plain 5), (repeat 0 400), (repeat 0 400), (repeat 0 188). eexists _, _. split.
  - eapply (in_next _ (plain 5) []); [reflexivity|reflexivity|]. constructor. apply Nat.ltb_lt. reflexivity.
  - split; [vm_compute; reflexivity|]. intros H. apply (f_equal (hd 0)) in H. discriminate H.
Qed.
Print Assumptions C68_delivers_refuted.

Example C68_ex :
  let pks := [plain 9; with_pcr 5 0; with_pcr 6 1; plain 5; with_pcr 5 1] in
  match cbr_reads ts_read Debug (cbr_new (mkSource (concat pks) [Chunk 99]) (repeat 0 1000) (repeat 0 1000)) (repeat [1; 2] 5) with
  | Ok (l, c) => l = repeat ([1; 2], IoOk 188) 5 /\ (c_pid c, c_last c) = (5, 307) /\
      map b_cap (c_blocks c) = [940%nat; 0%nat] /\ clock pks = Some (5, 307) /\
      cbr_read ts_read Debug c [] = Panic
  | _ => False
  end.
Proof. vm_compute. repeat split. Qed.
(** a stream that fails once between two packets *)
Example C68_ex_error :
  match cbr_reads ts_read Release (cbr_new (mkSource (with_pcr 5 0 ++ with_pcr 5 1) [Chunk 0; Chunk 186; Fail 11])
          (repeat 0 400) (repeat 0 400)) (repeat [] 3) with
  | Ok (l, c) => map snd l = [IoOk 188; IoErr 11; IoOk 188] /\ (c_pid c, c_last c) = (5, 307) /\
      firstn 376 (concat (map b_buffer (c_blocks c))) = with_pcr 5 0 ++ with_pcr 5 1
  | _ => False
  end.
Proof. vm_compute. repeat split. Qed.

(** Model of src/reader/mod.rs (TsReader) and src/reader/drain.rs (TsDrain). *)
From Verif Require Import Prelude M_ts.

(** std::io::Result<usize> *)
Inductive io := IoOk (n : nat) | IoErr (e : N).

(** ** the underlying reader
    Any std::io::Read is described by the bytes it will still deliver and a schedule of
    what its next calls do: deliver at most [S k] bytes, or return an error without
    delivering anything. After the schedule is used up every call delivers as much as it
    can. A call with a nonempty buffer returns 0 exactly at the end of the data. *)
Inductive event := Chunk (k : nat) | Fail (e : N).
Record source := mkSource { s_data : list N; s_sched : list event }.

(** Read::read into a buffer of [n] bytes: new state, bytes delivered or error *)
Definition src_read (s : source) (n : nat) : source * (list N + N) :=
  match s_sched s with
  | [] => (mkSource (skipn n (s_data s)) [], inl (firstn n (s_data s)))
  | Chunk k :: l =>
    let j := Nat.min n (S k) in (mkSource (skipn j (s_data s)) l, inl (firstn j (s_data s)))
  | Fail e :: l => (mkSource (s_data s) l, inr e)
  end.

(** [inner.read(&mut packet[a .. b])]: slice bounds check, then the bytes delivered are
    written at [a] *)
Definition read_at (s : source) (packet : list N) (a b : nat) : res (source * list N * io) :=
  if ((a <=? b) && (b <=? length packet))%nat then
    match src_read s (b - a) with
    | (s', inl d) => Ok (s', firstn a packet ++ d ++ skipn (a + length d) packet, IoOk (length d))
    | (s', inr e) => Ok (s', packet, IoErr e)
    end
  else Panic.

(** reader/mod.rs:74-82, the loop that looks for the sync byte; [None]: found *)
Fixpoint hunt (fuel : nat) (s : source) (packet : list N) : res (source * list N * option io) :=
  match fuel with
  | O => Hang
  | S fuel' =>
    ' (s, packet, x) <- read_at s packet 0 1 ;;
    match x with
    | IoErr e => Ok (s, packet, Some (IoErr e))
    | IoOk 0 => Ok (s, packet, Some (IoOk 0))
    | IoOk _ =>
      y <- is_sync packet ;;
      if y : bool then Ok (s, packet, None) else hunt fuel' s packet
    end
  end.

(** reader/mod.rs:84-90, the loop that fills the packet *)
Fixpoint fill (fuel : nat) (s : source) (packet : list N) (skip : nat) : res (source * list N * option io) :=
  match fuel with
  | O => Hang
  | S fuel' =>
    if (skip =? 188)%nat then Ok (s, packet, None) else
    ' (s, packet, x) <- read_at s packet skip 188 ;;
    match x with
    | IoErr e => Ok (s, packet, Some (IoErr e))
    | IoOk 0 => Ok (s, packet, Some (IoOk 0))
    | IoOk x => fill fuel' s packet (skip + x)
    end
  end.

(** TsRead::read for TsReader, reader/mod.rs:69-95; parse (50-54) only calls get_pid. Fuel:
    the first loop consumes a byte per round, the second runs at most 188 rounds. *)
Definition ts_read (s : source) (packet : list N) : res (source * list N * io) :=
  if (188 <=? length packet)%nat then
    ' (s, packet, r) <- hunt (S (length (s_data s))) s packet ;;
    match r with
    | Some r => Ok (s, packet, r)
    | None =>
      ' (s, packet, r) <- fill 189 s packet 1 ;;
      match r with
      | Some r => Ok (s, packet, r)
      | None => _ <- get_pid packet ;; Ok (s, packet, IoOk 188)
      end
    end
  else Panic.

(** ** TsDrain over any TsRead (drain.rs:22-27); [tsread] is the inner read *)
Record drain (S : Type) := mkDrain { d_inner : S; d_buf : list N; d_pos : nat }.
Arguments mkDrain {S} _ _ _.
Arguments d_inner {S} _.
Arguments d_buf {S} _.
Arguments d_pos {S} _.

(** drain.rs:40-52; the uninitialised buffer is any list of 188 bytes *)
Definition drain_new {S} (inner : S) (garbage : list N) : drain S := mkDrain inner garbage 0.

(** drain.rs:56-71; the last read is <&[u8] as Read>::read: copies min(len, len) bytes *)
Definition drain_copy {S} (d : drain S) (buf : list N) : res (drain S * list N * io) :=
  t <- slice_from (d_buf d) (d_pos d) ;;
  let x := Nat.min (length t) (length buf) in
  Ok (mkDrain (d_inner d) (d_buf d) ((d_pos d + x) mod 188), firstn x t ++ skipn x buf, IoOk x).
Definition drain_read {S} (tsread : S -> list N -> res (S * list N * io)) (d : drain S) (buf : list N)
  : res (drain S * list N * io) :=
  if (d_pos d =? 0)%nat then
    if (188 <=? length buf)%nat then
      ' (s, buf, r) <- tsread (d_inner d) buf ;; Ok (mkDrain s (d_buf d) (d_pos d), buf, r)
    else
      ' (s, b, r) <- tsread (d_inner d) (d_buf d) ;;
      let d := mkDrain s b (d_pos d) in
      match r with
      | IoErr e => Ok (d, buf, IoErr e)
      | IoOk 0 => Ok (d, buf, IoOk 0)
      | IoOk _ => drain_copy d buf
      end
  else drain_copy d buf.

(** ** driving the readers (not code of /repo) *)
(** the packets delivered by repeated reads *)
Fixpoint read_all (n : nat) (s : source) (packet : list N) : res (list (list N) * source) :=
  match n with
  | O => Ok ([], s)
  | S n' =>
    ' (s, packet, r) <- ts_read s packet ;;
    match r with
    | IoOk 0 => Ok ([], s)
    | IoOk k => ' (l, s) <- read_all n' s packet ;; Ok (firstn k packet :: l, s)
    | IoErr _ => Ok ([], s)
    end
  end.

(** the chunks delivered to the buffers [bufs], one read each *)
Fixpoint drain_all {S} (tsread : S -> list N -> res (S * list N * io)) (d : drain S) (bufs : list (list N))
  : res (list (list N) * drain S) :=
  match bufs with
  | [] => Ok ([], d)
  | b :: bufs' =>
    ' (d, b, r) <- drain_read tsread d b ;;
    ' (l, d) <- drain_all tsread d bufs' ;;
    Ok ((match r with IoOk n => firstn n b | IoErr _ => [] end) :: l, d)
  end.

(** Model of src/mux/cbr/mod.rs. The file is unfinished and lib.rs does not declare the module
    `mux`, so nothing of it is compiled; it is modelled as it stands. *)
From Verif Require Import Prelude M_ts M_reader.

(** mux/cbr/mod.rs:21 *)
Definition DEFAULT_BUF_SIZE : N := 80 * 1000 * 1000 / 8 * 500 / 1000.

(** struct Block, mux/cbr/mod.rs:24-35 *)
Record block := mkBlock { b_buffer : list N; b_pos : nat; b_cap : nat; b_pcr : N; b_delta : N }.

(** Block::new, mux/cbr/mod.rs:50-65; the uninitialised buffer is any list (of
    DEFAULT_BUF_SIZE bytes) *)
Definition block_new (garbage : list N) : block := mkBlock garbage 0 0 0 0.

(** struct Cbr, mux/cbr/mod.rs:68-77; the array of two blocks is a list *)
Record cbr (S : Type) := mkCbr { c_inner : S; c_parity : nat; c_blocks : list block; c_pid : N; c_last : N }.
Arguments mkCbr {S} _ _ _ _ _.
Arguments c_inner {S} _.
Arguments c_parity {S} _.
Arguments c_blocks {S} _.
Arguments c_pid {S} _.
Arguments c_last {S} _.

(** Cbr::new, mux/cbr/mod.rs:81-91 *)
Definition cbr_new {S} (inner : S) (garbage0 garbage1 : list N) : cbr S :=
  mkCbr inner 0 [block_new garbage0; block_new garbage1] PID_NONE PCR_NONE.

(** Cbr::analyze, mux/cbr/mod.rs:93-125 *)
Definition analyze {S} (m : mode) (c : cbr S) : res (cbr S) :=
  b <- get (c_blocks c) (c_parity c) ;;
  packet <- slice_from (b_buffer b) (b_cap b) ;;
  p <- is_pcr packet ;;
  if negb p then Ok c else
  pid <- get_pid packet ;;
  if negb (pid =? c_pid c) && negb (c_pid c =? PID_NONE) then Ok c else
  let c := mkCbr (c_inner c) (c_parity c) (c_blocks c) pid (c_last c) in
  pcr <- get_pcr m packet ;;
  if negb (c_last c =? PCR_NONE) && (c_last c =? pcr) then Ok c else
  Ok (mkCbr (c_inner c) (c_parity c) (c_blocks c) (c_pid c) pcr).

(** Cbr::push_packet, mux/cbr/mod.rs:127-141; [tsread] is the read of the inner TsRead. [cap]
    stays below the size of the buffer, so its addition does not overflow. *)
Definition push_packet {S} (tsread : S -> list N -> res (S * list N * io)) (m : mode) (c : cbr S)
  : res (cbr S * io) :=
  b <- get (c_blocks c) (c_parity c) ;;
  packet <- slice_from (b_buffer b) (b_cap b) ;;
  ' (s, packet, r) <- tsread (c_inner c) packet ;;
  let b := mkBlock (firstn (b_cap b) (b_buffer b) ++ packet) (b_pos b) (b_cap b) (b_pcr b) (b_delta b) in
  bs <- set (c_blocks c) (c_parity c) b ;;
  let c := mkCbr s (c_parity c) bs (c_pid c) (c_last c) in
  match r with
  | IoErr e => Ok (c, IoErr e)
  | IoOk x =>
    if (x =? 188)%nat then
      c <- analyze m c ;;
      b <- get (c_blocks c) (c_parity c) ;;
      bs <- set (c_blocks c) (c_parity c)
              (mkBlock (b_buffer b) (b_pos b) (b_cap b + 188) (b_pcr b) (b_delta b)) ;;
      Ok (mkCbr (c_inner c) (c_parity c) bs (c_pid c) (c_last c), IoOk x)
    else Ok (c, IoOk x)
  end.

(** <Cbr as TsRead>::read, mux/cbr/mod.rs:144-156; the caller's packet is not used *)
Definition cbr_read {S} (tsread : S -> list N -> res (S * list N * io)) (m : mode) (c : cbr S) (packet : list N)
  : res (cbr S * list N * io) :=
  ' (c, r) <- push_packet tsread m c ;; Ok (c, packet, r).

(** ** driving it (not code of /repo): one read for each of the caller's buffers [bufs] *)
Fixpoint cbr_reads {S} (tsread : S -> list N -> res (S * list N * io)) (m : mode) (c : cbr S) (bufs : list (list N))
  : res (list (list N * io) * cbr S) :=
  match bufs with
  | [] => Ok ([], c)
  | b :: bufs' =>
    ' (c, b, r) <- cbr_read tsread m c b ;;
    ' (l, c) <- cbr_reads tsread m c bufs' ;;
    Ok ((b, r) :: l, c)
  end.

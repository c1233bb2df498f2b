(** TsReader over any std::io::Read (the code of M_reader.ts_read, with the Read inside as a parameter), and
    readers on readers: TsReader<TsDrain<TsReader<...>>> over a source. *)
From Verif Require Import Prelude M_ts M_reader.

Section On.
Context {S : Type}.
(** Read::read of the Read inside: new state, buffer, answer *)
Variable rd : S -> list N -> res (S * list N * io).

(** [inner.read(&mut packet[a .. b])]: slice bounds check, then the read on that part *)
Definition read_on (s : S) (packet : list N) (a b : nat) : res (S * list N * io) :=
  t <- slice packet a b ;;
  ' (s, t, r) <- rd s t ;;
  Ok (s, firstn a packet ++ t ++ skipn b packet, r).
(** reader/mod.rs:74-82 *)
Fixpoint hunt_on (fuel : nat) (s : S) (packet : list N) : res (S * list N * option io) :=
  match fuel with
  | O => Hang
  | Datatypes.S fuel' =>
    ' (s, packet, x) <- read_on s packet 0 1 ;;
    match x with
    | IoErr e => Ok (s, packet, Some (IoErr e))
    | IoOk 0 => Ok (s, packet, Some (IoOk 0))
    | IoOk _ =>
      y <- is_sync packet ;;
      if y : bool then Ok (s, packet, None) else hunt_on fuel' s packet
    end
  end.
(** reader/mod.rs:84-90 *)
Fixpoint fill_on (fuel : nat) (s : S) (packet : list N) (skip : nat) : res (S * list N * option io) :=
  match fuel with
  | O => Hang
  | Datatypes.S fuel' =>
    if (skip =? 188)%nat then Ok (s, packet, None) else
    ' (s, packet, x) <- read_on s packet skip 188 ;;
    match x with
    | IoErr e => Ok (s, packet, Some (IoErr e))
    | IoOk 0 => Ok (s, packet, Some (IoOk 0))
    | IoOk x => fill_on fuel' s packet (skip + x)
    end
  end.
(** TsRead::read for TsReader, reader/mod.rs:69-95; [fuel] bounds the rounds of the first loop, the second has at most 188. [skip + x] is not
    cut to usize (a Read that keeps its contract reports at most 188) *)
Definition ts_read_on (fuel : nat) (s : S) (packet : list N) : res (S * list N * io) :=
  if (188 <=? length packet)%nat then
    ' (s, packet, r) <- hunt_on fuel s packet ;;
    match r with
    | Some r => Ok (s, packet, r)
    | None =>
      ' (s, packet, r) <- fill_on 189 s packet 1 ;;
      match r with
      | Some r => Ok (s, packet, r)
      | None => _ <- get_pid packet ;; Ok (s, packet, IoOk 188)
      end
    end
  else Panic.
End On.

(** the source of M_reader as a Read: what is delivered goes to the front of the buffer *)
Definition src_rd (s : source) (buf : list N) : res (source * list N * io) :=
  match src_read s (length buf) with
  | (s', inl d) => Ok (s', d ++ skipn (length d) buf, IoOk (length d))
  | (s', inr e) => Ok (s', buf, IoErr e)
  end.

(** Driver (not code of /repo): [k] pairs of TsReader and TsDrain on a source, as a Read *)
Fixpoint tower_state (k : nat) : Type := match k with O => source | S k => drain (tower_state k) end.
Fixpoint tower (fuel k : nat) : tower_state k -> list N -> res (tower_state k * list N * io) :=
  match k with O => src_rd | S k => drain_read (ts_read_on (tower fuel k) fuel) end.
(** with fresh buffers of any contents *)
Fixpoint tower_new (k : nat) (s : source) (garbage : nat -> list N) : tower_state k :=
  match k with O => s | S k => drain_new (tower_new k s garbage) (garbage k) end.
(** Driver (not code of /repo): the packets delivered by repeated reads (as M_reader.read_all) *)
Fixpoint read_all_on {S} (read : S -> list N -> res (S * list N * io)) (n : nat) (s : S) (packet : list N) : res (list (list N) * S) :=
  match n with
  | O => Ok ([], s)
  | Datatypes.S n' =>
    ' (s, packet, r) <- read s packet ;;
    match r with
    | IoOk 0 => Ok ([], s)
    | IoOk k => ' (l, s) <- read_all_on read n' s packet ;; Ok (firstn k packet :: l, s)
    | IoErr _ => Ok ([], s)
    end
  end.

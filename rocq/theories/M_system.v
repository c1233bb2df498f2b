(** Driver (not code of /repo): what a program built on the library does to follow a table
    in a byte stream. Read packets with TsReader (src/reader/mod.rs:69-95) until the end of the stream; hand the
    packets with the wanted PID (ts/mod.rs get_pid) to Psi::mux (psi/mod.rs:98-156) and the Psi to the parse function of
    the table. *)
From Verif Require Import Prelude M_ts M_psi M_reader.

Fixpoint follow {T} (n : nat) (m : mode) (parse : T -> psi -> res T) (want : N)
    (s : source) (packet : list N) (p : psi) (t : T) : res (source * psi * T) :=
  match n with
  | O => Ok (s, p, t)
  | S n' =>
    ' (s, packet, r) <- ts_read s packet ;;
    match r with
    | IoOk 0 => Ok (s, p, t)
    | IoErr _ => Ok (s, p, t)
    | IoOk k =>
      let ts := firstn k packet in
      pid <- get_pid ts ;;
      if pid =? want then
        p <- psi_mux m p ts ;; t <- parse t p ;; follow n' m parse want s packet p t
      else follow n' m parse want s packet p t
    end
  end.

(** Driver: several tables sent one after another on one PID with the demux function of the
    table, each starting with any continuity counter; [out] is all that was written. *)
Inductive sent {T} (dm : T -> N -> N -> list N -> res (N * list N)) (pid : N) : list T -> list N -> Prop :=
| sent_nil : sent dm pid [] []
| sent_cons t ts cc cc' o out : cc < 16 -> dm t pid cc [] = Ok (cc', o) -> sent dm pid ts out -> sent dm pid (t :: ts) (o ++ out).

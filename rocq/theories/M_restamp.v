(** Drivers (not code of /repo): giving the packets of a program another clock, and reading its clock. *)
From Verif Require Import Prelude M_ts.

(** of each packet with a PCR: [ts::set_pcr(packet, (ts::get_pcr(packet) + shift) % ts::PCR_NONE)]
    (ts/pcr.rs:21, 26-28, 33-43, 48-60) *)
Fixpoint restamp (m : mode) (shift : N) (l : list (list N)) : res (list (list N)) :=
  match l with
  | [] => Ok []
  | ts :: l' =>
    has <- is_pcr ts ;;
    ts <- (if has : bool then pcr <- get_pcr m ts ;; v <- addw U64 m pcr shift ;; set_pcr ts (v mod PCR_NONE) else Ok ts) ;;
    r <- restamp m shift l' ;; Ok (ts :: r)
  end.

(** the PCR values of one PID, each with the bytes since the one before: [bytes += 188;
    if ts::get_pid(packet) == pid && ts::is_pcr(packet) { out.push((ts::get_pcr(packet), bytes)); bytes = 0; }]
    (ts/mod.rs:107-109, ts/pcr.rs:26-28, 48-60; the counter of the bytes is a number without bound) *)
Fixpoint observe (m : mode) (pid n : N) (l : list (list N)) : res (list (N * N)) :=
  match l with
  | [] => Ok []
  | ts :: l' =>
    let n := n + 188 in
    q <- get_pid ts ;;
    if negb (q =? pid) then observe m pid n l' else
    has <- is_pcr ts ;;
    if has : bool then pcr <- get_pcr m ts ;; r <- observe m pid 0 l' ;; Ok ((pcr, n) :: r) else observe m pid n l'
  end.

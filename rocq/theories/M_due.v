(** Driver (not code of /repo): a player that looks how long a PES packet has to wait. It keeps the last PCR of the program (is_pcr, get_pcr,
    src/ts/pcr.rs:26-28, 48-60) and takes the PTS from the first packet of each PES packet (src/es/pes.rs:60-94); the clock of the PTS is a 300th of that of the PCR. *)
From Verif Require Import Prelude M_ts M_pes.

Fixpoint due (m : mode) (pcr_pid pid : N) (clock : option N) (l : list (list N)) : res (list N) :=
  match l with
  | [] => Ok []
  | ts :: l' =>
    i <- get_pid ts ;;
    has <- (if i =? pcr_pid then is_pcr ts else Ok false) ;;
    clock <- (if has : bool then v <- get_pcr m ts ;; Ok (Some v) else Ok clock) ;;
    p <- (if i =? pid then is_payload ts else Ok false) ;;
    u <- (if p : bool then is_pusi ts else Ok false) ;;
    match clock, u with
    | Some v, true =>
      o <- get_payload_offset m ts ;;
      d <- slice_from ts (N.to_nat o) ;;
      x <- is_prefix d ;;
      if negb x then due m pcr_pid pid clock l' else
      y <- is_pts d ;;
      if negb y then due m pcr_pid pid clock l' else
      t <- get_pts d ;;
      w <- pts_delta m (v / 300) t ;;
      r <- due m pcr_pid pid clock l' ;; Ok (pts_to_ms w :: r)
    | _, _ => due m pcr_pid pid clock l'
    end
  end.

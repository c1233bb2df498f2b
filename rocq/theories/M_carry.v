(** Driver (not code of /repo): a sender of one elementary stream. It cuts PES packets into transport packets and makes these from NULL_PACKET
    (src/ts/mod.rs:16-29) with set_pid, set_cc, set_pusi_0, set_pusi_1, set_payload_1 (src/ts/mod.rs:118-145) and set_pcr (src/ts/pcr.rs:33-43). The
    library has no setter for the flag, the length and the flags of the adaptation field: the driver writes these bytes. *)
From Verif Require Import Prelude M_ts.

Definition carry_one (m : mode) (pid cc : N) (first : bool) (pcr : option N) (d : list N) : res (list N) :=
  p <- set_pid m NULL_PACKET pid ;;
  p <- set_cc m p cc ;;
  p <- (if first then set_pusi_1 p else set_pusi_0 p) ;;
  p <- set_payload_1 p ;;
  p <- (if (length d =? 184)%nat then Ok p else
        b <- get p 3 ;; p <- set p 3 (N.lor b 0x20) ;;
        p <- set p 4 (N.of_nat (183 - length d)) ;;
        match pcr with
        | Some v => p <- set p 5 0x10 ;; set_pcr p v
        | None => if (length d =? 183)%nat then Ok p else set p 5 0
        end) ;;
  copy_from p (188 - length d) 188 d.

(** the packets behind the first of a PES packet, and the next counter *)
Fixpoint carry_more (m : mode) (pid : N) (fuel : nat) (cc : N) (d : list N) : res (list (list N) * N) :=
  match d with
  | [] => Ok ([], cc)
  | _ =>
    match fuel with
    | O => Hang
    | S fuel =>
      p <- carry_one m pid cc false None (firstn 184 d) ;;
      ' (r, c) <- carry_more m pid fuel (N.land (cc + 1) 0x0F) (skipn 184 d) ;;
      Ok (p :: r, c)
    end
  end.
(** the PES packet [d], with the PCR [pcr] in its first packet *)
Definition carry (m : mode) (pid cc : N) (pcr : option N) (d : list N) : res (list (list N) * N) :=
  let room := match pcr with Some _ => 176%nat | None => 184%nat end in
  p <- carry_one m pid cc true pcr (firstn room d) ;;
  ' (r, c) <- carry_more m pid (length d) (N.land (cc + 1) 0x0F) (skipn room d) ;;
  Ok (p :: r, c).
Fixpoint carry_all (m : mode) (pid cc : N) (l : list (option N * list N)) : res (list (list N) * N) :=
  match l with
  | [] => Ok ([], cc)
  | (pcr, d) :: l' =>
    ' (p, c) <- carry m pid cc pcr d ;;
    ' (r, c) <- carry_all m pid c l' ;;
    Ok (p ++ r, c)
  end.

(** the PCR of a packet (is_pcr, get_pcr: src/ts/pcr.rs:26-28, 48-60) *)
Definition clock_of (m : mode) (ts : list N) : res (option N) :=
  b <- is_pcr ts ;; if b : bool then v <- get_pcr m ts ;; Ok (Some v) else Ok None.

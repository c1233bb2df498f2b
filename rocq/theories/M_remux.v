(** Drivers (not code of /repo): what a remultiplexer does with packets. *)
From Verif Require Import Prelude M_ts.

(** of each packet that has a route: [ts::set_pid(packet, route(ts::get_pid(packet)))] (ts/mod.rs:107, 118-122);
    the others are dropped *)
Fixpoint remap (m : mode) (route : N -> option N) (l : list (list N)) : res (list (list N)) :=
  match l with
  | [] => Ok []
  | ts :: l' =>
    pid <- get_pid ts ;;
    match route pid with
    | None => remap m route l'
    | Some q => ts <- set_pid m ts q ;; r <- remap m route l' ;; Ok (ts :: r)
    end
  end.

(** count the packets of one PID anew from [cc]: [if ts::is_payload(packet) { cc = (cc + 1) & 0x0F; } ts::set_cc(packet, cc)]
    (ts/mod.rs:61, 126-129) *)
Fixpoint renumber (m : mode) (cc : N) (l : list (list N)) : res (list (list N)) :=
  match l with
  | [] => Ok []
  | ts :: l' =>
    pl <- is_payload ts ;;
    cc <- (if pl : bool then (c <- addw U8 m cc 1 ;; Ok (N.land c 0x0F)) else Ok cc) ;;
    ts <- set_cc m ts cc ;; r <- renumber m cc l' ;; Ok (ts :: r)
  end.

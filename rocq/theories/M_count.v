(** Driver (not code of /repo): a player of one elementary stream that notices lost packets. Like M_play, and with
    get_cc (src/ts/mod.rs:113): a packet that is not the next by its counter makes it forget the PES packet being received. *)
From Verif Require Import Prelude M_ts M_pes M_play.

(** [last]: counter of the last packet with payload; [cur]: the PES packet being received; a PES packet is given when the next one starts *)
Fixpoint gather (m : mode) (pid : N) (l : list (list N)) (last : option N) (cur : option (list N)) : res (list (list N)) :=
  match l with
  | [] => Ok []
  | ts :: l' =>
    i <- get_pid ts ;;
    if negb (i =? pid) then gather m pid l' last cur else
    p <- is_payload ts ;;
    if negb p then gather m pid l' last cur else
    c <- get_cc ts ;;
    let cur := match last with Some b => if c =? N.land (b + 1) 0x0F then cur else None | None => None end in
    o <- get_payload_offset m ts ;;
    d <- slice_from ts (N.to_nat o) ;;
    u <- is_pusi ts ;;
    if u : bool then
      r <- gather m pid l' (Some c) (Some d) ;; Ok (match cur with Some x => x :: r | None => r end)
    else gather m pid l' (Some c) (match cur with Some x => Some (x ++ d) | None => None end)
  end.
Definition careful (m : mode) (pid : N) (l : list (list N)) : res (list (option (option N * option N * list N))) :=
  ps <- gather m pid l None None ;; open_all m ps.

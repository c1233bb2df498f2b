(** Driver (not code of /repo): a player of one elementary stream. It takes the transport packets of a PID apart with
    the accessors of src/ts/mod.rs, joins the payloads to PES packets, and opens these with the accessors of
    src/es/pes.rs. *)
From Verif Require Import Prelude M_ts M_pes.

(** the PES packets of PID [pid], each from a packet with payload_unit_start_indicator up to the next such packet;
    [cur]: the one being received *)
Fixpoint collect (m : mode) (pid : N) (l : list (list N)) (cur : option (list N)) : res (list (list N)) :=
  match l with
  | [] => Ok (match cur with Some c => [c] | None => [] end)
  | ts :: l' =>
    i <- get_pid ts ;;
    if negb (i =? pid) then collect m pid l' cur else
    p <- is_payload ts ;;
    if negb p then collect m pid l' cur else
    o <- get_payload_offset m ts ;;
    d <- slice_from ts (N.to_nat o) ;;
    u <- is_pusi ts ;;
    if u : bool then
      r <- collect m pid l' (Some d) ;; Ok (match cur with Some c => c :: r | None => r end)
    else collect m pid l' (match cur with Some c => Some (c ++ d) | None => None end)
  end.

(** what a PES packet holds: PTS, DTS and the data; [None]: it does not start with the prefix *)
Definition open (m : mode) (p : list N) : res (option (option N * option N * list N)) :=
  x <- is_prefix p ;;
  if negb x then Ok None else
  s <- is_syntax_spec p ;;
  o <- pes_get_payload_offset m p ;;
  n <- pes_get_length m p ;;
  d <- (if n =? 0 then slice_from p (N.to_nat o) else slice p (N.to_nat o) (N.to_nat (6 + n))) ;;
  if negb s then Ok (Some (None, None, d)) else
  a <- is_pts p ;;
  pts <- (if a : bool then v <- get_pts p ;; Ok (Some v) else Ok None) ;;
  b <- is_dts p ;;
  dts <- (if b : bool then v <- get_dts p ;; Ok (Some v) else Ok None) ;;
  Ok (Some (pts, dts, d)).
Fixpoint open_all (m : mode) (l : list (list N)) : res (list (option (option N * option N * list N))) :=
  match l with [] => Ok [] | p :: l' => x <- open m p ;; r <- open_all m l' ;; Ok (x :: r) end.
Definition play (m : mode) (pid : N) (l : list (list N)) : res (list (option (option N * option N * list N))) :=
  ps <- collect m pid l None ;; open_all m ps.

(** the time that passes from [last] over the time stamps [l], as pts_delta (pes.rs:78-84) counts it, summed up exactly *)
Fixpoint elapsed (m : mode) (last : N) (l : list N) : res N :=
  match l with [] => Ok 0 | t :: l' => d <- pts_delta m last t ;; r <- elapsed m t l' ;; Ok (d + r) end.

(** Drivers (not code of /repo): a receiver that makes a new table of each section instead of
    adding to one, and a receiver that follows a program. *)
From Verif Require Import Prelude M_bytes M_ts M_psi M_tables M_from.

(** after each packet: [if psi.check() && ids(psi.buffer[0]) { table = T::from(&psi) }] with Psi::check
    (psi/mod.rs:178-183) and From<&Psi> *)
Definition latest {T} (ids : N -> bool) (from : psi -> res T) (old : T) (p : psi) : res T :=
  c <- psi_check p ;;
  if c : bool then (b <- get (p_buffer p) 0 ;; if ids b then from p else Ok old) else Ok old.

(** the PID of a program in a PAT: the first item with its number *)
Definition prog_pid (want : N) (t : pat) : option N :=
  match find (fun i => pati_pnr i =? want) (pat_items t) with Some i => Some (pati_pid i) | None => None end.

Record tuner := mkTuner { u_pat_psi : psi; u_pat : pat; u_pmt_psi : psi; u_pmt : pmt }.
Definition tuner_new : tuner := mkTuner psi_default pat_default psi_default pmt_default.
Definition same_pid (a b : option N) : bool :=
  match a, b with Some x, Some y => x =? y | None, None => true | _, _ => false end.
(** the PMT of the program: other programs can have the same PID *)
Definition latest_pmt (m : mode) (want : N) (old : pmt) (p : psi) : res pmt :=
  t <- latest (fun b => b =? 0x02) (pmt_from m) old p ;; Ok (if pmt_pnr t =? want then t else old).
(** a packet: the PAT is on PID 0; when it gives the program another PID, start anew with the PMT *)
Definition tune_packet (m : mode) (want : N) (u : tuner) (ts : list N) : res tuner :=
  pid <- get_pid ts ;;
  if pid =? 0 then
    q <- psi_mux m (u_pat_psi u) ts ;;
    t <- latest (fun b => b =? 0x00) (pat_from m) (u_pat u) q ;;
    Ok (if same_pid (prog_pid want t) (prog_pid want (u_pat u)) then mkTuner q t (u_pmt_psi u) (u_pmt u) else mkTuner q t psi_default pmt_default)
  else
    if same_pid (Some pid) (prog_pid want (u_pat u)) then
      q <- psi_mux m (u_pmt_psi u) ts ;;
      t <- latest_pmt m want (u_pmt u) q ;;
      Ok (mkTuner (u_pat_psi u) (u_pat u) q t)
    else Ok u.
Fixpoint tune (m : mode) (want : N) (u : tuner) (l : list (list N)) : res tuner :=
  match l with [] => Ok u | ts :: l' => u <- tune_packet m want u ts ;; tune m want u l' end.

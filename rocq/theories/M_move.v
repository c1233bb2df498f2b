(** Drivers (not code of /repo): a program moved to other PIDs. *)
From Verif Require Import Prelude M_tables.

(** a copy of a PMT with other PIDs: [pmt.pcr = f(pmt.pcr); for item in &mut pmt.items { item.pid = f(item.pid); }]
    (the public fields of psi/pmt.rs:24-34, 109-120) *)
Definition moved (f : N -> N) (t : pmt) : pmt :=
  mkPmt (pmt_version t) (pmt_pnr t) (f (pmt_pcr t)) (pmt_descs t)
    (map (fun i => mkPmtI (pmti_type i) (f (pmti_pid i)) (pmti_descs i)) (pmt_items t)).

(** the PIDs of a program, and the way of its packets *)
Definition streams (t : pmt) : list N := pmt_pcr t :: map pmti_pid (pmt_items t).
Definition route_of (f : N -> N) (t : pmt) (pid : N) : option N :=
  if existsb (N.eqb pid) (streams t) then Some (f pid) else None.

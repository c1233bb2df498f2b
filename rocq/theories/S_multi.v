(** Specification: a multiplex of tables of all kinds. *)
From Verif Require Import Prelude Layout M_desc M_tables S_tables S_system M_multi.

(** packets of one PID with payload only, the counter going on from [cc] *)
Fixpoint running (pid cc : N) (l : list (list N)) : Prop :=
  match l with
  | [] => True
  | x :: r => length x = 188%nat /\ field x 0 8 = 0x47 /\ field x 11 13 = pid /\ field x 26 1 = 0 /\ field x 27 1 = 1 /\ field x 28 4 = cc /\ running pid ((cc + 1) mod 16) r
  end.

(** schedules that come back (C75) *)
Definition sched_sendable (t : eit) : Prop :=
  eit_ok t /\ eit_fits (N.to_nat 4098) t /\ exact_items eiti_descs (eit_items t) /\ 0x50 <= eit_table t <= 0x6F /\
  (1 <= length (eit_items t) < N.to_nat 504)%nat.
Definition sendable (t : table) : Prop :=
  match t with
  | TPat t => pat_sendable t | TPmt t => pmt_sendable t | TNit t => nit_sendable t | TSdt t => sdt_sendable t
  | TEit t => pf_sendable t \/ sched_sendable t | TTdt t => tdt_sendable t | TTot t => tot_sendable t
  end.
(** jobs on PIDs of 13 bits *)
Definition jobs_ok (jobs : list (N * table)) : Prop := Forall (fun j => fst j < 8192 /\ sendable (snd j)) jobs.

(** the tables of each kind on a PID, in order *)
Definition tables_on (pid : N) (jobs : list (N * table)) : list table := map snd (filter (fun j => fst j =? pid) jobs).
Definition pats (l : list table) : list pat := flat_map (fun t => match t with TPat t => [t] | _ => [] end) l.
Definition pmts (l : list table) : list pmt := flat_map (fun t => match t with TPmt t => [t] | _ => [] end) l.
Definition nits (l : list table) : list nit := flat_map (fun t => match t with TNit t => [t] | _ => [] end) l.
Definition sdts (l : list table) : list sdt := flat_map (fun t => match t with TSdt t => [t] | _ => [] end) l.
Definition eits (l : list table) : list eit := flat_map (fun t => match t with TEit t => [t] | _ => [] end) l.
Definition tdts (l : list table) : list N := flat_map (fun t => match t with TTdt t => [t] | _ => [] end) l.
Definition tots (l : list table) : list tot := flat_map (fun t => match t with TTot t => [t] | _ => [] end) l.

(** a schedule uses the 16 tables from 0x50 or from 0x60 *)
Definition kind_of (tb : N) (t : eit) : Prop := tb = eit_table t \/ (0x50 <= eit_table t /\ tb / 16 = eit_table t / 16).
(** all events, in order, and the header of the last guide *)
Definition guide_seen (ts : list eit) (old u : eit) : Prop :=
  eit_version u = eit_version (last ts old) /\ eit_pnr u = eit_pnr (last ts old) /\ eit_tsid u = eit_tsid (last ts old) /\
  eit_onid u = eit_onid (last ts old) /\ kind_of (eit_table u) (last ts old) /\ eit_items u = eit_items old ++ flat_map eit_items ts.

(** Driver (not code of /repo): what a program built on the library does to send tables of all kinds on several PIDs. It keeps
    a continuity counter for each PID and calls the demux function of the table (PsiDemux::demux, psi/mod.rs:265-282; tdt.rs:63-71;
    tot.rs:72-82; eit.rs:309-322) with it; all packets go to the end of one buffer. *)
From Verif Require Import Prelude M_tables.

Inductive table := TPat (t : pat) | TPmt (t : pmt) | TNit (t : nit) | TSdt (t : sdt) | TEit (t : eit) | TTdt (t : N) | TTot (t : tot).
Definition send (m : mode) (t : table) (pid cc : N) (dst : list N) : res (N * list N) :=
  match t with
  | TPat t => pat_demux m t pid cc dst
  | TPmt t => pmt_demux m t pid cc dst
  | TNit t => nit_demux m t pid cc dst
  | TSdt t => sdt_demux m t pid cc dst
  | TEit t => eit_demux m t pid cc dst
  | TTdt t => tdt_demux m t pid cc dst
  | TTot t => tot_demux m t pid cc dst
  end.
Definition put (counters : N -> N) (pid cc : N) : N -> N := fun p => if p =? pid then cc else counters p.
Fixpoint multiplex (m : mode) (jobs : list (N * table)) (counters : N -> N) (dst : list N) : res ((N -> N) * list N) :=
  match jobs with
  | [] => Ok (counters, dst)
  | (pid, t) :: r => ' (cc, dst) <- send m t pid (counters pid) dst ;; multiplex m r (put counters pid cc) dst
  end.

(** Driver (not code of /repo): a broadcaster. It makes tables of the texts of its user (M_words) and sends them with other tables
    on several PIDs, with a continuity counter for each PID (as M_multi). *)
From Verif Require Import Prelude M_tables M_multi M_words.

Inductive show :=
| Services (version tsid onid : N) (l : list service)
| Guide (table version pnr tsid onid : N) (l : list event)
| Network (version network cp : N) (name : list N) (items : list nit_item)
| Other (t : table).
Definition show_table (m : mode) (s : show) : res table :=
  match s with
  | Services version tsid onid l => t <- sdt_made m version tsid onid l ;; Ok (TSdt t)
  | Guide table version pnr tsid onid l => t <- eit_made m table version pnr tsid onid l ;; Ok (TEit t)
  | Network version network cp name items => t <- nit_made m version network cp name items ;; Ok (TNit t)
  | Other t => Ok t
  end.
Fixpoint broadcast (m : mode) (jobs : list (N * show)) (counters : N -> N) (dst : list N) : res ((N -> N) * list N) :=
  match jobs with
  | [] => Ok (counters, dst)
  | (pid, s) :: r => t <- show_table m s ;; ' (cc, dst) <- send m t pid (counters pid) dst ;; broadcast m r (put counters pid cc) dst
  end.

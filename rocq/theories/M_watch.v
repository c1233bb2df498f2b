(** Driver (not code of /repo): a viewer of a recorded program. It looks for the PAT and the PMT of the program (as M_tune), then plays each of the
    streams that the PMT lists (as M_count). *)
From Verif Require Import Prelude M_tables M_tune M_words M_count.

Definition watch (m : mode) (want : N) (l : list (list N)) : res (list (N * list (option (option N * option N * list N)))) :=
  u <- tune m want tuner_new l ;; each (fun i => v <- careful m (pmti_pid i) l ;; Ok (pmti_type i, v)) (pmt_items (u_pmt u)).
